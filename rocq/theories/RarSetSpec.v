(** What sets of rar-volumes are and how their files are named; independent of how the program finds
    and renames them but for the records with volumes. *)
From Coq Require Import String.
From Verif Require Import Base NumFmt RarModel RarSetModel.
Open Scope list_scope. Open Scope Z_scope.

(** ** Sets *)

(** The volume [w] goes on where the volume [v] ends: a file cut at the end of [v] is continued, or no
    file is cut. *)
Definition joins (v w : vol) : Prop :=
  v_files v <> [] /\ v_files w <> [] /\ v_multi w = true /\ v_has v = true /\ v_no w = v_no v + 1 /\ v_ver w = v_ver v /\
  exists i l f r, v_files v = i ++ [l] /\ v_files w = f :: r /\ rf_before f = rf_after l /\
    (rf_before f = true -> rf_name f = rf_name l).
Inductive chain : list vol -> Prop :=
| Ch_one v : chain [v]
| Ch_cons v w l : joins v w -> chain (w :: l) -> chain (v :: w :: l).
(** A complete set: begins with volume 0 and a file not continued from elsewhere, ends with a volume
    that announces no other and cuts no file. *)
Definition is_set (s : list vol) : Prop :=
  chain s /\
  (exists h r f fs, s = h :: r /\ v_no h = 0 /\ v_files h = f :: fs /\ rf_before f = false) /\
  (exists i l fs f, s = i ++ [l] /\ v_has l = false /\ v_files l = fs ++ [f] /\ rf_after f = false).

(** Names of volumes of one archive. *)
Definition same_name (new : bool) (n1 n2 : list Z) : Prop :=
  if new then
    exists b x1 x2 e1 e2, n1 = b ++ str ".part" ++ x1 ++ str "." ++ e1 /\ n2 = b ++ str ".part" ++ x2 ++ str "." ++ e2 /\
      length x1 = length x2 /\ length e1 = length e2 /\ ~ In 46 x1 /\ ~ In 46 x2 /\ ~ In 46 e1 /\ ~ In 46 e2
  else
    exists b e1 e2, n1 = b ++ str "." ++ e1 /\ n2 = b ++ str "." ++ e2 /\ length e1 = length e2 /\ ~ In 46 e1 /\ ~ In 46 e2.

(** The last part of a path. *)
Definition name_in (dir p n : list Z) : Prop := p = dir ++ str "/" ++ n /\ ~ In 47 n /\ ~ In 92 n.
Definition last_part (p n : list Z) : Prop :=
  ~ In 47 n /\ ~ In 92 n /\ (p = n \/ exists d c, (c = 47 \/ c = 92) /\ p = d ++ c :: n).

(** Among the volumes that may follow [l] in the set of the volume [h] only [w] counts: it is the only
    one, or the only one named like the volume [h]. *)
Definition only_next (vols : list vol) (h l w : vol) : Prop :=
  In w vols /\ joins l w /\
  ((forall x, In x vols -> joins l x -> x = w) \/
   (exists n m, last_part (v_name h) n /\ last_part (v_name w) m /\ same_name (v_new h) n m /\
     forall x k, In x vols -> joins l x -> last_part (v_name x) k -> same_name (v_new h) n k -> x = w)).

(** ** Names of volumes *)

(** [d] is the number [n] in decimal with at least [w] digits. *)
Definition decimal (w : nat) (n : Z) (d : list Z) : Prop :=
  exists k, d = repeat 48 k ++ udec n /\ length d = Nat.max w (length (udec n)).
(** The extension of volume [no], counted from 0. *)
Definition extension (new : bool) (no : Z) (e : list Z) : Prop :=
  if new then exists d, decimal 4 (no + 1) d /\ e = str "part" ++ d ++ str ".rar"
  else (no = 0 /\ e = str "rar") \/
       (exists c i d, no = 1 + 100 * c + i /\ 0 <= c /\ 0 <= i < 100 /\ decimal 2 i d /\ e = (114 + c) :: d).
Definition volume_path (dir base : list Z) (v : vol) (p : list Z) : Prop :=
  exists e, extension (v_new v) (v_no v) e /\ p = dir ++ str "/" ++ base ++ str "." ++ e.

(** [b] is the name of the biggest file in the set (of the first of them), without directory and
    without an extension of three characters, cut after 1023 bytes. *)
Definition main_name (s : list vol) (b : list Z) : Prop :=
  exists i f r n, flat_map v_files s = i ++ f :: r /\
    (forall g, In g i -> rf_size g < rf_size f) /\ (forall g, In g r -> rf_size g <= rf_size f) /\
    (exists n0, last_part (rf_name f) n0 /\ n = firstn (Z.to_nat 1023) n0) /\
    ((exists e, n = b ++ str "." ++ e /\ length e = 3%nat /\ ~ In 46 e) \/
     (n = b /\ ~ exists a e, n = a ++ str "." ++ e /\ length e = 3%nat /\ ~ In 46 e)).
(** The name itself or followed by a number from 2 on, cut after 1023 bytes. *)
Definition numbered (b base : list Z) (k : Z) : Prop :=
  (k = 1 /\ base = b) \/ (2 <= k /\ base = firstn (Z.to_nat 1023) (b ++ str "-" ++ udec k)).

(** Some volume of the set cannot have the name based on [base]: another file has it. *)
Definition taken (fs : disk) (dir base : list Z) (s : list vol) : Prop :=
  exists v p c, In v s /\ volume_path dir base v p /\ v_name v <> p /\ In (p, c) fs.

(** The volumes have already names of a set: a common name, then in the new way [partN.rar], the
    numbers of the same length, in the old way [rar], [r00], ... *)
Definition ci (a b : list Z) : Prop := map WildModel.lower a = b.
Definition well_named (new : bool) (s : list vol) : Prop :=
  if new then
    exists base p w, base <> [] /\ ci p (str "part") /\ (0 < w)%nat /\ forall v, In v s ->
      exists d r, last_part (v_name v) (base ++ p ++ d ++ r) /\ ci r (str ".rar") /\
        Forall (fun c => 48 <= c <= 57) d /\ length d = w /\ pdigits 0 d = v_no v + 1
  else
    exists base, forall v, In v s -> exists e, last_part (v_name v) (base ++ str "." ++ e) /\ extension false (v_no v) e.

(** The same, but numbers of 2^32 and more may be anything. *)
Definition well_named_but (new : bool) (s : list vol) : Prop :=
  if new then
    exists base p w, base <> [] /\ ci p (str "part") /\ (0 < w)%nat /\ forall v, In v s ->
      exists d r, last_part (v_name v) (base ++ p ++ d ++ r) /\ ci r (str ".rar") /\
        Forall (fun c => 48 <= c <= 57) d /\ length d = w /\ (pdigits 0 d = v_no v + 1 \/ 2 ^ 32 <= pdigits 0 d)
  else well_named false s.

(** ** The disk *)

Definition paths (fs : disk) : list (list Z) := map fst fs.
Definition contents (fs : disk) : list (list Z) := map snd fs.
(** Names are shorter than 1000 bytes (systems allow 255). *)
Definition short_name (p : list Z) : Prop := forall n, last_part p n -> zlen n < 1000.
Definition short_names (fs : disk) : Prop := Forall short_name (paths fs).
Definition refuses_long (can : list Z -> list Z -> bool) : Prop := forall s d, can s d = true -> short_name d.
(** The volumes known have numbers of 32 bits; so many volumes that old names run out are left out. *)
Definition volumes_ok (vols : list vol) : Prop := Forall (fun v => 0 <= v_no v < 2 ^ 32) vols /\ zlen vols <= 14200.

(** The files of the set are renamed: volume by volume the content is under its new name. *)
Definition renamed (dir : list Z) (s : list vol) (fs fs' : disk) : Prop :=
  exists b base k, main_name s b /\ numbered b base k /\
    forall v, In v s -> exists p, volume_path dir base v p /\ look fs' p = look fs (v_name v).
Definition stays (s : list vol) (fs fs' : disk) : Prop := forall v, In v s -> look fs' (v_name v) = look fs (v_name v).
