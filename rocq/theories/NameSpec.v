(** What is expected of file and directory names. *)
From Coq Require Import String.
From Verif Require Import Base NumFmt WildModel.
Open Scope list_scope. Open Scope Z_scope.

(** Characters which are not allowed in names on some file system. *)
Definition bad_char (c : Z) : Prop := c < 32 \/ In c [34; 42; 47; 58; 60; 62; 63; 92; 124].
Definition replaced_char (c c' : Z) : Prop := (bad_char c /\ c' = 95) \/ (~ bad_char c /\ c' = c).
Definition dot_or_blank (c : Z) : Prop := c = 46 \/ c = 32.
(** Names which address a device on Windows, alone or before a dot. *)
Definition devices : list (list Z) :=
  [str "con"; str "prn"; str "aux"; str "nul"] ++
  map (fun d => str "com" ++ [d]) [49; 50; 51; 52; 53; 54; 55; 56; 57] ++
  map (fun d => str "lpt" ++ [d]) [49; 50; 51; 52; 53; 54; 55; 56; 57].
Definition device (s : list Z) : Prop :=
  exists d r, s = d ++ r /\ In (map lower d) devices /\ (r = [] \/ exists r', r = 46 :: r').
Definition safe_name (s : list Z) : Prop :=
  Forall (fun c => ~ bad_char c) s /\ (forall t c, s = t ++ [c] -> ~ dot_or_blank c) /\ ~ device s.

(** ** Places in the directory tree *)

(** The components of a path. *)
Fixpoint comps (s : list Z) : list (list Z) :=
  match s with
  | [] => [[]]
  | c :: r => if c =? 47 then [] :: comps r
              else match comps r with h :: t => (c :: h) :: t | [] => [[c]] end
  end.
(** Walking a path from the root. *)
Definition enter (d : list (list Z)) (c : list Z) : list (list Z) :=
  if beqb c [] || beqb c (str ".") then d
  else if beqb c (str "..") then removelast d else d ++ [c].
Definition place (p : list Z) : list (list Z) := fold_left enter (comps p) [].
(** Strictly below a directory. *)
Definition inside (dir p : list Z) : Prop := exists rest, rest <> [] /\ place p = place dir ++ rest.

(** The directory below which a download belongs: that of its category or the general one. *)
Definition home (dest : list Z) (cat_dir : option (list Z)) (category : list Z) : list Z :=
  match cat_dir, category with
  | Some (c :: d), _ :: _ => c :: d
  | _, _ => dest
  end.
(** No step upwards, with either separator. *)
Definition no_parent (category : list Z) : Prop :=
  ~ In (str "..") (comps (map (fun c => if c =? 92 then 47 else c) category)).

(** ** New names *)

(** The two parts of a name: the second is the extension, with the volume part of par2-files. *)
Definition extension (e : list Z) : Prop := exists r, e = 46 :: r /\ ~ In 46 r.
Inductive name_parts : list Z -> list Z -> list Z -> Prop :=
| np_none base : (forall a e, base = a ++ e -> extension e -> a = []) -> name_parts base base []
| np_ext stem ext : stem <> [] -> extension ext ->
    (map lower ext = str ".par2" -> forall a v, stem = a ++ v -> a <> [] -> extension v -> firstn 4 (map lower v) <> str ".vol") ->
    name_parts (stem ++ ext) stem ext
| np_vol stem vol ext : stem <> [] -> extension ext -> map lower ext = str ".par2" -> extension vol -> firstn 4 (map lower vol) = str ".vol" ->
    name_parts (stem ++ vol ++ ext) stem (vol ++ ext).

(** The last component of a path with slashes or backslashes. *)
Definition separator (c : Z) : Prop := c = 47 \/ c = 92.
Definition last_part (path name : list Z) : Prop :=
  exists dir, path = dir ++ name /\ (dir = [] \/ exists d c, dir = d ++ [c] /\ separator c) /\ Forall (fun c => ~ separator c) name.
(** A name without the extension of nzb files. *)
Definition without_nzb (name stem : list Z) : Prop :=
  (exists e, name = stem ++ e /\ map lower e = str ".nzb") \/
  ((forall a e, name = a ++ e -> map lower e <> str ".nzb") /\ stem = name).
