(** What is expected of unpacking and joining, in the terms of a user. *)
From Coq Require Import String.
From Verif Require Import Base NumFmt LineModel UnpackModel.
Open Scope list_scope. Open Scope Z_scope.

(** ** Runs of an unpacker *)

Definition begins (lit t : list Z) : Prop := exists r, t = lit ++ r.
Definition holds (lit t : list Z) : Prop := exists a b, t = a ++ lit ++ b.
(** The text ends with the message after something else. *)
Definition finishes (lit t : list Z) : Prop := exists a, a <> [] /\ t = a ++ lit.

(** Messages about a wrong password. *)
Definition password_line (sz : bool) (t : list Z) : Prop :=
  if sz then exists a, t = a ++ str "Data Error in encrypted file. Wrong password?"
  else begins (str "Unrar: Checksum error in the encrypted fil") t \/
       begins (str "Unrar: CRC failed in the encrypted file") t \/
       begins (str "Unrar: The specified password is incorrect.") t \/ begins (str "Unrar: Incorrect password for") t.
(** Messages about damaged archives. *)
Definition damage_line (t : list Z) : Prop :=
  holds (str " : packed data CRC failed in volume") t \/ holds (str " : packed data checksum error in volume") t \/
  finishes (str " - CRC failed") t \/ finishes (str " - checksum failed") t \/
  begins (str "Unrar: WARNING: You need to start extraction from a previous volume") t.
Definition ok_line (sz : bool) (t : list Z) : Prop :=
  begins (if sz then str "7-Zip: Everything is Ok" else str "Unrar: All OK") t.

(** The unpacker was started, was not stopped, reported no error, said that all is well and returned 0. *)
Definition good_run (sz : bool) (r : run) : Prop :=
  r_cmd r = true /\ r_code r = 0 /\ ~ In Stop (r_events r) /\
  (exists t, In (Line t) (r_events r) /\ ok_line sz t) /\
  (forall t, In (Line t) (r_events r) -> ~ password_line sz t /\ ~ damage_line t).

(** The first message of trouble in the output of a run that nobody stops, if there is one. *)
Definition first_trouble (sz : bool) (es : list uev) (t : list Z) : Prop :=
  exists a b, es = a ++ Line t :: b /\ (password_line sz t \/ damage_line t) /\
    forall t', In (Line t') a -> ~ password_line sz t' /\ ~ damage_line t'.
(** A run that shows that the password is wrong: exit code 11 of unrar, or the first trouble is about the password. *)
Definition shows_password (sz : bool) (r : run) : Prop :=
  (sz = false /\ r_code r = 11) \/ exists t, first_trouble sz (r_events r) t /\ password_line sz t.
(** A run that shows that the disk is full: exit code 5 of unrar. *)
Definition shows_full (sz : bool) (r : run) : Prop := sz = false /\ r_code r = 5.
(** The status at the end, or the one kept for the time after the par-check. *)
Definition status_of (res : ures) : Z := match res with UStatus s => s | URequest _ _ s => s end.

(** The lines are those of a program, with its name in front. *)
Definition named (r : run) : Prop :=
  forall t, In (Line t) (r_events r) -> begins (str "7-Zip: ") t \/ begins (str "Unrar: ") t.

(** ** Passwords *)

(** A password file: every line is a password with carriage returns (as a rule one or none) and a line feed. *)
Definition pass_line (l : list Z * nat) : list Z := fst l ++ repeat 13 (snd l).
Definition pass_file (ls : list (list Z * nat)) : list Z := flat_map (fun l => pass_line l ++ [10]) ls.
Definition pass_ok (l : list Z * nat) : Prop :=
  Forall (fun c => c <> 0 /\ c <> 10) (fst l) /\ (forall a, fst l <> a ++ [13]) /\ (length (pass_line l) < 510)%nat.
(** The passwords in it. *)
Definition nonempty (l : list Z) : bool := match l with [] => false | _ => true end.
Definition pass_words (ls : list (list Z * nat)) : list (list Z) := filter nonempty (map fst ls).

(** The passwords that may be tried for one kind of archive: the one of the download first; if it has none and a file
    with passwords is configured, those of the file in their order. *)
Definition candidates (i : uin) : list (list Z) :=
  if nonempty (i_password i) then []
  else match i_passfile i with
       | Some (Some file) => filter nonempty (pass_lines (length file) file)
       | _ => []
       end.
Definition fresh (i : uin) : bool := negb (i_tried i) || i_repaired i.
Definition in_order (i : uin) (part : list (list Z)) : Prop :=
  exists l r, part = (if fresh i then [i_password i] else []) ++ l /\ candidates i = l ++ r.

(** ** The whole job *)

(** Kinds of archives to extract: [true]: with 7-Zip. *)
Definition needed (f : found) : list bool :=
  (if f_rar f && f_rar_todo f then [false] else []) ++ (if f_7z f then [true] else []) ++
  (if f_7zmulti f then [true] else []).
(** For each kind passwords were tried in order until a run of the unpacker was good. *)
Fixpoint all_extracted (i : uin) (needs : list bool) (n : nat) (runs : nat -> run) (tried : list (list Z)) : Prop :=
  match needs with
  | [] => tried = []
  | sz :: r => exists part rest k, tried = part ++ rest /\ length part = S k /\ good_run sz (runs (n + k)%nat) /\
      (forall j, (j < k)%nat -> ~ good_run sz (runs (n + j)%nat)) /\ in_order i part /\
      all_extracted i r (n + S k) runs rest
  end.

(** ** Joining *)

(** The parts of split files in a directory: base names, numbers and contents. *)
Definition parts_of (d : dirl) : list (list Z * Z * list Z) :=
  flat_map (fun e => match split_name (fst e) with Some (b, n) => [(b, n, snd e)] | None => [] end) d.
(** All parts in the directory are of the same file. *)
Definition one_set (base : list Z) (d : dirl) : Prop :=
  NoDup (map fst d) /\ Forall (fun e => forall b n, split_name (fst e) = Some (b, n) -> b = base) d.
(** The contents of the parts with the numbers from [lo]. *)
Fixpoint parts_from (base : list Z) (d : dirl) (lo : Z) (cs : list (list Z)) : Prop :=
  match cs with
  | [] => True
  | c :: r => In (part_name base lo, c) d /\ parts_from base d (lo + 1) r
  end.
(** The directory holds exactly the parts [cs] of the file, numbered from [lo], which is 0 or 1. *)
Definition complete_set (base : list Z) (d : dirl) (lo : Z) (cs : list (list Z)) : Prop :=
  (lo = 0 \/ lo = 1) /\ parts_from base d lo cs /\ length (parts_of d) = length cs /\ cs <> [].
(** All parts but the last one have the same size. *)
Definition same_but_last (first : list Z) (cs : list (list Z)) : Prop :=
  exists front last, cs = front ++ [last] /\ Forall (fun c => length c = length first) front /\
                     length last <> length first.
(** A name with an extension of three characters. *)
Definition good_base (base : list Z) : Prop :=
  exists r c1 c2 c3, base = r ++ [46; c1; c2; c3] /\ alnum_comma c1 = true /\ alnum_comma c2 = true /\ alnum_comma c3 = true.
