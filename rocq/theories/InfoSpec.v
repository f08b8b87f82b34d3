(** What parameter lists and per-server statistics should do, without reference
    to how they are stored. *)
From Verif Require Import Base InfoModel.

(** Two bytes denote the same letter when they are equal or are the upper and
    lower case form of one ASCII letter. *)
Definition same_letter (a b : Z) : Prop :=
  a = b \/ (65 <= a <= 90 /\ b = a + 32) \/ (65 <= b <= 90 /\ a = b + 32).

(** Two names are the same parameter. *)
Definition same_name (a b : list Z) : Prop := Forall2 same_letter a b.

(** [assigned ops name v]: in the sequence [ops] of assignments, the last one
    to [name] (in any spelling) gave it the value [v]. *)
Inductive assigned : list (list Z * list Z) -> list Z -> list Z -> Prop :=
| assigned_last : forall ops n v name,
    same_name n name -> assigned (ops ++ [(n, v)]) name v
| assigned_other : forall ops n v w name,
    assigned ops name w -> ~ same_name n name -> assigned (ops ++ [(n, v)]) name w.

(** No assignment to the name at all. *)
Definition untouched (ops : list (list Z * list Z)) (name : list Z) : Prop :=
  forall n v, In (n, v) ops -> ~ same_name n name.

(** The names of a parameter list are pairwise different parameters. *)
Definition distinct_names (l : list param) : Prop :=
  forall i j a b, nth_error l i = Some a -> nth_error l j = Some b ->
    same_name (fst a) (fst b) -> i = j.

(** Articles counted for one server: total of the entries for it. *)
Definition ok_of (l : list sstat) (id : Z) : Z :=
  fold_right Z.add 0 (map sv_ok (filter (fun s => sv_id s =? id) l)).
Definition bad_of (l : list sstat) (id : Z) : Z :=
  fold_right Z.add 0 (map sv_bad (filter (fun s => sv_id s =? id) l)).

Definition one_entry_each (l : list sstat) : Prop := NoDup (map sv_id l).
