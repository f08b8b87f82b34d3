(** What the message log should hold. *)
From Verif Require Import Base LogModel.

(** The last [n] elements of a list. *)
Definition newest {A : Type} (n : Z) (l : list A) : list A := skipn (length l - Z.to_nat n) l.

(** What the user sees of a message. *)
Definition content (m : msg) : Z * list Z := (g_kind m, g_text m).
(** A message as it is logged: at most 1023 bytes of it. *)
Definition shown (x : Z * list Z) : Z * list Z := (fst x, firstn 1023 (snd x)).

(** Identifiers strictly increase along the list. *)
Fixpoint ids_increase (from : Z) (l : list msg) : Prop :=
  match l with
  | [] => True
  | m :: r => from < g_id m /\ ids_increase (g_id m) r
  end.
