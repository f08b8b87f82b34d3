(** Histories of identifiers. *)
From Verif Require Import Base IdModel.

(** The saved state of every restart has no identifier twice. *)
Definition saved_ok (o : idop) : Prop :=
  match o with IRestart saved => NoDup (map snd saved) /\ Forall (fun x => 0 < snd x) saved | _ => True end.
