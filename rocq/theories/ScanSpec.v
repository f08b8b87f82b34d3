(** When a file of the incoming directory may be taken. *)
From Verif Require Import Base ScanModel.
Open Scope list_scope. Open Scope Z_scope.

(** The last look at a file before an operation found this size at this time. *)
Definition last_look (ops : list scanop) (f : list Z) (size time : Z) : Prop :=
  exists a b, ops = a ++ SLook f size time :: b /\ forall s t, ~ In (SLook f s t) b.
