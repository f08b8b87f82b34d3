(** What the services and the watch over the disk are for; independent of how it is done. *)
From Coq Require Import String.
From Verif Require Import Base WildSpec SvcModel.
Open Scope list_scope. Open Scope Z_scope.

(** When a service is due; sleeping services are not. *)
Definition due (x : svc) (t : Z) : Prop := 0 <= v_interval x /\ v_last x + v_interval x <= t.
(** Less than the wanted number of megabytes is free. *)
Definition too_little (limit free : Z) : Prop := 0 <= free /\ free < limit * (1024 * 1024).
(** A directory named in the option: names are separated by commas or semicolons, blanks around them do not count. *)
Definition required_dir (r d : list Z) : Prop := exists f, In f (fields (fun c => (c =? 44) || (c =? 59)) r) /\ trimmed f d /\ d <> [].
(** At some check of the service every required directory was there. *)
Definition was_there (r : list Z) (ls : list rlabel) : Prop := exists ex, In (DCheck ex) ls /\ forall d, required_dir r d -> ex d = true.
