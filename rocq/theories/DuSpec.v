(** What unpacking during the download promises, said by the sequence of steps which led to a state. *)
From Verif Require Import Base WildModel DuModel.
Open Scope list_scope. Open Scope Z_scope.

(** Every run of unrar ended with the code 0 after it had printed "All OK" in this run. *)
Definition good_exits (ls : list label) : Prop :=
  forall a c b, ls = a ++ TExit c :: b -> c = 0 /\ exists a1 a2, a = a1 ++ TRead MAllOk :: a2 /\ ~ In TStart a2.
(** The volumes unrar asked for. *)
Definition questions (ls : list label) : list (list Z) := flat_map (fun l => match l with TRead (MAsk v) => [v] | _ => [] end) ls.
(** The archives unrar was started for. *)
Definition unpacked (s : st) : list (list Z) := map (fun r => fst (fst r)) (s_runs s).
(** The names are equal but for the case of letters. *)
Definition same_but_case (f v : list Z) : Prop := map lower f = map lower v.
(** A file was there before or came to the directory. *)
Definition present (disk : list (list Z)) (ls : list label) (f : list Z) : Prop := In f disk \/ In (QDisk f) ls.
(** The download was deleted, the program is shut down or a file with failed articles was reported. *)
Definition stops (ls : list label) : Prop := (exists f, In (QFile f true) ls) \/ In QShutdown ls \/ In QDeleted ls.
(** A file was reported after the end of the download. *)
Definition after_end (ls : list label) : Prop := exists a b f, ls = a ++ QCompleted :: b /\ In (QFile f false) b.
