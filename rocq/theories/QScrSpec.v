(** What the coordinator of queue-scripts is to do. *)
From Coq Require Import String Sorted.
From Verif Require Import Base WildModel WildSpec InfoModel WebModel OptModel QScrModel.
Open Scope list_scope. Open Scope Z_scope.

Definition said_yes (v : list Z) : Prop := map lower v = str "yes" \/ map lower v = str "on" \/ map lower v = str "1".
(** The list names the script: between separators, blanks around the name do not count. *)
Definition lists (exts name : list Z) : Prop := exists f, In f (fields (in_set (str ",;")) exts) /\ trim f = name /\ name <> [].
(** The first category with that name, whatever the letter case; its extensions. *)
Definition same_name (a b : list Z) : Prop := map lower a = map lower b.
Definition of_category (g : qcfg) (n : qnzb) (exts : list Z) : Prop :=
  q_category n <> [] /\ exists a c b, g_cats g = a ++ (c, exts) :: b /\ same_name (c_name c) (q_category n) /\ Forall (fun d => ~ same_name (c_name (fst d)) (q_category n)) a.
(** The extensions of the category, if it has some, otherwise the global ones. *)
Definition applies (g : qcfg) (n : qnzb) (exts : list Z) : Prop :=
  (of_category g n exts /\ exts <> []) \/ (exts = g_exts g /\ forall x, of_category g n x -> x = []).
(** The script is to be executed for the event: it is a queue-script, wants such events, and is assigned to the download, or, for URLs,
    configured as extension. *)
Definition wants (g : qcfg) (s : script) (n : qnzb) (e : Z) : Prop :=
  s_queue s = true /\ (s_events s = [] \/ exists a b, s_events s = a ++ event_name e ++ b) /\
  ((exists v, In (s_name s ++ [58], v) (q_params n) /\ hd 0 (s_name s ++ [58]) <> 42 /\ said_yes v) \/
   (e = evUrl /\ exists exts, applies g n exts /\ lists exts (s_name s))).
Definition short_params (n : qnzb) : Prop := Forall (fun p : param => Z.of_nat (length (fst p)) <= 1023) (q_params n).

(** The scripts to be executed for an event, in the order of their list: not those already waiting, if a file has been downloaded. *)
Definition waits (q : list qitem) (id : Z) (i : nat) : Prop := exists t, In t q /\ i_nzb t = id /\ i_script t = i.
Definition new_items (g : qcfg) (scripts : list script) (n : qnzb) (e : Z) (q : list qitem) (l : list qitem) : Prop :=
  StronglySorted (fun a b => (i_script a < i_script b)%nat) l /\
  forall t, In t l <-> i_nzb t = q_id n /\ i_event t = e /\ (exists s, nth_error scripts (i_script t) = Some s /\ wants g s n e) /\
    ~ (e = evFile /\ waits q (q_id n) (i_script t)).
(** The event is not to be handled because of EventInterval. *)
Definition blocked (g : qcfg) (now : Z) (n : qnzb) (e : Z) : Prop :=
  e = evFile /\ (g_interval g = -1 \/ 0 < now - q_time n < g_interval g).
(** No more to be executed: the download is gone, was deleted, or is bad. *)
Definition obsolete (w : world) (t : qitem) : Prop :=
  w (i_nzb t) = None \/ (exists b, w (i_nzb t) = Some (true, b) /\ i_event t <> evDeleted /\ i_event t <> evMarked) \/
  (exists d, w (i_nzb t) = Some (d, true) /\ i_event t <> evMarked).
(** The items to be executed, in their order. *)
Inductive left_over (w : world) : list qitem -> list qitem -> Prop :=
| lo_nil : left_over w [] []
| lo_drop t q r : obsolete w t -> left_over w q r -> left_over w (t :: q) r
| lo_keep t q r : ~ obsolete w t -> left_over w q r -> left_over w (t :: q) (t :: r).
(** Of the items waiting none has an event of higher priority, and none with the same priority waits longer. *)
Definition due (q : list qitem) (t : qitem) : Prop :=
  exists a b, q = a ++ t :: b /\ (forall u, In u a -> i_event u < i_event t) /\ (forall u, In u b -> i_event u <= i_event t).
