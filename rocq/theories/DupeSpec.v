(** What is promised about duplicates. *)
From Verif Require Import Base WildModel StatusModel DupeModel.
Open Scope list_scope. Open Scope Z_scope.

(** The same title: equal keys if both have one, equal names otherwise; upper and lower case are the same. *)
Definition ieq (a b : list Z) : Prop := map lower a = map lower b.
Definition same_title (name1 key1 name2 key2 : list Z) : Prop :=
  (key1 <> [] /\ key2 <> [] /\ ieq key1 key2) \/ ((key1 = [] \/ key2 = []) /\ ieq name1 name2).
(** The same content: one of the hashes is known and equal. *)
Definition same_content (full filtered full' filtered' : Z) : Prop :=
  (0 < full /\ full = full') \/ (0 < filtered /\ filtered = filtered').
Definition copy_of_item (x y : item) : Prop := same_content (it_full x) (it_filtered x) (it_full y) (it_filtered y).
Definition copy_of_hist (x : item) (h : hist) : Prop :=
  match h with
  | HNzb y => copy_of_item x y
  | HDup d => same_content (it_full x) (it_filtered x) (dp_full d) (dp_filtered d)
  | HUrl _ => False
  end.

(** A duplicate in the history which is marked as good. *)
Definition good_dupe (h : hist) (name key : list Z) : Prop :=
  match h with
  | HNzb y => it_mode y <> dmForce /\ o_mark (it_out y) = ksGood /\ same_title (it_name y) (it_key y) name key
  | HDup d => dp_mode d <> dmForce /\ dp_status d = duGood /\ same_title (dp_name d) (dp_key d) name key
  | HUrl _ => False
  end.
(** A duplicate in the history which succeeded, and its score. *)
Definition success_dupe (h : hist) (name key : list Z) (score : Z) : Prop :=
  match h with
  | HNzb y | HUrl y => it_mode y <> dmForce /\ is_dupe_success (it_out y) = Some true /\ same_title (it_name y) (it_key y) name key /\ score = it_score y
  | HDup d => dp_mode d <> dmForce /\ (dp_status d = duSuccess \/ dp_status d = duGood) /\ same_title (dp_name d) (dp_key d) name key /\ score = dp_score d
  end.
(** Another download in the queue, not deleted, which competes with the new one; an URL only competes with an URL. *)
Definition rival (x : item) (key : list Z) (y : item) : Prop :=
  it_id y <> it_id x /\ o_delete (it_out y) = dsNone /\ (o_kind (it_out y) = nkNzb \/ o_kind (it_out x) = nkUrl) /\
  it_mode y <> dmForce /\ same_title (it_name y) (it_key y) (it_name x) key.

(** The reasons not to download. *)
Inductive refused (q : list item) (h : list hist) (x : item) (key : list Z) (score : Z) : Prop :=
| ref_queue_copy y : In y q -> it_id y <> it_id x -> o_kind (it_out x) = nkNzb -> copy_of_item x y -> refused q h x key score
| ref_history_copy y : In y h -> copy_of_hist x y -> refused q h x key score
| ref_good y : In y h -> good_dupe y (it_name x) key -> refused q h x key score
| ref_success y s : it_mode x = dmScore -> In y h -> success_dupe y (it_name x) key s -> score <= s -> refused q h x key score
| ref_queued y : it_mode x = dmScore -> In y q -> rival x key y -> score <= it_score y -> refused q h x key score.

(** Key and score of a download which has none are those of another one with the same name, in the queue or else
    in the history; the first one which has some. *)
Definition marks (key : list Z) (score : Z) : Prop := key <> [] \/ score <> 0.
Definition donor (y : item + hist) (name key : list Z) (score : Z) : Prop :=
  match y with
  | inl i | inr (HNzb i) => it_name i = name /\ it_key i = key /\ it_score i = score /\ marks key score
  | inr (HDup d) => dp_name d = name /\ dp_key d = key /\ dp_score d = score /\ marks key score
  | inr (HUrl _) => False
  end.
Definition adopted (q : list item) (h : list hist) (x : item) (key : list Z) (score : Z) : Prop :=
  let all := map inl q ++ map inr h in
  (marks (it_key x) (it_score x) /\ key = it_key x /\ score = it_score x) \/
  (it_key x = [] /\ it_score x = 0 /\
   ((exists a y b, all = a ++ y :: b /\ donor y (it_name x) key score /\ Forall (fun z => forall k s, ~ donor z (it_name x) k s) a) \/
    (Forall (fun z => forall k s, ~ donor z (it_name x) k s) all /\ key = [] /\ score = 0))).

(** What becomes of the queue when a download is added: queue before, queue after, moved to the history (newest first). *)
Inductive settled (x : item) (key : list Z) : list item -> list item -> list item -> Prop :=
| st_nil : settled x key [] [] []
| st_keep y q q' m : ~ rival x key y \/ it_post y = true -> settled x key q q' m -> settled x key (y :: q) (y :: q') m
| st_mark y q q' m : rival x key y -> it_post y = false -> it_active y = true -> settled x key q q' m ->
    settled x key (y :: q) (set_delete y dsDupe :: q') m
| st_move y q q' m : rival x key y -> it_post y = false -> it_active y = false -> settled x key q q' m ->
    settled x key (y :: q) q' (m ++ [set_delete y dsDupe]).

(** ** Backups *)

(** A download in the history kept as backup. *)
Definition is_backup (y : hist) (it : item) (name key : list Z) : Prop :=
  (y = HNzb it \/ y = HUrl it) /\ it_mode it <> dmForce /\ o_delete (it_out it) = dsDupe /\ o_mark (it_out it) <> ksBad /\
  same_title (it_name it) (it_key it) name key /\
  exists hl c, calc_health (o_sizes (it_out it)) = Some hl /\ calc_critical true (o_sizes (it_out it)) = Some c /\ c <= hl.
(** A queued download of the same title, other than the failed one. *)
Definition queued_dupe (y : item) (self : option Z) (name key : list Z) : Prop :=
  self <> Some (it_id y) /\ o_kind (it_out y) = nkNzb /\ it_mode y <> dmForce /\ same_title (it_name y) (it_key y) name key.
(** Better than everything already there. *)
Definition improves (q : list item) (h : list hist) (self : option Z) (name key : list Z) (score : Z) : Prop :=
  (forall y s, In y h -> (forall i, y <> HUrl i) -> success_dupe y name key s -> s < score) /\
  (forall y, In y q -> queued_dupe y self name key -> it_score y < score).
(** The URL-downloads of the history count as having failed here. *)
Definition no_good (h : list hist) (name key : list Z) : Prop :=
  forall y, In y h -> ~ good_dupe y name key.
(** The health of the downloads in the history is defined (C26: whenever their sizes are consistent). *)
Definition known (h : list hist) : Prop :=
  forall it, In (HNzb it) h \/ In (HUrl it) h -> is_dupe_success (it_out it) <> None.
