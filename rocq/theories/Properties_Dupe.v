(** Duplicates: theorems for C31, C32, C89, C90. *)
From Coq Require Import String.
From Verif Require Import Base WildModel StatusModel DupeModel DupeSpec DupeProofs.
Open Scope list_scope. Open Scope Z_scope.

Definition ex_out (d : delete_status) (k : mark_status) : outcome :=
  mkOutcome nkNzb (mkSizes 1000 100 0 0) psSuccess usSuccess msSuccess d k lsNone [].
Definition ex_item (id : Z) (o : outcome) (name key : string) (score full : Z) (hint : bool) : item :=
  mkItem id o (str name) (str key) score dmScore full 0 false hint false false.
Definition ex_url (id : Z) (score : Z) : item :=
  ex_item id (mkOutcome nkUrl (mkSizes 0 0 0 0) psNone usNone msNone dsNone ksNone lsNone []) "Show.S01E01" "" score 0 false.

(** ** C32: content is not downloaded twice *)

(** A copy of a download in the queue is marked, whatever else is in the queue and the history. *)
Theorem C32_queue : forall q h x y, In y q -> it_id y <> it_id x -> o_kind (it_out x) = nkNzb -> copy_of_item x y ->
  exists r, nzb_found q h x = Some r /\ r_delete r <> dsNone /\ r_queue r = q /\ r_moved r = [].
Proof. exact found_queue_copy. Qed.
Print Assumptions C32_queue.
(** A copy of a download in the history is marked, whatever else is there, unless it was brought back by hand. *)
Theorem C32_history_partial : forall q h x y, it_hint x = false -> o_delete (it_out x) = dsNone -> In y h -> copy_of_hist x y ->
  exists r, nzb_found q h x = Some r /\ r_delete r <> dsNone.
Proof.
  intros q h x y HN DN I C. destruct (found_decision q h x HN DN) as (r & E & D). exists r. split; [exact E|]. apply D. exact (ref_history_copy _ _ _ _ _ y I C).
Qed.
Print Assumptions C32_history_partial.
Example C32_ex : let x := ex_item 7 (ex_out dsNone ksNone) "Show.S01E01" "" 0 77 false in
  let y := ex_item 3 (ex_out dsNone ksNone) "other" "" 0 77 false in let z := ex_item 4 (ex_out dsNone ksGood) "more" "" 0 78 false in
  copy_of_item x y /\ option_map r_delete (nzb_found [z; y] [] x) = Some dsCopy /\ option_map r_delete (nzb_found [z] [HNzb z; HDup (hide y)] x) = Some dsCopy /\
  option_map r_delete (nzb_found [z] [HNzb z] x) = Some dsNone.
Proof. split; [left; cbn; lia|]. split; [vm_compute; reflexivity|]. split; vm_compute; reflexivity. Qed.
(** Brought back by hand, the decision depends on the other items: a good duplicate in front of the copy hides it. *)
Theorem C32_hint_refuted : exists q h h' x y, it_hint x = true /\ o_delete (it_out x) = dsNone /\ In y h /\ In y h' /\ copy_of_hist x y /\
  option_map r_delete (nzb_found q h x) = Some dsNone /\ option_map r_delete (nzb_found q h' x) = Some dsCopy.
Proof.
  pose (y := HNzb (ex_item 3 (ex_out dsNone ksNone) "other" "" 0 77 false)). pose (g := HNzb (ex_item 4 (ex_out dsNone ksGood) "Show.S01E01" "" 0 78 false)).
  exists [], [g; y], [y], (ex_item 7 (ex_out dsNone ksNone) "Show.S01E01" "" 0 77 true), y. split; [reflexivity|]. split; [reflexivity|].
  split; [right; left; reflexivity|]. split; [left; reflexivity|]. split; [left; cbn; lia|]. split; vm_compute; reflexivity.
Qed.
Print Assumptions C32_hint_refuted.

(** ** C89: the decision about a new download *)

Theorem C89_decision : forall q h x, it_hint x = false -> o_delete (it_out x) = dsNone ->
  exists r, nzb_found q h x = Some r /\ (r_delete r <> dsNone <-> refused q h x (r_key r) (r_score r)).
Proof. exact found_decision. Qed.
Print Assumptions C89_decision.
(** Key and score are its own, or those of the first one of the same name which has some. *)
Theorem C89_key : forall q h x r, nzb_found q h x = Some r ->
  (forall y, In y q -> it_id y <> it_id x -> ~ (o_kind (it_out x) = nkNzb /\ copy_of_item x y)) -> adopted q h x (r_key r) (r_score r).
Proof.
  intros q h x r E NC. assert (QC : queued_copy q x = false).
  { destruct (queued_copy q x) eqn:QC; [|reflexivity]. apply queued_copy_iff in QC as (y & H1 & H2 & H3). destruct (NC y H1 H2 H3). }
  assert (K := found_key q h x r E QC). assert (A := adopt_ok q h x). rewrite <- K in A. exact A.
Qed.
Print Assumptions C89_key.
(** An accepted download takes over from the queued ones of lower score: these leave the queue (or are marked, while
    articles of them are being downloaded); all others stay as they are. *)
Theorem C89_queue : forall q h x r, it_hint x = false -> o_delete (it_out x) = dsNone -> nzb_found q h x = Some r -> r_delete r = dsNone ->
  (it_mode x = dmScore -> settled x (r_key r) q (r_queue r) (r_moved r) /\ forall y, In y q -> rival x (r_key r) y -> it_score y < r_score r) /\
  (it_mode x <> dmScore -> r_queue r = q /\ r_moved r = []).
Proof. exact found_settled. Qed.
Print Assumptions C89_queue.
Theorem C89_defined : forall q h x, nzb_found q h x <> None.
Proof. exact found_defined. Qed.
Print Assumptions C89_defined.
(** A refused download may already have driven others out of the queue. *)
Theorem C89_refused_refuted : exists q h x r, it_hint x = false /\ o_delete (it_out x) = dsNone /\ nzb_found q h x = Some r /\ r_delete r <> dsNone /\ r_queue r <> q.
Proof.
  exists [ex_item 1 (ex_out dsNone ksNone) "a" "show" 0 1 false; ex_item 2 (ex_out dsNone ksNone) "b" "show" 10 2 false], [], (ex_item 3 (ex_out dsNone ksNone) "c" "show" 5 3 false).
  eexists. split; [reflexivity|]. split; [reflexivity|]. split; [vm_compute; reflexivity|]. split; discriminate.
Qed.
Print Assumptions C89_refused_refuted.
(** Two of three of the same name leave the queue or stay; key and score come from the history. *)
Example C89_ex : let x := ex_item 9 (ex_out dsNone ksNone) "Show.S01E01" "" 0 9 false in
  let y := ex_item 1 (ex_out dsNone ksNone) "show.s01e01" "" 5 1 false in let z := ex_item 2 (ex_out dsNone ksNone) "Show.S01E01.x" "KEY" 7 2 false in
  let w := ex_item 3 (ex_out dsNone ksBad) "Show.S01E01" "key" 20 3 false in
  nzb_found [y; z] [HNzb w] x = Some (mkFound (str "key") 20 dsNone [] [set_delete z dsDupe; set_delete y dsDupe]) /\
  refused [ex_item 2 (ex_out dsNone ksNone) "x" "Key" 20 2 false] [HNzb w] x (str "key") 20.
Proof.
  split; [vm_compute; reflexivity|]. apply ref_queued with (y := ex_item 2 (ex_out dsNone ksNone) "x" "Key" 20 2 false); [reflexivity|left; reflexivity| |cbn; lia].
  split; [discriminate|]. split; [reflexivity|]. split; [left; reflexivity|]. split; [discriminate|]. left. split; [discriminate|]. split; [discriminate|reflexivity].
Qed.

(** ** C31: the backup *)

(** What is returned is the first backup of the highest score, above all successes and all queued ones; nothing is
    returned only if a good one exists or no backup is above. *)
Theorem C31_best_partial : forall q h self name key, known h ->
  match return_best q h self name key with
  | Some it => no_good h name key /\ improves q h self name key (it_score it) /\
      exists a y b, h = a ++ y :: b /\ is_backup y it name key /\
        (forall z jt, In z a -> is_backup z jt name key -> it_score jt < it_score it) /\
        (forall z jt, In z b -> is_backup z jt name key -> it_score jt <= it_score it)
  | None => (exists y, In y h /\ good_dupe y name key) \/ forall y it, In y h -> is_backup y it name key -> ~ improves q h self name key (it_score it)
  end.
Proof. exact return_best_ok. Qed.
Print Assumptions C31_best_partial.
(** Only a failed download in score mode asks for a backup. *)
Theorem C31_failed : forall q h x it, nzb_completed q h x = Some it -> it_mode x = dmScore /\ is_dupe_success (it_out x) <> Some true /\
  return_best q h (Some (it_id x)) (it_name x) (it_key x) = Some it.
Proof.
  intros q h x it. unfold nzb_completed. destruct (is_score (it_mode x)) eqn:M; [|discriminate]. destruct (success x) eqn:S; [discriminate|]. cbn [negb andb].
  intros E. split; [apply score_iff, M|]. split; [|exact E]. intros H. apply success_iff in H. congruence.
Qed.
Print Assumptions C31_failed.
Definition ex_hist : list hist :=
  [HNzb (ex_item 1 (ex_out dsDupe ksNone) "Show.S01E01" "" 3 1 false); HNzb (ex_item 2 (ex_out dsDupe ksNone) "show.S01E01" "" 8 2 false);
   HNzb (ex_item 3 (ex_out dsDupe ksBad) "Show.S01E01" "" 30 3 false); HDup (hide (ex_item 4 (ex_out dsNone ksSuccess) "Show.S01E01" "" 5 4 false));
   HNzb (ex_item 5 (ex_out dsDupe ksNone) "Show.S01E01" "" 8 5 false)].
Example C31_ex : known ex_hist /\ option_map it_id (return_best [ex_item 6 (ex_out dsNone ksNone) "Show.S01E01" "" 7 6 false] ex_hist None (str "Show.S01E01") []) = Some 2 /\
  return_best [ex_item 6 (ex_out dsNone ksNone) "Show.S01E01" "" 8 6 false] ex_hist None (str "Show.S01E01") [] = None.
Proof.
  split; [|split; vm_compute; reflexivity]. intros it [H|H]; cbn in H; repeat (destruct H as [H|H]; [try discriminate; injection H as <-; vm_compute; discriminate|]); contradiction.
Qed.
(** A queued URL of the same title is not counted: the backup goes to the queue beside it, though its score is lower. *)
Theorem C31_url_refuted : exists q h name key it y, known h /\ return_best q h None name key = Some it /\ In y q /\ o_delete (it_out y) = dsNone /\ it_mode y <> dmForce /\
  same_title (it_name y) (it_key y) name key /\ it_score it < it_score y.
Proof.
  exists [ex_url 6 100], ex_hist, (str "Show.S01E01"), []. eexists _, _. split; [apply C31_ex|]. split; [vm_compute; reflexivity|]. split; [left; reflexivity|].
  split; [reflexivity|]. split; [discriminate|]. split; [right; split; [left; reflexivity|reflexivity]|]. vm_compute. reflexivity.
Qed.
Print Assumptions C31_url_refuted.

(** ** C90: hidden items *)

(** Hiding an item of the history does not change any later decision. *)
Theorem C90_hide : forall q a it b x, it_hint x = false -> o_delete (it_out x) = dsNone -> is_dupe_success (it_out it) <> None ->
  exists r r', nzb_found q (a ++ HNzb it :: b) x = Some r /\ nzb_found q (a ++ HDup (hide it) :: b) x = Some r' /\
    r_key r = r_key r' /\ r_score r = r_score r' /\ (r_delete r = dsNone <-> r_delete r' = dsNone) /\
    (r_delete r = dsNone -> r_queue r = r_queue r' /\ r_moved r = r_moved r').
Proof. exact hide_found. Qed.
Print Assumptions C90_hide.
(** Marking as good hides the backups of the title and nothing else. *)
Theorem C90_cleanup : forall h mark name key, length (cleanup h mark name key) = length h /\
  forall i y, nth_error h i = Some y -> exists z, nth_error (cleanup h mark name key) i = Some z /\
    match y with
    | HNzb it | HUrl it => (it_mode it <> dmForce /\ o_delete (it_out it) = dsDupe /\ it_id it <> mark /\ same_title (it_name it) (it_key it) name key -> z = HDup (hide it)) /\
        (~ (it_mode it <> dmForce /\ o_delete (it_out it) = dsDupe /\ it_id it <> mark /\ same_title (it_name it) (it_key it) name key) -> z = y)
    | HDup _ => z = y
    end.
Proof. exact cleanup_ok. Qed.
Print Assumptions C90_cleanup.
Example C90_ex : let it := ex_item 3 (ex_out dsNone ksNone) "Show.S01E01" "" 10 77 false in let x := ex_item 7 (ex_out dsNone ksNone) "Show.S01E01" "" 0 1 false in
  is_dupe_success (it_out it) <> None /\ option_map r_delete (nzb_found [] [HNzb it] x) = Some dsDupe /\ option_map r_delete (nzb_found [] [HDup (hide it)] x) = Some dsGood /\
  map hist_id (filter (fun y => match y with HDup _ => true | _ => false end) (cleanup ex_hist 2 (str "SHOW.s01e01") [])) = [1; 3; 4; 5].
Proof. split; [vm_compute; discriminate|]. split; [vm_compute; reflexivity|]. split; vm_compute; reflexivity. Qed.
