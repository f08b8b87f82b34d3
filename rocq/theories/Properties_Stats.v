(** C17, C18, C42, C43, C58-C60: statistics of groups, parameters, per-server counts. *)
From Coq Require Import String.
From Verif Require Import Base InfoModel InfoSpec InfoProofs StatsModel StatsSpec StatsProofs StatsProofs2.

(** ** C17 *)

(** For every group read from an nzb-file and every history of pausing, priority changes,
    article and file completions, deletions of files and discarded renames, all 22
    statistics are the sums over the files, and so are the per-server counts.
    [ordinary] leaves out deleting the whole group, vanished temporary files and direct
    renaming being active; see the general form and the refutations below. *)
Theorem C17_statistics_partial : forall src ops,
  NoDup (map (fun x : Z * bool * list (option Z) => fst (fst x)) src) -> Forall ordinary ops ->
  let g := run (new_group src) ops in
  (forall x, g_st g x = summary x (g_files g) (g_done g)) /\
  (forall id, ok_of (g_cur g) id = total (fun f => ok_of (f_srv f) id) (g_files g ++ g_done g) /\
              bad_of (g_cur g) id = total (fun f => bad_of (f_srv f) id) (g_files g ++ g_done g)) /\
  (forall id, ok_of (g_srv g) id = total (fun f => ok_of (f_srv f) id) (g_done g) /\
              bad_of (g_srv g) id = total (fun f => bad_of (f_srv f) id) (g_done g)) /\
  Forall file_ok (g_files g) /\ NoDup (map f_id (g_files g)).
Proof.
  intros src ops Hn Ho g. destruct (ordinary_history src ops Hn Ho) as [Hi Hd]. fold g in Hi, Hd.
  split; [exact (inv_summary g Hi Hd)|].
  split; [intro id; rewrite !total_app; split; [exact (iv_cur_ok g Hi id)|exact (iv_cur_bad g Hi id)]|].
  split; [intro id; split; [exact (iv_srv_ok g Hi id)|exact (iv_srv_bad g Hi id)]|].
  split; [exact (iv_files g Hi)|exact (iv_ids g Hi)].
Qed.
Print Assumptions C17_statistics_partial.

(** Any history whatsoever: unless a temporary file vanished or a file was discarded
    while it was being completed, all statistics agree; in a group that is being deleted
    all but the remaining size and the paused size. *)
Theorem C17_statistics_any_partial : forall src ops x,
  NoDup (map (fun x : Z * bool * list (option Z) => fst (fst x)) src) ->
  let g := run (new_group src) ops in
  g_wiped g = [] -> g_lost g = 0 ->
  g_deleting g = false \/ (x <> Remaining /\ x <> PausedSize) ->
  g_st g x = summary x (g_files g) (g_done g).
Proof.
  intros src ops x Hn g Hw Hl Hx. apply (iv_st g (history_inv src ops Hn Hw Hl)).
  destruct Hx as [Hx|Hx]; [now left|right; exact Hx].
Qed.
Print Assumptions C17_statistics_any_partial.

(** Recomputing after loading (UpdateCurrentStats) restores all statistics from the
    saved ones, whatever the others contained. *)
Theorem C17_recount : forall g,
  (forall x, saved x -> g_st g x = summary x (g_files g) (g_done g)) ->
  forall x, g_st (update_current g) x = summary x (g_files g) (g_done g).
Proof. exact recount_ok. Qed.
Print Assumptions C17_recount.

Example C17_nonvacuous :
  let g := run (new_group [(7, false, [Some 100; None; Some 50]); (8, true, [Some 30])])
             [OPause 8 true; OStart 7 0%nat; OArticle 7 0%nat adFinished [mkS 1 1 0] false None;
              OFinish 7 false 0; OStart 7 1%nat; OArticle 7 1%nat adFailed [mkS 1 0 1; mkS 2 0 1] false None;
              OFinish 7 true 0] in
  map (g_st g) [FileCount; Remaining; PausedSize; Success; Failed; CurFailArt; RemPar; PausedCount] =
  [2; 30; 30; 100; 150; 2; 1; 1] /\ length (g_files g) = 1%nat /\ length (g_done g) = 1%nat.
Proof. vm_compute. repeat split; reflexivity. Qed.

(** While a group is being deleted the remaining size is not kept up: the size of a
    paused file that is removed is still counted as remaining and paused. *)
Theorem C17_deleting_refuted : exists src ops,
  let g := run (new_group src) ops in
  g_files g = [] /\ g_wiped g = [] /\ g_lost g = 0 /\
  g_st g Remaining = 30 /\ summary Remaining (g_files g) (g_done g) = 0 /\
  g_st g PausedSize = 30 /\ summary PausedSize (g_files g) (g_done g) = 0.
Proof.
  exists [(7, false, [Some 30])], [OPause 7 true; OGroupDelete false; ODelete 7].
  vm_compute. repeat split; reflexivity.
Qed.
Print Assumptions C17_deleting_refuted.

(** A temporary file that has vanished when the file is assembled: the article is counted
    as failed for the finished file but remains a success in the current counts. *)
Theorem C17_lost_refuted : exists src ops,
  let g := run (new_group src) ops in
  g_deleting g = false /\ g_wiped g = [] /\ g_lost g = 1 /\
  g_st g CurSuccArt = 1 /\ summary CurSuccArt (g_files g) (g_done g) = 0 /\
  g_st g SuccArt = 0.
Proof.
  exists [(7, false, [Some 30])],
    [OStart 7 0%nat; OArticle 7 0%nat adFinished [] false None; OFinish 7 true 1].
  vm_compute. repeat split; reflexivity.
Qed.
Print Assumptions C17_lost_refuted.

(** Recomputing twice does not give the same per-server counts: entries of servers used
    only by queued files are added to instead of being started afresh. *)
Theorem C17_recount_servers_refuted : exists g id,
  inv g /\ ok_of (g_cur (update_current g)) id <>
    total (fun f => ok_of (f_srv f) id) (g_files g ++ g_done g).
Proof.
  exists (run (new_group [(7, false, [Some 100; Some 50])])
            [OStart 7 0%nat; OArticle 7 0%nat adFinished [mkS 1 1 0] false None; OFinish 7 false 0]), 1.
  split.
  - apply history_inv; [|reflexivity|reflexivity]. repeat constructor; auto.
  - vm_compute. discriminate.
Qed.
Print Assumptions C17_recount_servers_refuted.

(** ** C58 *)

(** Full statement, false: no file that was completed is thrown away again.  When direct
    renaming is running and the last file to finish is a par2-file with a single article,
    the file just completed is discarded with the statistics of its download. *)
Theorem C58_completed_file_discarded_refuted : exists src ops,
  let g := run (new_group src) ops in
  g_deleting g = false /\ g_lost g = 0 /\ g_wiped g = [8] /\ g_files g = [] /\
  g_st g CurSuccess = 100 /\ summary CurSuccess (g_files g) (g_done g) = 130 /\
  g_st g Remaining = 30 /\ summary Remaining (g_files g) (g_done g) = 0.
Proof.
  exists [(7, false, [Some 100]); (8, true, [Some 30])],
    [ORenaming true;
     OStart 7 0%nat; OArticle 7 0%nat adFinished [] false None; OFinish 7 true 0;
     OStart 8 0%nat; OArticle 8 0%nat adFinished [] false None; OFinish 8 true 0].
  vm_compute. repeat split; reflexivity.
Qed.
Print Assumptions C58_completed_file_discarded_refuted.

(** It cannot happen while direct renaming is off. *)
Theorem C58_not_without_renaming : forall src ops,
  Forall ordinary ops -> g_wiped (run (new_group src) ops) = [].
Proof.
  intros src ops Ho. exact (proj1 (ordinary_run ops (new_group src) Ho eq_refl eq_refl)).
Qed.
Print Assumptions C58_not_without_renaming.

(** ** C18 *)

Theorem C18_merge_partial : forall g1 g2 x,
  (forall x, g_st g1 x = summary x (g_files g1) (g_done g1)) ->
  (forall x, g_st g2 x = summary x (g_files g2) (g_done g2)) ->
  x <> Extra ->
  g_st (merge_groups g1 g2) x = summary x (g_files g1 ++ g_files g2) (g_done g1 ++ g_done g2) /\
  g_st (merge_groups g1 g2) x = g_st g1 x + g_st g2 x.
Proof.
  intros g1 g2 x H1 H2 Hx. split; [exact (merge_sums g1 g2 x H1 H2 Hx)|].
  unfold merge_groups. cbn [g_st]. rewrite bump_delta.
  destruct x; try congruence; cbn [delta fld_eqb fld_tag Nat.eqb]; lia.
Qed.
Print Assumptions C18_merge_partial.

Theorem C18_merge_servers : forall g1 g2 id,
  ok_of (g_srv (merge_groups g1 g2)) id = ok_of (g_srv g1) id + ok_of (g_srv g2) id /\
  bad_of (g_srv (merge_groups g1 g2)) id = bad_of (g_srv g1) id + bad_of (g_srv g2) id /\
  ok_of (g_cur (merge_groups g1 g2)) id = ok_of (g_cur g1) id + ok_of (g_cur g2) id /\
  bad_of (g_cur (merge_groups g1 g2)) id = bad_of (g_cur g1) id + bad_of (g_cur g2) id.
Proof.
  intros. destruct (list_op_add (g_srv g2) (g_srv g1) id), (list_op_add (g_cur g2) (g_cur g1) id).
  repeat split; assumption.
Qed.
Print Assumptions C18_merge_servers.

(** The number of files with extra priority is not merged; completing such a file then
    makes it negative. *)
Theorem C18_merge_extra_refuted : exists g1 g2,
  inv g1 /\ inv g2 /\ g_deleting g1 = false /\ g_deleting g2 = false /\
  g_st (merge_groups g1 g2) Extra = 0 /\
  summary Extra (g_files (merge_groups g1 g2)) (g_done (merge_groups g1 g2)) = 1 /\
  g_st (run (merge_groups g1 g2) [OStart 9 0%nat; OArticle 9 0%nat adFinished [] false None;
                                   OFinish 9 true 0]) Extra = -1.
Proof.
  exists (new_group [(7, false, [Some 100])]),
         (run (new_group [(9, false, [Some 5])]) [OExtra 9 true]).
  split; [apply new_group_inv; repeat constructor; auto|].
  split; [apply history_inv; [repeat constructor; auto|reflexivity|reflexivity]|].
  vm_compute. repeat split; reflexivity.
Qed.
Print Assumptions C18_merge_extra_refuted.

(** Whatever is split off, the two groups together have the statistics of the source,
    except for the count of paused files. *)
Theorem C18_split_adds_up_partial : forall src l a b x,
  split_groups src l = Some (a, b) -> x <> PausedCount ->
  g_st a x + g_st b x = g_st src x.
Proof.
  intros src l a b x H Hx. unfold split_groups in H. destruct (split_ok l); [|discriminate].
  inversion H as [E]. pose proof (split_loop_conserves l src empty_group x Hx) as K.
  rewrite E in K. cbn [fst snd empty_group g_st] in K. lia.
Qed.
Print Assumptions C18_split_adds_up_partial.

(** Splitting off files that are not paused, have no extra priority and no articles
    missing in the nzb-file: both groups have the sums over their own files. *)
Theorem C18_split_sums_partial : forall src l a b,
  split_groups src l = Some (a, b) ->
  (forall x, g_st src x = summary x (g_files src) (g_done src)) ->
  Forall file_ok l -> NoDup (map f_id l) ->
  (forall f, In f l -> find_file (f_id f) (g_files src) = Some f) ->
  (forall f, In f l -> f_paused f = false /\ f_extra f = false /\ f_num f FMissed = 0) ->
  g_files b = l /\
  (forall x, g_st a x = summary x (g_files a) (g_done a)) /\
  (forall x, g_st b x = summary x (g_files b) (g_done b)).
Proof.
  intros src l a b H Hs Hok Hn Hin Hpl. unfold split_groups in H.
  destruct (split_ok l) eqn:E; [|discriminate]. inversion H as [E1]. clear H.
  assert (P : Forall plain l).
  { pose proof (split_ok_fresh l E Hok) as F. rewrite Forall_forall in *.
    intros f Hf. destruct (F f Hf) as (? & ? & ? & ? & ?), (Hpl f Hf) as (? & ? & ?). now constructor. }
  destruct (split_loop_sums l src empty_group P Hn Hin Hs) as (S1 & S2 & S3).
  { intro x. unfold summary. cbn. reflexivity. }
  rewrite E1 in S1, S2, S3. cbn [fst snd] in *. repeat split; auto.
Qed.
Print Assumptions C18_split_sums_partial.

Example C18_split_nonvacuous :
  let src := new_group [(7, false, [Some 100; Some 50]); (8, true, [Some 30]); (9, false, [Some 2])] in
  match split_groups src (firstn 2 (g_files src)) with
  | Some (a, b) => g_st a Size = 2 /\ g_st b Size = 180 /\ g_st b ParSize = 30 /\ g_st a FileCount = 1
  | None => False
  end.
Proof. vm_compute. repeat split; reflexivity. Qed.

(** Splitting a paused file off: the new group gets the paused count of the source plus
    one instead of its own. *)
Theorem C18_split_paused_refuted : exists src f a b,
  inv src /\ split_groups src [f] = Some (a, b) /\
  g_st b PausedCount = 2 /\ summary PausedCount (g_files b) (g_done b) = 1 /\
  g_st a PausedCount = 1 /\ g_st src PausedCount = 2.
Proof.
  exists (run (new_group [(7, false, [Some 100]); (8, true, [Some 30])]) [OPause 7 true; OPause 8 true]).
  match goal with |- exists f a b, inv ?s /\ _ =>
    exists (hd (mkF 0 (fun _ => 0) false false false false [] []) (g_files s)) end.
  eexists. eexists. split; [apply history_inv; [|reflexivity|reflexivity]|].
  - repeat constructor; cbn; intuition lia.
  - split; [reflexivity|]. vm_compute. repeat split; reflexivity.
Qed.
Print Assumptions C18_split_paused_refuted.

(** Splitting off a file with parts missing in the nzb-file: the size of those parts
    stays with the source group. *)
Theorem C18_split_missed_refuted : exists src f a b,
  inv src /\ split_groups src [f] = Some (a, b) /\
  g_st b Failed = 0 /\ summary Failed (g_files b) (g_done b) = 100 /\
  g_st a Failed = 100 /\ summary Failed (g_files a) (g_done a) = 0.
Proof.
  exists (new_group [(7, false, [Some 100; None]); (8, false, [Some 30])]).
  match goal with |- exists f a b, inv ?s /\ _ =>
    exists (hd (mkF 0 (fun _ => 0) false false false false [] []) (g_files s)) end.
  eexists. eexists. split; [apply new_group_inv; repeat constructor; cbn; intuition lia|].
  split; [reflexivity|]. vm_compute. repeat split; reflexivity.
Qed.
Print Assumptions C18_split_missed_refuted.

Theorem C18_split_extra_refuted : exists src f a b,
  inv src /\ split_groups src [f] = Some (a, b) /\
  g_st b Extra = 0 /\ summary Extra (g_files b) (g_done b) = 1 /\
  g_st a Extra = 1 /\ summary Extra (g_files a) (g_done a) = 0.
Proof.
  exists (run (new_group [(7, false, [Some 100]); (8, false, [Some 30])]) [OExtra 7 true]).
  match goal with |- exists f a b, inv ?s /\ _ =>
    exists (hd (mkF 0 (fun _ => 0) false false false false [] []) (g_files s)) end.
  eexists. eexists. split; [apply history_inv; [|reflexivity|reflexivity]|].
  - repeat constructor; cbn; intuition lia.
  - split; [reflexivity|]. vm_compute. repeat split; reflexivity.
Qed.
Print Assumptions C18_split_extra_refuted.

(** ** C59 *)

(** Files of the source group go over in the order of the selection. *)
Theorem C59_split_moves_selection : forall src sel,
  NoDup src -> NoDup sel -> incl sel src ->
  split_lists src sel = (filter (fun x => negb (existsb (fun y => x =? y) sel)) src, map Some sel).
Proof. intros src sel H1 H2 H3. exact (split_lists_loop sel src [] H2 H1 H3). Qed.
Print Assumptions C59_split_moves_selection.

Example C59_nonvacuous : split_lists [1; 2; 3; 4] [4; 2] = ([1; 3], [Some 4; Some 2]).
Proof. reflexivity. Qed.

(** Every file of the selection that is not in the first file's group puts a null pointer
    into the new group. *)
Theorem C59_split_foreign_refuted : exists src sel,
  NoDup src /\ NoDup sel /\ (exists x, In x sel /\ In x src) /\
  In None (snd (split_lists src sel)).
Proof.
  exists [1; 2], [1; 5].
  split; [repeat constructor; cbn; intuition lia|].
  split; [repeat constructor; cbn; intuition lia|].
  split; [exists 1; cbn; auto|vm_compute; auto].
Qed.
Print Assumptions C59_split_foreign_refuted.

(** ** C42 *)

Theorem C42_last_assignment : forall ops l name v,
  distinct_names l -> assigned ops name v ->
  find_parameter (run_params l ops) name = match v with [] => None | _ => Some v end.
Proof. intros ops l name v H. exact (run_params_assigned ops l name v (proj2 (keys_distinct l) H)). Qed.
Print Assumptions C42_last_assignment.

Theorem C42_others_unaffected : forall ops l name,
  distinct_names l -> untouched ops name ->
  find_parameter (run_params l ops) name = find_parameter l name.
Proof. intros ops l name H. exact (run_params_untouched ops l name (proj2 (keys_distinct l) H)). Qed.
Print Assumptions C42_others_unaffected.

(** The two cases above are all there are. *)
Theorem C42_cases : forall ops name, untouched ops name \/ exists v, assigned ops name v.
Proof. exact assigned_or_untouched. Qed.
Print Assumptions C42_cases.

Theorem C42_names_distinct : forall ops l, distinct_names l -> distinct_names (run_params l ops).
Proof.
  intros ops l H. exact (proj1 (keys_distinct _) (run_params_NoDup ops l (proj2 (keys_distinct l) H))).
Qed.
Print Assumptions C42_names_distinct.

Theorem C42_values_nonempty : forall ops l,
  Forall (fun p : param => snd p <> []) l -> Forall (fun p : param => snd p <> []) (run_params l ops).
Proof. exact run_params_nonempty. Qed.
Print Assumptions C42_values_nonempty.

(** Copying another list: its parameters win, the others stay. *)
Theorem C42_copy : forall src l name, distinct_names l -> distinct_names src ->
  Forall (fun p : param => snd p <> []) src ->
  find_parameter (copy_from l src) name =
  match find_parameter src name with Some v => Some v | None => find_parameter l name end.
Proof.
  intros src l name H1 H2. exact (copy_from_spec src l name (proj2 (keys_distinct l) H1) (proj2 (keys_distinct src) H2)).
Qed.
Print Assumptions C42_copy.

Example C42_nonvacuous :
  let ops := [(str "Cat", str "a"); (str "x", str "1"); (str "CAT", str "b"); (str "X", [])] in
  distinct_names [] /\ assigned ops (str "cat") (str "b") /\ assigned ops (str "x") [] /\
  run_params [] ops = [(str "Cat", str "b")].
Proof.
  split; [intros [|] [|] a b; discriminate|]. split; [|split; [|reflexivity]].
  - apply (assigned_other [(str "Cat", str "a"); (str "x", str "1"); (str "CAT", str "b")]).
    + apply (assigned_last [(str "Cat", str "a"); (str "x", str "1")]).
      apply same_nocase_spec. reflexivity.
    + apply same_nocase_false. reflexivity.
  - apply (assigned_last [(str "Cat", str "a"); (str "x", str "1"); (str "CAT", str "b")]).
    apply same_nocase_spec. reflexivity.
Qed.

(** ** C43 *)

Theorem C43_pointwise : forall ops l id,
  ok_of (run_stats l ops) id =
    ok_of l id + fold_right Z.add 0 (map (fun o : bool * list sstat =>
      (if fst o then 1 else -1) * ok_of (snd o) id) ops) /\
  bad_of (run_stats l ops) id =
    bad_of l id + fold_right Z.add 0 (map (fun o : bool * list sstat =>
      (if fst o then 1 else -1) * bad_of (snd o) id) ops).
Proof. exact run_stats_sum. Qed.
Print Assumptions C43_pointwise.

Theorem C43_one_entry : forall ops l, one_entry_each l -> one_entry_each (run_stats l ops).
Proof. exact run_stats_one. Qed.
Print Assumptions C43_one_entry.

Theorem C43_set : forall src l id, one_entry_each l -> one_entry_each src ->
  (In id (map sv_id src) ->
     ok_of (list_op l src soSet) id = ok_of src id /\ bad_of (list_op l src soSet) id = bad_of src id) /\
  (~ In id (map sv_id src) ->
     ok_of (list_op l src soSet) id = ok_of l id /\ bad_of (list_op l src soSet) id = bad_of l id).
Proof. exact list_op_set. Qed.
Print Assumptions C43_set.

Example C43_nonvacuous :
  run_stats [mkS 1 5 2] [(true, [mkS 2 3 0; mkS 1 1 1]); (false, [mkS 2 1 0])] = [mkS 1 6 3; mkS 2 2 0] /\
  one_entry_each [mkS 1 5 2].
Proof. split; [reflexivity|]. repeat constructor; auto. Qed.

(** ** C60 *)

Theorem C60_total_status : forall l,
  (calc_total_status l = srFailure <-> In srFailure l) /\
  (calc_total_status l = srSuccess <-> ~ In srFailure l /\ In srSuccess l) /\
  (calc_total_status l = srNone <-> forall s, In s l -> s = srNone).
Proof. exact calc_total_spec. Qed.
Print Assumptions C60_total_status.

Example C60_nonvacuous :
  calc_total_status [srSuccess; srFailure; srSuccess] = srFailure /\
  calc_total_status [srNone; srSuccess] = srSuccess.
Proof. split; reflexivity. Qed.
