(** C114-C120, C144: the post-processing queue. *)
From Verif Require Import Base UnpackModel PostModel PostSpec PostProofs3 PostProofs4 PostProofs5 PostProofs6 PostProofs7.
Open Scope list_scope. Open Scope Z_scope.

(** Two downloads with par2-files and archives; the second one has the higher priority. *)
Definition px_env : env := mkEnv true true 990 900 false true true false.
Definition px_dl (id prio : Z) : dl :=
  mkDl id prio rsNone psNone rsNone usNone csNone msNone dsNone false [] px_env true None.
Definition px_opts (st : strategy) : opts := mkOpts pcAuto false true true true st.
Definition px_start : state := mkSt [px_dl 1 0; px_dl 2 50] [] 0.
Definition px_run : run := mkRun true [] 0.
Definition px_found : found := mkF false false false false true true true true false false.
Definition px_job (id : Z) (r : result) : list event := [EDone id r; EThread id; ECheck false].
Definition px_events : list event :=
  [EDownloaded 1 false; EDownloaded 2 false; ECheck false] ++ px_job 2 (RParRename true false false) ++
  px_job 2 (RRarRename true) ++ px_job 2 (RUnpack [] None px_found (fun _ => px_run)) ++
  px_job 2 (RParRename true false false) ++ px_job 2 (RCleanup true) ++ px_job 2 (RMove true) ++
  px_job 2 (RScript [93]) ++ px_job 1 (RParRename false false true) ++ [EStage 1 ptRepairing] ++ px_job 1 (RPar PRepaired true).
Definition px_kinds (r : option (state * list (dl * kind))) : list (Z * kind) :=
  match r with Some (_, ks) => map (fun x => (d_id (fst x), snd x)) ks | None => [] end.

Lemma px_starting st : starting (px_opts st) px_start.
Proof.
  unfold starting, px_start. cbn [q_list q_active q_jobs]. split; [|split; [reflexivity|split; [reflexivity|]]].
  - cbn. repeat constructor; cbn; intuition discriminate.
  - repeat constructor; cbn; intuition discriminate.
Qed.
Example px_jobs :
  deletions_ok 20 (px_opts ppBalanced) px_start px_events = true /\
  px_kinds (steps 20 (px_opts ppBalanced) px_start px_events) =
  [(2, JParRename); (2, JRarRename); (2, JUnpack); (2, JParRename); (2, JCleanup); (2, JMove); (2, JScript);
   (1, JParRename); (1, JPar); (1, JRarRename)].
Proof. now vm_compute. Qed.

(** ** C114: no endless post-processing *)

Theorem C114_jobs_bounded fuel o s es : starting o s -> deletions_ok fuel o s es = true ->
  exists t ks, steps fuel o s es = Some (t, ks) /\
    forall id, exists b,
    (forall d, find_dl id (q_list s) = Some d -> b = e_pars (d_env d)) /\
    jobs_of id JScript ks <= completions id es /\ jobs_of id JMove ks <= 1 /\ jobs_of id JCleanup ks <= 1 /\
    jobs_of id JRarRename ks <= 1 /\ jobs_of id JParRename ks <= 2 + retries id es /\
    jobs_of id JPar ks <= 2 * (completions id es + appearances id b es) /\
    jobs_of id JUnpack ks <= 3 * completions id es + 2 * appearances id b es.
Proof. exact (job_bounds fuel o s es). Qed.
Print Assumptions C114_jobs_bounded.

Example C114_example : match steps 20 (px_opts ppBalanced) px_start px_events with
  | Some (_, ks) => jobs_of 2 JParRename ks = 2 /\ jobs_of 2 JScript ks = completions 2 px_events /\ jobs_of 1 JPar ks = 1
  | None => False end.
Proof. now vm_compute. Qed.

(** ** C115: jobs start only when they may *)

Theorem C115_started_when_allowed fuel o s es t ks :
  starting o s -> deletions_ok fuel o s es = true -> steps fuel o s es = Some (t, ks) ->
  forall d k, In (d, k) ks -> may_start o d k /\ d_ready d = true.
Proof. exact (all_gates fuel o s es t ks). Qed.
Print Assumptions C115_started_when_allowed.

Theorem C115_paused_only_forced fuel o s es paused t ks t' ks' :
  starting o s -> deletions_ok fuel o s es = true -> steps fuel o s es = Some (t, ks) ->
  step fuel o t (ECheck paused) = Some (t', ks') ->
  forall d k, In (d, k) ks' -> may_start o d k /\ d_ready d = true /\ (paused = true -> 900 <= d_prio d) /\
                               In (d_id d) (map d_id (q_list s)).
Proof.
  intros St D E E' d k I. destruct (next_gate fuel o s es paused t ks t' ks' St D E E' d k I) as (A & B & C & G).
  repeat split; auto. intros P. apply C in P. now apply Z.leb_le.
Qed.
Print Assumptions C115_paused_only_forced.

Example C115_example :
  px_kinds (steps 20 (px_opts ppRocket) (mkSt [px_dl 1 0; px_dl 2 900] [] 0)
                  [EDownloaded 1 false; EDownloaded 2 false; ECheck true]) = [(2, JParRename)].
Proof. now vm_compute. Qed.

(** ** C116: the limits of the strategies *)

Theorem C116_limits fuel o s es t ks :
  starting o s -> deletions_ok fuel o s es = true -> steps fuel o s es = Some (t, ks) ->
  n_running t <= most_jobs (o_strategy o) /\ n_pars t <= most_pars (o_strategy o).
Proof. exact (limits fuel o s es t ks). Qed.
Print Assumptions C116_limits.

(** Both jobs run at the same time with the strategy "rocket", one of them with "sequential". *)
Example C116_example : forall n : nat, n = 20%nat ->
  match steps n (px_opts ppRocket) px_start [EDownloaded 1 false; EDownloaded 2 false; ECheck false],
        steps n (px_opts ppSequential) px_start [EDownloaded 1 false; EDownloaded 2 false; ECheck false] with
  | Some (t, _), Some (u, _) => n_running t = 2 /\ n_running u = 1
  | _, _ => False
  end.
Proof. intros n ->. now vm_compute. Qed.

(** ** C117: what is taken next, and that nothing is forgotten *)

Theorem C117_highest_priority_first paused allow_par active l :
  match pick_next paused allow_par active l with
  | Some d => best_of (startable paused allow_par active) l d
  | None => forall x, In x l -> startable paused allow_par active x = false
  end.
Proof. exact (pick_ok paused allow_par active l). Qed.
Print Assumptions C117_highest_priority_first.

Theorem C117_possible_jobs paused allow_par active d : startable paused allow_par active d = true <->
  exists p, d_post d = Some p /\ p_working p = false /\ d_ready d = true /\ (paused = true -> 900 <= d_prio d) /\
            (p_need p = true -> allow_par = true) /\ ~ In (d_id d) active.
Proof. exact (startable_iff paused allow_par active d). Qed.
Print Assumptions C117_possible_jobs.

Theorem C117_loop_ends fuel o s es paused t ks :
  starting o s -> deletions_ok fuel o s es = true -> steps fuel o s es = Some (t, ks) ->
  (6 * length (q_list s) < fuel)%nat ->
  exists u ks', check_queue fuel o paused t = Some (u, ks', true).
Proof. exact (looks_end fuel o s es paused t ks). Qed.
Print Assumptions C117_loop_ends.

Theorem C117_waits_only_if_full fuel o s es paused t ks :
  starting o s -> deletions_ok fuel o s (es ++ [ECheck paused]) = true ->
  (6 * length (q_list s) < fuel)%nat ->
  steps fuel o s (es ++ [ECheck paused]) = Some (t, ks) ->
  forall d, waiting paused t d ->
  full (o_strategy o) t \/ (exists p, d_post d = Some p /\ p_need p = true /\ most_pars (o_strategy o) <= checking t).
Proof. exact (check_idle fuel o s es paused t ks). Qed.
Print Assumptions C117_waits_only_if_full.

Theorem C117_idle_queue_is_done fuel o s es paused t ks :
  starting o s -> deletions_ok fuel o s (es ++ [ECheck paused]) = true ->
  (6 * length (q_list s) < fuel)%nat ->
  steps fuel o s (es ++ [ECheck paused]) = Some (t, ks) ->
  q_active t = [] -> forall d, ~ waiting paused t d.
Proof. exact (idle fuel o s es paused t ks). Qed.
Print Assumptions C117_idle_queue_is_done.

(** With the strategy "sequential" the first download waits for the second one. *)
Example C117_example :
  match steps 20 (px_opts ppSequential) px_start ([EDownloaded 1 false; EDownloaded 2 false] ++ [ECheck false]) with
  | Some (t, _) => q_active t = [2] /\ exists d, find_dl 1 (q_list t) = Some d /\ waiting false t d
  | None => False
  end.
Proof.
  vm_compute. split; [reflexivity|]. eexists. split; [reflexivity|].
  split; [left; reflexivity|]. split; [reflexivity|]. split; [discriminate|]. split; [intros [H | []]; discriminate H | discriminate].
Qed.

(** ** C118: the number of jobs *)

Theorem C118_jobs_counted fuel o s es t ks :
  starting o s -> deletions_ok fuel o s es = true -> steps fuel o s es = Some (t, ks) -> q_jobs t = n_posts t.
Proof. exact (counted fuel o s es t ks). Qed.
Print Assumptions C118_jobs_counted.

Example C118_example : match steps 20 (px_opts ppBalanced) px_start px_events with
  | Some (t, _) => q_jobs t = 1 | None => False end.
Proof. now vm_compute. Qed.

(** ** C119: scripts *)

Theorem C119_script_statuses o d p codes d' :
  d_post d = Some p -> p_request p = false -> job_done o (RScript codes) d = Some d' ->
  d_scripts d' = map (verdict (psSkipped <? d_par d)) (scripts_run (psSkipped <? d_par d) codes).
Proof. exact (scripts_ok o d p codes d'). Qed.
Print Assumptions C119_script_statuses.

Example C119_example : exists d p d', d_post d = Some p /\ p_request p = false /\
  job_done (px_opts ppBalanced) (RScript [93; 95; 1; 92; 93]) d = Some d' /\ d_scripts d' = [2; 0; 1; 2].
Proof.
  exists (with_post (px_dl 1 0) (Some (p_with_stage post0 ptExecutingScript true))). eexists. eexists.
  split; [reflexivity|]. split; [reflexivity|]. split; [reflexivity|]. reflexivity.
Qed.

(** A script asks for a check (exit code 92), there are par2-files, nothing has been checked: the download leaves
    post-processing without any check, and what the scripts have reported is lost. *)
Theorem C119_requested_check_done_refuted : exists fuel o s es1 es2 t ks id d,
  starting o s /\ deletions_ok fuel o s (es1 ++ EDone id (RScript [93; 92]) :: es2) = true /\
  steps fuel o s (es1 ++ EDone id (RScript [93; 92]) :: es2) = Some (t, ks) /\ jobs_of id JScript ks = 1 /\
  find_dl id (q_list t) = Some d /\ o_parcheck o = pcAuto /\ e_pars (d_env d) = true /\
  jobs_of id JPar ks = 0 /\ d_post d = None /\ d_scripts d = [].
Proof.
  exists 20%nat, (px_opts ppBalanced), px_start,
    ([EDownloaded 2 false; ECheck false] ++ px_job 2 (RParRename true false false) ++
     px_job 2 (RRarRename true) ++ px_job 2 (RUnpack [] None px_found (fun _ => px_run)) ++
     px_job 2 (RParRename true false false) ++ px_job 2 (RCleanup true) ++ px_job 2 (RMove true)),
    [EThread 2; ECheck false].
  do 2 eexists. exists 2. eexists. split; [apply px_starting|]. split; [vm_compute; reflexivity|].
  split; [vm_compute; reflexivity|]. split; [vm_compute; reflexivity|]. split; [vm_compute; reflexivity|].
  repeat split; vm_compute; reflexivity.
Qed.
Print Assumptions C119_requested_check_done_refuted.

(** ** C120: deleting jobs *)

Theorem C120_no_lost_jobs fuel o s es :
  starting o s -> deletions_ok fuel o s es = true -> steps fuel o s es <> None.
Proof. exact (defined fuel o s es). Qed.
Print Assumptions C120_no_lost_jobs.

Example C120_example : forall e, e = px_events ++ [EDelete 1; EDelete 2] ->
  deletions_ok 20 (px_opts ppBalanced) px_start e = true /\
  match steps 20 (px_opts ppBalanced) px_start e with
  | Some (t, _) => match find_dl 1 (q_list t) with
                   | Some d => match d_post d with Some p => p_deleted p = true | None => False end
                   | None => False end
  | None => False end.
Proof. intros e ->. now vm_compute. Qed.

(** A job that has just done its work is deleted by the user before the post-processor looks at its queue: the queue
    is left with a deleted job, the next look at it uses a null pointer. *)
Theorem C120_deletion_safe_refuted : exists fuel o s es id, starting o s /\
  deletions_ok fuel o s es = true /\ steps fuel o s (es ++ [EDelete id]) <> None /\
  steps fuel o s (es ++ [EDelete id; ECheck false]) = None.
Proof.
  exists 20%nat, (px_opts ppBalanced), px_start,
    [EDownloaded 2 false; ECheck false; EDone 2 (RParRename true false false); EThread 2], 2.
  split; [apply px_starting|]. split; [vm_compute; reflexivity|]. split; [vm_compute; discriminate|]. vm_compute; reflexivity.
Qed.
Print Assumptions C120_deletion_safe_refuted.

(** ** C144: what checks and unpacks leave behind *)

Theorem C144_checked fuel o s es t ks id d r full d' :
  starting o s -> deletions_ok fuel o s es = true -> steps fuel o s es = Some (t, ks) ->
  find_dl id (q_list t) = Some d -> job_done o (RPar r full) d = Some d' -> d_par d' = checked r.
Proof. exact (checked_ok fuel o s es t ks id d r full d'). Qed.
Print Assumptions C144_checked.

(** An unpack has failed and a check was asked for. Unless something is repaired, or the list of passwords is still to
    be tried, the archives are not unpacked once more: whatever the unpacker would do ([f'], [runs']), the failure is
    reported. *)
Theorem C144_no_second_try fuel o s es0 t0 ks0 id d pw pf f runs d1 p p1 t1 ks1 es t ks d2 pw' pf' f' runs' d3 :
  starting o s -> deletions_ok fuel o s es0 = true -> steps fuel o s es0 = Some (t0, ks0) ->
  find_dl id (q_list t0) = Some d -> d_post d = Some p -> p_repaired p = false ->
  job_done o (RUnpack pw pf f runs) d = Some d1 -> d_post d1 = Some p1 -> p_request p1 = true ->
  step fuel o t0 (EDone id (RUnpack pw pf f runs)) = Some (t1, ks1) ->
  deletions_ok fuel o t1 es = true -> steps fuel o t1 es = Some (t, ks) -> Forall (quiet id) es ->
  find_dl id (q_list t) = Some d2 -> (pw' <> [] \/ pf' = None \/ p_passtried p1 = true) ->
  job_done o (RUnpack pw' pf' f' runs') d2 = Some d3 -> d_unpack d3 = p_last p1 /\ unpack_bad d3.
Proof. exact (once_ok fuel o s es0 t0 ks0 id d pw pf f runs d1 p p1 t1 ks1 es t ks d2 pw' pf' f' runs' d3). Qed.
Print Assumptions C144_no_second_try.

(** Unpacking fails, the check finds nothing to repair, the next unpack ends at once though it would succeed. *)
Definition px_broken : found := mkF true true false false false true false true true true.
Definition px_first : list event :=
  [EDownloaded 1 false; ECheck false] ++ px_job 1 (RParRename false false false) ++ px_job 1 (RRarRename false).
Definition px_fail : result := RUnpack [] None px_broken (fun _ => mkRun true [] 9).
Definition px_between : list event := [EThread 1; ECheck false] ++ px_job 1 (RPar PNotNeeded true).
Example C144_example :
  match steps 20 (px_opts ppBalanced) px_start px_first with
  | Some (t0, _) =>
    deletions_ok 20 (px_opts ppBalanced) px_start px_first = true /\
    match step 20 (px_opts ppBalanced) t0 (EDone 1 px_fail) with
    | Some (t1, _) =>
      option_map (fun d => option_map (fun p => (p_request p, p_tried p, p_repaired p)) (d_post d)) (find_dl 1 (q_list t1)) =
        Some (Some (true, true, false)) /\
      Forall (quiet 1) px_between /\ deletions_ok 20 (px_opts ppBalanced) t1 px_between = true /\
      match steps 20 (px_opts ppBalanced) t1 px_between with
      | Some (t, _) =>
        match find_dl 1 (q_list t) with
        | Some d2 => d_par d2 = psSuccess /\
                     option_map d_unpack (job_done (px_opts ppBalanced) (RUnpack [] None px_broken (fun _ => px_run)) d2) = Some usFailure
        | None => False
        end
      | None => False
      end
    | None => False
    end
  | None => False
  end.
Proof.
  cbv beta iota zeta delta [px_first px_fail px_between]. vm_compute. repeat (split; [reflexivity|]).
  split; [repeat constructor; discriminate|]. repeat split.
Qed.
