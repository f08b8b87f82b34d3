(** C37, C38, C64-C66: scheduler and message log. *)
From Coq Require Import Sorted.
From Verif Require Import Base VolumeModel SchedModel SchedSpec SchedProofs SchedProofs2 LogModel LogSpec LogProofs.

(** ** C37 *)

(** What the due times are: every wanted day at the time of day of the task, each once. *)
Theorem C37_due_times : forall k a b t, timed k ->
  (In t (due_in k a b) <-> exists d, 0 <= d /\ t = 86400 * d + 3600 * k_hours k + 60 * k_min k /\
                             wanted (k_bits k) d = true /\ a < t <= b) /\
  StronglySorted Z.lt (due_in k a b).
Proof. intros k a b t T. split; [exact (due_in_iff k a b t T)|exact (due_sorted k a b)]. Qed.
Print Assumptions C37_due_times.

(** For every series of checks at most 90 minutes apart, each task with a time of day is
    executed exactly at its due times since the check before the series, in order, each
    once, and its command is carried out. [k_last k = 0]: a task not executed before. *)
Theorem C37_once_partial : forall cs off s, 691200 <= s_last s + off -> steady (s_last s) cs ->
  Forall (fun k => k_last k = 0) (s_tasks s) ->
  exists s' es, service_all off cs s = Some (s', es) /\ length es = length cs /\
  forall j k, nth_error (s_tasks s) j = Some k -> timed k ->
    times_of j (concat es) = due_in k (s_last s + off) (last cs (s_last s) + off) /\
    (forall y, In y (concat es) -> e_task y = j -> e_done y = true).
Proof.
  intros cs off s H St F.
  assert (Fi : fits off s).
  { intros j k Hk _. left. rewrite Forall_forall in F. apply F. eapply nth_error_In. exact Hk. }
  destruct (service_ok cs off s H St Fi) as (s' & es & E & _ & _ & L & T & _). eauto 6.
Qed.
Print Assumptions C37_once_partial.

(** The same in any state reached by checks: [fits] holds of new tasks and after every
    check, and is all that is needed. *)
Theorem C37_states : forall cs off s, 691200 <= s_last s + off -> steady (s_last s) cs -> fits off s ->
  exists s' es, service_all off cs s = Some (s', es) /\ fits off s' /\
  forall j k, nth_error (s_tasks s) j = Some k -> timed k ->
    times_of j (concat es) = due_in k (s_last s + off) (last cs (s_last s) + off).
Proof.
  intros cs off s H St F. destruct (service_ok cs off s H St F) as (s' & es & E & _ & F' & _ & T & _).
  exists s', es. split; auto. split; auto. intros j k Hk Tk. now apply T.
Qed.
Print Assumptions C37_states.

(** A startup task is executed once, at the first check. *)
Theorem C37_startup : forall cs off s j k, 691200 <= s_last s + off -> steady (s_last s) cs -> fits off s ->
  nth_error (s_tasks s) j = Some k -> k_hours k = -1 -> k_last k = 0 -> cs <> [] ->
  exists s' es, service_all off cs s = Some (s', es) /\ length (times_of j (concat es)) = 1%nat.
Proof.
  intros cs off s j k H St F Hk Hh Hl Hc.
  destruct (service_ok cs off s H St F) as (s' & es & E & _ & _ & _ & _ & U). exists s', es. split; auto.
  rewrite (U j k Hk Hh Hc), Hl. reflexivity.
Qed.
Print Assumptions C37_startup.

(** 1700000000 is Tuesday 2023-11-14, 22:13:20. *)
Example C37_nonvacuous :
  let k := mkTask 22 15 2 true 0 in
  let s := mkS 1700000000 [k; mkTask (-1) 0 0 true 0; mkTask 22 15 5 false 0] false in
  let cs := [1700000040; 1700000100; 1700000160; 1700005000] in
  steady (s_last s) cs /\ timed k /\ Forall (fun k => k_last k = 0) (s_tasks s) /\
  exists s' es, service_all 0 cs s = Some (s', es) /\ times_of 0 (concat es) = [1700000100] /\
                map (map e_task) es = [[1%nat]; [0%nat]; []; []].
Proof.
  cbv zeta. split; [cbn; lia|]. split; [unfold timed; cbn; lia|]. split; [repeat constructor|].
  eexists. eexists. split; [vm_compute; reflexivity|]. vm_compute. auto.
Qed.

(** When the local time offset changes between two checks (end of daylight saving time),
    a daily task is executed twice for one date and time of day. *)
Theorem C37_zone_refuted : exists s off1 off2 c1 c2 s1 e1 s2 e2 t,
  c1 < c2 <= c1 + 5400 /\
  service_work off1 c1 s = Some (s1, e1) /\ service_work off2 c2 s1 = Some (s2, e2) /\
  times_of 0 e1 = [t] /\ times_of 0 e2 = [t].
Proof.
  exists (mkS 1700000000 [mkTask 22 15 0 false 0] false), 0, (-3600), 1700000100, 1700003701.
  do 5 eexists. split; [lia|]. split; [vm_compute; reflexivity|]. split; [vm_compute; reflexivity|].
  split; vm_compute; reflexivity.
Qed.
Print Assumptions C37_zone_refuted.

(** ** C64 *)

(** After a start, and when the clock was set back or forward by more than 90 minutes,
    the tasks of the last week are executed again: each at all its due times of the week,
    and no process is started or feed fetched. *)
Theorem C64_replay : forall off cur s, 691200 <= cur + off ->
  5400 < cur - s_last s \/ cur < s_last s ->
  exists s' e, check_tasks off cur s = Some (s', e) /\
  forall j k, nth_error (s_tasks s) j = Some k -> timed k ->
    times_of j e = due_in k (cur - 604800 + off) (cur + off) /\
    (forall y, In y e -> e_task y = j -> e_done y = negb (k_proc k)).
Proof.
  intros off cur s H J. pose proof (check_ok off cur s H) as C. cbv zeta in C.
  replace ((5400 <? cur - s_last s) || (cur - s_last s <? 0)) with true in C by lia.
  destruct C as (s' & e & E & _ & _ & _ & _ & T & _); [discriminate|]. exists s', e. split; auto.
  intros j k Hk Tk. destruct (T j k Hk Tk) as (T1 & T2 & _). split; auto.
  intros y Hy Ey. rewrite (T2 y Hy Ey). unfold executed. destruct Tk as [T3 T4].
  replace (k_hours k =? -1) with false by lia. cbn [orb]. now rewrite orb_false_r.
Qed.
Print Assumptions C64_replay.

(** With the task list sorted by time of day, as FirstCheck leaves it, the tasks are
    executed in chronological order, so the latest command has the last word. *)
Theorem C64_order : forall off cur s s' e, 691200 <= cur + off ->
  StronglySorted earlier (s_tasks s) -> Forall clock_time (s_tasks s) ->
  check_tasks off cur s = Some (s', e) ->
  StronglySorted Z.le (map e_time (filter (clocked (hour_at (s_tasks s))) e)).
Proof. exact check_order. Qed.
Print Assumptions C64_order.

Example C64_nonvacuous :
  let s := mkS 0 [mkTask (-1) 0 0 true 0; mkTask 6 0 0 false 0; mkTask 22 30 64 true 0; mkTask 23 0 64 false 0] false in
  StronglySorted earlier (s_tasks s) /\ Forall clock_time (s_tasks s) /\
  exists s' e, check_tasks 0 1700000000 s = Some (s', e) /\
    map (fun y => (e_task y, e_done y)) e =
      [(0, true); (1, true); (1, true); (1, true); (1, true); (1, true); (2, false); (3, true); (1, true); (1, true)]%nat.
Proof.
  cbv zeta. split; [cbn [s_tasks]; repeat constructor; unfold earlier, tod; cbn; lia|].
  split; [cbn [s_tasks]; repeat constructor; unfold clock_time; cbn; lia|].
  eexists. eexists. split; [vm_compute; reflexivity|]. vm_compute. auto.
Qed.

(** ** C65 *)

(** The next check is planned for the next full minute. *)
Theorem C65_wakeup : forall cur, 0 <= cur -> 1 <= next_work cur <= 60 /\ (cur + next_work cur) mod 60 = 0.
Proof. exact next_work_ok. Qed.
Print Assumptions C65_wakeup.

Example C65_nonvacuous : next_work 1703980799 = 1 /\ next_work 1703980800 = 60.
Proof. vm_compute. auto. Qed.

(** ** C38 *)

(** Once the options are read, after every series of messages the log holds exactly the
    newest ones, at most as many as configured, in order. *)
Theorem C38_newest_partial : forall limit ms s, 0 <= limit < 4294967296 -> l_init s = true -> ms <> [] ->
  let s' := log_run limit (map (fun x => LAdd (fst x) (snd x)) ms) s in
  map content (l_msgs s') = newest limit (map content (l_msgs s) ++ map shown ms) /\
  Z.of_nat (length (l_msgs s')) <= limit.
Proof.
  intros limit ms s H Hi Hm s'. unfold s'. rewrite add_all_run.
  destruct (add_all_ok limit ms s H Hi Hm) as [A _]. split; auto.
  rewrite <- (map_length content), A, newest_length by lia. lia.
Qed.
Print Assumptions C38_newest_partial.

(** For every history of messages, clearing and setting up (fewer than 2^32 of them) the
    identifiers in the log strictly increase. *)
Theorem C38_ids : forall limit ops, Z.of_nat (length ops) < 4294967296 ->
  ids_increase 0 (l_msgs (log_run limit ops new_log)).
Proof.
  intros limit ops H. destruct (ids_run limit ops new_log ids_new) as [(i & Hi & C) _].
  { cbn [new_log l_gen]. lia. }
  apply consec_increase in C. destruct (l_msgs _) as [|m l]; cbn [ids_increase] in *; auto. split; [lia|tauto].
Qed.
Print Assumptions C38_ids.

Example C38_nonvacuous :
  let s := log_run 2 [LInit (fun _ => true); LAdd 0 [65]; LAdd 1 [66]; LAdd 2 [67]] new_log in
  l_init s = true /\ map content (l_msgs s) = [(1, [66]); (2, [67])] /\ map g_id (l_msgs s) = [2; 3] /\ 0 <= 2 < 4294967296.
Proof. vm_compute. intuition discriminate. Qed.

(** Before the next message the log can exceed the limit: messages from before the
    options are read are not trimmed. *)
Theorem C38_startup_refuted : exists limit ops, 0 <= limit /\
  limit < Z.of_nat (length (l_msgs (log_run limit ops new_log))) /\
  l_init (log_run limit ops new_log) = true.
Proof. exists 1, [LAdd 0 [65]; LAdd 0 [66]; LInit (fun _ => true)]. vm_compute. intuition discriminate. Qed.
Print Assumptions C38_startup_refuted.

(** Reading the options gives known messages new, smaller identifiers. *)
Theorem C38_renumber_refuted : exists limit ops keep, let s := log_run limit ops new_log in
  exists m m', In m (l_msgs s) /\ In m' (l_msgs (init_options keep s)) /\ content m = content m' /\
    map content (l_msgs s) = [(0, [65]); content m] /\ g_id m' < g_id m.
Proof.
  exists 10, [LAdd 0 [65]; LAdd 1 [66]], (fun k => k =? 1). cbv zeta.
  exists (mkMsg 2 1 [66]), (mkMsg 1 1 [66]). vm_compute. intuition.
Qed.
Print Assumptions C38_renumber_refuted.

(** ** C66 *)

(** In every state reached by fewer than 2^31 operations, the call log(IDFrom, 0) returns
    exactly the messages with that or a larger identifier; a client that asks for the
    identifier after the last one it saw gets each message once. *)
Theorem C66_from : forall limit ops n e, Z.of_nat (length ops) < 2147483648 -> 0 < n < 2147483648 -> e <= 0 ->
  let l := l_msgs (log_run limit ops new_log) in
  log_call n e l = Some (filter (fun m => n <=? g_id m) l).
Proof.
  intros limit ops n e H Hn He l. destruct (ids_run limit ops new_log ids_new) as [A B].
  { cbn [new_log l_gen]. lia. }
  apply log_from; auto. cbn [new_log l_gen] in B. lia.
Qed.
Print Assumptions C66_from.

(** log(0, N) returns the N newest messages. *)
Theorem C66_newest : forall l n i, Z.of_nat (length l) < 4294967296 -> 0 < n -> i <= 0 ->
  log_call i n l = Some (newest n l).
Proof. exact log_newest. Qed.
Print Assumptions C66_newest.

Example C66_nonvacuous :
  let l := l_msgs (log_run 2 [LInit (fun _ => true); LAdd 0 [65]; LAdd 1 [66]; LAdd 2 [67]] new_log) in
  log_call 3 0 l = Some [mkMsg 3 2 [67]] /\ log_call 0 5 l = Some l /\ log_call 1 0 l = Some l /\ log_call 2 1 l = None.
Proof. vm_compute. auto. Qed.
