(** C35, C36, C61-C63, C67: volume statistics, quota, speed. *)
From Verif Require Import Base CalendarSpec VolumeModel VolumeSpec VolumeProofs VolumeProofs2 VolumeProofs3
  VolumeProofs4 SpeedProofs.

(** ** C35 *)

(** Whatever the clock does between 1970 and 2038 (forwards, backwards), every report
    stays within the arrays and the total is the sum of the reported bytes. *)
Theorem C35_total : forall off r, clock_ok off r ->
  exists v, add_all off r new_volume = Some v /\
    length (v_sec v) = 60%nat /\ length (v_min v) = 60%nat /\ length (v_hour v) = 24%nat /\
    v_total v = bytes_when (fun _ => true) r.
Proof.
  intros off r C. destruct (add_all_total off r new_volume new_rings ltac:(cbn; lia) C) as (v & E & (R1 & R2 & R3) & _ & T).
  exists v. auto.
Qed.
Print Assumptions C35_total.

(** The volume of each day is the bytes reported on that day, if no report comes from a
    day before that of the first report. Missing for the full claim: the clock set back
    to an earlier day, and times outside 2012-12-31 to 2033-01-14; both are refuted below. *)
Theorem C35_days_partial : forall off t0 b0 r, clock_ok off ((t0, b0) :: r) ->
  Forall (fun x => in_days (day_of off (fst x)) = true /\ day_of off t0 <= day_of off (fst x)) ((t0, b0) :: r) ->
  exists v, add_all off ((t0, b0) :: r) new_volume = Some v /\
    forall k, day_volume v k = bytes_when (fun t => day_of off t =? k) ((t0, b0) :: r).
Proof.
  intros off t0 b0 r C H. destruct (days_all off t0 b0 r C H) as (v & E & _ & D). exists v. auto.
Qed.
Print Assumptions C35_days_partial.

Example C35_nonvacuous :
  let r := [(1700000000, 5); (1700090000, 7); (1699990000, 11); (1700090001, 2)] in
  clock_ok 3600 r /\
  Forall (fun x => in_days (day_of 3600 (fst x)) = true /\ day_of 3600 1700000000 <= day_of 3600 (fst x)) r /\
  exists v, add_all 3600 r new_volume = Some v /\ v_total v = 25 /\ day_volume v 19675 = 16 /\ day_volume v 19677 = 9 /\
            day_volume v 19676 = 0.
Proof.
  cbv zeta. split; [repeat constructor; cbn; lia|]. split; [repeat constructor; vm_compute; congruence|].
  eexists. split; [vm_compute; reflexivity|]. vm_compute. auto.
Qed.

(** A report from a day before the first recorded one gives the bytes of the old first
    day to the new one. *)
Theorem C35_days_refuted : exists off r v k, clock_ok off r /\
  Forall (fun x => in_days (day_of off (fst x)) = true) r /\
  add_all off r new_volume = Some v /\
  day_volume v k <> bytes_when (fun t => day_of off t =? k) r.
Proof.
  exists 0, [(86400 * 20000, 5); (86400 * 19990, 7)]. eexists. exists 19990.
  split; [repeat constructor; cbn; lia|]. split; [repeat constructor|].
  split; [vm_compute; reflexivity|]. vm_compute. discriminate.
Qed.
Print Assumptions C35_days_refuted.

(** From 2038-01-19 on the slot number is negative: an access outside the arrays. *)
Theorem C35_clock_refuted : exists t b, 0 < t /\ add_data t 0 b new_volume = None.
Proof. exists 2147483648, 1. split; [lia|reflexivity]. Qed.
Print Assumptions C35_clock_refuted.

(** ** C61 *)

(** With a clock that does not run backwards, the seconds ring always holds the volumes
    of the last 60 seconds; the minutes ring those of the last 60 minutes if no two
    consecutive reports are between a minute and an hour apart; the hours ring those of
    the last 24 hours if none are between an hour and a day apart. *)
Theorem C61_rings_partial : forall off r, increasing 86400 r -> clock_ok off r ->
  exists v, add_all off r new_volume = Some v /\
    ring_ok 60 1 off (v_sec v) (last_time 0 r) r /\
    (spaced 60 3600 0 r -> ring_ok 60 60 off (v_min v) (last_time 0 r) r) /\
    (spaced 3600 86400 0 r -> ring_ok 24 3600 off (v_hour v) (last_time 0 r) r).
Proof.
  intros off r Hi C. destruct (vol_new off r Hi C) as (v & E & K). exists v. split; auto.
  split; [exact (vo_sec _ _ _ _ _ _ K)|]. split; [exact (vo_min _ _ _ _ _ _ K)|exact (vo_hour _ _ _ _ _ _ K)].
Qed.
Print Assumptions C61_rings_partial.

Example C61_nonvacuous :
  let r := [(1700002700, 3); (1700002759, 4); (1700002765, 5); (1700090000, 6)] in
  increasing 86400 r /\ clock_ok 0 r /\ spaced 60 3600 0 r /\ spaced 3600 86400 0 r /\
  exists v, add_all 0 r new_volume = Some v /\ nth 20 (v_sec v) 0 = 6 /\ zsum (v_min v) = 6 /\ v_total v = 18.
Proof.
  cbv zeta. split; [cbn; lia|]. split; [repeat constructor; cbn; lia|]. split; [cbn; lia|]. split; [cbn; lia|].
  eexists. split; [vm_compute; reflexivity|]. vm_compute. auto.
Qed.

(** Reports 61 seconds apart can jump over a minute whose slot is then not cleared: it
    still counts bytes of an hour ago. *)
Theorem C61_minutes_refuted : exists off r v, increasing 86400 r /\ clock_ok off r /\
  add_all off r new_volume = Some v /\ ~ ring_ok 60 60 off (v_min v) (last_time 0 r) r.
Proof.
  exists 0, [(1700002800 + 90, 500); (1700002800 + 3659, 1); (1700002800 + 3720, 1)]. eexists.
  split; [cbn; lia|]. split; [repeat constructor; cbn; lia|]. split; [vm_compute; reflexivity|].
  intros [_ H]. specialize (H 1 ltac:(lia)). vm_compute in H. discriminate.
Qed.
Print Assumptions C61_minutes_refuted.

(** ** C36 *)

(** For every table of day volumes whose first day is not in the future, the usage is
    the volume of today and the sum of the days from the start of the quota period to
    today. *)
Theorem C36_usage_partial : forall loc start v, 1 <= start <= 31 ->
  5356800 <= loc < 2147483648 * 86400 -> 0 <= v_first v -> v_first v <= loc / 86400 ->
  exists s, 0 <= s <= loc / 86400 /\
    date_after (Z.to_nat s) = quota_start start (date_after (Z.to_nat (loc / 86400))) /\
    calc_quota loc start v =
      Some (sum_back (day_volume v) (loc / 86400) (Z.to_nat (loc / 86400 - s + 1)),
            day_volume v (loc / 86400)).
Proof. exact calc_quota_spec. Qed.
Print Assumptions C36_usage_partial.

(** From the reports: usage of the month and of the day are the bytes reported since the
    start of the period and today. Missing for the full claim: a clock set back to a day
    before the first recorded one, and days from 2033-01-15 on; both are refuted below. *)
Theorem C36_reports_partial : forall off cur start t0 b0 r, 1 <= start <= 31 -> clock_ok off ((t0, b0) :: r) ->
  Forall (fun x => in_days (day_of off (fst x)) = true /\
                   day_of off t0 <= day_of off (fst x) <= day_of off cur) ((t0, b0) :: r) ->
  cur + off < 2147483648 * 86400 ->
  exists v s, add_all off ((t0, b0) :: r) new_volume = Some v /\ 0 <= s /\
    date_after (Z.to_nat s) = quota_start start (date_after (Z.to_nat (day_of off cur))) /\
    calc_quota (cur + off) start v =
      Some (bytes_when (fun t => s <=? day_of off t) ((t0, b0) :: r),
            bytes_when (fun t => day_of off t =? day_of off cur) ((t0, b0) :: r)).
Proof. exact quota_reports. Qed.
Print Assumptions C36_reports_partial.

(** 19417 is 2023-03-01, the 31st day does not exist in February: the period starts on
    the first of March. *)
Example C36_nonvacuous :
  let r := [(86400 * 19414, 5); (86400 * 19417, 7); (86400 * 19419 + 5, 9)] in
  clock_ok 0 r /\
  Forall (fun x => in_days (day_of 0 (fst x)) = true /\
                   day_of 0 (86400 * 19414) <= day_of 0 (fst x) <= day_of 0 (86400 * 19419 + 50)) r /\
  date_after (Z.to_nat 19417) = (2023, 3, 1) /\
  exists v, add_all 0 r new_volume = Some v /\ calc_quota (86400 * 19419 + 50) 31 v = Some (16, 9) /\
            calc_quota (86400 * 19419 + 50) 26 v = Some (21, 9).
Proof.
  cbv zeta. split; [repeat constructor; cbn; lia|]. split; [repeat constructor; vm_compute; congruence|].
  split; [vm_compute; reflexivity|]. eexists. split; [vm_compute; reflexivity|]. vm_compute. auto.
Qed.

(** With the clock before the first recorded day the check always faults
    (std::vector::at throws). *)
Theorem C36_fault : forall loc start v, 0 <= loc < 2147483648 * 86400 ->
  loc / 86400 < v_first v -> calc_quota loc start v = None.
Proof. exact calc_quota_fault. Qed.
Print Assumptions C36_fault.

Theorem C36_fault_refuted : exists r v t, clock_ok 0 r /\ 0 < t < 2147483648 /\
  add_all 0 r new_volume = Some v /\ calc_quota t 1 v = None.
Proof.
  exists [(86400 * 20000, 5)]. eexists. exists (86400 * 19999). split; [repeat constructor; cbn; lia|].
  split; [lia|]. split; vm_compute; reflexivity.
Qed.
Print Assumptions C36_fault_refuted.

(** From 2033-01-15 on nothing is recorded, the usage is always zero. *)
Theorem C36_late_refuted : exists t b v, 0 < t < 2147483648 /\ 0 < b /\
  add_data t 0 b new_volume = Some v /\ calc_quota t 1 v = Some (0, 0).
Proof. exists (86400 * 23025), 5. eexists. split; [lia|]. split; [lia|]. split; vm_compute; reflexivity. Qed.
Print Assumptions C36_late_refuted.

(** ** C62 *)

(** Quota periods follow each other without gap or overlap: the next day belongs to the
    same period or starts a new one; and a period starts on or before its days and is no
    longer than 62 days. *)
Theorem C62_periods : forall start x, 1 <= start <= 31 -> valid x -> 1970 <= fst (fst x) ->
  (quota_start start (next_day x) = quota_start start x \/ quota_start start (next_day x) = next_day x) /\
  valid (quota_start start x) /\
  CalendarProofs.day_num x - 61 <= CalendarProofs.day_num (quota_start start x) <= CalendarProofs.day_num x.
Proof.
  intros start x H V Y. split; [exact (quota_tile start x H V)|]. apply quota_start_valid; auto. lia.
Qed.
Print Assumptions C62_periods.

Example C62_nonvacuous : valid (2024, 2, 29) /\ quota_start 30 (2024, 2, 29) = (2024, 1, 30) /\
  quota_start 30 (2024, 3, 1) = (2024, 3, 1) /\ next_day (2024, 2, 29) = (2024, 3, 1).
Proof. split; [cbn; lia|]. repeat split; reflexivity. Qed.

(** ** C63 *)

(** With a clock that does not run backwards the speed meter holds exactly the volume of
    the (at most) 30 latest seconds with a reading; the momentary speed is the volume of
    the current second; the session total is the sum of all readings. *)
Theorem C63_speed_partial : forall c0 all0 r, 0 < c0 < 2147483648 -> increasing c0 r ->
  Forall (fun x => fst x < 2147483648) r ->
  exists m, speed_all r (reset_speed c0 all0) = Some m /\
    sm_total m = bytes_when (fun t => existsb (Z.eqb t) (window c0 r)) r /\
    sm_all m = all0 + bytes_when (fun _ => true) r /\
    (forall t, last_time c0 r <= t -> momentary_speed t m = bytes_when (Z.eqb t) r) /\
    (forall t, last_time c0 r <= t < 2147483648 -> Forall (fun x => 0 <= snd x) r ->
       0 <= current_speed t m <= sm_total m).
Proof.
  intros c0 all0 r Hc Hi Hr. destruct (sp_all_ok r c0 all0 ltac:(lia) Hi Hr ltac:(lia)) as (m & E & K).
  exists m. split; auto. split; [exact (speed_total r c0 all0 m K)|]. split; [apply K|].
  split; [intros t Ht; exact (momentary_past c0 all0 r m t K Hi Ht)|].
  intros t Ht F. pose proof (sp_start _ _ _ _ K).
  assert (0 <= sm_total m) by (rewrite (speed_total r c0 all0 m K); now apply bytes_when_nonneg).
  assert (c0 <= last_time c0 r) by (apply last_max; auto; now left).
  unfold current_speed. rewrite to_int_id by lia.
  destruct (t - sm_start m =? 0) eqn:Q; [lia|]. rewrite Z.quot_div_nonneg by lia. split.
  - apply Z.div_pos; lia.
  - apply Z.div_le_upper_bound; nia.
Qed.
Print Assumptions C63_speed_partial.

Example C63_nonvacuous :
  let r := [(1000, 50); (1001, 10); (1001, 5); (1010, 35)] in
  increasing 1000 r /\
  exists m, speed_all r (reset_speed 1000 0) = Some m /\ sm_total m = 100 /\ current_speed 1020 m = 5 /\
            momentary_speed 1010 m = 35 /\ momentary_speed 1011 m = 0.
Proof.
  cbv zeta. split; [cbn; lia|]. eexists. split; [vm_compute; reflexivity|]. vm_compute. auto.
Qed.

(** After the clock was set back the speed shown is negative. *)
Theorem C63_backwards_refuted : exists m t, speed_all [(1000, 500)] (reset_speed 1000 0) = Some m /\
  0 < t < 1000 /\ current_speed t m < 0.
Proof. eexists. exists 990. split; [vm_compute; reflexivity|]. split; [lia|reflexivity]. Qed.
Print Assumptions C63_backwards_refuted.

(** ** C67 *)

(** For every history of reports, the total of each server is the sum of its reports and
    the entry for all servers the sum of all reports. *)
Theorem C67_servers : forall off n ops,
  Forall (fun x : Z * Z * nat => 0 <= fst (fst x) < 2147483648 /\ 0 <= fst (fst x) + off < 2147483648 /\
                  (1 <= snd x < n)%nat) ops ->
  exists l, server_all off ops (repeat new_volume n) = Some l /\ length l = n /\
    forall j, (j < n)%nat -> v_total (nth j l new_volume) = bytes_for j ops.
Proof.
  intros off n ops H. destruct (server_all_ok off ops (repeat new_volume n)) as (l & E & L & K).
  - apply Forall_forall. intros x Hx. apply repeat_spec in Hx. subst x. split; [apply new_rings|cbn; lia].
  - now rewrite repeat_length.
  - rewrite repeat_length in *. exists l. split; auto. split; auto. intros j Hj. rewrite K by auto.
    rewrite nth_repeat. reflexivity.
Qed.
Print Assumptions C67_servers.

Example C67_nonvacuous : exists l,
  server_all 0 [(1700000000, 5, 1%nat); (1700000001, 0, 2%nat); (1699990000, 9, 2%nat)] (repeat new_volume 3) = Some l /\
  map v_total l = [14; 5; 9].
Proof. eexists. split; vm_compute; reflexivity. Qed.
