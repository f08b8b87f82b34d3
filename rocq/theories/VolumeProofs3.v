From Verif Require Import Base CalendarModel CalendarSpec CalendarProofs VolumeModel VolumeSpec VolumeProofs VolumeProofs2.

(** ** Dates and day numbers *)

Lemma date_after_num : forall n, day_num (date_after n) = Z.of_nat n.
Proof.
  intro n. pose proof (date_after_timegm n 0 0 0) as H. pose proof (date_after_valid n) as V.
  destruct (date_after n) as [[y m] d]. rewrite timegm_valid in H by (unfold valid in V; lia). lia.
Qed.

Lemma day_num_inj : forall a b, valid a -> valid b -> day_num a = day_num b -> a = b.
Proof.
  intros a b Va Vb E. apply (timegm_inj a b 0 0 0 0 0 0); auto; try lia.
  destruct a as [[y m] d], b as [[y' m'] d']. rewrite !timegm_valid by (unfold valid in *; lia). lia.
Qed.

Lemma date_after_of_num : forall x, valid x -> 0 <= day_num x -> date_after (Z.to_nat (day_num x)) = x.
Proof.
  intros x V H. apply day_num_inj; auto using date_after_valid. rewrite date_after_num. lia.
Qed.

Lemma day_num_lin : forall y m d, day_num (y, m, d) = day_num (y, m, 1) + (d - 1).
Proof. intros. unfold day_num. rewrite (day_lin y m d). lia. Qed.

Lemma month_after : forall y m, 1 <= y -> 1 <= m <= 12 ->
  day_num (if m =? 12 then (y + 1, 1, 1) else (y, m + 1, 1)) = day_num (y, m, 1) + month_len y m.
Proof.
  intros y m Hy Hm. destruct (m =? 12) eqn:E.
  - replace m with 12 by lia. unfold day_num. rewrite jan_1, year_step by lia.
    pose proof (dec_31 y Hy). change (month_len y 12) with 31. lia.
  - unfold day_num. rewrite month_step by lia. lia.
Qed.

Lemma gmdate_valid : forall t, valid (gmdate t).
Proof. intro. apply date_after_valid. Qed.

(** ** The quota period *)

Lemma quota_start_valid : forall start x, 1 <= start <= 31 -> valid x -> 1969 < fst (fst x) ->
  valid (quota_start start x) /\ day_num x - 61 <= day_num (quota_start start x) <= day_num x.
Proof.
  intros start [[y m] d] Hs V Hy. cbn [fst] in Hy. unfold valid in V. destruct V as (V1 & V2 & V3).
  assert (ML := month_len_pos y m).
  unfold quota_start. destruct (start <=? d) eqn:E.
  - split; [unfold valid; lia|]. rewrite (day_num_lin y m d), (day_num_lin y m start). lia.
  - unfold prev_month. destruct (m =? 1) eqn:Em.
    + assert (m = 1) by lia. subst m. assert (MP := month_len_pos (y - 1) 12).
      destruct (start <=? month_len (y - 1) 12) eqn:F.
      * split; [unfold valid; lia|].
        pose proof (month_after (y - 1) 12 ltac:(lia) ltac:(lia)) as A. change (12 =? 12) with true in A. cbn [snd] in A. cbv iota in A.
        replace (y - 1 + 1) with y in A by lia.
        rewrite (day_num_lin y 1 d), (day_num_lin (y - 1) 12 start). lia.
      * split; [unfold valid; lia|]. rewrite (day_num_lin y 1 d). lia.
    + assert (MP := month_len_pos y (m - 1)).
      destruct (start <=? month_len y (m - 1)) eqn:F.
      * split; [unfold valid; lia|].
        pose proof (month_after y (m - 1) ltac:(lia) ltac:(lia)) as A.
        replace (m - 1 =? 12) with false in A by lia.
        replace (m - 1 + 1) with m in A by lia.
        rewrite (day_num_lin y m d), (day_num_lin y (m - 1) start). lia.
      * split; [unfold valid; lia|]. rewrite (day_num_lin y m d). lia.
Qed.

Lemma timegm_prev : forall y m st h mi s, 1 <= m <= 12 ->
  timegm (mkTm (y - 1900) (m - 1 - 1) st h mi s) =
  86400 * (day_num (fst (prev_month y m), snd (prev_month y m), 1) + (st - 1)) + 3600 * h + 60 * mi + s.
Proof.
  intros y m st h mi s Hm. unfold prev_month. destruct (m =? 1) eqn:E; cbn [fst snd].
  - replace (m - 1 - 1) with (-1) by lia. rewrite timegm_month_carry.
    change (-1 / 12) with (-1). change (-1 mod 12) with 11.
    pose proof (timegm_valid (y - 1) 12 st h mi s ltac:(lia)) as T. unfold tm_of in T.
    replace (y - 1 - 1900) with (y - 1900 + -1) in T by lia. change (12 - 1) with 11 in T.
    rewrite T, <- (day_num_lin (y - 1) 12 st). reflexivity.
  - pose proof (timegm_valid y (m - 1) st h mi s ltac:(lia)) as T. unfold tm_of in T.
    rewrite T, <- (day_num_lin y (m - 1) st). reflexivity.
Qed.

Lemma gm_mday : forall k tod, 0 <= k -> 0 <= tod < 86400 ->
  tm_mday (gmtm (86400 * k + tod)) = snd (date_after (Z.to_nat k)).
Proof.
  intros k tod Hk Ht. unfold gmtm, gmdate.
  replace ((86400 * k + tod) / 86400) with k by lia.
  destruct (date_after (Z.to_nat k)) as [[y m] d]. reflexivity.
Qed.

Lemma month_slots : forall loc start, 1 <= start <= 31 -> 5356800 <= loc ->
  exists s, 0 <= s <= loc / 86400 /\
    date_after (Z.to_nat s) = quota_start start (gmdate loc) /\
    calc_month_slots loc start = loc / 86400 - s + 1.
Proof.
  intros loc start Hs Hloc. set (n := loc / 86400).
  assert (Hn : 62 <= n) by (unfold n; lia).
  pose proof (gmdate_valid loc) as V.
  assert (Dn : day_num (gmdate loc) = n) by (unfold gmdate; rewrite date_after_num; fold n; lia).
  assert (Hy : 1969 < fst (fst (gmdate loc))).
  { destruct (gmdate loc) as [[y m] d] eqn:Eg. cbn [fst]. unfold valid in V.
    destruct (Z.le_gt_cases y 1969) as [L|]; [|lia].
    assert (day_num (y, m, d) < day_num (1970, 1, 1)).
    { apply day_num_mono; [unfold valid; lia|unfold valid; vm_compute; intuition discriminate|].
      unfold date_lt. lia. }
    change (day_num (1970, 1, 1)) with 0 in H. lia. }
  destruct (quota_start_valid start (gmdate loc) Hs V Hy) as [QV QD].
  exists (day_num (quota_start start (gmdate loc))).
  split; [lia|]. split; [apply date_after_of_num; auto; lia|].
  unfold valid in V. destruct (gmdate loc) as [[y m] d] eqn:Eg.
  assert (EG : gmtm loc = mkTm (y - 1900) (m - 1) d (loc mod 86400 / 3600) (loc mod 3600 / 60) (loc mod 60))
    by (unfold gmtm; rewrite Eg; reflexivity).
  unfold calc_month_slots. rewrite EG. cbv zeta.
  cbn [tm_mday tm_mon tm_year tm_hour tm_min tm_sec with_mon_day].
  assert (ML := month_len_pos y m).
  destruct V as (V1 & V2 & V3). cbn [fst] in Hy.
  unfold quota_start in *. replace (d <? start) with (negb (start <=? d)) by lia.
  destruct (start <=? d) eqn:E; cbn [negb].
  - rewrite (day_num_lin y m d) in Dn. rewrite (day_num_lin y m start). lia.
  - unfold with_mon_day at 1 2. cbn [tm_year tm_hour tm_min tm_sec].
    set (tod := loc mod 86400).
    assert (Htod : 3600 * (tod / 3600) + 60 * (loc mod 3600 / 60) + loc mod 60 = tod) by (unfold tod; lia).
    assert (HL : loc = 86400 * n + tod) by (unfold n, tod; lia).
    assert (Ht : 0 <= tod < 86400) by (unfold tod; lia).
    rewrite timegm_prev by lia.
    replace (86400 * (day_num (fst (prev_month y m), snd (prev_month y m), 1) + (start - 1)) +
             3600 * (tod / 3600) + 60 * (loc mod 3600 / 60) + loc mod 60)
      with (86400 * (day_num (fst (prev_month y m), snd (prev_month y m), 1) + (start - 1)) + tod) by lia.
    assert (Pm : exists py pm, prev_month y m = (py, pm) /\ 1 <= py /\ 1 <= pm <= 12 /\
              day_num (y, m, 1) = day_num (py, pm, 1) + month_len py pm).
    { unfold prev_month. destruct (m =? 1) eqn:Em.
      - exists (y - 1), 12. repeat split; try lia.
        pose proof (month_after (y - 1) 12 ltac:(lia) ltac:(lia)) as A. change (12 =? 12) with true in A. cbn [snd] in A. cbv iota in A.
        replace (y - 1 + 1) with y in A by lia. replace m with 1 by lia. exact A.
      - exists y, (m - 1). repeat split; try lia.
        pose proof (month_after y (m - 1) ltac:(lia) ltac:(lia)) as A.
        replace (m - 1 =? 12) with false in A by lia. now replace (m - 1 + 1) with m in A by lia. }
    destruct Pm as (py & pm & EP & P1 & P2 & P3). rewrite EP in *. cbn [fst snd].
    assert (MP := month_len_pos py pm).
    set (D1 := day_num (py, pm, 1)) in *.
    rewrite (day_num_lin y m d) in Dn.
    rewrite gm_mday by lia.
    destruct (start <=? month_len py pm) eqn:F.
    + assert (Ed : date_after (Z.to_nat (D1 + (start - 1))) = (py, pm, start)).
      { unfold D1. rewrite <- day_num_lin. apply date_after_of_num; [unfold valid; lia|].
        rewrite day_num_lin. fold D1. lia. }
      rewrite Ed. cbn [snd]. rewrite Z.eqb_refl.
      rewrite to_int_id by lia. rewrite !Z.quot_div_nonneg by lia.
      rewrite (day_num_lin py pm start). fold D1. lia.
    + assert (Ed : date_after (Z.to_nat (D1 + (start - 1))) = (y, m, start - month_len py pm)).
      { replace (D1 + (start - 1)) with (day_num (y, m, start - month_len py pm))
          by (rewrite day_num_lin; lia).
        apply date_after_of_num; [unfold valid; lia|]. rewrite day_num_lin. lia. }
      rewrite Ed. cbn [snd]. replace (start - month_len py pm =? start) with false by lia.
      unfold with_mon_day. cbn [tm_year tm_mon tm_hour tm_min tm_sec].
      pose proof (timegm_valid y m 1 (tod / 3600) (loc mod 3600 / 60) (loc mod 60) ltac:(lia)) as T.
      unfold tm_of in T. replace (m - 1 - 1 + 1) with (m - 1) by lia. rewrite T.
      replace (86400 * day_num (y, m, 1) + 3600 * (tod / 3600) + 60 * (loc mod 3600 / 60) + loc mod 60)
        with (86400 * day_num (y, m, 1) + tod) by lia.
      rewrite to_int_id by lia. rewrite !Z.quot_div_nonneg by lia. lia.
Qed.

(** Periods follow each other without gap or overlap. *)
Lemma quota_tile : forall start x, 1 <= start <= 31 -> valid x ->
  quota_start start (next_day x) = quota_start start x \/ quota_start start (next_day x) = next_day x.
Proof.
  intros start [[y m] d] Hs (V1 & V2 & V3). assert (ML := month_len_pos y m).
  unfold next_day. destruct (d <? month_len y m) eqn:E.
  - unfold quota_start. destruct (start <=? d + 1) eqn:A; destruct (start <=? d) eqn:B; auto; try lia.
    right. repeat f_equal. lia.
  - assert (d = month_len y m) by lia. destruct (m <? 12) eqn:F.
    + unfold quota_start at 1 3. destruct (start <=? 1) eqn:A; [right; repeat f_equal; lia|].
      unfold prev_month. replace (m + 1 =? 1) with false by lia. replace (m + 1 - 1) with m by lia.
      destruct (start <=? month_len y m) eqn:B; auto.
      left. unfold quota_start. now replace (start <=? d) with true by lia.
    + assert (m = 12) by lia. subst m.
      unfold quota_start at 1 3. destruct (start <=? 1) eqn:A; [right; repeat f_equal; lia|].
      unfold prev_month. change (1 =? 1) with true. cbv iota. replace (y + 1 - 1) with y by lia.
      destruct (start <=? month_len y 12) eqn:B; auto.
      left. unfold quota_start. now replace (start <=? d) with true by lia.
Qed.

(** ** Summing the days *)

Definition slot_val (days : list Z) (k : Z) : Z := if k <? 0 then 0 else nth (Z.to_nat k) days 0.

Lemma sum_back_S : forall f k n, sum_back f k (S n) = f k + sum_back f (k - 1) n.
Proof.
  intros f k n. unfold sum_back. cbn [seq map fold_right]. f_equal; [f_equal; lia|].
  rewrite <- seq_shift, map_map. f_equal. apply map_ext. intro i. f_equal. lia.
Qed.

Lemma sum_back_ext : forall f g k n, (forall j, f j = g j) -> sum_back f k n = sum_back g k n.
Proof. intros. unfold sum_back. f_equal. apply map_ext. auto. Qed.

Lemma month_loop_spec : forall n slot e days, -1 <= e -> slot + 1 <= Z.of_nat n ->
  month_loop n slot e days = Some (sum_back (slot_val days) slot (Z.to_nat (slot - e))).
Proof.
  induction n as [|n IH]; intros slot e days He Hn; cbn [month_loop].
  - replace (Z.to_nat (slot - e)) with 0%nat by lia. reflexivity.
  - destruct ((0 <=? slot) && (e <? slot)) eqn:C.
    + replace (Z.to_nat (slot - e)) with (S (Z.to_nat (slot - 1 - e))) by lia.
      rewrite sum_back_S. rewrite IH by lia.
      assert (X : (if slot <? Z.of_nat (length days) then at_ days slot else Some 0) = Some (slot_val days slot)).
      { unfold slot_val. replace (slot <? 0) with false by lia. destruct (slot <? Z.of_nat (length days)) eqn:D.
        - apply at_some. lia.
        - f_equal. symmetry. apply nth_overflow. lia. }
      rewrite X. reflexivity.
    + replace (Z.to_nat (slot - e)) with 0%nat by lia. reflexivity.
Qed.

Lemma sum_back_neg : forall days n k, k < 0 -> sum_back (slot_val days) k n = 0.
Proof.
  induction n as [|n IH]; intros k H; [reflexivity|]. rewrite sum_back_S, IH by lia.
  unfold slot_val. now replace (k <? 0) with true by lia.
Qed.

Lemma sum_back_cut : forall days n m k, (n <= m)%nat -> k + 1 <= Z.of_nat n ->
  sum_back (slot_val days) k n = sum_back (slot_val days) k m.
Proof.
  induction n as [|n IH]; intros m k Hm Hk.
  - rewrite sum_back_neg by lia. now rewrite sum_back_neg by lia.
  - destruct m as [|m]; [lia|]. rewrite !sum_back_S. f_equal. apply IH; lia.
Qed.

Lemma sum_back_shift : forall v n k,
  sum_back (slot_val (v_days v)) (k - v_first v) n = sum_back (day_volume v) k n.
Proof.
  intros v. induction n as [|n IH]; intro k; [reflexivity|]. rewrite !sum_back_S.
  replace (k - v_first v - 1) with (k - 1 - v_first v) by lia. rewrite IH. f_equal.
  unfold slot_val, day_volume. replace (k - v_first v <? 0) with (k <? v_first v) by lia. reflexivity.
Qed.

Lemma calc_quota_spec : forall loc start v, 1 <= start <= 31 ->
  5356800 <= loc < 2147483648 * 86400 -> 0 <= v_first v -> v_first v <= loc / 86400 ->
  exists s, 0 <= s <= loc / 86400 /\
    date_after (Z.to_nat s) = quota_start start (gmdate loc) /\
    calc_quota loc start v =
      Some (sum_back (day_volume v) (loc / 86400) (Z.to_nat (loc / 86400 - s + 1)),
            day_volume v (loc / 86400)).
Proof.
  intros loc start v Hs Hl Hf0 Hf. destruct (month_slots loc start Hs ltac:(lia)) as (s & B & D & E).
  exists s. split; auto. split; auto.
  unfold calc_quota. rewrite E. rewrite Z.quot_div_nonneg by lia.
  set (n := loc / 86400) in *.
  assert (Bn : 0 <= n < 2147483648) by (unfold n; lia). rewrite to_int_id by lia.
  assert (X : (if n - v_first v <? Z.of_nat (length (v_days v)) then at_ (v_days v) (n - v_first v) else Some 0) =
              Some (day_volume v n)).
  { unfold day_volume. replace (n <? v_first v) with false by lia.
    destruct (n - v_first v <? Z.of_nat (length (v_days v))) eqn:G.
    - apply at_some. lia.
    - f_equal. symmetry. apply nth_overflow. lia. }
  rewrite X. cbn [bind]. rewrite month_loop_spec by lia. cbn [bind]. f_equal. f_equal.
  rewrite <- sum_back_shift.
  destruct (Z.le_gt_cases (-1) (n - v_first v - (n - s + 1))).
  - f_equal. lia.
  - apply sum_back_cut; lia.
Qed.

Lemma calc_quota_fault : forall loc start v, 0 <= loc < 2147483648 * 86400 ->
  loc / 86400 < v_first v -> calc_quota loc start v = None.
Proof.
  intros loc start v Hl H. unfold calc_quota. rewrite Z.quot_div_nonneg by lia.
  rewrite to_int_id by lia.
  replace (loc / 86400 - v_first v <? Z.of_nat (length (v_days v))) with true by lia.
  rewrite at_none by lia. reflexivity.
Qed.

(** ** From the reports to the quota *)

Lemma sum_back_reports : forall off r n k,
  sum_back (fun d => bytes_when (fun t => day_of off t =? d) r) k n =
  bytes_when (fun t => (k - Z.of_nat n <? day_of off t) && (day_of off t <=? k)) r.
Proof.
  intros off r n. induction n as [|n IH]; intro k.
  - symmetry. apply bytes_when_none. intros. lia.
  - rewrite sum_back_S, IH. clear IH. induction r as [|[t b] r IHr]; [reflexivity|].
    cbn [bytes_when]. rewrite <- IHr.
    destruct (Z.eqb_spec (day_of off t) k) as [E|E].
    + replace ((k - 1 - Z.of_nat n <? day_of off t) && (day_of off t <=? k - 1)) with false by lia.
      replace ((k - Z.of_nat (S n) <? day_of off t) && (day_of off t <=? k)) with true by lia. lia.
    + replace ((k - Z.of_nat (S n) <? day_of off t) && (day_of off t <=? k)) with
        ((k - 1 - Z.of_nat n <? day_of off t) && (day_of off t <=? k - 1)) by lia. lia.
Qed.

Lemma quota_reports : forall off cur start t0 b0 r, 1 <= start <= 31 -> clock_ok off ((t0, b0) :: r) ->
  Forall (fun x => in_days (day_of off (fst x)) = true /\
                   day_of off t0 <= day_of off (fst x) <= day_of off cur) ((t0, b0) :: r) ->
  cur + off < 2147483648 * 86400 ->
  exists v s, add_all off ((t0, b0) :: r) new_volume = Some v /\ 0 <= s /\
    date_after (Z.to_nat s) = quota_start start (date_after (Z.to_nat (day_of off cur))) /\
    calc_quota (cur + off) start v =
      Some (bytes_when (fun t => s <=? day_of off t) ((t0, b0) :: r),
            bytes_when (fun t => day_of off t =? day_of off cur) ((t0, b0) :: r)).
Proof.
  intros off cur start t0 b0 r Hs C Hd Hc.
  destruct (days_all off t0 b0 r C) as (v & E & F & D).
  { eapply Forall_impl; [|exact Hd]. cbn. intros a Ha. tauto. }
  inversion Hd as [|? ? [D1 D2] D3]; subst. cbn [fst] in *.
  assert (B : 15705 <= day_of off t0) by (unfold in_days in D1; lia).
  unfold day_of in D2 at 3. 
  destruct (calc_quota_spec (cur + off) start v Hs) as (s & S1 & S2 & S3).
  { unfold day_of in *. lia. }
  { lia. }
  { unfold day_of in *. lia. }
  exists v, s. split; auto. split; [lia|]. split; [exact S2|]. rewrite S3. f_equal. f_equal; [|apply D].
  rewrite (sum_back_ext _ _ _ _ D), sum_back_reports. fold (day_of off cur).
  fold (day_of off cur) in S1.
  assert (G : forall l, (forall x, In x l -> day_of off (fst x) <= day_of off cur) ->
    bytes_when (fun t => (day_of off cur - Z.of_nat (Z.to_nat (day_of off cur - s + 1)) <? day_of off t) &&
                         (day_of off t <=? day_of off cur)) l =
    bytes_when (fun t => s <=? day_of off t) l).
  { induction l as [|[t b] l IH]; intro Hl; [reflexivity|]. cbn [bytes_when].
    rewrite IH by (intros x Hx; apply Hl; now right). pose proof (Hl (t, b) (or_introl eq_refl)) as Q. cbn [fst] in Q.
    replace (day_of off t <=? day_of off cur) with true by lia. rewrite andb_true_r.
    replace (day_of off cur - Z.of_nat (Z.to_nat (day_of off cur - s + 1)) <? day_of off t) with (s <=? day_of off t) by lia.
    reflexivity. }
  apply G. intros x Hx. rewrite Forall_forall in Hd. apply Hd in Hx. tauto.
Qed.
