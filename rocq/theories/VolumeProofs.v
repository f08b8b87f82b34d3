From Verif Require Import Base CalendarModel CalendarSpec CalendarProofs VolumeModel VolumeSpec.

Lemma to_int_id : forall t, -2147483648 <= t < 2147483648 -> to_int t = t.
Proof. intros t H. unfold to_int. rewrite Z.mod_small; lia. Qed.

(** ** Arrays *)

Lemma set_nth_length : forall l i v, length (set_nth l i v) = length l.
Proof. induction l as [|x l IH]; intros [|i] v; cbn; auto. Qed.

Lemma nth_set_nth : forall l i v j, (i < length l)%nat ->
  nth j (set_nth l i v) 0 = if Nat.eqb i j then v else nth j l 0.
Proof.
  induction l as [|x l IH]; intros [|i] v [|j] H; cbn in *; try lia; auto. apply IH. lia.
Qed.

Lemma at_some : forall l i, 0 <= i < Z.of_nat (length l) -> at_ l i = Some (nth (Z.to_nat i) l 0).
Proof.
  intros l i H. unfold at_. replace (i <? 0) with false by lia. apply nth_error_nth'. lia.
Qed.

Lemma at_none : forall l i, i < 0 \/ Z.of_nat (length l) <= i -> at_ l i = None.
Proof.
  intros l i H. unfold at_. destruct (i <? 0) eqn:E; auto. apply nth_error_None. lia.
Qed.

Lemma put_some : forall l i v, 0 <= i < Z.of_nat (length l) ->
  exists l', put l i v = Some l' /\ length l' = length l /\
    forall j, 0 <= j -> nth (Z.to_nat j) l' 0 = if j =? i then v else nth (Z.to_nat j) l 0.
Proof.
  intros l i v H. unfold put. rewrite at_some by lia. eexists. split; [reflexivity|].
  split; [apply set_nth_length|]. intros j Hj. rewrite nth_set_nth by lia.
  destruct (Nat.eqb_spec (Z.to_nat i) (Z.to_nat j)); destruct (Z.eqb_spec j i); auto; lia.
Qed.

Lemma add_at_some : forall l i b, 0 <= i < Z.of_nat (length l) ->
  exists l', add_at l i b = Some l' /\ length l' = length l /\
    forall j, 0 <= j -> nth (Z.to_nat j) l' 0 = nth (Z.to_nat j) l 0 + if j =? i then b else 0.
Proof.
  intros l i b H. unfold add_at. rewrite at_some by lia. eexists. split; [reflexivity|].
  split; [apply set_nth_length|]. intros j Hj. rewrite nth_set_nth by lia.
  destruct (Nat.eqb_spec (Z.to_nat i) (Z.to_nat j)); destruct (Z.eqb_spec j i); try lia.
  subst. lia.
Qed.

(** ** Clearing *)

Lemma clear_loop_spec : forall n i slot sign size ring,
  (sign = 1 \/ sign = -1) -> 0 <= slot < size -> Z.of_nat (length ring) = size ->
  0 <= i -> i + Z.of_nat n <= size ->
  exists r, clear_loop n i slot sign size ring = Some r /\ length r = length ring /\
    forall j, 0 <= j < size ->
      nth (Z.to_nat j) r 0 =
      if (i <=? ((slot - j) * sign) mod size) && (((slot - j) * sign) mod size <? i + Z.of_nat n)
      then 0 else nth (Z.to_nat j) ring 0.
Proof.
  induction n as [|n IH]; intros i slot sign size ring Hs Hl Hr Hi Hn; cbn [clear_loop].
  - exists ring. repeat split; auto. intros j Hj.
    replace (_ && _) with false; auto. lia.
  - set (nul := if size <=? _ then _ else _).
    assert (Hnul : 0 <= nul < size /\ ((slot - nul) * sign) mod size = i).
    { unfold nul. clear nul.
      destruct (slot - i * sign <? 0) eqn:E1.
      - destruct (size <=? slot - i * sign + size) eqn:E2; [lia|]. split; [destruct Hs as [->| ->]; lia|].
        destruct Hs as [->| ->]; [|lia].
        replace ((slot - (slot - i * 1 + size)) * 1) with (i + (-1) * size) by lia.
        rewrite Z.mod_add, Z.mod_small; lia.
      - destruct (size <=? slot - i * sign) eqn:E2.
        + destruct Hs as [->| ->]; [lia|]. split; [lia|].
          replace ((slot - (slot - i * -1 - size)) * -1) with (i + (-1) * size) by lia.
          rewrite Z.mod_add, Z.mod_small; lia.
        + split; [lia|].
          replace ((slot - (slot - i * sign)) * sign) with i by (destruct Hs as [->| ->]; lia).
          apply Z.mod_small. lia. }
    destruct Hnul as [N1 N2].
    destruct (put_some ring nul 0) as (r1 & E1 & L1 & G1); [lia|]. rewrite E1.
    destruct (IH (i + 1) slot sign size r1) as (r & E2 & L2 & G2); auto; try lia.
    exists r. rewrite E2. split; [auto|]. split; [lia|].
    intros j Hj. rewrite G2, G1 by lia.
    assert (K : j = nul <-> ((slot - j) * sign) mod size = i).
    { split; [intros ->; auto|]. intro K. rewrite <- N2 in K.
      clear - K Hs Hj N1 Hl.
      pose proof (Z.div_mod ((slot - j) * sign) size ltac:(lia)) as A.
      pose proof (Z.div_mod ((slot - nul) * sign) size ltac:(lia)) as B.
      rewrite K in A.
      set (q := _ / size) in A. set (q' := _ / size) in B. clearbody q q'.
      assert (size * (q - q') = (nul - j) * sign) by lia.
      assert (q - q' = 0) by (destruct Hs as [->| ->]; nia).
      destruct Hs as [->| ->]; nia. }
    destruct (j =? nul) eqn:Ej.
    + assert (E : ((slot - j) * sign) mod size = i) by (apply K; now apply Z.eqb_eq). rewrite E.
      replace ((i <=? i) && (i <? i + Z.of_nat (S n))) with true by lia.
      now destruct (_ && _).
    + assert (E : ((slot - j) * sign) mod size <> i) by (intro X; apply K in X; apply Z.eqb_neq in Ej; contradiction).
      set (q := ((slot - j) * sign) mod size) in *. clearbody q. clear K N2.
      replace ((i <=? q) && (q <? i + Z.of_nat (S n))) with ((i + 1 <=? q) && (q <? i + 1 + Z.of_nat n)) by lia.
      reflexivity.
Qed.

(** One report's effect on a ring: [c] slots cleared, then the bytes added. *)
Definition ring_step (size slot sign c b : Z) (ring ring' : list Z) : Prop :=
  length ring' = length ring /\
  forall j, 0 <= j < size ->
    nth (Z.to_nat j) ring' 0 =
    (if ((slot - j) * sign) mod size <? c then 0 else nth (Z.to_nat j) ring 0) +
    (if j =? slot then b else 0).

Lemma ring_step_ex : forall size slot sign c b ring,
  (sign = 1 \/ sign = -1) -> 0 <= slot < size -> Z.of_nat (length ring) = size ->
  0 <= c <= size ->
  exists r r', clear_loop (Z.to_nat c) 0 slot sign size ring = Some r /\
    add_at r slot b = Some r' /\ ring_step size slot sign c b ring r'.
Proof.
  intros size slot sign c b ring Hs Hl Hr Hc.
  destruct (clear_loop_spec (Z.to_nat c) 0 slot sign size ring) as (r & E & L & G); auto; try lia.
  destruct (add_at_some r slot b) as (r' & E' & L' & G'); [lia|].
  exists r, r'. repeat split; auto; [lia|]. intros j Hj. rewrite G', G by lia.
  assert (0 <= ((slot - j) * sign) mod size) by (apply Z.mod_pos_bound; lia).
  replace (_ && _) with (((slot - j) * sign) mod size <? c) by lia. reflexivity.
Qed.

Lemma ring_step_0 : forall size slot b ring,
  0 <= slot < size -> Z.of_nat (length ring) = size ->
  exists r', add_at ring slot b = Some r' /\ ring_step size slot 1 0 b ring r'.
Proof.
  intros. destruct (ring_step_ex size slot 1 0 b ring) as (r & r' & E & E' & R); auto; try lia.
  cbn in E. inversion E; subst. eauto.
Qed.

(** ** One report *)

(** Number of slots cleared after [d] seconds. *)
Definition sec_count (d : Z) : Z :=
  let c := if d <? 0 then - d + 1 else d in if 60 <=? c then 60 else c.
Definition min_count (d : Z) (same : bool) : Z :=
  let c := if d <? 0 then (- d) / 60 + 1 else d / 60 in
  let c := if 60 <=? c then 60 else c in
  if (c =? 0) && negb same && negb (d =? 0) then 1 else c.
Definition hour_count (d : Z) (same : bool) : Z :=
  let c := if d <? 0 then (- d) / 3600 + 1 else d / 3600 in
  let c := if 24 <=? c then 24 else c in
  if (c =? 0) && negb same && negb (d =? 0) then 1 else c.
Definition sgn (d : Z) : Z := if d <? 0 then -1 else 1.

Lemma nth_grow : forall l n i, nth i (grow l n) 0 = nth i l 0.
Proof.
  intros l n i. unfold grow. destruct (Nat.lt_ge_cases i (length l)).
  - now apply app_nth1.
  - rewrite app_nth2 by lia. rewrite (nth_overflow l) by lia.
    destruct (Nat.lt_ge_cases (i - length l) (Z.to_nat n - length l)).
    + apply nth_repeat.
    + apply nth_overflow. rewrite repeat_length. lia.
Qed.

Lemma grow_length : forall l n, length (grow l n) = Nat.max (length l) (Z.to_nat n).
Proof. intros. unfold grow. rewrite app_length, repeat_length. lia. Qed.

Definition rings_ok (v : volume) : Prop :=
  length (v_sec v) = 60%nat /\ length (v_min v) = 60%nat /\ length (v_hour v) = 24%nat.

Lemma add_data_spec : forall cur off b v,
  rings_ok v -> 0 <= cur + off < 2147483648 -> -2147483648 < cur - v_time v < 2147483648 ->
  let loc := cur + off in
  let d := cur - v_time v in
  let ss := loc mod 60 in let ms := (loc / 60) mod 60 in let hs := (loc / 3600) mod 24 in
  let day := loc / 86400 in
  exists v', add_data cur off b v = Some v' /\
    ring_step 60 ss (sgn d) (sec_count d) b (v_sec v) (v_sec v') /\
    ring_step 60 ms (sgn d) (min_count d (ms =? v_ms v)) b (v_min v) (v_min v') /\
    ring_step 24 hs (sgn d) (hour_count d (hs =? v_hs v)) b (v_hour v) (v_hour v') /\
    v_total v' = v_total v + b /\ v_custom v' = v_custom v + b /\ v_time v' = cur /\
    v_ms v' = ms /\ v_hs v' = hs /\
    if in_days day then
      v_first v' = (if (v_first v =? 0) || (day <? v_first v) then day else v_first v) /\
      Z.of_nat (length (v_days v')) = Z.max (Z.of_nat (length (v_days v))) (day - v_first v' + 1) /\
      forall i, 0 <= i -> nth (Z.to_nat i) (v_days v') 0 =
        nth (Z.to_nat i) (v_days v) 0 + if i =? day - v_first v' then b else 0
    else v_first v' = v_first v /\ v_days v' = v_days v.
Proof.
  intros cur off b v (R1 & R2 & R3) H D. cbv zeta.
  set (loc := cur + off) in *.
  assert (S0 : v_ss (calc_slots loc v) = loc mod 60 /\ v_ms (calc_slots loc v) = (loc / 60) mod 60 /\
               v_hs (calc_slots loc v) = (loc / 3600) mod 24 /\
               v_sec (calc_slots loc v) = v_sec v /\ v_min (calc_slots loc v) = v_min v /\
               v_hour (calc_slots loc v) = v_hour v /\ v_total (calc_slots loc v) = v_total v /\
               v_custom (calc_slots loc v) = v_custom v).
  { unfold calc_slots. rewrite to_int_id by lia.
    rewrite !Z.quot_div_nonneg, !Z.rem_mod_nonneg by lia.
    assert (loc mod 86400 / 3600 = (loc / 3600) mod 24) by lia.
    destruct (_ && _); cbn [v_ss v_ms v_hs v_sec v_min v_hour v_total v_custom]; auto 10. }
  assert (S1 : let v1 := calc_slots loc v in
    if in_days (loc / 86400) then
      v_first v1 = (if (v_first v =? 0) || (loc / 86400 <? v_first v) then loc / 86400 else v_first v) /\
      v_ds v1 = loc / 86400 - v_first v1 /\ 0 <= v_ds v1 < Z.of_nat (length (v_days v1)) /\
      Z.of_nat (length (v_days v1)) = Z.max (Z.of_nat (length (v_days v))) (v_ds v1 + 1) /\
      forall i, nth i (v_days v1) 0 = nth i (v_days v) 0
    else v_first v1 = v_first v /\ v_days v1 = v_days v /\ v_ds v1 = -1).
  { cbv zeta. unfold calc_slots. rewrite to_int_id by lia. rewrite Z.quot_div_nonneg with (b := 86400) by lia.
    unfold in_days, DAYS_UP_TO_2013, TWENTY_YEARS.
    replace ((0 <=? loc / 86400 - 15706 + 1) && (loc / 86400 - 15706 + 1 <? 366 * 20))
      with ((15705 <=? loc / 86400) && (loc / 86400 <? 23025)) by lia.
    destruct (_ && _) eqn:E; cbn [v_first v_days v_ds]; auto.
    set (day := loc / 86400) in *. clearbody day.
    set (first := if _ || _ then day else v_first v).
    assert (first <= day) by (unfold first; destruct ((v_first v =? 0) || (day <? v_first v)) eqn:F; lia).
    split; auto. split; auto.
    destruct (Z.of_nat (length (v_days v)) <? day - first + 1) eqn:G.
    - rewrite grow_length. split; [lia|]. split; [lia|]. intro i. apply nth_grow.
    - split; [lia|]. split; [lia|]. auto. }
  cbv zeta in S1. unfold add_data. cbv zeta. fold loc.
  set (v1 := calc_slots loc v) in *. clearbody v1.
  destruct S0 as (E1 & E2 & E3 & E4 & E5 & E6 & E7 & E8).
  rewrite E1, E2, E3, E4, E5, E6, E7, E8.
  replace (loc - (v_time v + off)) with (cur - v_time v) by (unfold loc; lia).
  rewrite (to_int_id (cur - v_time v)) by lia.
  set (d := cur - v_time v) in *.
  assert (Hd : (loc =? v_time v + off) = (d =? 0)) by (unfold d, loc; lia). rewrite Hd. clear Hd.
  assert (B1 : 0 <= loc mod 60 < 60) by lia.
  assert (B2 : 0 <= (loc / 60) mod 60 < 60) by lia.
  assert (B3 : 0 <= (loc / 3600) mod 24 < 24) by lia.
  set (ss := loc mod 60) in *. set (ms := (loc / 60) mod 60) in *. set (hs := (loc / 3600) mod 24) in *.
  assert (Hdays : exists dd, (if 0 <=? v_ds v1 then add_at (v_days v1) (v_ds v1) b else Some (v_days v1)) = Some dd /\
    if in_days (loc / 86400) then
      v_first v1 = (if (v_first v =? 0) || (loc / 86400 <? v_first v) then loc / 86400 else v_first v) /\
      Z.of_nat (length dd) = Z.max (Z.of_nat (length (v_days v))) (loc / 86400 - v_first v1 + 1) /\
      forall i, 0 <= i -> nth (Z.to_nat i) dd 0 =
        nth (Z.to_nat i) (v_days v) 0 + if i =? loc / 86400 - v_first v1 then b else 0
    else v_first v1 = v_first v /\ dd = v_days v).
  { destruct (in_days (loc / 86400)).
    - destruct S1 as (F1 & F2 & F3 & F4 & F5). replace (0 <=? v_ds v1) with true by lia.
      destruct (add_at_some (v_days v1) (v_ds v1) b F3) as (dd & A1 & A2 & A3).
      exists dd. split; auto. split; auto. split; [rewrite <- F2; lia|].
      intros i Hi. rewrite A3, F5, <- F2 by lia. reflexivity.
    - destruct S1 as (F1 & F2 & F3). rewrite F3. cbn [Z.leb]. exists (v_days v1). auto. }
  destruct Hdays as (dd & Ed & Hdays). clear S1.
  assert (Sg : sgn d = 1 \/ sgn d = -1) by (unfold sgn; destruct (d <? 0); auto).
  destruct (Z.eqb_spec d 0) as [D0|D0].
  - (* same second *)
    rewrite D0. cbn [bind].
    destruct (ring_step_0 60 ss b (v_sec v)) as (s' & Es & Rs); [lia|lia|]. rewrite Es. cbn [bind].
    destruct (ring_step_0 60 ms b (v_min v)) as (m' & Em & Rm); [lia|lia|]. rewrite Em. cbn [bind].
    destruct (ring_step_0 24 hs b (v_hour v)) as (h' & Eh & Rh); [lia|lia|]. rewrite Eh. cbn [bind].
    rewrite Ed. cbn [bind].
    eexists. split; [reflexivity|]. cbn [v_sec v_min v_hour v_total v_custom v_time v_ms v_hs v_first v_days].
    unfold min_count, hour_count, sec_count, sgn. cbn [Z.ltb Z.compare Z.leb Z.eqb negb andb].
    change (0 / 60) with 0. change (0 / 3600) with 0. cbn [Z.leb Z.compare Z.eqb andb].
    rewrite !andb_false_r. repeat (split; auto).
  - (* time has moved *)
    set (sign := if 0 <=? d then 1 else -1).
    assert (Esg : sign = sgn d) by (unfold sign, sgn; destruct (0 <=? d) eqn:X, (d <? 0) eqn:Y; auto; lia).
    assert (Ec : (if 60 <=? (if sign <? 0 then Z.abs d + 1 else Z.abs d) then 60
                  else if sign <? 0 then Z.abs d + 1 else Z.abs d) = sec_count d).
    { rewrite Esg. unfold sec_count, sgn. destruct (d <? 0) eqn:X; cbn [Z.ltb Z.compare].
      - replace (Z.abs d) with (- d) by lia. reflexivity.
      - replace (Z.abs d) with d by lia. reflexivity. }
    rewrite Ec. clear Ec.
    assert (Em : forall md, md = (if sign <? 0 then Z.quot (Z.abs d) 60 + 1 else Z.quot (Z.abs d) 60) ->
       (if ((if 60 <=? Z.abs md then 60 else md) =? 0) && negb (ms =? v_ms v) then 1
        else if 60 <=? Z.abs md then 60 else md) = min_count d (ms =? v_ms v)).
    { intros md ->. rewrite Esg. unfold min_count, sgn. rewrite Z.quot_div_nonneg by lia.
      replace (negb (d =? 0)) with true by lia. rewrite andb_true_r.
      destruct (d <? 0) eqn:X; cbn [Z.ltb Z.compare].
      - replace (Z.abs d) with (- d) by lia. rewrite Z.abs_eq by lia. reflexivity.
      - replace (Z.abs d) with d by lia. rewrite Z.abs_eq by lia. reflexivity. }
    rewrite (Em _ eq_refl). clear Em.
    assert (Eh : forall hd, hd = (if sign <? 0 then Z.quot (Z.abs d) 3600 + 1 else Z.quot (Z.abs d) 3600) ->
       (if ((if 24 <=? hd then 24 else hd) =? 0) && negb (hs =? v_hs v) then 1
        else if 24 <=? hd then 24 else hd) = hour_count d (hs =? v_hs v)).
    { intros hd ->. rewrite Esg. unfold hour_count, sgn. rewrite Z.quot_div_nonneg by lia.
      replace (negb (d =? 0)) with true by lia. rewrite andb_true_r.
      destruct (d <? 0) eqn:X; cbn [Z.ltb Z.compare].
      - replace (Z.abs d) with (- d) by lia. reflexivity.
      - replace (Z.abs d) with d by lia. reflexivity. }
    rewrite (Eh _ eq_refl). clear Eh. rewrite Esg. clear sign Esg.
    assert (C1 : 0 <= sec_count d <= 60).
    { unfold sec_count. destruct (d <? 0) eqn:X; destruct (60 <=? _) eqn:Y; lia. }
    assert (C2 : 0 <= min_count d (ms =? v_ms v) <= 60).
    { unfold min_count. destruct (d <? 0) eqn:X; destruct (60 <=? _) eqn:Y; destruct (_ && _ && _); lia. }
    assert (C3 : 0 <= hour_count d (hs =? v_hs v) <= 24).
    { unfold hour_count. destruct (d <? 0) eqn:X; destruct (24 <=? _) eqn:Y; destruct (_ && _ && _); lia. }
    destruct (ring_step_ex 60 ss (sgn d) (sec_count d) b (v_sec v)) as (s & s' & Es & Es' & Rs); auto; try lia.
    destruct (ring_step_ex 60 ms (sgn d) (min_count d (ms =? v_ms v)) b (v_min v)) as (m & m' & Em & Em' & Rm); auto; try lia.
    destruct (ring_step_ex 24 hs (sgn d) (hour_count d (hs =? v_hs v)) b (v_hour v)) as (h & h' & Eh & Eh' & Rh); auto; try lia.
    rewrite Es, Em, Eh. cbn [bind]. rewrite Es', Em', Eh'. cbn [bind]. rewrite Ed. cbn [bind].
    eexists. split; [reflexivity|]. cbn [v_sec v_min v_hour v_total v_custom v_time v_ms v_hs v_first v_days].
    repeat (split; auto).
Qed.
