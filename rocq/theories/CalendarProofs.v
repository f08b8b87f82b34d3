From Verif Require Import Base CalendarModel CalendarSpec.

Definition tm_of (x : date) (h mi s : Z) : tm :=
  let '(y, m, d) := x in mkTm (y - 1900) (m - 1) d h mi s.

Definition day_num (x : date) : Z :=
  let '(y, m, d) := x in days_from_1970 y + days_from_1jan y m d.

Lemma timegm_valid y m d h mi s : 1 <= m <= 12 ->
  timegm (tm_of (y, m, d) h mi s) = 86400 * day_num (y, m, d) + 3600 * h + 60 * mi + s.
Proof.
  intros H. unfold timegm, tm_of, day_num. cbn [tm_year tm_mon tm_mday tm_hour tm_min tm_sec].
  replace (11 <? m - 1) with false by lia. replace (m - 1 <? 0) with false by lia.
  replace (y - 1900 + 1900) with y by lia. replace (m - 1 + 1) with m by lia. reflexivity.
Qed.

Lemma c_leap y : 1 <= y -> c_is_leap y = if leap y then 1 else 0.
Proof.
  intros H. unfold c_is_leap, leap. rewrite !Z.rem_mod_nonneg by lia.
  destruct (Z.eqb_spec (y mod 400) 0) as [E|E].
  - replace (y mod 4 =? 0) with true by lia. rewrite orb_true_r. reflexivity.
  - destruct (Z.eqb_spec (y mod 100) 0) as [E2|E2].
    + replace (y mod 4 =? 0) with true by lia. reflexivity.
    + destruct (y mod 4 =? 0); reflexivity.
Qed.

Lemma days_0 y : 1 <= y -> days_from_0 y = 365 * (y - 1) + (y - 1) / 400 - (y - 1) / 100 + (y - 1) / 4.
Proof. intros H. unfold days_from_0. cbv zeta. rewrite !Z.quot_div_nonneg by lia. reflexivity. Qed.

Lemma year_step y : 1 <= y -> days_from_1970 (y + 1) = days_from_1970 y + 365 + (if leap y then 1 else 0).
Proof.
  intros H. unfold days_from_1970. rewrite !days_0 by lia. unfold leap.
  replace (y + 1 - 1) with y by lia.
  destruct (Z.eqb_spec (y mod 4) 0); destruct (Z.eqb_spec (y mod 100) 0); destruct (Z.eqb_spec (y mod 400) 0);
    cbn [negb andb orb]; lia.
Qed.

Lemma month_step y m : 1 <= y -> 1 <= m < 12 ->
  days_from_1jan y (m + 1) 1 = days_from_1jan y m 1 + month_len y m.
Proof.
  intros Hy Hm. unfold days_from_1jan, month_len. rewrite c_leap by assumption.
  assert (m = 1 \/ m = 2 \/ m = 3 \/ m = 4 \/ m = 5 \/ m = 6 \/ m = 7 \/ m = 8 \/ m = 9 \/ m = 10 \/ m = 11) as C by lia.
  destruct (leap y); repeat (destruct C as [->|C]; [reflexivity|]); subst; reflexivity.
Qed.

Lemma jan_1 y : days_from_1jan y 1 1 = 0.
Proof. unfold days_from_1jan, month_start_tab. destruct (c_is_leap y =? 0); reflexivity. Qed.

Lemma dec_31 y : 1 <= y -> days_from_1jan y 12 1 + 31 = 365 + (if leap y then 1 else 0).
Proof. intros H. unfold days_from_1jan. rewrite c_leap by assumption. destruct (leap y); reflexivity. Qed.

Lemma day_lin y m d : days_from_1jan y m d = days_from_1jan y m 1 + (d - 1).
Proof. unfold days_from_1jan. lia. Qed.

Lemma month_len_pos y m : 28 <= month_len y m <= 31.
Proof. unfold month_len. destruct (m =? 2); [destruct (leap y); lia|]. destruct (_ || _); lia. Qed.

Lemma valid_next x : valid x -> valid (next_day x).
Proof.
  destruct x as [[y m] d]. unfold valid, next_day. intros (Hy & Hm & Hd).
  destruct (Z.ltb_spec d (month_len y m)); [repeat split; lia|].
  destruct (Z.ltb_spec m 12).
  - assert (L := month_len_pos y (m + 1)). repeat split; lia.
  - assert (L := month_len_pos (y + 1) 1). repeat split; lia.
Qed.

Lemma next_day_num x : valid x -> day_num (next_day x) = day_num x + 1.
Proof.
  destruct x as [[y m] d]. unfold valid, next_day, day_num. intros (Hy & Hm & Hd).
  destruct (Z.ltb_spec d (month_len y m)).
  - rewrite (day_lin y m (d + 1)), (day_lin y m d). lia.
  - destruct (Z.ltb_spec m 12).
    + rewrite month_step by lia. rewrite (day_lin y m d). lia.
    + assert (m = 12) by lia. subst m. rewrite jan_1, (year_step y Hy), (day_lin y 12 d).
      assert (D := dec_31 y Hy).
      assert (month_len y 12 = 31) by reflexivity. lia.
Qed.

Lemma next_day_timegm x h mi s : valid x ->
  timegm (tm_of (next_day x) h mi s) = timegm (tm_of x h mi s) + 86400.
Proof.
  intros H. assert (V := valid_next x H). assert (N := next_day_num x H).
  destruct (next_day x) as [[y' m'] d'], x as [[y m] d].
  rewrite !timegm_valid by (unfold valid in *; lia). lia.
Qed.

Lemma date_after_valid n : valid (date_after n).
Proof. induction n as [|n IH]; [cbn; unfold month_len; cbn; lia | apply valid_next, IH]. Qed.

Lemma date_after_timegm n h mi s :
  timegm (tm_of (date_after n) h mi s) = 86400 * Z.of_nat n + 3600 * h + 60 * mi + s.
Proof.
  induction n as [|n IH]; [reflexivity|].
  cbn [date_after]. rewrite next_day_timegm by apply date_after_valid. rewrite IH. lia.
Qed.

(** Order: later dates have larger numbers. *)
Lemma month_bounds y m d : 1 <= y -> 1 <= m <= 12 -> 1 <= d <= month_len y m ->
  0 <= days_from_1jan y m d < 365 + (if leap y then 1 else 0) /\
  (forall m', m < m' <= 12 -> days_from_1jan y m d < days_from_1jan y m' 1).
Proof.
  intros Hy Hm Hd.
  assert (Up : forall k, (k <= 11)%nat -> forall m', 1 <= m' -> m' + Z.of_nat k <= 12 ->
     days_from_1jan y m' 1 + 28 * Z.of_nat k <= days_from_1jan y (m' + Z.of_nat k) 1).
  { induction k as [|k IH]; intros Hk m' H1 H2.
    - replace (m' + Z.of_nat 0) with m' by lia. lia.
    - specialize (IH ltac:(lia) m' H1 ltac:(lia)).
      assert (St := month_step y (m' + Z.of_nat k) Hy ltac:(lia)).
      assert (L := month_len_pos y (m' + Z.of_nat k)).
      replace (m' + Z.of_nat (S k)) with (m' + Z.of_nat k + 1) by lia. lia. }
  assert (J := jan_1 y). assert (D := dec_31 y Hy). rewrite (day_lin y m d).
  assert (B1 := Up (Z.to_nat (m - 1)) ltac:(lia) 1 ltac:(lia) ltac:(lia)).
  rewrite Z2Nat.id in B1 by lia. replace (1 + (m - 1)) with m in B1 by lia.
  assert (Next : m < 12 -> days_from_1jan y (m + 1) 1 = days_from_1jan y m 1 + month_len y m).
  { intros. apply month_step; lia. }
  split.
  - split; [lia|]. destruct (Z.eq_dec m 12) as [->|].
    + assert (month_len y 12 = 31) by reflexivity. lia.
    + assert (B2 := Up (Z.to_nat (12 - (m + 1))) ltac:(lia) (m + 1) ltac:(lia) ltac:(lia)).
      rewrite Z2Nat.id in B2 by lia. replace (m + 1 + (12 - (m + 1))) with 12 in B2 by lia.
      specialize (Next ltac:(lia)). lia.
  - intros m' Hm'. assert (B2 := Up (Z.to_nat (m' - (m + 1))) ltac:(lia) (m + 1) ltac:(lia) ltac:(lia)).
    rewrite Z2Nat.id in B2 by lia. replace (m + 1 + (m' - (m + 1))) with m' in B2 by lia.
    specialize (Next ltac:(lia)). lia.
Qed.

Lemma years_bound y y' : 1 <= y -> y < y' ->
  days_from_1970 y + 365 + (if leap y then 1 else 0) <= days_from_1970 y'.
Proof.
  intros Hy H. rewrite <- (year_step y Hy).
  unfold days_from_1970. rewrite !days_0 by lia. lia.
Qed.

Definition date_lt (a b : date) : Prop :=
  let '(y, m, d) := a in let '(y', m', d') := b in
  y < y' \/ (y = y' /\ (m < m' \/ (m = m' /\ d < d'))).

Lemma day_num_mono a b : valid a -> valid b -> date_lt a b -> day_num a < day_num b.
Proof.
  destruct a as [[y m] d], b as [[y' m'] d']. unfold valid, date_lt, day_num.
  intros (Hy & Hm & Hd) (Hy' & Hm' & Hd') H.
  destruct (month_bounds y m d Hy Hm Hd) as [B1 B2].
  destruct (month_bounds y' m' d' Hy' Hm' Hd') as [B3 B4].
  destruct H as [H|[-> [H|[-> H]]]].
  - assert (Y := years_bound y y' Hy H). lia.
  - specialize (B2 m' ltac:(lia)). rewrite (day_lin y' m' d'). lia.
  - rewrite (day_lin y' m' d), (day_lin y' m' d'). lia.
Qed.

Lemma timegm_inj a b h mi s h' mi' s' : valid a -> valid b ->
  0 <= h < 24 -> 0 <= mi < 60 -> 0 <= s < 60 -> 0 <= h' < 24 -> 0 <= mi' < 60 -> 0 <= s' < 60 ->
  timegm (tm_of a h mi s) = timegm (tm_of b h' mi' s') -> a = b /\ h = h' /\ mi = mi' /\ s = s'.
Proof.
  intros Va Vb H1 H2 H3 H4 H5 H6 E.
  assert (Ea : timegm (tm_of a h mi s) = 86400 * day_num a + 3600 * h + 60 * mi + s).
  { destruct a as [[y m] d]. apply timegm_valid. unfold valid in Va. lia. }
  assert (Eb : timegm (tm_of b h' mi' s') = 86400 * day_num b + 3600 * h' + 60 * mi' + s').
  { destruct b as [[y m] d]. apply timegm_valid. unfold valid in Vb. lia. }
  assert (Ed : day_num a = day_num b) by lia.
  split; [|lia].
  assert (T : date_lt a b \/ a = b \/ date_lt b a).
  { destruct a as [[y m] d], b as [[y' m'] d']. unfold date_lt.
    destruct (Z.lt_total y y') as [?|[->|?]]; [tauto| |tauto].
    destruct (Z.lt_total m m') as [?|[->|?]]; [tauto| |tauto].
    destruct (Z.lt_total d d') as [?|[->|?]]; [tauto| |tauto]. auto. }
  destruct T as [T|[T|T]]; [apply day_num_mono in T; auto; lia|exact T|apply day_num_mono in T; auto; lia].
Qed.

(** Months outside 0..11 are carried into the year. *)
Lemma timegm_month_carry y mon d h mi s :
  timegm (mkTm y mon d h mi s) = timegm (mkTm (y + mon / 12) (mon mod 12) d h mi s).
Proof.
  unfold timegm. cbn [tm_year tm_mon tm_mday tm_hour tm_min tm_sec].
  replace (11 <? mon mod 12) with false by lia. replace (mon mod 12 <? 0) with false by lia.
  destruct (Z.ltb_spec 11 mon).
  - rewrite Z.quot_div_nonneg, Z.rem_mod_nonneg by lia.
    replace (y + mon / 12 + 1900) with (y + 1900 + mon / 12) by lia. reflexivity.
  - destruct (Z.ltb_spec mon 0).
    + rewrite Z.quot_div_nonneg by lia.
      assert (E : (- mon + 11) / 12 = - (mon / 12)) by lia. rewrite E.
      replace (y + 1900 - - (mon / 12)) with (y + mon / 12 + 1900) by lia.
      replace (mon + 12 * - (mon / 12)) with (mon mod 12) by lia. reflexivity.
    + replace (mon / 12) with 0 by lia. replace (mon mod 12) with mon by lia.
      rewrite Z.add_0_r. reflexivity.
Qed.

(** Days outside the month, hours, minutes and seconds are simply added. *)
Lemma timegm_day_carry y mon d h mi s k :
  timegm (mkTm y mon (d + k) h mi s) = timegm (mkTm y mon d h mi s) + 86400 * k.
Proof.
  unfold timegm. cbn [tm_year tm_mon tm_mday tm_hour tm_min tm_sec].
  destruct (11 <? mon); [|destruct (mon <? 0)]; unfold days_from_1jan; lia.
Qed.
