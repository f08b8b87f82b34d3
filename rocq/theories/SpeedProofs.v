From Verif Require Import Base CalendarSpec VolumeModel VolumeSpec VolumeProofs VolumeProofs2.

Definition rot (idx j : Z) : nat := Z.to_nat ((idx - j) mod 30).
Definition js : list Z := map Z.of_nat (seq 0 30).

Lemma rot_sum : forall l idx, length l = 30%nat -> 0 <= idx < 30 ->
  zsum l = zsum (map (fun j => nth (rot idx j) l 0) js).
Proof.
  intros l idx L H.
  do 30 (destruct l as [|? l]; [discriminate L|]). destruct l; [|discriminate L]. clear L.
  assert (E : exists k, (k < 30)%nat /\ idx = Z.of_nat k) by (exists (Z.to_nat idx); lia).
  destruct E as (k & Hk & ->). clear H.
  do 30 (destruct k as [|k];
    [match goal with |- context [js] =>
       unfold js; cbn [seq map]; unfold rot;
       repeat match goal with |- context [Z.to_nat ?e] =>
         let v := eval vm_compute in (Z.to_nat e) in change (Z.to_nat e) with v end;
       cbn [nth zsum]; ring end|]).
  lia.
Qed.

Lemma zsum_set : forall l i v, (i < length l)%nat -> zsum (set_nth l i v) = zsum l - nth i l 0 + v.
Proof.
  induction l as [|x l IH]; intros i v H; cbn [length] in H; [lia|].
  destruct i as [|i]; cbn [set_nth zsum nth]; [lia|]. rewrite IH by lia. lia.
Qed.

Record sp_ok (c0 all0 : Z) (r : list (Z * Z)) (m : meter) : Prop := {
  sp_lb : length (sm_bytes m) = 30%nat;
  sp_lt : length (sm_times m) = 30%nat;
  sp_i : 0 <= sm_idx m < 30;
  sp_t : forall j, 0 <= j < 30 -> nth (rot (sm_idx m) j) (sm_times m) 0 = nth (Z.to_nat j) (seconds c0 r) c0;
  sp_b : forall j, 0 <= j < 30 -> nth (rot (sm_idx m) j) (sm_bytes m) 0 =
    if j <? Z.of_nat (length (seconds c0 r)) then bytes_when (Z.eqb (nth (Z.to_nat j) (seconds c0 r) c0)) r else 0;
  sp_total : sm_total m = zsum (sm_bytes m);
  sp_start : sm_start m <= last_time c0 r;
  sp_all : sm_all m = all0 + bytes_when (fun _ => true) r;
  sp_cur : momentary_speed (last_time c0 r) m = bytes_when (Z.eqb (last_time c0 r)) r;
  sp_curtime : sm_curtime m <= last_time c0 r
}.

Lemma seconds_snoc : forall c0 r t b, seconds c0 (r ++ [(t, b)]) =
  if in_dec Z.eq_dec t (rev (c0 :: map fst r)) then seconds c0 r else t :: seconds c0 r.
Proof.
  intros. unfold seconds. rewrite map_app. cbn [map fst].
  change (c0 :: map fst r ++ [t]) with ((c0 :: map fst r) ++ [t]). rewrite rev_app_distr. reflexivity.
Qed.

Lemma last_snoc : forall c0 r t b, last_time c0 (r ++ [(t, b)]) = t.
Proof. intros. unfold last_time. rewrite fold_left_app. reflexivity. Qed.

Lemma increasing_snoc : forall r a t b, increasing a (r ++ [(t, b)]) -> increasing a r /\ last_time a r <= t.
Proof.
  induction r as [|[u x] r IH]; intros a t b H; cbn [app increasing] in *.
  - unfold last_time. cbn. tauto.
  - destruct H as [H1 H2]. apply IH in H2. unfold last_time in *. cbn [fold_left fst]. tauto.
Qed.

Lemma last_max : forall r a, increasing a r -> forall x, In x (a :: map fst r) -> x <= last_time a r.
Proof.
  induction r as [|[u b] r IH]; intros a H x Hx; cbn [increasing map fst] in *.
  - unfold last_time. cbn. destruct Hx as [->|[]]. lia.
  - destruct H as [H1 H2]. change (last_time a ((u, b) :: r)) with (last_time u r).
    destruct Hx as [<-|Hx]; [|apply IH; auto].
    pose proof (IH u H2 u (or_introl eq_refl)). lia.
Qed.

Lemma last_in : forall r a, In (last_time a r) (a :: map fst r).
Proof.
  induction r as [|[u b] r IH]; intro a; cbn [map fst]; [left; reflexivity|].
  right. apply (IH u).
Qed.

(** The newest second is the last one reported. *)
Lemma seconds_head : forall r c0, increasing c0 r -> exists l, seconds c0 r = last_time c0 r :: l /\
  Forall (fun x => x < last_time c0 r) l.
Proof.
  induction r as [|[t b] r IH] using rev_ind; intros c0 H.
  - exists []. unfold seconds, last_time. cbn. auto.
  - apply increasing_snoc in H. destruct H as [H1 H2]. destruct (IH c0 H1) as (l & E & F).
    rewrite seconds_snoc, last_snoc. destruct (in_dec Z.eq_dec t (rev (c0 :: map fst r))) as [I|I].
    + apply in_rev in I. apply last_max in I; auto. assert (t = last_time c0 r) by lia. subst t. eauto.
    + assert (last_time c0 r <> t).
      { intro. subst t. apply I. apply -> in_rev. apply last_in. }
      rewrite E. eexists. split; [reflexivity|]. constructor; [lia|].
      eapply Forall_impl; [|exact F]. cbn. intros. lia.
Qed.

Lemma rot_0 : forall i, 0 <= i < 30 -> rot i 0 = Z.to_nat i.
Proof. intros. unfold rot. f_equal. lia. Qed.
Lemma rot_next : forall i j, 0 <= i < 30 -> 1 <= j < 30 ->
  rot (if 30 <=? i + 1 then 0 else i + 1) j = rot i (j - 1) /\
  (i - (j - 1)) mod 30 <> (if 30 <=? i + 1 then 0 else i + 1).
Proof. intros. unfold rot. destruct (30 <=? i + 1) eqn:E; split; [f_equal|..]; lia. Qed.
Lemma rot_lt : forall i j, (rot i j < 30)%nat.
Proof. intros. unfold rot. lia. Qed.
Lemma rot_ne : forall i j, 0 <= i < 30 -> 1 <= j < 30 -> rot i j <> Z.to_nat i.
Proof. intros. unfold rot. lia. Qed.

Lemma bw_snoc : forall p r t b, bytes_when p (r ++ [(t, b)]) = bytes_when p r + if p t then b else 0.
Proof. intros. rewrite bytes_when_app. cbn. lia. Qed.

Lemma sp_step : forall c0 all0 r t b m, sp_ok c0 all0 r m -> increasing c0 (r ++ [(t, b)]) ->
  0 <= c0 -> t < 2147483648 ->
  exists m', add_speed t b m = Some m' /\ sp_ok c0 all0 (r ++ [(t, b)]) m'.
Proof.
  intros c0 all0 r t b m K H Hc Ht. apply increasing_snoc in H. destruct H as [H1 H2].
  destruct (seconds_head r c0 H1) as (l & E & F).
  assert (L0 : c0 <= last_time c0 r) by (apply last_max; auto; now left).
  destruct K as [Klb Klt Ki Kt Kb Ktot Kst Kall Kcur Kct].
  unfold add_speed. rewrite to_int_id by lia.
  set (m0 := mkM _ _ _ _ _ _ _ _ _).
  assert (T0 : nth (Z.to_nat (sm_idx m)) (sm_times m) 0 = last_time c0 r).
  { rewrite <- rot_0 by lia. rewrite Kt by lia. rewrite E. reflexivity. }
  assert (X : exists m1, speed_loop 1 t m0 = Some m1 /\
     length (sm_bytes m1) = 30%nat /\ length (sm_times m1) = 30%nat /\ 0 <= sm_idx m1 < 30 /\
     (forall j, 0 <= j < 30 -> nth (rot (sm_idx m1) j) (sm_times m1) 0 =
        nth (Z.to_nat j) (seconds c0 (r ++ [(t, b)])) c0) /\
     (forall j, 0 <= j < 30 -> nth (rot (sm_idx m1) j) (sm_bytes m1) 0 =
        if j <? Z.of_nat (length (seconds c0 (r ++ [(t, b)])))
        then bytes_when (Z.eqb (nth (Z.to_nat j) (seconds c0 (r ++ [(t, b)])) c0)) r else 0) /\
     sm_total m1 = zsum (sm_bytes m1) /\ sm_start m1 <= t /\
     sm_cur m1 = sm_cur m0 /\ sm_curtime m1 = sm_curtime m0 /\ sm_all m1 = sm_all m0 /\
     hd 0 (seconds c0 (r ++ [(t, b)])) = t /\
     Forall (fun x => x < t) (tl (seconds c0 (r ++ [(t, b)])))).
  { rewrite seconds_snoc. cbn [speed_loop].
    change (sm_times m0) with (sm_times m). change (sm_idx m0) with (sm_idx m).
    change (sm_bytes m0) with (sm_bytes m). change (sm_total m0) with (sm_total m).
    rewrite (at_some (sm_times m) (sm_idx m)) by lia. rewrite T0.
    destruct (last_time c0 r <? t) eqn:C.
    - destruct (in_dec Z.eq_dec t (rev (c0 :: map fst r))) as [I|I].
      { apply in_rev in I. apply last_max in I; auto. lia. }
      set (i := if 30 <=? sm_idx m + 1 then 0 else sm_idx m + 1).
      assert (Hi : 0 <= i < 30) by (unfold i; destruct (30 <=? sm_idx m + 1) eqn:?; lia).
      rewrite (at_some (sm_bytes m) i) by lia. rewrite (at_some (sm_times m) i) by lia. cbn [bind].
      unfold put. rewrite (at_some (sm_bytes m) i) by lia. rewrite (at_some (sm_times m) i) by lia. cbn [bind].
      cbn [speed_loop sm_times sm_idx].
      rewrite at_some by (rewrite set_nth_length; lia).
      rewrite nth_set_nth by lia. rewrite Nat.eqb_refl. replace (t <? t) with false by lia.
      eexists. split; [reflexivity|].
      cbn [sm_bytes sm_times sm_idx sm_total sm_start sm_cur sm_curtime sm_all hd tl].
      rewrite !set_nth_length.
      assert (G : forall j, 1 <= j < 30 -> Nat.eqb (Z.to_nat i) (rot i j) = false).
      { intros j Hj. apply Nat.eqb_neq. intro Q. symmetry in Q. revert Q. apply rot_ne; lia. }
      assert (RN : forall j, 1 <= j < 30 -> rot i j = rot (sm_idx m) (j - 1)).
      { intros j Hj. apply (rot_next (sm_idx m) j); lia. }
      repeat (split; [auto; fail|]). split; [|split; [|split; [|split; [|repeat (split; [reflexivity|])]]]].
      + intros j Hj. rewrite nth_set_nth by lia. destruct (Z.eqb_spec j 0).
        * subst j. rewrite rot_0, Nat.eqb_refl by lia. reflexivity.
        * rewrite G, RN, Kt by lia. replace (Z.to_nat j) with (S (Z.to_nat (j - 1))) by lia. reflexivity.
      + intros j Hj. rewrite nth_set_nth by lia. destruct (Z.eqb_spec j 0).
        * subst j. rewrite rot_0, Nat.eqb_refl by lia.
          change (nth (Z.to_nat 0) (t :: seconds c0 r) c0) with t.
          replace (0 <? _) with true by (cbn [length]; lia).
          symmetry. apply bytes_when_none. intros x Hx. apply Z.eqb_neq. intro Q. apply I. apply -> in_rev.
          right. rewrite Q. now apply in_map.
        * rewrite G, RN, Kb by lia. replace (Z.to_nat j) with (S (Z.to_nat (j - 1))) by lia. cbn [nth length].
          replace (j <? Z.of_nat (S (length (seconds c0 r)))) with (j - 1 <? Z.of_nat (length (seconds c0 r))) by lia.
          reflexivity.
      + rewrite zsum_set by lia. lia.
      + assert (Q : exists j, 0 <= j < 30 /\ rot (sm_idx m) j = Z.to_nat i).
        { exists 29. split; [lia|]. unfold rot, i. destruct (30 <=? sm_idx m + 1) eqn:?; f_equal; lia. }
        destruct Q as (j & Hj & Q). rewrite <- Q, Kt by lia.
        destruct (Nat.lt_ge_cases (Z.to_nat j) (length (seconds c0 r))) as [Y|Y].
        * pose proof (nth_In _ c0 Y) as W. unfold seconds in W at 2. apply nodup_In, in_rev, last_max in W; auto. lia.
        * rewrite nth_overflow by lia. lia.
      + rewrite E. constructor; [lia|]. eapply Forall_impl; [|exact F]. cbn. intros. lia.
    - assert (t = last_time c0 r) by lia. subst t.
      destruct (in_dec Z.eq_dec (last_time c0 r) (rev (c0 :: map fst r))) as [I|I];
        [|destruct I; apply -> in_rev; apply last_in].
      eexists. split; [reflexivity|].
      change (sm_times m0) with (sm_times m). change (sm_idx m0) with (sm_idx m).
      change (sm_bytes m0) with (sm_bytes m). change (sm_total m0) with (sm_total m).
      change (sm_start m0) with (sm_start m). rewrite E. cbn [hd tl]. rewrite <- E.
      repeat (split; [auto; fail|]). auto. }
  destruct X as (m1 & -> & X1 & X2 & X3 & X4 & X5 & X6 & X7 & X8 & X9 & X10 & X11 & X12). cbn [bind].
  set (total := if sm_corr m1 <? t then zsum (sm_bytes m1) else sm_total m1).
  assert (Et : total = zsum (sm_bytes m1)) by (unfold total; destruct (sm_corr m1 <? t); auto).
  unfold add_at. rewrite at_some by lia. cbn [bind]. eexists. split; [reflexivity|].
  destruct (seconds c0 (r ++ [(t, b)])) as [|a l'] eqn:Es.
  { exfalso. destruct (in_nil (a := t)). rewrite <- Es. unfold seconds. apply nodup_In. apply -> in_rev.
    right. rewrite map_app. apply in_or_app. right. now left. }
  cbn [hd tl] in X11, X12. subst a.
  split; cbn [sm_bytes sm_times sm_idx sm_total sm_start sm_cur sm_curtime sm_all]; rewrite ?last_snoc; rewrite ?Es.
  - now rewrite set_nth_length.
  - auto.
  - lia.
  - auto.
  - intros j Hj. rewrite nth_set_nth by lia. destruct (Z.eqb_spec j 0).
    + subst j. rewrite rot_0, Nat.eqb_refl by lia. rewrite <- rot_0 by lia. rewrite X5 by lia.
      cbn [Z.to_nat nth]. replace (0 <? _) with true by (cbn [length]; lia).
      rewrite bw_snoc, Z.eqb_refl. reflexivity.
    + replace (Nat.eqb (Z.to_nat (sm_idx m1)) (rot (sm_idx m1) j)) with false.
      2: { symmetry. apply Nat.eqb_neq. intro Q. symmetry in Q. revert Q. apply rot_ne; lia. }
      rewrite X5 by lia. destruct (j <? _) eqn:D; [|reflexivity].
      replace (Z.to_nat j) with (S (Z.to_nat (j - 1))) by lia. cbn [nth].
      cbn [length] in D. assert (Y : In (nth (Z.to_nat (j - 1)) l' c0) l') by (apply nth_In; lia).
      rewrite Forall_forall in X12. apply X12 in Y. rewrite bw_snoc.
      replace (nth (Z.to_nat (j - 1)) l' c0 =? t) with false by lia. lia.
  - rewrite zsum_set by lia. lia.
  - destruct (total =? 0); lia.
  - rewrite X10. change (sm_all m0) with (sm_all m). rewrite bw_snoc. lia.
  - unfold momentary_speed. cbn [sm_cur sm_curtime]. rewrite X8, X9. unfold m0. cbn [sm_cur sm_curtime].
    rewrite bw_snoc, Z.eqb_refl. destruct (Z.eqb_spec t (sm_curtime m)) as [Q|Q].
    + rewrite <- Q, Z.eqb_refl. assert (W : t = last_time c0 r) by lia.
      unfold momentary_speed in Kcur. rewrite <- W, <- Q, Z.eqb_refl in Kcur. lia.
    + rewrite Z.eqb_refl. destruct (Z.eqb_spec t (last_time c0 r)) as [P|P].
      * rewrite P in *. unfold momentary_speed in Kcur. replace (last_time c0 r =? sm_curtime m) with false in Kcur by lia. lia.
      * rewrite bytes_when_none; [lia|]. intros x Hx. apply Z.eqb_neq. intro W.
        assert (fst x <= last_time c0 r) by (apply last_max; auto; right; now apply in_map). lia.
  - rewrite X9. unfold m0. cbn [sm_curtime]. destruct (t =? sm_curtime m) eqn:?; lia.
Qed.

Lemma sp_init : forall c0 all0, 0 < c0 < 2147483648 -> sp_ok c0 all0 [] (reset_speed c0 all0).
Proof.
  intros c0 all0 H. unfold reset_speed. rewrite to_int_id by lia.
  split; cbn [sm_bytes sm_times sm_idx sm_total sm_start sm_cur sm_curtime sm_all]; auto; try lia.
  - intros j Hj. change (seconds c0 []) with [c0].
    rewrite nth_indep with (d' := c0) by (rewrite repeat_length; apply rot_lt). rewrite nth_repeat.
    destruct (Z.to_nat j) as [|[|k]]; reflexivity.
  - intros j Hj. rewrite nth_repeat. cbn [bytes_when]. now destruct (j <? _).
  - unfold last_time. cbn. lia.
  - cbn [bytes_when]. lia.
  - unfold momentary_speed. cbn [sm_cur sm_curtime bytes_when]. now destruct (_ =? 0).
  - unfold last_time. cbn. lia.
Qed.

Lemma speed_all_app : forall a b m, speed_all (a ++ b) m = bind (speed_all a m) (speed_all b).
Proof.
  induction a as [|[t x] a IH]; intros b m; cbn [app speed_all]; [reflexivity|].
  destruct (add_speed t x m); cbn [bind]; auto.
Qed.

Lemma sp_all_ok : forall r c0 all0, 0 < c0 -> increasing c0 r -> Forall (fun x => fst x < 2147483648) r ->
  c0 < 2147483648 ->
  exists m, speed_all r (reset_speed c0 all0) = Some m /\ sp_ok c0 all0 r m.
Proof.
  induction r as [|[t b] r IH] using rev_ind; intros c0 all0 Hc H F Hc2.
  - exists (reset_speed c0 all0). split; [reflexivity|]. apply sp_init. lia.
  - apply Forall_app in F. destruct F as [F1 F2]. inversion F2; subst. cbn [fst] in *.
    destruct (IH c0 all0 Hc (proj1 (increasing_snoc _ _ _ _ H)) F1 Hc2) as (m & E & K).
    destruct (sp_step c0 all0 r t b m K H ltac:(lia) ltac:(lia)) as (m' & E' & K').
    exists m'. split; auto. rewrite speed_all_app, E. cbn [bind speed_all]. rewrite E'. reflexivity.
Qed.

(** The total is the volume of the seconds in the window. *)
Lemma bw_cons : forall a l r, ~ In a l ->
  bytes_when (fun t => existsb (Z.eqb t) (a :: l)) r =
  bytes_when (Z.eqb a) r + bytes_when (fun t => existsb (Z.eqb t) l) r.
Proof.
  intros a l r H. induction r as [|[t b] r IH]; [reflexivity|]. cbn [bytes_when]. rewrite IH. cbn [existsb].
  rewrite (Z.eqb_sym a t). destruct (Z.eqb_spec t a).
  - subst. cbn [orb]. replace (existsb (Z.eqb a) l) with false; [lia|].
    symmetry. apply not_true_iff_false. intro Q. apply existsb_exists in Q. destruct Q as (x & I & Q).
    apply Z.eqb_eq in Q. subst. auto.
  - cbn [orb]. lia.
Qed.

Lemma win_sum : forall l d r n, NoDup l ->
  zsum (map (fun j => if Z.of_nat j <? Z.of_nat (length l) then bytes_when (Z.eqb (nth j l d)) r else 0) (seq 0 n)) =
  bytes_when (fun t => existsb (Z.eqb t) (firstn n l)) r.
Proof.
  intros l d r n. revert l. induction n as [|n IH]; intros l N.
  - cbn [seq map zsum firstn existsb]. symmetry. now apply bytes_when_none.
  - destruct l as [|a l].
    + rewrite firstn_nil. cbn [existsb].
      rewrite (bytes_when_none (fun _ => false)) by auto.
      assert (Z0 : forall k m, zsum (map (fun j => if Z.of_nat j <? Z.of_nat (length (@nil Z)) then bytes_when (Z.eqb (nth j [] d)) r else 0) (seq k m)) = 0).
      { intros k m. revert k. induction m as [|m IHm]; intro k; [reflexivity|]. cbn [seq map zsum]. rewrite IHm.
        replace (Z.of_nat k <? Z.of_nat (length (@nil Z))) with false by (cbn [length]; lia). lia. }
      apply Z0.
    + cbn [seq map zsum firstn]. inversion N; subst. rewrite bw_cons.
      2: { intro Q. (rewrite <- (firstn_skipn n l) in H1; apply H1, in_or_app; now left). }
      rewrite <- IH by assumption. rewrite <- seq_shift, map_map.
      replace (Z.of_nat 0 <? Z.of_nat (length (a :: l))) with true by (cbn [length]; lia). cbn [nth]. f_equal.
      f_equal. apply map_ext. intro j. cbn [length nth].
      replace (Z.of_nat (S j) <? Z.of_nat (S (length l))) with (Z.of_nat j <? Z.of_nat (length l)) by lia. reflexivity.
Qed.

Lemma speed_total : forall r c0 all0 m, sp_ok c0 all0 r m ->
  sm_total m = bytes_when (fun t => existsb (Z.eqb t) (window c0 r)) r.
Proof.
  intros r c0 all0 m K. rewrite (sp_total _ _ _ _ K), (rot_sum _ (sm_idx m)); [|apply K|apply K].
  unfold js. rewrite map_map. unfold window. rewrite <- (win_sum _ c0) by apply NoDup_nodup.
  f_equal. apply map_ext_in. intros j Hj. apply in_seq in Hj. rewrite (sp_b _ _ _ _ K) by lia.
  rewrite Nat2Z.id. reflexivity.
Qed.

Lemma bytes_when_nonneg : forall p r, Forall (fun x => 0 <= snd x) r -> 0 <= bytes_when p r.
Proof.
  induction r as [|[t b] r IH]; intro F; cbn [bytes_when]; [lia|]. inversion F; subst. cbn [snd] in *.
  apply IH in H2. destruct (p t); lia.
Qed.

Lemma momentary_past : forall c0 all0 r m t, sp_ok c0 all0 r m -> increasing c0 r -> last_time c0 r <= t ->
  momentary_speed t m = bytes_when (Z.eqb t) r.
Proof.
  intros c0 all0 r m t K I H. destruct (Z.eq_dec t (last_time c0 r)) as [->|N]; [apply K|].
  unfold momentary_speed. pose proof (sp_curtime _ _ _ _ K). replace (t =? sm_curtime m) with false by lia.
  symmetry. apply bytes_when_none. intros x Hx. apply Z.eqb_neq. intro W.
  assert (fst x <= last_time c0 r) by (apply last_max; auto; right; now apply in_map). lia.
Qed.
