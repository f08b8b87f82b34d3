From Coq Require Import Sorted.
From Verif Require Import Base CalendarModel CalendarSpec CalendarProofs VolumeModel VolumeProofs3 SchedModel SchedSpec SchedProofs.

(** *** Due times of adjacent intervals *)

Lemma due_in_iff : forall k a b t, timed k ->
  (In t (due_in k a b) <-> exists d, 0 <= d /\ t = appt k d /\ wanted (k_bits k) d = true /\ a < t <= b).
Proof.
  intros k a b t [T1 T2]. rewrite due_in_alt, in_map_iff. split.
  - intros (d & <- & H). apply filter_In in H. destruct H as [H1 H2]. apply in_map_iff in H1.
    destruct H1 as (i & <- & Hi). unfold due_on in H2. apply andb_true_iff in H2. destruct H2 as [H2 H3].
    apply andb_true_iff in H2. exists (Z.of_nat i). split; [lia|]. split; auto. split; [tauto|]. lia.
  - intros (d & Hd & -> & W & B). exists d. split; auto. apply filter_In. split.
    + apply in_map_iff. exists (Z.to_nat d). split; [lia|]. apply in_seq. unfold appt in B. lia.
    + unfold due_on. rewrite W. cbn [andb]. lia.
Qed.

Lemma due_in_n : forall k a b n, timed k -> b / 86400 + 1 <= Z.of_nat n ->
  due_in k a b = map (appt k) (filter (due_on k a b) (map Z.of_nat (seq 0 n))).
Proof.
  intros k a b n [T1 T2] H. rewrite due_in_alt. f_equal.
  replace n with (Z.to_nat (b / 86400 + 1) + (n - Z.to_nat (b / 86400 + 1)))%nat by lia.
  rewrite seq_app, map_app, filter_app.
  rewrite (filter_none _ _ (map Z.of_nat (seq (0 + Z.to_nat (b / 86400 + 1)) _))); [now rewrite app_nil_r|].
  intros x Hx. apply in_map_iff in Hx. destruct Hx as (i & <- & Hi). apply in_seq in Hi.
  unfold due_on, appt. apply andb_false_iff. right. lia.
Qed.

Lemma due_sorted : forall k a b, StronglySorted Z.lt (due_in k a b).
Proof.
  intros k a b. rewrite due_in_alt. generalize (Z.to_nat (b / 86400 + 1)) as n. generalize 0%nat as i.
  intros i n. revert i. induction n as [|n IH]; intro i; cbn [seq map filter]; [constructor|].
  destruct (due_on k a b (Z.of_nat i)); [|apply IH]. cbn [map]. constructor; [apply IH|].
  apply Forall_forall. intros x Hx. apply in_map_iff in Hx. destruct Hx as (d & <- & Hd).
  apply filter_In in Hd. destruct Hd as [Hd _]. apply in_map_iff in Hd. destruct Hd as (j & <- & Hj).
  apply in_seq in Hj. unfold appt. lia.
Qed.

Lemma due_in_app : forall k a b c, timed k -> a <= b <= c -> 0 <= c ->
  due_in k a b ++ due_in k b c = due_in k a c.
Proof.
  intros k a b c T H Hc. set (n := Z.to_nat (c / 86400 + 1)).
  assert (b / 86400 <= c / 86400) by (apply Z.div_le_mono; lia).
  rewrite (due_in_n k a b n), (due_in_n k b c n), (due_in_n k a c n) by (auto; unfold n; lia).
  rewrite <- map_app. f_equal. generalize n as m. generalize 0%nat as i.
  intros i m. revert i. induction m as [|m IH]; intro i; cbn [seq map filter]; [reflexivity|].
  destruct (Z.le_gt_cases (appt k (Z.of_nat i)) b) as [L|L].
  - replace (due_on k b c (Z.of_nat i)) with false by (unfold due_on; lia).
    replace (due_on k a c (Z.of_nat i)) with (due_on k a b (Z.of_nat i)) by (unfold due_on; f_equal; lia).
    rewrite <- IH. now destruct (due_on k a b (Z.of_nat i)).
  - replace (due_on k a c (Z.of_nat i)) with (due_on k b c (Z.of_nat i)) by (unfold due_on; do 2 f_equal; lia).
    replace (due_on k a b (Z.of_nat i)) with false by (unfold due_on; lia).
    assert (Z0 : filter (due_on k a b) (map Z.of_nat (seq (S i) m)) = []).
    { apply filter_none. intros x Hx. apply in_map_iff in Hx. destruct Hx as (j & <- & Hj). apply in_seq in Hj.
      unfold due_on, appt in *. lia. }
    rewrite Z0. cbn [app]. specialize (IH (S i)). rewrite Z0 in IH. cbn [app] in IH. now rewrite IH.
Qed.

Lemma due_same : forall k k' a b, same k k' -> due_in k' a b = due_in k a b.
Proof. intros k k' a b (S1 & S2 & S3 & _). unfold due_in. now rewrite S1, S2, S3. Qed.

(** *** A series of checks *)

Lemma times_app : forall j a b, times_of j (a ++ b) = times_of j a ++ times_of j b.
Proof. intros. unfold times_of. now rewrite filter_app, map_app. Qed.

Lemma last_app_time : forall cs (c d : Z), last (d :: cs) c = last cs d.
Proof. induction cs as [|x cs IH]; intros c d; [reflexivity|]. cbn [last] in *. destruct cs; auto. Qed.

Lemma steady_last : forall cs c, steady c cs -> c <= last cs c.
Proof.
  induction cs as [|d cs IH]; intros c H; [cbn; lia|]. rewrite last_app_time. cbn [steady] in H.
  destruct H as [H1 H2]. apply IH in H2. lia.
Qed.

Lemma same_trans : forall a b c, same a b -> same b c -> same a c.
Proof. intros a b c (? & ? & ? & ?) (? & ? & ? & ?). repeat split; congruence. Qed.

Lemma service_ok : forall cs off s, 691200 <= s_last s + off -> steady (s_last s) cs -> fits off s ->
  exists s' es, service_all off cs s = Some (s', es) /\ s_last s' = last cs (s_last s) /\
  fits off s' /\ length es = length cs /\
  (forall j k, nth_error (s_tasks s) j = Some k -> timed k ->
     times_of j (concat es) = due_in k (s_last s + off) (last cs (s_last s) + off) /\
     (forall y, In y (concat es) -> e_task y = j -> e_done y = true)) /\
  (forall j k, nth_error (s_tasks s) j = Some k -> k_hours k = -1 -> cs <> [] ->
     length (times_of j (concat es)) = if k_last k =? 0 then 1%nat else 0%nat).
Proof.
  induction cs as [|c cs IH]; intros off s Hb St F.
  - exists s, []. split; [reflexivity|]. split; auto. split; auto. split; auto. split; [|intros; congruence].
    intros j k Hk Tk. cbn [concat last]. split; [|intros y []].
    unfold times_of. cbn [filter map].
    destruct (due_in k (s_last s + off) (s_last s + off)) as [|t l] eqn:E; [reflexivity|].
    assert (I : In t (due_in k (s_last s + off) (s_last s + off))) by (rewrite E; now left).
    apply due_in_iff in I; auto. destruct I as (d & _ & _ & _ & I). lia.
  - cbn [steady] in St. destruct St as [S1 S2]. cbn [service_all]. unfold service_work.
    set (s0 := mkS (s_last s) (s_tasks s) true).
    assert (J : (5400 <? c - s_last s0) || (c - s_last s0 <? 0) = false) by (apply orb_false_iff; cbn [s_last s0]; lia).
    pose proof (check_ok off c s0 ltac:(lia)) as C. cbv zeta in C. rewrite J in C.
    destruct (C (fun _ => F)) as (s1 & e & E & L1 & Len & _ & F1 & T & U).
    rewrite E. rewrite <- L1 in S2.
    destruct (IH off s1 ltac:(lia) S2 F1) as (s2 & es & E2 & L2 & F2 & Len2 & T2 & U2).
    rewrite E2. exists s2, (e :: es). split; [reflexivity|]. rewrite last_app_time, <- L1. split; auto.
    split; auto. split; [cbn; lia|]. split.
    + intros j k Hk Tk. destruct (T j k Hk Tk) as (T3 & T4 & k' & K1 & K2).
      assert (Tk' : timed k') by (destruct K2 as (Q1 & Q2 & _), Tk; split; lia).
      destruct (T2 j k' K1 Tk') as [T5 T6]. cbn [concat]. split.
      * rewrite <- L1 in T3. rewrite times_app, T3, T5, (due_same k k') by auto. cbn [s_last s0].
        apply due_in_app; auto; pose proof (steady_last _ _ S2); lia.
      * intros y Hy Ey. apply in_app_or in Hy. destruct Hy as [Hy|Hy]; [|now apply T6].
        rewrite (T4 y Hy Ey). unfold executed. cbn [s_exec s0]. now rewrite orb_true_r.
    + intros j k Hk Tk _. destruct (U j k Hk Tk) as (U3 & _ & k' & K1 & (K2 & _) & K3).
      cbn [concat]. rewrite times_app, app_length, U3.
      destruct cs as [|c2 cs].
      * cbn [service_all] in E2. injection E2 as <- <-. cbn [concat]. unfold times_of. cbn [filter map length]. lia.
      * rewrite (U2 j k' K1 ltac:(lia) ltac:(discriminate)). replace (k_last k' =? 0) with false by lia. lia.
Qed.

(** *** Order of execution *)

Definition tod (k : task) : Z := 60 * k_hours k + k_min k.
Definition earlier (k k' : task) : Prop := tod k <= tod k'.
(** Events of tasks with a time of day; [h] gives the hour of the task at a position. *)
Definition clocked (h : nat -> Z) (y : event) : bool := 0 <=? h (e_task y).

Lemma ss_app : forall a b, StronglySorted Z.le a -> StronglySorted Z.le b ->
  (forall x y, In x a -> In y b -> x <= y) -> StronglySorted Z.le (a ++ b).
Proof.
  induction a as [|x a IH]; intros b A B C; [exact B|]. inversion A; subst. cbn [app]. constructor.
  - apply IH; auto. intros u v Hu Hv. apply C; auto. now right.
  - apply Forall_app. split; auto. apply Forall_forall. intros v Hv. apply C; auto. now left.
Qed.

Lemma run_tasks_order : forall l i loop tl wd a c x l' e h,
  (forall hh mi s, timegm (set_time tl hh mi s) = 86400 * (loop / 86400) + 3600 * hh + 60 * mi + s) ->
  (forall j k, nth_error l j = Some k -> h (i + j)%nat = k_hours k) ->
  StronglySorted earlier l ->
  run_tasks i loop tl wd a c x l = (l', e) ->
  StronglySorted Z.le (map e_time (filter (clocked h) e)) /\
  (forall y, In y e -> clocked h y = true -> exists k, In k l /\ 0 <= k_hours k /\ e_time y = appt k (loop / 86400)).
Proof.
  induction l as [|k l IH]; intros i loop tl wd a c x l' e h Ht Hh Ss H; cbn [run_tasks] in H.
  - injection H as <- <-. split; [constructor|intros y []].
  - inversion Ss as [|? ? Ss1 Ss2]; subst.
    destruct (run_task i loop tl wd a c x k) as [k1 e1] eqn:E1.
    destruct (run_tasks (S i) loop tl wd a c x l) as [l2 e2] eqn:E2. injection H as <- <-.
    destruct (IH (S i) loop tl wd a c x l2 e2 h Ht) as [A B]; auto.
    { intros j k0 Hj. replace (S i + j)%nat with (i + S j)%nat by lia. apply Hh. exact Hj. }
    assert (R : e1 = [] \/ exists d, e1 = [mkE i (appt k (loop / 86400)) d]).
    { unfold run_task in E1. destruct (k_last k =? loop); [left; congruence|].
      rewrite Ht in E1. destruct (_ || (_ && _)); [|left; congruence]. right.
      injection E1 as <- <-. eexists. unfold appt. rewrite Z.add_0_r. reflexivity. }
    assert (Hk : h i = k_hours k) by (rewrite <- (Hh 0%nat k eq_refl); f_equal; lia).
    destruct R as [->|(d & ->)]; cbn [app].
    + split; auto. intros y Hy Cy. destruct (B y Hy Cy) as (k0 & I & J). exists k0. split; auto. now right.
    + split.
      * cbn [filter]. unfold clocked at 1. cbn [e_task]. rewrite Hk. destruct (0 <=? k_hours k) eqn:Q; auto.
        cbn [map e_time]. constructor; auto. apply Forall_forall. intros v Hv. apply in_map_iff in Hv.
        destruct Hv as (y & <- & Hy). apply filter_In in Hy. destruct Hy as [Hy Cy].
        destruct (B y Hy Cy) as (k0 & I & J & ->). rewrite Forall_forall in Ss2. apply Ss2 in I.
        unfold earlier, tod in I. unfold appt. lia.
      * intros y [<-|Hy] Cy.
        -- exists k. split; [now left|]. unfold clocked in Cy. cbn [e_task] in Cy. rewrite Hk in Cy. split; [lia|reflexivity].
        -- destruct (B y Hy Cy) as (k0 & I & J). exists k0. split; auto. now right.
Qed.

Definition clock_time (k : task) : Prop := k_hours k < 24 /\ 0 <= k_min k < 60.

Lemma ss_nth : forall (R : task -> task -> Prop) l, StronglySorted R l <->
  forall i j a b, (i < j)%nat -> nth_error l i = Some a -> nth_error l j = Some b -> R a b.
Proof.
  intros R. induction l as [|x l IH]; split.
  - intros _ [|i] j a b _ H; discriminate.
  - constructor.
  - intros H i j a b Hij Ha Hb. inversion H; subst. destruct j as [|j]; [lia|]. cbn [nth_error] in Hb.
    destruct i as [|i]; cbn [nth_error] in Ha.
    + injection Ha as <-. rewrite Forall_forall in H3. apply H3. eapply nth_error_In; eauto.
    + eapply (proj1 IH H2); [|exact Ha|exact Hb]. lia.
  - intro H. constructor.
    + apply IH. intros i j a b Hij Ha Hb. apply (H (S i) (S j)); auto. lia.
    + apply Forall_forall. intros y Hy. apply In_nth_error in Hy. destruct Hy as (j & Hj).
      apply (H 0%nat (S j)); auto. lia.
Qed.

Lemma run_tasks_keep : forall l i loop tl wd a c x l' e,
  run_tasks i loop tl wd a c x l = (l', e) ->
  Forall2 same l l'.
Proof.
  induction l as [|k l IH]; intros i loop tl wd a c x l' e H; cbn [run_tasks] in H.
  - injection H as <- <-. constructor.
  - pose proof (run_task_same i loop tl wd a c x k) as S1.
    destruct (run_task i loop tl wd a c x k) as [k1 e1].
    destruct (run_tasks (S i) loop tl wd a c x l) as [l2 e2] eqn:E2. injection H as <- <-.
    constructor; eauto.
Qed.

Lemma keep_order : forall l l', Forall2 same l l' ->
  (StronglySorted earlier l -> StronglySorted earlier l') /\ (Forall clock_time l -> Forall clock_time l') /\
  (forall h i, (forall j k, nth_error l j = Some k -> h (i + j)%nat = k_hours k) ->
               forall j k, nth_error l' j = Some k -> h (i + j)%nat = k_hours k).
Proof.
  assert (G : forall l l', Forall2 same l l' -> forall j k', nth_error l' j = Some k' ->
              exists k, nth_error l j = Some k /\ same k k').
  { induction 1; intros [|j] k' Hj; cbn [nth_error] in *; try discriminate; eauto. injection Hj as <-. eauto. }
  intros l l' H. split; [|split].
  - rewrite !ss_nth. intros K i j a b Hij Ha Hb.
    destruct (G _ _ H _ _ Ha) as (a0 & A1 & (A2 & A3 & _)). destruct (G _ _ H _ _ Hb) as (b0 & B1 & (B2 & B3 & _)).
    pose proof (K i j a0 b0 Hij A1 B1) as R. unfold earlier, tod in *. lia.
  - intro F. apply Forall_forall. intros k' I. apply In_nth_error in I. destruct I as (j & Hj).
    destruct (G _ _ H _ _ Hj) as (k & K1 & (K2 & K3 & _)). apply nth_error_In in K1.
    rewrite Forall_forall in F. apply F in K1. unfold clock_time in *. lia.
  - intros h i Hh j k Hj. destruct (G _ _ H _ _ Hj) as (k0 & K1 & (K2 & _)). rewrite (Hh j k0 K1). lia.
Qed.

Lemma run_days_order : forall n loop tl wd a c x l l' e h, 0 < loop ->
  (forall hh mi s, timegm (set_time tl hh mi s) = 86400 * (loop / 86400) + 3600 * hh + 60 * mi + s) ->
  (forall j k, nth_error l j = Some k -> h j = k_hours k) ->
  StronglySorted earlier l -> Forall clock_time l ->
  run_days n loop tl wd a c x l = Some (l', e) ->
  StronglySorted Z.le (map e_time (filter (clocked h) e)) /\
  (forall y, In y e -> clocked h y = true -> 86400 * (loop / 86400) <= e_time y).
Proof.
  induction n as [|n IH]; intros loop tl wd a c x l l' e h Hl Ht Hh Ss Fc H; cbn [run_days] in H.
  - destruct (loop <=? c); [discriminate|]. injection H as <- <-. split; [constructor|intros y []].
  - destruct (loop <=? c).
    2: { injection H as <- <-. split; [constructor|intros y []]. }
    destruct (run_tasks 0 loop tl wd a c x l) as [l1 e1] eqn:E1.
    destruct (run_days n _ _ _ _ _ _ l1) as [[l2 e2]|] eqn:E2; [|discriminate]. injection H as <- <-.
    assert (Hh0 : forall j k, nth_error l j = Some k -> h (0 + j)%nat = k_hours k) by exact Hh.
    destruct (run_tasks_order _ _ _ _ _ _ _ _ _ _ h Ht Hh0 Ss E1) as [A B].
    destruct (keep_order _ _ (run_tasks_keep _ _ _ _ _ _ _ _ _ _ E1)) as (K1 & K2 & K3).
    assert (Hl2 : 0 < loop + 86400) by lia. assert (Hl3 : 0 <= loop + 86400) by lia.
    destruct (IH _ _ _ _ _ _ _ _ _ h Hl2 (fun hh mi s => set_time_gm _ hh mi s Hl3)
                 (K3 h 0%nat Hh0) (K1 Ss) (K2 Fc) E2) as [A2 B2].
    assert (B1 : forall y, In y e1 -> clocked h y = true ->
              86400 * (loop / 86400) <= e_time y < 86400 * (loop / 86400) + 86400).
    { intros y Hy Cy. destruct (B y Hy Cy) as (k & I & J & ->). rewrite Forall_forall in Fc. apply Fc in I.
      unfold clock_time in I. unfold appt. lia. }
    split.
    + rewrite filter_app, map_app. apply ss_app; auto. intros u v Hu Hv.
      apply in_map_iff in Hu. destruct Hu as (y & <- & Hy). apply filter_In in Hy.
      apply in_map_iff in Hv. destruct Hv as (z & <- & Hz). apply filter_In in Hz.
      pose proof (B1 y (proj1 Hy) (proj2 Hy)). pose proof (B2 z (proj1 Hz) (proj2 Hz)). lia.
    + intros y Hy Cy. apply in_app_or in Hy. destruct Hy as [Hy|Hy]; [apply B1 in Hy; auto; lia|].
      pose proof (B2 y Hy Cy). lia.
Qed.

Definition hour_at (l : list task) (j : nat) : Z :=
  match nth_error l j with Some k => k_hours k | None => 0 end.

Lemma check_order : forall off cur s s' e, 691200 <= cur + off ->
  StronglySorted earlier (s_tasks s) -> Forall clock_time (s_tasks s) ->
  check_tasks off cur s = Some (s', e) ->
  StronglySorted Z.le (map e_time (filter (clocked (hour_at (s_tasks s))) e)).
Proof.
  intros off cur s s' e Hc Ss Fc H. unfold check_tasks in H.
  destruct (s_tasks s) as [|k0 tl0] eqn:Et; [injection H as <- <-; constructor|]. cbv zeta in H.
  set (jump := (5400 <? cur - s_last s) || (cur - s_last s <? 0)) in *.
  set (from := (if jump then cur - 604800 else s_last s) + off) in *.
  set (tl := set_time (gmtm from) _ _ _) in *.
  set (tasks := if jump then map forget (k0 :: tl0) else k0 :: tl0) in *.
  destruct (run_days _ _ _ _ _ _ _ tasks) as [[l' e']|] eqn:E; [|discriminate]. injection H as <- <-.
  assert (B : 86400 <= from).
  { unfold from. destruct jump eqn:J; [lia|]. unfold jump in J. apply orb_false_iff in J. lia. }
  assert (Sm : Forall2 same (k0 :: tl0) tasks).
  { unfold tasks. destruct jump.
    - clear. induction (k0 :: tl0) as [|k l IH]; constructor; auto. unfold forget. destruct (_ =? -1); repeat split.
    - clear. induction (k0 :: tl0) as [|k l IH]; constructor; auto. repeat split. }
  destruct (keep_order _ _ Sm) as (K1 & K2 & K3).
  assert (Hl : timegm tl = 86400 * (from / 86400) + (cur + off) mod 86400).
  { unfold tl. rewrite set_time_gm by lia. rewrite <- (gm_time (cur + off)) by lia. lia. }
  refine (proj1 (run_days_order _ _ _ _ _ _ _ _ _ _ (hour_at (k0 :: tl0)) _ _ _ (K1 Ss) (K2 Fc) E)).
  - rewrite Hl. lia.
  - intros hh mi sx. unfold tl. rewrite set_time_twice, set_time_gm by lia. fold tl. rewrite Hl.
    replace ((86400 * (from / 86400) + (cur + off) mod 86400) / 86400) with (from / 86400) by lia. reflexivity.
  - intros j k Hj. apply (K3 (hour_at (k0 :: tl0)) 0%nat); auto.
    intros j0 k1 Hj0. unfold hour_at. cbn [Nat.add]. now rewrite Hj0.
Qed.

Lemma next_work_ok : forall cur, 0 <= cur -> 1 <= next_work cur <= 60 /\ (cur + next_work cur) mod 60 = 0.
Proof.
  intros cur H. unfold next_work. rewrite set_time_gm by lia. pose proof (gm_time cur H).
  assert (E : tm_sec (gmtm cur) = cur mod 60).
  { unfold gmtm. destruct (gmdate cur) as [[y m] d]. reflexivity. }
  lia.
Qed.
