From Verif Require Import Base CalendarModel CalendarSpec CalendarProofs VolumeModel VolumeProofs3 SchedModel SchedSpec.

Lemma set_time_gm : forall t h mi s, 0 <= t ->
  timegm (set_time (gmtm t) h mi s) = 86400 * (t / 86400) + 3600 * h + 60 * mi + s.
Proof.
  intros t h mi s H. unfold gmtm. pose proof (gmdate_valid t) as V.
  assert (Dn : day_num (gmdate t) = t / 86400) by (unfold gmdate; rewrite date_after_num; lia).
  destruct (gmdate t) as [[y m] d]. unfold set_time. cbn [tm_year tm_mon tm_mday].
  unfold valid in V. pose proof (timegm_valid y m d h mi s ltac:(lia)) as T. unfold tm_of in T.
  rewrite T, Dn. reflexivity.
Qed.

Lemma set_time_twice : forall t a b c h mi s, set_time (set_time t a b c) h mi s = set_time t h mi s.
Proof. reflexivity. Qed.

(** The bit test of the code. *)
Lemma land_bit : forall b k, 0 <= k -> negb (Z.land b (Z.shiftl 1 k) =? 0) = Z.testbit b k.
Proof.
  intros b k H. rewrite Z.shiftl_1_l. destruct (Z.testbit b k) eqn:E.
  - apply negb_true_iff, Z.eqb_neq. intro Q.
    assert (X : Z.testbit (Z.land b (2 ^ k)) k = true) by (rewrite Z.land_spec, E, Z.pow2_bits_true; auto).
    rewrite Q, Z.bits_0 in X. discriminate.
  - apply negb_false_iff, Z.eqb_eq. apply Z.bits_inj'. intros n Hn. rewrite Z.land_spec, Z.bits_0.
    rewrite Z.pow2_bits_eqb by lia. destruct (Z.eqb_spec k n); [subst; rewrite E; reflexivity|].
    now rewrite andb_false_r.
Qed.

Lemma weekday_ok : forall bits t,
  let w := if wday t =? 0 then 7 else wday t in
  (bits =? 0) || negb (Z.land bits (Z.shiftl 1 (w - 1)) =? 0) = wanted bits (t / 86400).
Proof.
  intros bits t w. unfold wanted. f_equal.
  assert (E : w = weekday (t / 86400)).
  { unfold w, weekday, wday. destruct ((t / 86400 + 4) mod 7 =? 0) eqn:E; lia. }
  rewrite E. apply land_bit. unfold weekday. lia.
Qed.

(** The appointment of a task on a day. *)
Definition appt (k : task) (d : Z) : Z := 86400 * d + 3600 * k_hours k + 60 * k_min k.
Definition due_on (k : task) (a b d : Z) : bool :=
  wanted (k_bits k) d && (a <? appt k d) && (appt k d <=? b).
Definition same (k k' : task) : Prop :=
  k_hours k' = k_hours k /\ k_min k' = k_min k /\ k_bits k' = k_bits k /\ k_proc k' = k_proc k.

(** *** Tasks do not influence each other *)

Lemma run_tasks_proj : forall l i loop tl wd a c x l' e,
  run_tasks i loop tl wd a c x l = (l', e) ->
  length l' = length l /\
  (forall y, In y e -> (i <= e_task y)%nat) /\
  forall j k, nth_error l j = Some k ->
    nth_error l' j = Some (fst (run_task (i + j) loop tl wd a c x k)) /\
    filter (fun y => Nat.eqb (e_task y) (i + j)) e = snd (run_task (i + j) loop tl wd a c x k).
Proof.
  assert (R : forall i loop tl wd a c x k y, In y (snd (run_task i loop tl wd a c x k)) -> e_task y = i).
  { intros i loop tl wd a c x k y. unfold run_task. destruct (k_last k =? loop); [intros []|].
    destruct (_ || (_ && _)); cbn [snd]; [|intros []]. intros [<-|[]]. reflexivity. }
  induction l as [|k l IH]; intros i loop tl wd a c x l' e H; cbn [run_tasks] in H.
  - injection H as <- <-. split; [reflexivity|]. split; [intros y []|]. intros [|j] k Hk; discriminate.
  - destruct (run_task i loop tl wd a c x k) as [k1 e1] eqn:E1.
    destruct (run_tasks (S i) loop tl wd a c x l) as [l2 e2] eqn:E2. injection H as <- <-.
    destruct (IH _ _ _ _ _ _ _ _ _ E2) as (L & B & P). split; [cbn; lia|]. split.
    + intros y Hy. apply in_app_or in Hy. destruct Hy as [Hy|Hy]; [|apply B in Hy; lia].
      pose proof (R i loop tl wd a c x k y) as Q. rewrite E1 in Q. apply Q in Hy. lia.
    + intros [|j] k0 Hk; cbn [nth_error] in *.
      * injection Hk as <-. rewrite Nat.add_0_r, E1. split; [reflexivity|]. rewrite filter_app.
        replace (filter (fun y => Nat.eqb (e_task y) i) e2) with (@nil event).
        2: { symmetry. clear - B. induction e2 as [|y e2 IH]; [reflexivity|]. cbn [filter].
             assert (S i <= e_task y)%nat by (apply B; now left).
             destruct (Nat.eqb_spec (e_task y) i); [lia|]. apply IH. intros z Hz. apply B. now right. }
        rewrite app_nil_r. cbn [snd]. pose proof (R i loop tl wd a c x k) as Q. rewrite E1 in Q. cbn [snd] in Q.
        clear - Q. induction e1 as [|y e1 IH]; [reflexivity|]. cbn [filter].
        rewrite (Q y) by now left. rewrite Nat.eqb_refl. f_equal. apply IH. intros z Hz. apply Q. now right.
      * destruct (P j k0 Hk) as [P1 P2]. replace (i + S j)%nat with (S i + j)%nat by lia. split; [exact P1|].
        rewrite filter_app, P2.
        replace (filter (fun y => Nat.eqb (e_task y) (S i + j)) e1) with (@nil event); [reflexivity|].
        symmetry. pose proof (R i loop tl wd a c x k) as Q. rewrite E1 in Q. cbn [snd] in Q.
        clear - Q. induction e1 as [|y e1 IH]; [reflexivity|]. cbn [filter]. rewrite (Q y) by now left.
        destruct (Nat.eqb_spec i (S i + j)); [lia|]. apply IH. intros z Hz. apply Q. now right.
Qed.

(** *** One day *)

Lemma run_task_timed : forall i loop tl wd a c x k, 0 < loop -> timed k ->
  (forall h mi s, timegm (set_time tl h mi s) = 86400 * (loop / 86400) + 3600 * h + 60 * mi + s) ->
  wd = wday loop ->
  (k_last k = loop -> appt k (loop / 86400) <= a) ->
  run_task i loop tl wd a c x k =
  if due_on k a c (loop / 86400)
  then (mkTask (k_hours k) (k_min k) (k_bits k) (k_proc k) loop, [mkE i (appt k (loop / 86400)) (executed x k)])
  else (k, []).
Proof.
  intros i loop tl wd a c x k Hl [Th Tm] Ht Hw Hi. unfold run_task, due_on.
  destruct (Z.eqb_spec (k_last k) loop) as [E|E].
  - apply Hi in E. replace (a <? appt k (loop / 86400)) with false by lia.
    now rewrite andb_false_r.
  - rewrite Ht, Z.add_0_r. subst wd. cbv zeta. pose proof (weekday_ok (k_bits k) loop) as W. cbv zeta in W.
    rewrite W. fold (appt k (loop / 86400)).
    replace (0 <=? k_hours k) with true by lia. replace (k_hours k =? -1) with false by lia.
    cbn [andb]. rewrite orb_false_r. reflexivity.
Qed.

Lemma run_task_startup : forall i loop tl wd a c x k, 0 < loop -> k_hours k = -1 ->
  exists t, run_task i loop tl wd a c x k =
  if k_last k =? 0 then (mkTask (k_hours k) (k_min k) (k_bits k) (k_proc k) loop, [mkE i t true])
  else (k, []).
Proof.
  intros i loop tl wd a c x k Hl H. exists (timegm (set_time tl (k_hours k) (k_min k) 0)). unfold run_task.
  rewrite H. cbn [Z.leb Z.eqb Pos.eqb andb]. change (0 <=? -1) with false. change (-1 =? -1) with true.
  cbn [andb orb]. unfold executed. rewrite H. change (-1 =? -1) with true. rewrite !orb_true_r.
  destruct (Z.eqb_spec (k_last k) 0).
  - replace (k_last k =? loop) with false by lia. reflexivity.
  - destruct (k_last k =? loop); reflexivity.
Qed.

(** *** All days *)

Definition last_fits (a loop c : Z) (k : task) : Prop :=
  k_last k = 0 \/ appt k (k_last k / 86400) <= a \/ (k_last k < loop /\ appt k (k_last k / 86400) <= c).

Definition days (d : Z) (n : nat) : list Z := map (fun i => d + Z.of_nat i) (seq 0 n).

Lemma days_S : forall d n, days d (S n) = d :: days (d + 1) n.
Proof.
  intros. unfold days. cbn [seq map]. f_equal; [lia|]. rewrite <- seq_shift, map_map. apply map_ext. intro. lia.
Qed.

Lemma run_days_ok : forall n loop tl wd a c x l, 0 < loop -> a <= c ->
  c mod 86400 = loop mod 86400 -> Z.of_nat n = (c - loop) / 86400 + 1 -> loop - 86400 <= c ->
  (forall h mi s, timegm (set_time tl h mi s) = 86400 * (loop / 86400) + 3600 * h + 60 * mi + s) ->
  wd = wday loop ->
  exists l' e, run_days n loop tl wd a c x l = Some (l', e) /\ length l' = length l /\
  (forall j k, nth_error l j = Some k -> timed k -> last_fits a loop c k ->
     filter (fun y => Nat.eqb (e_task y) j) e =
       map (fun d => mkE j (appt k d) (executed x k)) (filter (due_on k a c) (days (loop / 86400) n)) /\
     exists k', nth_error l' j = Some k' /\ same k k' /\ last_fits c 0 c k') /\
  (forall j k, nth_error l j = Some k -> k_hours k = -1 ->
     (exists ts, filter (fun y => Nat.eqb (e_task y) j) e =
         map (fun t => mkE j t true) ts /\ length ts = if (k_last k =? 0) && (0 <? Z.of_nat n) then 1%nat else 0%nat) /\
     exists k', nth_error l' j = Some k' /\ same k k' /\
       (k_last k' = 0 -> k_last k = 0 /\ n = 0%nat)).
Proof.
  induction n as [|n IH]; intros loop tl wd a c x l Hl Hac Hm Hn Hr Ht Hw; cbn [run_days].
  - replace (loop <=? c) with false by lia. exists l, []. split; [reflexivity|]. split; [reflexivity|]. split.
    + intros j k Hk Tk Fk. split; [reflexivity|]. exists k. split; auto. split; [repeat split|].
      destruct Fk as [F|[F|[F1 F2]]]; [now left|right; left; lia|right; left; lia].
    + intros j k Hk Tk. split; [exists []; split; [reflexivity|now rewrite andb_false_r]|].
      exists k. split; auto. split; [repeat split|]. auto.
  - replace (loop <=? c) with true by lia.
    destruct (run_tasks 0 loop tl wd a c x l) as [l1 e1] eqn:E1.
    destruct (run_tasks_proj _ _ _ _ _ _ _ _ _ _ E1) as (L & _ & P).
    assert (Q : (loop + 86400) / 86400 = loop / 86400 + 1) by lia.
    assert (Q2 : (loop + 86400) mod 86400 = loop mod 86400) by lia.
    destruct (IH (loop + 86400) (gmtm (loop + 86400)) (wday (loop + 86400)) a c x l1) as (l2 & e2 & E2 & L2 & T2 & S2);
      [lia|lia|lia|lia|lia| |reflexivity|].
    { intros. rewrite set_time_gm by lia. reflexivity. }
    rewrite E2. exists l2, (e1 ++ e2). split; [reflexivity|]. split; [lia|].
    split.
    + intros j k Hk Tk Fk. destruct (P j k Hk) as [P1 P2]. cbn [Nat.add] in P1, P2.
      assert (Hlast : k_last k = loop -> appt k (loop / 86400) <= a).
      { intro Y. destruct Fk as [F|[F|[F _]]]; [lia| |lia]. rewrite Y in F. exact F. }
      rewrite (run_task_timed _ _ _ _ _ _ _ _ Hl Tk Ht Hw Hlast) in P1, P2.
      rewrite filter_app, P2, days_S. cbn [filter].
      destruct (due_on k a c (loop / 86400)) eqn:D; cbn [fst snd] in P1, P2 |- *.
      * destruct (T2 j _ P1) as [T3 T4].
        -- exact Tk.
        -- unfold last_fits, appt. cbn [k_last k_hours k_min]. right; right.
           unfold due_on, appt in D. lia.
        -- rewrite Q in T3. split.
           ++ unfold appt, due_on, executed in *. cbn [k_last k_hours k_min k_bits k_proc] in *.
              cbn [map app]. f_equal. rewrite T3. reflexivity.
           ++ destruct T4 as (k' & K1 & K2 & K3). exists k'. split; auto.
      * destruct (T2 j _ P1) as [T3 T4]; [exact Tk| |].
        -- destruct Fk as [F|[F|[F1 F2]]]; [now left|right; now left|right; right; lia].
        -- rewrite Q in T3. cbn [app]. auto.
    + intros j k Hk Tk. destruct (P j k Hk) as [P1 P2]. cbn [Nat.add] in P1, P2.
      destruct (run_task_startup j loop tl wd a c x k Hl Tk) as (t & R). rewrite R in P1, P2.
      rewrite filter_app, P2. destruct (Z.eqb_spec (k_last k) 0) as [Z0|Z0]; cbn [fst snd] in *.
      * destruct (S2 j _ P1) as [(ts & T3 & T4) T5]; [exact Tk|]. cbn [k_last k_hours] in T4.
        replace (loop =? 0) with false in T4 by lia. cbn [andb] in T4. destruct ts; [|discriminate].
        split.
        -- exists [t]. rewrite T3. split; [reflexivity|]. replace (0 <? Z.of_nat (S n)) with true by lia. reflexivity.
        -- destruct T5 as (k' & K1 & K2 & K3). exists k'. split; auto. split; [exact K2|]. intro Y. apply K3 in Y.
           cbn [k_last] in Y. lia.
      * destruct (S2 j _ P1) as [(ts & T3 & T4) T5]; [exact Tk|].
        replace (k_last k =? 0) with false in T4 by lia. cbn [andb] in T4. destruct ts; [|discriminate].
        split; [exists []; cbn [app andb]; auto|].
        destruct T5 as (k' & K1 & K2 & K3). exists k'. split; auto. split; auto. intro Y. apply K3 in Y. tauto.
Qed.

Lemma run_task_same : forall i loop tl wd a c x k, same k (fst (run_task i loop tl wd a c x k)).
Proof.
  intros. unfold run_task. destruct (_ =? loop); [repeat split|]. destruct (_ || (_ && _)); repeat split.
Qed.

Lemma run_days_same : forall n loop tl wd a c x l l' e, run_days n loop tl wd a c x l = Some (l', e) ->
  forall j k, nth_error l j = Some k -> exists k', nth_error l' j = Some k' /\ same k k'.
Proof.
  induction n as [|n IH]; intros loop tl wd a c x l l' e H j k Hk; cbn [run_days] in H.
  - destruct (loop <=? c); [discriminate|]. injection H as <- <-. exists k. split; auto. repeat split.
  - destruct (loop <=? c).
    2: { injection H as <- <-. exists k. split; auto. repeat split. }
    destruct (run_tasks 0 loop tl wd a c x l) as [l1 e1] eqn:E1.
    destruct (run_days n _ _ _ _ _ _ l1) as [[l2 e2]|] eqn:E2; [|discriminate]. injection H as <- <-.
    destruct (run_tasks_proj _ _ _ _ _ _ _ _ _ _ E1) as (_ & _ & P). destruct (P j k Hk) as [P1 _].
    destruct (IH _ _ _ _ _ _ _ _ _ E2 j _ P1) as (k' & K1 & K2). exists k'. split; auto.
    destruct (run_task_same (0 + j) loop tl wd a c x k) as (? & ? & ? & ?), K2 as (? & ? & ? & ?).
    repeat split; congruence.
Qed.

(** *** Due times *)

Lemma filter_none : forall (A : Type) (p : A -> bool) l, (forall x, In x l -> p x = false) -> filter p l = [].
Proof.
  induction l as [|x l IH]; intro H; [reflexivity|]. cbn [filter]. rewrite H by now left.
  apply IH. intros y Hy. apply H. now right.
Qed.

Lemma due_in_alt : forall k a b, due_in k a b =
  map (appt k) (filter (due_on k a b) (map Z.of_nat (seq 0 (Z.to_nat (b / 86400 + 1))))).
Proof. reflexivity. Qed.

Lemma due_days : forall k a b, timed k -> 0 <= a <= b ->
  map (appt k) (filter (due_on k a b) (days (a / 86400) (Z.to_nat (b / 86400 - a / 86400 + 1)))) = due_in k a b.
Proof.
  intros k a b [T1 T2] H. rewrite due_in_alt. f_equal.
  replace (Z.to_nat (b / 86400 + 1)) with (Z.to_nat (a / 86400) + Z.to_nat (b / 86400 - a / 86400 + 1))%nat by lia.
  rewrite seq_app, map_app, filter_app.
  rewrite (filter_none _ _ (map Z.of_nat (seq 0 (Z.to_nat (a / 86400))))).
  2: { intros x Hx. apply in_map_iff in Hx. destruct Hx as (i & <- & Hi). apply in_seq in Hi.
       unfold due_on, appt. replace (a <? 86400 * Z.of_nat i + 3600 * k_hours k + 60 * k_min k) with false by lia.
       now rewrite andb_false_r. }
  cbn [app Nat.add]. f_equal. unfold days. set (n := Z.to_nat (b / 86400 - a / 86400 + 1)).
  assert (G : forall m d, 0 <= d -> map (fun i => d + Z.of_nat i) (seq 0 m) = map Z.of_nat (seq (Z.to_nat d) m)).
  { induction m as [|m IH]; intros d Hd; [reflexivity|]. cbn [seq map]. f_equal; [lia|].
    rewrite <- seq_shift, map_map. replace (S (Z.to_nat d)) with (Z.to_nat (d + 1)) by lia. rewrite <- IH by lia.
    apply map_ext. intro. lia. }
  apply G. lia.
Qed.

(** *** One check *)

Lemma gm_time : forall t, 0 <= t ->
  3600 * tm_hour (gmtm t) + 60 * tm_min (gmtm t) + tm_sec (gmtm t) = t mod 86400.
Proof.
  intros t H. unfold gmtm. destruct (gmdate t) as [[y m] d]. cbn [tm_hour tm_min tm_sec]. lia.
Qed.

Definition fits (off : Z) (s : sched) : Prop :=
  forall j k, nth_error (s_tasks s) j = Some k -> timed k ->
    k_last k = 0 \/ appt k (k_last k / 86400) <= s_last s + off.

Lemma times_map : forall (A : Type) j (f : A -> Z) b l,
  map e_time (map (fun d => mkE j (f d) b) l) = map f l.
Proof. intros. rewrite map_map. reflexivity. Qed.

Lemma wday_same : forall a b, a / 86400 = b / 86400 -> wday a = wday b.
Proof. intros a b H. unfold wday. now rewrite H. Qed.

Lemma check_ok : forall off cur s, 691200 <= cur + off -> 
  let jump := (5400 <? cur - s_last s) || (cur - s_last s <? 0) in
  let from := (if jump then cur - 604800 else s_last s) + off in
  (jump = false -> fits off s) ->
  exists s' e, check_tasks off cur s = Some (s', e) /\
  s_last s' = cur /\ length (s_tasks s') = length (s_tasks s) /\
  (s_tasks s <> [] -> s_exec s' = if jump then false else s_exec s) /\
  fits off s' /\
  (forall j k, nth_error (s_tasks s) j = Some k -> timed k ->
     times_of j e = due_in k from (cur + off) /\
     (forall y, In y e -> e_task y = j -> e_done y = executed (if jump then false else s_exec s) k) /\
     exists k', nth_error (s_tasks s') j = Some k' /\ same k k') /\
  (forall j k, nth_error (s_tasks s) j = Some k -> k_hours k = -1 ->
     length (times_of j e) = (if k_last k =? 0 then 1%nat else 0%nat) /\
     (forall y, In y e -> e_task y = j -> e_done y = true) /\
     exists k', nth_error (s_tasks s') j = Some k' /\ same k k' /\ k_last k' <> 0).
Proof.
  intros off cur s Hc jump from Hf. unfold check_tasks. fold jump.
  destruct (s_tasks s) as [|k0 tl0] eqn:Et.
  { exists (mkS cur [] (s_exec s)), []. split; [reflexivity|]. cbn [s_last s_tasks s_exec].
    split; auto. split; auto. split; [intros []; auto|].
    split; [intros [|j] k Hk; discriminate|].
    split; intros [|j] k Hk; discriminate. }
  cbv zeta. fold from.
  set (lc := cur + off) in *.
  assert (B : 0 < from <= lc /\ 86400 <= from).
  { unfold from, lc. destruct jump eqn:J; [lia|]. unfold jump in J. apply orb_false_iff in J. lia. }
  set (tasks := if jump then map forget (k0 :: tl0) else k0 :: tl0).
  set (x := if jump then false else s_exec s).
  set (tl := set_time (gmtm from) _ _ _).
  assert (Hloop : timegm tl = 86400 * (from / 86400) + lc mod 86400).
  { unfold tl. rewrite set_time_gm by lia. rewrite <- (gm_time lc) by lia. lia. }
  rewrite Hloop. set (loop := 86400 * (from / 86400) + lc mod 86400) in *.
  assert (Dl : loop / 86400 = from / 86400) by (unfold loop; lia).
  assert (Dn : (lc - loop) / 86400 + 1 = lc / 86400 - from / 86400 + 1) by (unfold loop; lia).
  destruct (run_days_ok (Z.to_nat ((lc - loop) / 86400 + 1)) loop tl (wday from) from lc x tasks)
    as (l' & e & E & L & T & S0).
  - unfold loop. lia.
  - lia.
  - unfold loop. lia.
  - rewrite Dn. lia.
  - unfold loop. lia.
  - intros. unfold tl. rewrite set_time_twice, set_time_gm by lia. rewrite Dl. reflexivity.
  - apply wday_same. auto.
  - rewrite E. exists (mkS cur l' x), e. split; [reflexivity|]. cbn [s_last s_tasks s_exec].
    assert (Lt : length tasks = length (k0 :: tl0)) by (unfold tasks; destruct jump; rewrite ?map_length; reflexivity).
    assert (Get : forall j k, nth_error (k0 :: tl0) j = Some k -> timed k ->
       exists k1, nth_error tasks j = Some k1 /\ same k k1 /\ timed k1 /\ last_fits from loop lc k1).
    { intros j k Hk Tk. unfold tasks. destruct jump eqn:J.
      - exists (forget k). rewrite nth_error_map, Hk. split; [reflexivity|]. unfold forget.
        destruct Tk as [T1 T2]. replace (k_hours k =? -1) with false by lia.
        split; [repeat split|]. split; [split; assumption|]. left. reflexivity.
      - exists k. split; auto. split; [repeat split|]. split; auto.
        assert (Ef : from = s_last s + off) by reflexivity.
        unfold fits in Hf. rewrite Et in Hf. destruct (Hf eq_refl j k Hk Tk) as [F|F]; [now left|right; left; lia]. }
    assert (App : forall k k1, same k k1 -> (forall d, appt k1 d = appt k d) /\
                  (forall a b d, due_on k1 a b d = due_on k a b d) /\ executed x k1 = executed x k).
    { intros k k1 (S1 & S2 & S3 & S4). unfold due_on, appt, executed. rewrite S1, S2, S3, S4. auto. }
    split; auto. split; [lia|]. split; [auto|]. split; [|split].
    + intros j k' Hk' Tk'. cbn [s_tasks s_last] in *.
      destruct (nth_error (k0 :: tl0) j) as [k|] eqn:Hk.
      2: { apply nth_error_None in Hk. assert (nth_error l' j <> None) by congruence. apply nth_error_Some in H. lia. }
      destruct (nth_error tasks j) as [k1|] eqn:Hk1.
      2: { apply nth_error_None in Hk1. assert (nth_error l' j <> None) by congruence. apply nth_error_Some in H. lia. }
      assert (Tk : timed k).
      { assert (Sk : same k k1).
        { unfold tasks in Hk1. destruct jump; [|rewrite Hk in Hk1; injection Hk1 as <-; repeat split].
          rewrite nth_error_map, Hk in Hk1. injection Hk1 as <-. unfold forget.
          destruct (k_hours k =? -1); repeat split. }
        destruct (Z.eq_dec (k_hours k) (-1)) as [Q|Q].
        - destruct Sk as (W1 & _). destruct (S0 j k1 Hk1 ltac:(lia)) as (_ & k2 & K1 & (V1 & _) & _).
          rewrite Hk' in K1. injection K1 as <-. destruct Tk'. lia.
        - destruct Sk as (W1 & W2 & _).
          assert (X : k_hours k' = k_hours k1 /\ k_min k' = k_min k1).
          { pose proof (run_days_same (Z.to_nat ((lc - loop) / 86400 + 1)) loop tl (wday from) from lc x tasks l' e E) as RS.
            destruct (RS j k1 Hk1) as (k2 & K1 & K2). rewrite Hk' in K1. injection K1 as <-.
            destruct K2 as (? & ? & _). split; lia. }
          destruct Tk'. split; lia. }
      destruct (Get j k Hk Tk) as (k2 & G1 & G2 & G3 & G4). rewrite Hk1 in G1. injection G1 as <-.
      destruct (T j k1 Hk1 G3 G4) as (_ & k3 & K1 & K2 & K3). rewrite Hk' in K1. injection K1 as <-.
      destruct K3 as [K3|[K3|[_ K3]]]; auto.
    + intros j k Hk Tk. destruct (Get j k Hk Tk) as (k1 & G1 & G2 & G3 & G4).
      destruct (App k k1 G2) as (A1 & A2 & A3).
      destruct (T j k1 G1 G3 G4) as (F & k' & K1 & K2 & K3). split; [|split].
      * unfold times_of. rewrite F, times_map, Dn, Dl. rewrite <- due_days by (auto; lia).
        rewrite (map_ext _ _ A1). f_equal. apply filter_ext. intro d. apply A2.
      * intros y Hy Ey. assert (I : In y (filter (fun y => Nat.eqb (e_task y) j) e))
          by (apply filter_In; split; [exact Hy|now apply Nat.eqb_eq]).
        rewrite F in I. apply in_map_iff in I. destruct I as (d & <- & _). cbn [e_done]. exact A3.
      * exists k'. split; auto. destruct G2 as (? & ? & ? & ?), K2 as (? & ? & ? & ?). repeat split; congruence.
    + intros j k Hk Tk.
      assert (G1 : nth_error tasks j = Some k).
      { unfold tasks. destruct jump; auto. rewrite nth_error_map, Hk. cbn [option_map]. unfold forget.
        rewrite Tk. reflexivity. }
      destruct (S0 j k G1 Tk) as ((ts & F & Len) & k' & K1 & K2 & K3).
      assert (Np : 0 <? Z.of_nat (Z.to_nat ((lc - loop) / 86400 + 1)) = true) by lia.
      rewrite Np, andb_true_r in Len. split; [|split].
      * unfold times_of. rewrite F, !map_length. exact Len.
      * intros y Hy Ey. assert (I : In y (filter (fun y => Nat.eqb (e_task y) j) e))
          by (apply filter_In; split; [exact Hy|now apply Nat.eqb_eq]).
        rewrite F in I. apply in_map_iff in I. destruct I as (d & <- & _). reflexivity.
      * exists k'. split; auto. split; auto. intro Y. apply K3 in Y. lia.
Qed.
