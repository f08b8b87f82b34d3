(** Proofs about the download of an article. *)
From Verif Require Import Base PoolModel PoolSpec PoolProofs PoolProofs2 PoolProofs3 PoolProofs4 PoolProofs5 FetchModel FetchSpec.

Lemma sees_inv conf retry srvs p : config conf -> sees conf retry srvs p ->
  exists held, pinv p held /\ mxinv p /\ static srvs (pl_srvs p).
Proof.
  intros C (S & es & held & L & R). exists held.
  assert (F : Forall ev_ok es). { eapply Forall_impl; [|exact L]. intros e. destruct e; auto. }
  split; [eapply reachable_inv; eauto|]. split; [eapply reachable_max; eauto|exact S].
Qed.

(** ** Servers that are not excluded *)

Definition excl (srvs : list nsrv) (failed : list Z) (i : Z) : bool := existsb (excludes srvs (srv srvs i)) failed.

Lemma excl_static a b failed i : static a b -> excl a failed i = excl b failed i.
Proof.
  intros S. unfold excl. induction failed as [|x l IH]; [reflexivity|]. cbn [existsb]. rewrite IH.
  now rewrite (excludes_static a b i x S).
Qed.

Lemma excl_in srvs failed i : In i (map v_id srvs) -> excl srvs failed i = false -> ~ In i failed.
Proof.
  intros I E J. apply not_true_iff_false in E. apply E. apply existsb_exists. exists i. split; [assumption|].
  unfold excludes. destruct (srv_id _ _ I) as [-> _]. now rewrite Z.eqb_refl.
Qed.

Definition want_inv (srvs : list nsrv) (st : dstate) (w : Z) : Prop :=
  In w (map v_id srvs) /\ excl srvs (d_failed st) w = false /\ v_norm (srv srvs w) = d_level st.

Record dinv (srvs : list nsrv) (log : list devent) (ats : list attempt) (st : dstate) : Prop := mkDI {
  di_level : 0 <= d_level st;
  di_left : 1 <= d_left st;
  di_done : forall s, In s srvs -> v_active s = true -> 0 < v_max s -> 0 <= v_norm s < d_level st ->
              tried srvs log s \/ seen_blocked ats s;
  di_failed : forall i, In i (d_failed st) -> In i (map v_id srvs) /\ v_norm (srv srvs i) <= d_level st /\
              exists e, In e log /\ gave_up i e;
  di_want : forall w, d_want st = Some w -> want_inv srvs st w;
  di_conn : forall w, d_conn st = Some w -> d_want st = Some w }.

(** The server a pass works with. *)
Definition picked (srvs : list nsrv) (st : dstate) (ats : list attempt) (id : Z) : Prop :=
  In id (map v_id srvs) /\ d_level st <= v_norm (srv srvs id) /\ excl srvs (d_failed st) id = false /\
  forall s, In s srvs -> v_active s = true -> d_level st <= v_norm s < v_norm (srv srvs id) -> seen_blocked ats s.

Lemma want_group srvs st w id : NoDup (map v_id srvs) ->
  (forall i, In i (d_failed st) -> In i (map v_id srvs) /\ v_norm (srv srvs i) <= d_level st) ->
  want_inv srvs st w -> In id (map v_id srvs) -> d_level st <= v_norm (srv srvs id) ->
  want_ok srvs (Some w) (srv srvs id) = true -> excl srvs (d_failed st) id = false.
Proof.
  intros N F (W1 & W2 & W3) I L H. unfold want_ok in H. destruct (srv_id _ _ I) as [EI _]. rewrite EI in H.
  destruct (Z.eqb_spec id w) as [E|NE]; [now subst|]. cbn [orb] in H. apply andb_prop in H as [G1 G2]. apply Z.eqb_eq in G2. apply Z.ltb_lt in G1.
  apply not_true_iff_false. intros X. apply existsb_exists in X as (i & J & X). destruct (F i J) as [F1 F2].
  apply not_true_iff_false in W2. apply W2. apply existsb_exists. exists i. split; [assumption|].
  destruct (srv_id _ _ W1) as [EW _]. destruct (srv_id _ _ F1) as [EF _].
  unfold excludes in *. rewrite EI in X. rewrite EW. apply orb_true_iff in X. apply orb_true_iff. destruct X as [X|X].
  - apply Z.eqb_eq in X. subst i. right. rewrite <- G2, W3. replace (0 <? v_group (srv srvs w)) with true by lia.
    rewrite Z.eqb_refl. cbn [andb]. lia.
  - right. apply andb_prop in X as [X X3]. apply andb_prop in X as [X1 X2]. rewrite X1. cbn [andb].
    apply andb_true_intro. split; lia.
Qed.

Lemma get_picked conf retry srvs log ats st a p' c : config conf -> NoDup (map v_id srvs) -> attempt_ok conf retry srvs a -> In a ats ->
  dinv srvs log ats st ->
  get_connection (t_pool a) (d_level st) (d_want st) (d_failed st) (t_rnd a) (t_now a) = Some (p', Some c) ->
  picked srvs st ats (k_srv c).
Proof.
  intros C N [O1 _] IA DI H. destruct (sees_inv _ _ _ _ C O1) as (held & IV & _ & S).
  destruct (get_go_ok (d_want st) (d_failed st) (t_rnd a) (t_now a) (length (pl_levels (t_pool a))) (t_pool a) held (d_level st) IV (di_level _ _ _ _ DI))
    as (q & r & E & _ & _ & R). unfold get_connection in H. rewrite E in H. inversion H; subst q r. clear H.
  destruct R as (R1 & R2 & R3 & R4 & R5 & R6 & R7 & R8).
  pose proof (iv_srv _ _ IV) as SR. rewrite Forall_forall in SR. pose proof (SR c R3) as IC. cbv beta in IC.
  pose proof (static_srv _ _ (k_srv c) S) as X. apply block_eq in X as (X1 & X2 & _ & _ & X5 & _).
  assert (IC' : In (k_srv c) (map v_id srvs)) by (rewrite (static_ids _ _ S); assumption).
  assert (LV : d_level st <= v_norm (srv srvs (k_srv c))) by (rewrite X5; assumption).
  split; [assumption|]. split; [assumption|]. split.
  - destruct (d_want st) as [w|] eqn:W.
    + eapply want_group; eauto.
      * intros i I. pose proof (di_failed _ _ _ _ DI i I) as (A & B & _). auto.
      * exact (di_want _ _ _ _ DI w W).
      * rewrite (want_static _ _ (Some w) (k_srv c) S). assumption.
    + rewrite (excl_static _ _ _ _ S). unfold is_usable in R7. apply negb_true_iff in R7. exact R7.
  - intros s I A L. destruct (static_in _ _ _ S I) as (t & T & ET). pose proof ET as ET'. apply block_eq in ET' as (T1 & T2 & _ & _ & T5 & _ & T7).
    rewrite X5 in L. rewrite T5 in L. destruct (R8 t T L) as [B|[B1 B2]]; [congruence|].
    split; [congruence|]. exists a. split; [assumption|]. left. rewrite T1. rewrite srv_in; [assumption| |assumption]. apply (iv_ids _ _ IV).
Qed.

Lemma tried_mono srvs log log' s : incl log log' -> tried srvs log s -> tried srvs log' s.
Proof. intros H (t & e & A & B & D & E). exists t, e. repeat split; auto. Qed.


Lemma level_done conf retry srvs log ats a level failed s : config conf -> attempt_ok conf retry srvs a -> In a ats ->
  (forall i, In i failed -> In i (map v_id srvs) /\ exists e, In e log /\ gave_up i e) ->
  all_failed (t_pool2 a) (t_now2 a) level failed = true ->
  In s srvs -> v_active s = true -> 0 < v_max s -> v_norm s = level -> tried srvs log s \/ seen_blocked ats s.
Proof.
  intros C [_ O] IA F H I A M L. destruct (sees_inv _ _ _ _ C O) as (held & IV & _ & S).
  destruct (static_in _ _ _ S I) as (t & T & ET). apply block_eq in ET as (T1 & T2 & T3 & _ & T5 & T6 & T7).
  unfold all_failed in H. rewrite forallb_forall in H. specialize (H t T). cbv beta in H.
  replace (v_norm t =? level) with true in H by lia. cbn [negb orb] in H. unfold server_failed in H.
  rewrite <- T2, A in H. replace (v_max t =? 0) with false in H by lia. cbn [negb orb] in H. apply orb_prop in H as [H|H].
  - right. apply andb_prop in H as [H1 H2]. split; [congruence|]. exists a. split; [assumption|]. right.
    rewrite T1, srv_in; [apply blocked_iff; assumption| |assumption]. apply (iv_ids _ _ IV).
  - left. apply existsb_exists in H as (i & J & H). destruct (F i J) as (F1 & e & F2 & F3).
    exists (srv srvs i), e. destruct (srv_id _ _ F1) as [E1 E2]. split; [assumption|]. split; [|split; [assumption|now rewrite E1]].
    assert (NE : In i (map v_id (pl_srvs (t_pool2 a)))) by (rewrite <- (static_ids _ _ S); assumption).
    apply excludes_stands in H; [|assumption].
    pose proof (static_srv _ _ i S) as X. apply block_eq in X as (X1 & _ & _ & _ & X5 & X6 & _).
    unfold stands_for in *. rewrite X1, X5, X6, T1, T5, T6. assumption.
Qed.

(** ** One pass *)

Definition phi (retries : Z) (srvs : list nsrv) (st : dstate) : Z :=
  d_left st + retries * (Z.of_nat (length (filter (fun s => negb (existsb (Z.eqb (v_id s)) (d_failed st))) srvs)) - 1).

Definition unfailed (srvs : list nsrv) (failed : list Z) : Z :=
  Z.of_nat (length (filter (fun s => negb (existsb (Z.eqb (v_id s)) failed)) srvs)).

Lemma unfailed_add srvs failed id : NoDup (map v_id srvs) -> In id (map v_id srvs) -> ~ In id failed ->
  unfailed srvs (failed ++ [id]) = unfailed srvs failed - 1.
Proof.
  intros N I J. unfold unfailed. induction srvs as [|s l IH]; [contradiction|]. cbn [map] in N. inversion N as [|? ? N1 N2]; subst.
  cbn [filter]. rewrite existsb_app. cbn [existsb]. rewrite orb_false_r. destruct (Z.eqb_spec (v_id s) id) as [E|E].
  - rewrite orb_true_r. cbn [negb]. assert (X : existsb (Z.eqb (v_id s)) failed = false).
    { apply not_true_iff_false. intros X. apply existsb_exists in X as (y & Y & Z0). apply Z.eqb_eq in Z0. apply J. congruence. }
    rewrite X. cbn [negb length]. rewrite Nat2Z.inj_succ.
    assert (Y : filter (fun s => negb (existsb (Z.eqb (v_id s)) (failed ++ [id]))) l = filter (fun s => negb (existsb (Z.eqb (v_id s)) failed)) l).
    { apply filter_ext_in. intros t T. rewrite existsb_app. cbn [existsb]. rewrite orb_false_r.
      destruct (Z.eqb_spec (v_id t) id); [|now rewrite orb_false_r]. exfalso. apply N1. rewrite E, <- e. now apply in_map. }
    rewrite Y. lia.
  - destruct I as [I|I]; [cbn in I; congruence|]. specialize (IH N2 I). rewrite orb_false_r.
    destruct (negb (existsb (Z.eqb (v_id s)) failed)); cbn [length]; lia.
Qed.

Lemma unfailed_pos srvs failed id : In id (map v_id srvs) -> ~ In id failed -> 1 <= unfailed srvs failed.
Proof.
  intros I J. unfold unfailed. apply in_map_iff in I as (s & E & I).
  assert (X : In s (filter (fun s => negb (existsb (Z.eqb (v_id s)) failed)) srvs)).
  { apply filter_In. split; [assumption|]. apply negb_true_iff. apply not_true_iff_false. intros X.
    apply existsb_exists in X as (y & Y & Z0). apply Z.eqb_eq in Z0. apply J. congruence. }
  destruct (filter _ srvs); [contradiction|]. cbn [length]. lia.
Qed.

Lemma attempt_ok_step conf retry srvs log ats retries st id a ev r : config conf -> NoDup (map v_id srvs) ->
  attempt_ok conf retry srvs a -> In a ats -> 1 <= retries -> dinv srvs log ats st -> picked srvs st ats id ->
  attempt_step retries st id a = (ev, r) ->
  match r with
  | inl st' => dinv srvs (log ++ [ev]) ats st' /\
               phi retries srvs st' + count answered [ev] <= phi retries srvs st + (retries - 1) * count lost [ev]
  | inr EndFailed => forall s, In s srvs -> v_active s = true -> 0 < v_max s -> 0 <= v_norm s ->
                               tried srvs (log ++ [ev]) s \/ seen_blocked ats s
  | inr EndFatal => exists i, ev = DAsk i RFatal
  | inr EndUB => False
  | _ => True
  end.
Proof.
  intros C N AO IA R1 DI (P1 & P2 & P3 & P4) H.
  pose proof AO as [O1 O2]. destruct (sees_inv _ _ _ _ C O1) as (h1 & IV1 & _ & S1). destruct (sees_inv _ _ _ _ C O2) as (h2 & IV2 & MX & S2).
  unfold attempt_step in H.
  pose proof (static_srv _ _ id S1) as X. apply block_eq in X as (_ & _ & _ & _ & X5 & _ & X7). rewrite <- X5, <- X7 in H. clear X5 X7.
  set (s := srv srvs id) in *. set (old := too_old (t_age a) (t_retention a)) in *.
  pose proof (excl_in _ _ _ P1 P3) as NF. pose proof (unfailed_pos _ _ _ P1 NF) as UP.
  pose proof (unfailed_add _ _ _ N P1 NF) as UA.
  assert (PH : forall x, phi retries srvs x = d_left x + retries * (unfailed srvs (d_failed x) - 1)) by reflexivity.
  pose proof (di_left _ _ _ _ DI) as LF.
  (* all below the level of the server are done *)
  assert (DN : forall t, In t srvs -> v_active t = true -> 0 < v_max t -> 0 <= v_norm t < v_norm s -> tried srvs (log ++ [ev]) t \/ seen_blocked ats t).
  { intros t I A M L. destruct (Z.lt_ge_cases (v_norm t) (d_level st)) as [Q|Q].
    - assert (QQ : 0 <= v_norm t < d_level st) by lia; destruct (di_done _ _ _ _ DI t I A M QQ) as [T|T]; [left|now right]. eapply tried_mono; [|exact T]. apply incl_appl, incl_refl.
    - right. apply P4; auto. lia. }
  assert (FL : forall i, In i (d_failed st) -> In i (map v_id srvs) /\ v_norm (srv srvs i) <= v_norm s /\ exists e, In e (log ++ [ev]) /\ gave_up i e).
  { intros i I. destruct (di_failed _ _ _ _ DI i I) as (A & B & e & D & E). split; [assumption|]. split; [lia|]. exists e. split; [apply in_or_app; now left|assumption]. }
  set (linked := negb old && t_connect a) in *.
  set (res0 := if linked && negb (t_stop a) then t_res a else RFailed) in *.
  set (connected := linked && negb (is_connect res0)) in *.
  set (res := if is_connect res0 then RFailed else res0) in *.
  set (left := if connected && is_failed res then d_left st - 1 else d_left st) in *.
  set (optb := negb connected && negb old && negb (t_stop a) && v_optional s) in *.
  set (again := connected && is_failed res && (0 <? left) && negb old) in *.
  assert (CO : old = true -> connected = false) by (intros Q; unfold connected, linked; rewrite Q; reflexivity).
  assert (RF : connected = false -> t_stop a = false -> res = RFailed).
  { intros Q ST. unfold res. destruct (is_connect res0) eqn:IC; [reflexivity|]. unfold connected in Q. rewrite ?IC in Q. cbn [negb] in Q.
    rewrite andb_true_r in Q. unfold res0. rewrite Q. reflexivity. }
  assert (LE : again = true -> 1 <= left /\ left = d_left st - 1 /\ connected = true /\ res = RFailed).
  { intros Q. unfold again in Q. apply andb_prop in Q as [Q _]. apply andb_prop in Q as [Q Q2]. apply Z.ltb_lt in Q2.
    apply andb_prop in Q as [Q3 Q4]. unfold left. rewrite Q3, Q4. cbn [andb]. split; [unfold left in Q2; rewrite Q3, Q4 in Q2; cbn [andb] in Q2; lia|].
    split; [reflexivity|]. split; [reflexivity|]. clear - Q4. destruct res; try discriminate. reflexivity. }
  (* without a stop, a result other than finished and fatal *)
  assert (MAIN : t_stop a || t_intr2 a = false -> res <> RFinished -> res <> RFatal ->
     (ev, r) = (if old then DOld id else if connected then (if t_stop a then DNone else DAsk id res) else DLost id,
       if negb again && (connected || old || optb) then
         let failed := if optb then d_failed st else d_failed st ++ [id] in
         if all_failed (t_pool2 a) (t_now2 a) (v_norm s) failed then
           if v_norm s <? pl_max (t_pool2 a) then inl (mkD (v_norm s + 1) failed retries (if again then Some id else None) (if again && negb (t_freed a) then Some id else None)) else inr EndFailed
         else inl (mkD (v_norm s) failed retries (if again then Some id else None) (if again && negb (t_freed a) then Some id else None))
       else inl (mkD (v_norm s) (d_failed st) left (if again then Some id else None) (if again && negb (t_freed a) then Some id else None))) ->
     match r with
     | inl st' => dinv srvs (log ++ [ev]) ats st' /\
               phi retries srvs st' + count answered [ev] <= phi retries srvs st + (retries - 1) * count lost [ev]
     | inr EndFailed => forall s, In s srvs -> v_active s = true -> 0 < v_max s -> 0 <= v_norm s ->
                               tried srvs (log ++ [ev]) s \/ seen_blocked ats s
     | inr EndFatal => exists i, ev = DAsk i RFatal
     | inr EndUB => False
     | _ => True
     end).
  { intros ST NFI NFA E. apply orb_false_elim in ST as [ST ST2]. rewrite ST in E. injection E as EV ER. subst r ev.
    destruct (negb again && (connected || old || optb)) eqn:GO.
    - apply andb_prop in GO as [AG GO]. apply negb_true_iff in AG. rewrite AG. cbn [andb].
      set (ev' := if old then DOld id else if connected then DAsk id res else DLost id) in *.
      (* the event and the list of failed servers *)
      assert (EVF : forall i, In i (if optb then d_failed st else d_failed st ++ [id]) ->
         In i (map v_id srvs) /\ v_norm (srv srvs i) <= v_norm s /\ exists e, In e (log ++ [ev']) /\ gave_up i e).
      { assert (FL' : forall i, In i (d_failed st) -> In i (map v_id srvs) /\ v_norm (srv srvs i) <= v_norm s /\ exists e, In e (log ++ [ev']) /\ gave_up i e).
        { intros i I. destruct (di_failed _ _ _ _ DI i I) as (A & B & e & D & E). split; [assumption|]. split; [lia|]. exists e. split; [apply in_or_app; now left|assumption]. }
        intros i I. destruct optb eqn:OB; [now apply FL'|]. apply in_app_or in I as [I|[I|[]]]; [now apply FL'|]. subst i.
        split; [assumption|]. split; [fold s; lia|]. exists ev'. split; [apply in_or_app; right; now left|].
        unfold ev'. destruct old; [reflexivity|]. rewrite orb_false_r in GO. rewrite orb_false_r in GO. rewrite GO.
        clear - NFI NFA GO. unfold connected in GO. apply andb_prop in GO as [_ GO]. revert NFI NFA GO. unfold res. clearbody res0. destruct res0; cbn; intros; try reflexivity; congruence. }
      assert (CNT : retries + retries * (unfailed srvs (if optb then d_failed st else d_failed st ++ [id]) - 1) + count answered [ev'] <=
                    phi retries srvs st + (retries - 1) * count lost [ev']).
      { rewrite PH. destruct optb eqn:OB.
        - unfold optb in OB. apply andb_prop in OB as [OB _]. apply andb_prop in OB as [OB _]. apply andb_prop in OB as [OB1 OB2].
          unfold ev'. apply negb_true_iff in OB1, OB2. rewrite OB1, OB2. cbn [count filter answered lost length]. unfold count; cbn. nia.
        - rewrite UA. rewrite orb_false_r in GO. unfold ev'.
          assert (count answered [if old then DOld id else if connected then DAsk id res else DLost id] = 1 /\
                  count lost [if old then DOld id else if connected then DAsk id res else DLost id] = 0) as [-> ->].
          { destruct old; [split; reflexivity|]. rewrite orb_false_r in GO. rewrite GO. split; reflexivity. }
          nia. }
      destruct (all_failed (t_pool2 a) (t_now2 a) (v_norm s) (if optb then d_failed st else d_failed st ++ [id])) eqn:AF.
      + assert (LD : forall t, In t srvs -> v_active t = true -> 0 < v_max t -> 0 <= v_norm t <= v_norm s -> tried srvs (log ++ [ev']) t \/ seen_blocked ats t).
        { intros t I A M L. destruct (Z.eq_dec (v_norm t) (v_norm s)) as [Q|Q].
          - apply (level_done conf retry srvs _ ats a (v_norm s) (if optb then d_failed st else d_failed st ++ [id]) t); try assumption. intros i J. destruct (EVF i J) as (A1 & _ & A2). auto.
          - destruct (Z.lt_ge_cases (v_norm t) (d_level st)) as [Q2|Q2].
            + assert (QQ : 0 <= v_norm t < d_level st) by lia; destruct (di_done _ _ _ _ DI t I A M QQ) as [T|T]; [left|now right]. eapply tried_mono; [|exact T]. apply incl_appl, incl_refl.
            + right. apply P4; auto. lia. }
        cbv zeta. destruct (Z.ltb_spec (v_norm s) (pl_max (t_pool2 a))) as [LM|LM].
        * split.
          -- constructor; cbn [d_level d_left d_failed d_want d_conn]; try discriminate; try lia.
             ++ pose proof (di_level _ _ _ _ DI). lia.
             ++ intros t I A M L. apply LD; auto. lia.
             ++ intros i I. destruct (EVF i I) as (A1 & A2 & A3). repeat split; auto. lia.
          -- rewrite PH. cbn [d_left d_failed]. exact CNT.
        * intros t I A M L. apply LD; auto. split; [assumption|].
          destruct (static_in _ _ _ S2 I) as (u & U & EU). apply block_eq in EU as (_ & _ & _ & _ & -> & _). pose proof (MX u U). lia.
      + cbv zeta. split.
        * constructor; cbn [d_level d_left d_failed d_want d_conn]; try discriminate; try lia.
          -- pose proof (di_level _ _ _ _ DI). lia.
          -- intros t I A M L. destruct (Z.lt_ge_cases (v_norm t) (d_level st)) as [Q2|Q2].
             ++ assert (QQ : 0 <= v_norm t < d_level st) by lia; destruct (di_done _ _ _ _ DI t I A M QQ) as [T|T]; [left|now right]. eapply tried_mono; [|exact T]. apply incl_appl, incl_refl.
             ++ right. apply P4; auto. lia.
          -- exact EVF.
        * rewrite PH. cbn [d_left d_failed]. exact CNT.
    - split.
      + constructor; cbn [d_level d_left d_failed d_want d_conn].
        * pose proof (di_level _ _ _ _ DI). lia.
        * destruct again eqn:AG; [apply LE; reflexivity|]. unfold left. cbn [negb andb] in GO. apply orb_false_elim in GO as [GO _].
          apply orb_false_elim in GO as [GO _]. rewrite GO. cbn [andb]. lia.
        * exact DN.
        * exact FL.
        * intros w W. destruct again; [|discriminate]. inversion W; subst w. repeat split; auto.
        * intros w W. destruct again; [|discriminate]. cbn [andb] in W. destruct (negb (t_freed a)); [|discriminate]. assumption.
      + rewrite !PH. cbn [d_left d_failed]. destruct again eqn:AG.
        * destruct (LE eq_refl) as (_ & L2 & L3 & L4). assert (old = false) as O by (destruct old; [rewrite CO in L3 by reflexivity; discriminate|reflexivity]).
          rewrite O, L3. unfold count. cbn. rewrite L2. lia.
        * cbn [negb andb] in GO. apply orb_false_elim in GO as [GO GO2]. apply orb_false_elim in GO as [GO GO3].
          rewrite GO3, GO. unfold left. rewrite GO. cbn [andb]. unfold count. cbn. lia. }
  destruct res eqn:RS; try (destruct (t_stop a || t_intr2 a) eqn:ST;
    [inversion H; exact I|apply MAIN; [reflexivity|discriminate|discriminate|symmetry; exact H]]).
  - inversion H. exact I.
  - assert (ST : t_stop a = false).
    { destruct (t_stop a) eqn:ST; [|reflexivity]. unfold res, res0 in RS. rewrite andb_false_r in RS. discriminate. }
    assert (CN : connected = true).
    { destruct connected eqn:CN; [reflexivity|]. discriminate (RF eq_refl ST). }
    assert (O : old = false).
    { destruct old; [|reflexivity]. rewrite CO in CN by reflexivity. discriminate. }
    inversion H as [[EV ER]]. rewrite O, CN, ST. now exists id.
Qed.

(** ** Whole runs *)

Lemma dstep_ok conf retry srvs log ats retries st a ev r : config conf -> NoDup (map v_id srvs) ->
  attempt_ok conf retry srvs a -> In a ats -> 1 <= retries -> dinv srvs log ats st ->
  dstep retries st a = (ev, r) ->
  match r with
  | inl st' => dinv srvs (log ++ [ev]) ats st' /\
               phi retries srvs st' + count answered [ev] <= phi retries srvs st + (retries - 1) * count lost [ev]
  | inr EndFailed => forall s, In s srvs -> v_active s = true -> 0 < v_max s -> 0 <= v_norm s ->
                               tried srvs (log ++ [ev]) s \/ seen_blocked ats s
  | inr EndFatal => exists i, ev = DAsk i RFatal
  | inr EndUB => False
  | _ => True
  end /\ (count answered [ev] = 0 \/ 1 <= phi retries srvs st).
Proof.
  intros C N AO IA R1 DI H. unfold dstep in H. destruct (t_intr a).
  { inversion H. split; [exact I|left; reflexivity]. }
  assert (POS : forall id, picked srvs st ats id -> 1 <= phi retries srvs st).
  { intros id (P1 & _ & P3 & _). pose proof (excl_in _ _ _ P1 P3) as NF. pose proof (unfailed_pos _ _ _ P1 NF).
    change (phi retries srvs st) with (d_left st + retries * (unfailed srvs (d_failed st) - 1)).
    pose proof (di_left _ _ _ _ DI). nia. }
  destruct (d_conn st) as [id|] eqn:DC.
  - assert (PK : picked srvs st ats id).
    { pose proof (di_conn _ _ _ _ DI id DC) as W. destruct (di_want _ _ _ _ DI id W) as (W1 & W2 & W3).
      split; [assumption|]. split; [lia|]. split; [assumption|]. intros s _ _ X. exfalso. lia. }
    split; [|right; now apply (POS id)]. exact (attempt_ok_step _ _ _ _ _ _ _ _ _ _ _ C N AO IA R1 DI PK H).
  - destruct (get_connection _ _ _ _ _ _) as [[p' [c|]]|] eqn:G.
    + pose proof (get_picked _ _ _ _ _ _ _ _ _ C N AO IA DI G) as PK.
      split; [|right; now apply (POS (k_srv c))]. exact (attempt_ok_step _ _ _ _ _ _ _ _ _ _ _ C N AO IA R1 DI PK H).
    + inversion H; subst. split; [|left; reflexivity]. split.
      * destruct DI as [A B D E F W]. constructor; auto.
        -- intros s I1 I2 I3 I4. destruct (D s I1 I2 I3 I4) as [T|T]; [left|now right]. eapply tried_mono; [|exact T]. apply incl_appl, incl_refl.
        -- intros i I1. destruct (E i I1) as (E1 & E2 & e & E3 & E4). split; [assumption|]. split; [assumption|]. exists e.
           split; [apply in_or_app; now left|assumption].
      * unfold count. cbn. lia.
    + destruct AO as [O1 _]. destruct (sees_inv _ _ _ _ C O1) as (held & IV & _ & _).
      destruct (get_go_ok (d_want st) (d_failed st) (t_rnd a) (t_now a) (length (pl_levels (t_pool a))) (t_pool a) held (d_level st) IV (di_level _ _ _ _ DI))
        as (q & r' & E & _). unfold get_connection in G. congruence.
Qed.

Lemma drun_ok conf retry srvs ats retries : config conf -> NoDup (map v_id srvs) ->
  1 <= retries -> forall l log st, Forall (attempt_ok conf retry srvs) l -> incl l ats -> dinv srvs log ats st ->
  forall es d, drun retries st l = (es, d) ->
  match d with
  | Some EndFailed => forall s, In s srvs -> v_active s = true -> 0 < v_max s -> 0 <= v_norm s ->
                               tried srvs (log ++ es) s \/ seen_blocked ats s
  | Some EndFatal => exists i, In (DAsk i RFatal) es
  | Some EndUB => False
  | _ => True
  end /\
  (count answered es = 0 \/ count answered es <= phi retries srvs st + (retries - 1) * count lost es).
Proof.
  intros C N R1. induction l as [|a l IH]; intros log st F IN DI es d H; cbn [drun] in H.
  { inversion H; subst. split; [exact I|left; reflexivity]. }
  inversion F as [|? ? F1 F2]; subst. destruct (dstep retries st a) as [ev r] eqn:E.
  pose proof (dstep_ok _ _ _ _ _ _ _ _ _ _ C N F1 (IN a (or_introl eq_refl)) R1 DI E) as [R P].
  assert (AL : 0 <= count answered [ev] <= 1 /\ 0 <= count lost [ev] /\ (count answered [ev] = 1 -> count lost [ev] = 0)).
  { unfold count. destruct ev; cbn; lia. }
  destruct r as [st'|d'].
  - destruct (drun retries st' l) as [es' d1] eqn:E'. inversion H; subst. destruct R as [DI' PH].
    destruct (IH (log ++ [ev]) st' F2 (fun x X => IN x (or_intror X)) DI' es' d E') as [A B]. split.
    + destruct d as [[]|]; auto.
      * destruct A as [i A]. exists i. now right.
      * intros s I1 I2 I3 I4. specialize (A s I1 I2 I3 I4). now rewrite <- app_assoc in A.
    + change (ev :: es') with ([ev] ++ es'). unfold count in *. rewrite !filter_app, !app_length, !Nat2Z.inj_add.
      assert (0 <= Z.of_nat (length (filter lost es'))) by lia.
      destruct P as [P|P]; destruct B as [B|B]; nia.
  - inversion H; subst. split.
    + destruct d'; auto. destruct R as [i ->]. exists i. now left.
    + destruct P as [P|P]; [now left|]. right. nia.
Qed.

Lemma d_start_inv srvs ats retries : 1 <= retries -> dinv srvs [] ats (d_start retries).
Proof.
  intros R. constructor; cbn; try lia; try discriminate; try contradiction.
Qed.

Lemma retries_pos opt : 1 <= retries_of opt.
Proof. unfold retries_of. destruct (Z.ltb_spec 0 opt); lia. Qed.

Lemma phi_start retries srvs : phi retries srvs (d_start retries) = retries * Z.of_nat (length srvs).
Proof.
  unfold phi, d_start. cbn [d_left d_failed existsb negb].
  assert (X : filter (fun _ : nsrv => true) srvs = srvs) by (induction srvs as [|x l IH]; cbn [filter]; [|rewrite IH]; reflexivity).
  rewrite X. lia.
Qed.

Lemma sees_nodup conf retry srvs p : config conf -> sees conf retry srvs p -> NoDup (map v_id srvs).
Proof. intros C H. destruct (sees_inv _ _ _ _ C H) as (held & IV & _ & S). rewrite (static_ids _ _ S). apply (iv_ids _ _ IV). Qed.

Lemma fetch_ok conf retry srvs opt l es d : config conf -> Forall (attempt_ok conf retry srvs) l -> fetch opt l = (es, d) ->
  match d with
  | Some EndFailed => forall s, In s srvs -> v_active s = true -> 0 < v_max s -> 0 <= v_norm s ->
                               tried srvs es s \/ seen_blocked l s
  | Some EndFatal => exists i, In (DAsk i RFatal) es
  | Some EndUB => False
  | _ => True
  end /\
  count answered es <= retries_of opt * Z.of_nat (length srvs) + (retries_of opt - 1) * count lost es.
Proof.
  intros C F H. destruct l as [|a l].
  { cbn in H. inversion H; subst. split; [exact I|]. unfold count. cbn. pose proof (retries_pos opt). nia. }
  pose proof (Forall_inv F) as [O _]. pose proof (sees_nodup _ _ _ _ C O) as N. pose proof (retries_pos opt) as R.
  destruct (drun_ok conf retry srvs (a :: l) _ C N R (a :: l) [] (d_start (retries_of opt)) F (incl_refl _) (d_start_inv _ _ _ R) es d H) as [A B].
  split; [exact A|]. rewrite phi_start in B. assert (0 <= count lost es) by (unfold count; lia). destruct B as [B|B]; nia.
Qed.
