(** Proofs about the download of an article: retries. *)
From Verif Require Import Base PoolModel PoolSpec PoolProofs PoolProofs2 PoolProofs3 PoolProofs4 PoolProofs5 FetchModel FetchSpec FetchProofs.

Lemma failures_app id a b : failures id (a ++ b) = failures id a + failures id b.
Proof. unfold failures, count. rewrite filter_app, app_length. lia. Qed.

Record rinv (retries : Z) (log : list devent) (st : dstate) : Prop := mkRI {
  ri_none : d_want st = None -> d_left st = retries;
  ri_want : forall w, d_want st = Some w -> failures w log = retries - d_left st;
  ri_other : forall id, ~ In id (d_failed st) -> d_want st <> Some id -> failures id log = 0;
  ri_failed : forall id, In id (d_failed st) -> failures id log = 0 \/ failures id log = retries \/ exists e, In e log /\ refused id e;
  ri_conn : forall w, d_conn st = Some w -> d_want st = Some w }.

Lemma refused_mono log log' id : incl log log' -> (exists e, In e log /\ refused id e) -> exists e, In e log' /\ refused id e.
Proof. intros H (e & A & B). exists e. auto. Qed.

Lemma rinv_wait retries log st : rinv retries log st -> rinv retries (log ++ [DWait]) st.
Proof.
  intros [A B C D E].
  assert (F : forall id, failures id (log ++ [DWait]) = failures id log) by (intros; rewrite failures_app; unfold failures, count; cbn; lia).
  constructor; auto; intros; rewrite F; auto. destruct (D id H) as [X|[X|X]]; auto. right; right. eapply refused_mono; [|exact X]. apply incl_appl, incl_refl.
Qed.

Lemma step_rinv retries log st id a ev r : 1 <= retries -> 1 <= d_left st -> rinv retries log st ->
  ~ In id (d_failed st) -> (forall w, d_want st = Some w -> w = id) ->
  attempt_step retries st id a = (ev, r) -> lost ev = false ->
  match r with
  | inl st' => rinv retries (log ++ [ev]) st'
  | inr EndFailed => forall i, failures i (log ++ [ev]) = 0 \/ failures i (log ++ [ev]) = retries \/ exists e, In e (log ++ [ev]) /\ refused i e
  | _ => True
  end.
Proof.
  intros R1 L1 RI NF W H LO. unfold attempt_step in H.
  set (s := srv (pl_srvs (t_pool a)) id) in *. set (old := too_old (t_age a) (t_retention a)) in *.
  set (linked := negb old && t_connect a) in *.
  set (res0 := if linked && negb (t_stop a) then t_res a else RFailed) in *.
  set (connected := linked && negb (is_connect res0)) in *.
  set (res := if is_connect res0 then RFailed else res0) in *.
  set (left := if connected && is_failed res then d_left st - 1 else d_left st) in *.
  set (optb := negb connected && negb old && negb (t_stop a) && v_optional s) in *.
  set (again := connected && is_failed res && (0 <? left) && negb old) in *.
  assert (F0 : failures id log = retries - d_left st).
  { destruct (d_want st) as [w|] eqn:DW.
    - rewrite <- (W w eq_refl). now apply (ri_want _ _ _ RI).
    - rewrite (ri_none _ _ _ RI DW). rewrite (ri_other _ _ _ RI id NF); [lia|congruence]. }
  assert (FN : forall i, i <> id -> ~ In i (d_failed st) -> failures i log = 0).
  { intros i N1 N2. apply (ri_other _ _ _ RI i N2). intros X. apply W in X. congruence. }
  assert (INC : incl log (log ++ [ev])) by (apply incl_appl, incl_refl).
  assert (EI : In ev (log ++ [ev])) by (apply in_or_app; right; now left).
  assert (FO : forall i, In i (d_failed st) -> failures i (log ++ [ev]) = failures i log ->
    failures i (log ++ [ev]) = 0 \/ failures i (log ++ [ev]) = retries \/ exists e, In e (log ++ [ev]) /\ refused i e).
  { intros i I E. rewrite E. destruct (ri_failed _ _ _ RI i I) as [X|[X|X]]; auto. right; right. eapply refused_mono; eauto. }
  (* the state after giving the server up *)
  assert (GIVE : (forall i, failures i (log ++ [ev]) = if i =? id then failures id (log ++ [ev]) else failures i log) ->
    (failures id (log ++ [ev]) = 0 \/ failures id (log ++ [ev]) = retries \/ exists e, In e (log ++ [ev]) /\ refused id e) ->
    (forall lv, rinv retries (log ++ [ev]) (mkD lv (d_failed st ++ [id]) retries None None)) /\
    (forall i, failures i (log ++ [ev]) = 0 \/ failures i (log ++ [ev]) = retries \/ exists e, In e (log ++ [ev]) /\ refused i e)).
  { intros FE G.
    assert (X : forall i, ~ In i (d_failed st ++ [id]) -> failures i (log ++ [ev]) = 0).
    { intros i I. rewrite FE. destruct (Z.eqb_spec i id) as [->|NE]; [exfalso; apply I, in_or_app; right; now left|].
      apply FN; [assumption|]. intros J. apply I, in_or_app. now left. }
    assert (Y : forall i, In i (d_failed st ++ [id]) -> failures i (log ++ [ev]) = 0 \/ failures i (log ++ [ev]) = retries \/ exists e, In e (log ++ [ev]) /\ refused i e).
    { intros i I. destruct (Z.eq_dec i id) as [->|NE]; [exact G|]. apply in_app_or in I as [I|[I|[]]]; [|congruence].
      apply FO; [assumption|]. rewrite FE. now replace (i =? id) with false by lia. }
    split.
    - intros lv. constructor; cbn [d_want d_left d_failed d_conn]; auto; try discriminate.
    - intros i. destruct (in_dec Z.eq_dec i (d_failed st ++ [id])); auto. }
  assert (CO : old = true -> connected = false) by (intros Q; unfold connected, linked; rewrite Q; reflexivity).
  inversion H as [[EV ER]]. clear H. destruct (t_stop a || t_intr2 a) eqn:ST.
  { destruct res; exact I. }
  apply orb_false_elim in ST as [ST _]. rewrite ST in *.
  destruct old eqn:O.
  - (* too old *)
    assert (CN : connected = false) by now apply CO.
    assert (RS : res = RFailed).
    { unfold res, res0, linked. cbn [negb andb]. reflexivity. }
    rewrite RS. assert (AG : again = false) by (unfold again; rewrite CN; reflexivity).
    assert (OB : optb = false) by (unfold optb; cbn [negb]; now rewrite andb_false_r).
    rewrite AG, OB. cbn [negb andb orb]. rewrite orb_true_r. cbn [orb]. rewrite EV.
    assert (FE : forall i, failures i (log ++ [ev]) = failures i log).
    { intros i. rewrite failures_app, <- EV. unfold failures, count. cbn. lia. }
    destruct GIVE as [G1 G2].
    + intros i. rewrite !FE. destruct (Z.eqb_spec i id); congruence.
    + right. right. exists ev. split; [assumption|]. rewrite <- EV. reflexivity.
    + destruct (all_failed _ _ _ _); [destruct (v_norm s <? pl_max (t_pool2 a))|]; auto.
  - destruct connected eqn:CN.
    2:{ rewrite <- EV in LO. discriminate. }
    assert (IC : is_connect res0 = false).
    { unfold connected in CN. apply andb_prop in CN as [_ CN]. now apply negb_true_iff in CN. }
    assert (RS : res = res0) by (unfold res; now rewrite IC). 
    assert (OB : optb = false) by reflexivity. rewrite OB. cbn [orb]. rewrite andb_true_r.
    assert (FE : forall i, failures i (log ++ [ev]) = failures i log + (if is_failed res && (i =? id) then 1 else 0)).
    { intros i. rewrite failures_app, <- EV. unfold failures, count. cbn. destruct res; cbn; try lia.
      destruct (Z.eqb_spec id i), (Z.eqb_spec i id); cbn; try lia; congruence. }
    rewrite EV.
    destruct (is_failed res) eqn:IF.
    + assert (RF : res = RFailed) by (destruct res; try discriminate; reflexivity). rewrite RF.
      assert (LE : left = d_left st - 1) by (unfold left; reflexivity).
      destruct again eqn:AG; unfold again in AG; cbn [andb negb] in AG; rewrite andb_true_r in AG.
      * apply Z.ltb_lt in AG. cbn [negb]. constructor; cbn [d_want d_left d_failed d_conn].
        -- discriminate.
        -- intros w X. inversion X; subst w. rewrite FE, Z.eqb_refl. cbn [andb]. lia.
        -- intros i I X. rewrite FE. replace (i =? id) with false by (symmetry; apply Z.eqb_neq; congruence). cbn [andb].
           rewrite FN; auto; congruence.
        -- intros i I. apply FO; [assumption|]. rewrite FE. replace (i =? id) with false; [cbn [andb]; lia|]. symmetry. apply Z.eqb_neq. congruence.
        -- intros w X. destruct (true && negb (t_freed a)); [assumption|discriminate].
      * apply Z.ltb_ge in AG. cbn [negb andb]. destruct GIVE as [G1 G2].
        -- intros i. rewrite !FE. rewrite Z.eqb_refl. destruct (Z.eqb_spec i id); cbn [andb]; [subst; lia|lia].
        -- right. left. rewrite FE, Z.eqb_refl. cbn [andb]. lia.
        -- destruct (all_failed _ _ _ _); [destruct (v_norm s <? pl_max (t_pool2 a))|]; auto.
    + assert (AG : again = false) by reflexivity. rewrite AG. cbn [negb andb].
      assert (KIND : res = RFinished \/ res = RFatal \/ refused id ev).
      { rewrite <- EV. rewrite <- RS in IC. destruct res; try discriminate; cbn [refused]; auto. }
      destruct KIND as [K|[K|K]]; [rewrite K; exact I|rewrite K; exact I|].
      destruct GIVE as [G1 G2].
      * intros i. rewrite !FE. cbn [andb]. destruct (Z.eqb_spec i id); [subst; lia|lia].
      * right. right. exists ev. split; assumption.
      * destruct res; auto; (destruct (all_failed _ _ _ _); [destruct (v_norm s <? pl_max (t_pool2 a))|]; auto).
Qed.

Lemma drun_rinv conf retry srvs ats retries : config conf -> NoDup (map v_id srvs) -> Forall (fun s => v_group s = 0) srvs ->
  1 <= retries -> forall l log st, Forall (attempt_ok conf retry srvs) l -> incl l ats -> dinv srvs log ats st -> rinv retries log st ->
  forall es, drun retries st l = (es, Some EndFailed) -> count lost es = 0 ->
  forall i, failures i (log ++ es) = 0 \/ failures i (log ++ es) = retries \/ exists e, In e (log ++ es) /\ refused i e.
Proof.
  intros C N G R1. induction l as [|a l IH]; intros log st F IN DI RI es H LO; cbn [drun] in H; [discriminate|].
  inversion F as [|? ? F1 F2]; subst. destruct (dstep retries st a) as [ev r] eqn:E.
  pose proof (dstep_ok _ _ _ _ _ _ _ _ _ _ C N F1 (IN a (or_introl eq_refl)) R1 DI E) as [R _].
  assert (S : lost ev = false -> match r with
    | inl st' => rinv retries (log ++ [ev]) st'
    | inr EndFailed => forall i, failures i (log ++ [ev]) = 0 \/ failures i (log ++ [ev]) = retries \/ exists e, In e (log ++ [ev]) /\ refused i e
    | _ => True
    end).
  { intros LV. pose proof E as E'. unfold dstep in E'. destruct (t_intr a); [inversion E'; subst; exact I|].
    assert (NF : forall id, picked srvs st ats id -> ~ In id (d_failed st)).
    { intros id (P1 & _ & P3 & _). eapply excl_in; eauto. }
    pose proof (di_left _ _ _ _ DI) as L1.
    destruct (d_conn st) as [id|] eqn:DC.
    - pose proof (ri_conn _ _ _ RI id DC) as W. destruct (di_want _ _ _ _ DI id W) as (W1 & W2 & W3).
      eapply step_rinv; eauto; [eapply excl_in; eauto|]. intros w X. congruence.
    - destruct (get_connection _ _ _ _ _ _) as [[p' [c|]]|] eqn:GC.
      + pose proof (get_picked _ _ _ _ _ _ _ _ _ C N F1 (IN a (or_introl eq_refl)) DI GC) as PK.
        eapply step_rinv; eauto. intros w X.
        destruct F1 as [O1 _]. destruct (sees_inv _ _ _ _ C O1) as (held & IV & _ & SS).
        destruct (get_go_ok (d_want st) (d_failed st) (t_rnd a) (t_now a) (length (pl_levels (t_pool a))) (t_pool a) held (d_level st) IV (di_level _ _ _ _ DI))
          as (q & r' & E2 & _ & _ & R2). unfold get_connection in GC. rewrite GC in E2. inversion E2; subst q r'.
        destruct R2 as (_ & _ & RC & _ & _ & R6 & _). rewrite X in R6. cbn [want_ok] in R6.
        pose proof (iv_srv _ _ IV) as SR. rewrite Forall_forall in SR. destruct (srv_id _ _ (SR c RC)) as [EC _]. rewrite EC in R6.
        apply orb_prop in R6 as [R6|R6]; [apply Z.eqb_eq in R6; congruence|]. exfalso.
        destruct (di_want _ _ _ _ DI w X) as (W1 & _ & _). destruct (srv_id _ _ W1) as [_ W2].
        rewrite Forall_forall in G. specialize (G _ W2). cbv beta in G.
        pose proof (static_srv _ _ w SS) as Y. apply block_eq in Y as (_ & _ & _ & _ & _ & Y6 & _). rewrite <- Y6, G in R6. discriminate.
      + inversion E'; subst. now apply rinv_wait.
      + inversion E'; subst. exact I. }
  destruct r as [st'|d'].
  - destruct (drun retries st' l) as [es' d1] eqn:E'. inversion H; subst. destruct R as [DI' _].
    change (ev :: es') with ([ev] ++ es') in *. unfold count in LO. rewrite filter_app, app_length, Nat2Z.inj_add in LO.
    assert (LV : lost ev = false) by (cbn [filter] in LO; destruct (lost ev); [cbn [length] in LO; lia|reflexivity]).
    rewrite app_assoc. apply (IH (log ++ [ev]) st' F2 (fun x X => IN x (or_intror X)) DI' (S LV) es' E').
    unfold count. lia.
  - inversion H; subst. apply S. unfold count in LO. cbn [filter] in LO. destruct (lost ev); [cbn [length] in LO; lia|reflexivity].
Qed.

Lemma d_start_rinv retries : rinv retries [] (d_start retries).
Proof. constructor; cbn; auto; try discriminate; try contradiction. Qed.

Lemma fetch_retries conf retry srvs opt l es : config conf -> Forall (attempt_ok conf retry srvs) l -> Forall (fun s => v_group s = 0) srvs ->
  fetch opt l = (es, Some EndFailed) -> count lost es = 0 ->
  forall i, failures i es = 0 \/ failures i es = retries_of opt \/ exists e, In e es /\ refused i e.
Proof.
  intros C F G H LO. destruct l as [|a l]; [discriminate|].
  pose proof (Forall_inv F) as [O _]. pose proof (sees_nodup _ _ _ _ C O) as N. pose proof (retries_pos opt) as R.
  apply (drun_rinv conf retry srvs (a :: l) _ C N G R (a :: l) [] (d_start (retries_of opt)) F (incl_refl _) (d_start_inv _ _ _ R) (d_start_rinv _) es H LO).
Qed.

(** Servers are passed over as too old exactly when they do not keep the article any more. *)
Lemma too_old_iff a : too_old (t_age a) (t_retention a) = true <-> expired a.
Proof. unfold too_old, expired. lia. Qed.
Lemma attempt_old retries st id a : match fst (attempt_step retries st id a) with DOld _ => expired a | DAsk _ _ | DLost _ => ~ expired a | _ => True end.
Proof.
  unfold attempt_step. cbn [fst]. assert (T := too_old_iff a). destruct (too_old (t_age a) (t_retention a)); [apply T; reflexivity|].
  assert (N : ~ expired a) by (intros X; apply T in X; discriminate). cbn [negb andb].
  destruct (_ && negb (is_connect _)); [destruct (t_stop a); [exact I|exact N]|exact N].
Qed.
Lemma drun_old retries : forall l st es d, drun retries st l = (es, d) ->
  Forall2 (fun e a => match e with DOld _ => expired a | DAsk _ _ | DLost _ => ~ expired a | _ => True end) es (firstn (length es) l).
Proof.
  induction l as [|a l IH]; intros st es d H; cbn [drun] in H; [injection H as <- <-; constructor|].
  assert (HD : match fst (dstep retries st a) with DOld _ => expired a | DAsk _ _ | DLost _ => ~ expired a | _ => True end).
  { unfold dstep. destruct (t_intr a); [exact I|]. destruct (d_conn st) as [i|]; [apply attempt_old|].
    destruct (get_connection _ _ _ _ _ _) as [[p [c|]]|]; [apply attempt_old|exact I|exact I]. }
  destruct (dstep retries st a) as [e [st'|x]]; cbn [fst] in HD.
  - destruct (drun retries st' l) as [es' d'] eqn:E. injection H as <- <-. cbn [length firstn]. constructor; [exact HD|]. exact (IH _ _ _ E).
  - injection H as <- <-. cbn [length firstn]. constructor; [exact HD|constructor].
Qed.
