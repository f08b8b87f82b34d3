(** Proofs about the connection pool: the statements seen from outside. *)
From Verif Require Import Base PoolModel PoolSpec PoolProofs PoolProofs2 PoolProofs3 PoolProofs4.
From Coq Require Import Permutation.

Lemma levels_ev es : levels_ok es -> Forall ev_ok es.
Proof. intros H. eapply Forall_impl; [|exact H]. intros e. destruct e; auto. Qed.

Lemma prun_app : forall a b st, prun st (a ++ b) = match prun st a with Some st' => prun st' b | None => None end.
Proof. induction a as [|e a IH]; intros b st; [reflexivity|]. cbn [app prun]. destruct (pstep st e); auto. Qed.

Lemma keep_step p held e p' held' cid : pstep (p, held) e = Some (p', held') -> ~ is_free cid e -> In cid held -> In cid held'.
Proof.
  intros H N I. destruct e; cbn [pstep is_free] in *.
  - destruct (get_connection _ _ _ _ _ _) as [[q [c|]]|]; inversion H; subst; auto. now right.
  - destruct (existsb _ _); [|now inversion H; subst]. destruct (free_connection _ _ _ _); inversion H; subst. apply in_in_remove; [congruence|assumption].
  - inversion H; now subst.
  - inversion H; now subst.
  - destruct (changed p now); inversion H; now subst.
  - inversion H; now subst.
  - destruct (existsb _ _); inversion H; now subst.
Qed.

Lemma keep_run cid : forall es p held p' held', prun (p, held) es = Some (p', held') -> ~ Exists (is_free cid) es -> In cid held -> In cid held'.
Proof.
  induction es as [|e es IH]; intros p held p' held' H N I; cbn [prun] in H; [inversion H; now subst|].
  destruct (pstep (p, held) e) as [[p1 h1]|] eqn:E; [|discriminate].
  eapply IH; [exact H| |].
  - intros X. apply N. now right.
  - eapply keep_step; [exact E| |exact I]. intros X. apply N. now left.
Qed.

Lemma exclusive srvs retry es1 e1 es2 e2 cid : config srvs -> levels_ok (es1 ++ e1 :: es2 ++ [e2]) ->
  handed srvs retry es1 e1 cid -> handed srvs retry (es1 ++ e1 :: es2) e2 cid -> Exists (is_free cid) es2.
Proof.
  intros C L (p1 & h1 & q1 & R1 & S1 & _) (p2 & h2 & q2 & R2 & S2 & K2).
  destruct R1 as (p0 & A0 & A1). destruct R2 as (p0' & B0 & B1). rewrite A0 in B0. inversion B0; subst p0'.
  rewrite prun_app, A1 in B1. cbn [prun] in B1. rewrite S1 in B1.
  assert (DEC : Exists (is_free cid) es2 \/ ~ Exists (is_free cid) es2).
  { clear. induction es2 as [|e es IH]; [right; intros X; inversion X|]. destruct IH as [IH|IH]; [left; now right|].
    assert (is_free cid e \/ ~ is_free cid e) as [D|D]; [destruct e; cbn; try tauto; destruct (Z.eq_dec cid0 cid); tauto|left; now left|].
    right. intros X. inversion X; contradiction. }
  destruct DEC as [D|D]; [assumption|]. exfalso. pose proof (keep_run cid _ _ _ _ _ B1 D (or_introl eq_refl)) as I2.
  assert (IV : pinv p2 h2).
  { eapply (reachable_inv srvs retry (es1 ++ e1 :: es2)); eauto.
    - apply levels_ev. unfold levels_ok in *. change (es1 ++ e1 :: es2 ++ [e2]) with (es1 ++ (e1 :: es2) ++ [e2]) in L. rewrite app_assoc in L.
      apply Forall_app in L. tauto.
    - exists p0. split; [assumption|]. rewrite prun_app, A1. cbn [prun]. rewrite S1. assumption. }
  destruct e2; try contradiction. cbn [pstep] in S2.
  assert (LV : 0 <= level).
  { apply Forall_app in L as [_ L]. apply Forall_inv_tail in L. apply Forall_app in L as [_ L]. apply Forall_inv in L. exact L. }
  destruct (get_go_ok want ignore rnd now (length (pl_levels p2)) p2 h2 level IV LV) as (q & r & E & _ & _ & R).
  unfold get_connection in S2. rewrite E in S2. destruct r as [c|]; inversion S2; subst.
  - destruct R as (_ & R & _). contradiction.
  - clear - H1. assert (X : length h2 = length (cid :: h2)) by (rewrite <- H1; reflexivity). cbn in X. lia.
Qed.

Lemma in_use_max p held s : pinv p held -> In s (pl_srvs p) -> Z.of_nat (length (in_use p (v_id s))) <= Z.max 0 (v_max s).
Proof.
  intros IV I. pose proof (iv_max _ _ IV s I) as M. unfold in_use. unfold conns_of in M.
  assert (X : (length (filter (fun c => (k_srv c =? v_id s)%Z && k_used c) (pl_conns p)) <= length (filter (fun c => (k_srv c =? v_id s)%Z) (pl_conns p)))%nat).
  { apply filter_length_imp. intros x _ H. now apply andb_prop in H as [H _]. }
  lia.
Qed.

(** The options of the servers never change. *)
Lemma static_option a b : static a b -> map server_option a = map server_option b.
Proof.
  unfold static. intros H. apply (f_equal (map server_option)) in H. rewrite !map_map in H. exact H.
Qed.

Lemma pstep_option p held e p' held' : pinv p held -> ev_ok e -> pstep (p, held) e = Some (p', held') ->
  Permutation (map server_option (pl_srvs p')) (map server_option (pl_srvs p)).
Proof.
  intros IV OK. destruct e; cbn [pstep].
  - destruct (get_go_ok want ignore rnd now (length (pl_levels p)) p held level IV OK) as (p1 & r & E & [U _] & _).
    unfold get_connection. rewrite E. apply static_option in U.
    destruct r; intros H; inversion H; subst; now rewrite U.
  - destruct (existsb _ _); [|now intros H; inversion H; subst]. destruct (free_connection _ _ _ _) eqn:E; [|discriminate].
    apply free_shape in E as [E1 E2]. intros H; inversion H; subst. now rewrite E1.
  - intros H; inversion H; subst. cbn [block_server with_srvs pl_srvs]. now rewrite (static_option _ _ (static_on id now (pl_srvs p))).
  - intros H; inversion H; subst. cbn [activate with_srvs pl_srvs]. unfold on_srv. rewrite map_map.
    erewrite map_ext; [reflexivity|]. intros s. now destruct (v_id s =? id).
  - unfold changed. destruct (init_connections p) eqn:E; [|discriminate]. intros H; inversion H; subst. cbn [close_unused pl_srvs].
    destruct (pl_srvs p) as [|x l] eqn:Q.
    + apply init_shape in E as (srvs & N & ->). rewrite Q in N. cbn in N. inversion N. reflexivity.
    + rewrite <- Q. eapply init_iso; [exact E|]. rewrite Q. discriminate.
  - intros H; inversion H; subst. reflexivity.
  - destruct (existsb _ _); intros H; inversion H; subst; reflexivity.
Qed.

Lemma prun_option : forall es p held p' held', pinv p held -> Forall ev_ok es -> prun (p, held) es = Some (p', held') ->
  Permutation (map server_option (pl_srvs p')) (map server_option (pl_srvs p)).
Proof.
  induction es as [|e es IH]; intros p held p' held' IV F H; cbn [prun] in H; [inversion H; subst; reflexivity|].
  inversion F; subst. destruct (pstep_ok p held e IV) as (p1 & h1 & E & I1 & _); [assumption|]. rewrite E in H.
  etransitivity; [eapply IH; eauto|]. eapply pstep_option; eauto.
Qed.

Lemma reachable_option srvs retry es p held : config srvs -> Forall ev_ok es -> reachable srvs retry es p held ->
  Permutation (map server_option (pl_srvs p)) (map server_option srvs).
Proof.
  intros C F (p0 & E & R). destruct (start_ok srvs retry C) as (q & E' & I & _). rewrite E in E'. inversion E'; subst q.
  etransitivity; [eapply prun_option; eauto|]. unfold start_pool in E. destruct srvs as [|s l] eqn:Q.
  - apply init_shape in E as (x & N & ->). cbn in N. inversion N. reflexivity.
  - apply init_iso in E; [|discriminate]. apply E.
Qed.

(** ** The contract of a request *)

Lemma excludes_stands srvs s i : In i (map v_id srvs) -> excludes srvs s i = true -> stands_for (srv srvs i) s.
Proof.
  intros I H. unfold excludes in H. destruct (srv_id _ _ I) as [E _]. apply orb_prop in H as [H|H].
  - left. apply Z.eqb_eq in H. congruence.
  - right. apply andb_prop in H as [H H3]. apply andb_prop in H as [H1 H2]. lia.
Qed.

Lemma request_ok srvs retry es p held level want ignore rnd now p' c : config srvs -> levels_ok es -> 0 <= level ->
  reachable srvs retry es p held ->
  get_connection p level want ignore rnd now = Some (p', Some c) ->
  exists s, In s (pl_srvs p) /\ k_srv c = v_id s /\ v_active s = true /\ level <= v_norm s /\
    (forall t, In t (pl_srvs p) -> level <= v_norm t < v_norm s -> passable p now t) /\
    match want with
    | Some w => v_id s = w \/ exists t, In t (pl_srvs p) /\ v_id t = w /\ 0 < v_group t /\ v_group t = v_group s
    | None => forall t, In t (pl_srvs p) -> In (v_id t) ignore -> ~ stands_for t s
    end.
Proof.
  intros C L LV R G. pose proof (reachable_inv _ _ _ _ _ C (levels_ev _ L) R) as IV.
  destruct (get_go_ok want ignore rnd now (length (pl_levels p)) p held level IV LV) as (q & r & E & _ & _ & H).
  unfold get_connection in G. rewrite E in G. inversion G; subst. destruct H as (_ & _ & I & A & B & W & U & P).
  pose proof (iv_srv _ _ IV) as SR. rewrite Forall_forall in SR. destruct (srv_id _ _ (SR c I)) as [E1 E2].
  exists (srv (pl_srvs p) (k_srv c)). repeat (split; [now auto|]). 
  destruct want as [w|].
  - cbn [want_ok] in W. apply orb_prop in W as [W|W]; [left; lia|]. right. apply andb_prop in W as [W1 W2].
    destruct (in_dec Z.eq_dec w (map v_id (pl_srvs p))) as [J|J].
    + destruct (srv_id _ _ J) as [F1 F2]. exists (srv (pl_srvs p) w). repeat split; auto; lia.
    + rewrite srv_out in W1 by assumption. discriminate.
  - cbn [is_usable] in U. apply negb_true_iff in U. intros t T J S. apply not_true_iff_false in U. apply U.
    apply existsb_exists. exists (v_id t). split; [assumption|]. unfold excludes. rewrite (srv_in _ t (iv_ids _ _ IV) T).
    destruct S as [S|(S1 & S2 & S3)]; [rewrite S, Z.eqb_refl; reflexivity|].
    rewrite S2, S3, !Z.eqb_refl, andb_true_r. replace (0 <? v_group (srv (pl_srvs p) (k_srv c))) with true by lia. apply orb_true_r.
Qed.

Lemma available_ok srvs retry es p held c s level ignore rnd now : config srvs -> levels_ok es -> settled_history es ->
  reachable srvs retry es p held -> 0 <= level ->
  In c (pl_conns p) -> k_used c = false -> In s (pl_srvs p) -> k_srv c = v_id s -> v_active s = true -> v_norm s = level ->
  k_open c = true \/ ~ is_blocked (pl_retry p) now s ->
  (forall t, In t (pl_srvs p) -> In (v_id t) ignore -> ~ stands_for t s) ->
  (forall i, In i ignore -> In i (map v_id (pl_srvs p))) ->
  exists p' c', get_connection p level None ignore rnd now = Some (p', Some c').
Proof.
  intros C L SH R LV I1 I2 I3 I4 I5 I6 I7 I8 I9. pose proof (reachable_inv _ _ _ _ _ C (levels_ev _ L) R) as IV.
  pose proof (reachable_lb _ _ _ _ _ C (levels_ev _ L) SH R) as LB. unfold get_connection.
  assert (ES : srv (pl_srvs p) (k_srv c) = s) by (rewrite I4; apply srv_in; [apply (iv_ids _ _ IV)|assumption]).
  pose proof (iv_norm _ _ IV s I3) as NM. destruct (length (pl_levels p)) as [|f] eqn:LEN; [lia|].
  eapply get_go_avail; eauto.
  - unfold is_candidate. rewrite ES, I2, I5, I6, Z.eqb_refl. cbn [negb andb want_ok]. destruct I7 as [-> |I7]; [reflexivity|]. rewrite <- blocked_iff in I7. apply not_true_is_false in I7. rewrite I7. apply orb_true_r.
  - cbn [is_usable]. rewrite ES. apply negb_true_iff, not_true_iff_false. intros X. apply existsb_exists in X as (i & J & X).
    destruct (srv_id _ _ (I9 i J)) as [E1 E2]. apply (I8 (srv (pl_srvs p) i) E2); [now rewrite E1|].
    apply excludes_stands; auto.
Qed.

(** Levels after a start or after Changed. *)
Lemma levels_after srvs retry es now p held : config srvs -> srvs <> [] -> levels_ok es ->
  reachable srvs retry (es ++ [EvChanged now]) p held \/ reachable srvs retry [] p held ->
  0 <= pl_max p /\
  (forall s, In s (pl_srvs p) -> takes_part (pl_srvs p) s -> 0 <= v_norm s <= pl_max p) /\
  (forall s, In s (pl_srvs p) -> ~ takes_part (pl_srvs p) s -> v_norm s = -1) /\
  (forall s t, In s (pl_srvs p) -> In t (pl_srvs p) -> takes_part (pl_srvs p) s -> takes_part (pl_srvs p) t ->
     (v_level s < v_level t <-> v_norm s < v_norm t)) /\
  (forall n, 0 <= n <= pl_max p -> exists s, In s (pl_srvs p) /\ v_norm s = n).
Proof.
  intros C NE L [R|R].
  - destruct R as (p0 & E & R). rewrite prun_app in R. destruct (prun (p0, []) es) as [[p1 h1]|] eqn:E1; [|discriminate].
    cbn [prun pstep] in R. unfold changed in R. destruct (init_connections p1) as [p2|] eqn:E2; [|discriminate]. inversion R; subst.
    apply init_iso in E2.
    + destruct E2 as (A & _ & B). split; [exact A|]. exact B.
    + assert (R1 : reachable srvs retry es p1 held) by (exists p0; auto).
      pose proof (reachable_option _ _ _ _ _ C (levels_ev _ L) R1) as P. intros X. rewrite X in P. cbn in P. apply Permutation_nil in P.
      destruct srvs; [congruence|discriminate].
  - destruct R as (p0 & E & R). cbn in R. inversion R; subst. unfold start_pool in E. apply init_iso in E; [|assumption].
    destruct E as (A & _ & B). split; [exact A|]. exact B.
Qed.
