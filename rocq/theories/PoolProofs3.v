(** Proofs about the connection pool: histories. *)
From Verif Require Import Base PoolModel PoolSpec PoolProofs PoolProofs2.
From Coq Require Import Permutation.

Lemma passable_back p p1 now s : NoDup (map v_id (pl_srvs p)) -> unblocks (pl_srvs p) (pl_srvs p1) -> pl_retry p1 = pl_retry p ->
  In s (pl_srvs p) ->
  (forall t, In t (pl_srvs p1) -> v_norm t = v_norm s -> passable p1 now t) -> passable p now s.
Proof.
  intros N U R I H. pose proof U as [S _]. destruct (static_in _ _ _ S I) as (t & T & E).
  pose proof E as E'. apply block_eq in E' as (E1 & E2 & _ & _ & E5 & _ & E7).
  destruct (H t T (eq_sym E5)) as [A|[A B]]; [left; congruence|]. right. split; [congruence|].
  rewrite R in B. rewrite <- (srv_in (pl_srvs p) s N I).
  assert (N1 : NoDup (map v_id (pl_srvs p1))) by (rewrite <- (static_ids _ _ S); assumption).
  rewrite <- (srv_in _ t N1 T) in B. rewrite <- E1 in B. apply blocked_iff in B. apply blocked_iff. eapply unblocks_blocked; eauto.
Qed.

Lemma get_go_ok want ignore rnd now : forall fuel p held level, pinv p held -> 0 <= level ->
  exists p' r, get_go fuel p level want ignore rnd now = Some (p', r) /\
    unblocks (pl_srvs p) (pl_srvs p') /\ (plb p -> plb p') /\
    match r with
    | None => pinv p' held
    | Some c => pinv p' (k_id c :: held) /\ ~ In (k_id c) held /\ In c (pl_conns p) /\
                let s := srv (pl_srvs p) (k_srv c) in
                v_active s = true /\ level <= v_norm s /\ want_ok (pl_srvs p) want s = true /\
                is_usable want ignore (pl_srvs p) c = true /\
                forall t, In t (pl_srvs p) -> level <= v_norm t < v_norm s -> passable p now t
    end.
Proof.
  induction fuel as [|fuel IH]; intros p held level IV PL; cbn [get_go].
  { exists p, None. split; [reflexivity|]. split; [apply unblocks_refl|]. auto. }
  destruct (Z.ltb_spec 0 (level_count p level)) as [LC|LC].
  2:{ exists p, None. split; [reflexivity|]. split; [apply unblocks_refl|]. auto. }
  destruct (locked_get_ok p held level want ignore rnd now IV PL ltac:(lia)) as (p1 & r & E & U & R & L & LB & H).
  rewrite E. destruct r as [c|].
  - exists p1, (Some c). split; [reflexivity|]. split; [assumption|]. split; [assumption|].
    destruct H as (H1 & H2 & H3 & H4 & H5 & H6 & H7). cbv zeta in *.
    split; [assumption|]. split; [assumption|]. split; [assumption|]. split; [assumption|]. split; [lia|].
    split; [assumption|]. split; [assumption|]. intros t I X. exfalso. lia.
  - destruct H as (H1 & H2 & H3 & _).
    destruct (existsb (fun s => (v_norm s =? level) && v_active s && negb (v_optional s && blocked (pl_retry p1) now s)) (pl_srvs p1)) eqn:EX.
    { exists p1, None. split; [reflexivity|]. split; [assumption|]. auto. }
    assert (PB : forall t, In t (pl_srvs p) -> v_norm t = level -> passable p now t).
    { intros t I X. eapply (passable_back p p1); eauto; [apply (iv_ids _ _ IV)|]. intros u J Y.
      unfold passable. destruct (v_active u) eqn:AU; [|now left]. right.
      assert (Q : (v_norm u =? level) && v_active u && negb (v_optional u && blocked (pl_retry p1) now u) = false).
      { apply not_true_is_false. intros Q. apply not_true_iff_false in EX. apply EX. apply existsb_exists. exists u. auto. }
      rewrite AU, Y, X, Z.eqb_refl in Q. cbn in Q. apply negb_false_iff in Q. rewrite <- blocked_iff. now apply andb_prop in Q. }
    destruct (IH p1 held (level + 1) H1 ltac:(lia)) as (p2 & r & E2 & U2 & LB2 & HR).
    exists p2, r. split; [assumption|]. split; [eapply unblocks_trans; eauto|]. split; [auto|].
    destruct r as [c|]; [|assumption]. destruct HR as (R1 & R2 & R3 & R4 & R5 & R6 & R7 & R8). pose proof U as [S _].
    pose proof (static_srv _ _ (k_srv c) S) as X. apply block_eq in X as (_ & X2 & _ & _ & X5 & _).
    rewrite <- X5 in R5. rewrite <- X2 in R4.
    split; [assumption|]. split; [assumption|]. split; [now rewrite <- H2|].
    split; [assumption|]. split; [lia|]. split; [now rewrite (want_static _ _ want (k_srv c) S)|].
    split; [now rewrite (usable_static _ _ want ignore c S)|].
    intros t I Y. destruct (Z.eq_dec (v_norm t) level) as [Q|Q]; [now apply PB|].
    eapply (passable_back p p1); eauto; [apply (iv_ids _ _ IV)|]. intros u J K. apply R8; [assumption|]. rewrite <- X5. lia.
Qed.

Lemma get_go_avail want ignore rnd now fuel p held level c : pinv p held -> plb p -> 0 <= level ->
  In c (pl_conns p) -> is_candidate (pl_retry p) now level want (pl_srvs p) c = true ->
  is_usable want ignore (pl_srvs p) c = true ->
  exists p' c', get_go (S fuel) p level want ignore rnd now = Some (p', Some c').
Proof.
  intros IV LB PL I CA US.
  assert (LC : 0 < level_count p level).
  { specialize (LB level PL). unfold avail in LB.
    assert (F : In c (filter (free_at (pl_srvs p) level) (pl_conns p))).
    { apply filter_In. split; [assumption|]. unfold is_candidate in CA. unfold free_at.
      apply andb_prop in CA as [CA _]. apply andb_prop in CA as [CA _]. exact CA. }
    assert (AC : v_norm (srv (pl_srvs p) (k_srv c)) = level).
    { unfold is_candidate in CA. apply andb_prop in CA as [CA _]. apply andb_prop in CA as [CA _]. apply andb_prop in CA as [_ CA]. lia. }
    pose proof (iv_srv _ _ IV) as SR. rewrite Forall_forall in SR. destruct (srv_id _ _ (SR c I)) as [_ IN].
    pose proof (iv_norm _ _ IV _ IN). unfold level_count. replace (level <? Z.of_nat (length (pl_levels p))) with true by lia.
    destruct (filter (free_at (pl_srvs p) level) (pl_conns p)); [contradiction|]. cbn [length] in LB. lia. }
  cbn [get_go]. replace (0 <? level_count p level) with true by lia.
  destruct (locked_get_ok p held level want ignore rnd now IV PL ltac:(lia)) as (p1 & r & E & _ & _ & _ & _ & H).
  rewrite E. destruct r as [c'|]; [eauto|]. destruct H as (_ & _ & _ & [H|H]); [lia|]. exfalso. eapply H; eauto.
Qed.

(** The loop over the levels ends by itself. *)
Lemma get_go_fuel want ignore rnd now : forall f1 f2 p held level, pinv p held -> 0 <= level ->
  Z.of_nat (length (pl_levels p)) <= level + Z.of_nat f1 -> Z.of_nat (length (pl_levels p)) <= level + Z.of_nat f2 ->
  get_go f1 p level want ignore rnd now = get_go f2 p level want ignore rnd now.
Proof.
  assert (Z0 : forall p level, 0 <= level -> Z.of_nat (length (pl_levels p)) <= level -> 0 <? level_count p level = false).
  { intros p level P H. unfold level_count. replace (level <? Z.of_nat (length (pl_levels p))) with false by lia. reflexivity. }
  induction f1 as [|f1 IH]; intros f2 p held level IV P A B.
  - destruct f2; [reflexivity|]. cbn [get_go]. rewrite Z0 by lia. reflexivity.
  - destruct f2 as [|f2]; [cbn [get_go]; now rewrite Z0 by lia|]. cbn [get_go].
    destruct (Z.ltb_spec 0 (level_count p level)) as [LC|LC]; [|reflexivity].
    destruct (locked_get_ok p held level want ignore rnd now IV P ltac:(lia)) as (p1 & r & E & _ & _ & L & _ & H).
    rewrite E. destruct r; [reflexivity|]. destruct (existsb _ _); [reflexivity|].
    destruct H as (H1 & _). apply (IH f2 p1 held); auto; rewrite ?L; lia.
Qed.

(** ** The other operations *)

Lemma nodup_conn l c d : NoDup (map k_id l) -> In c l -> In d l -> k_id c = k_id d -> c = d.
Proof.
  intros N I1 D1 D2. induction l as [|x l IH]; [contradiction|].
  cbn [map] in N. inversion N as [|? ? N1 N2]; subst. destruct I1 as [->|I1], D1 as [->|D1]; auto.
  - exfalso. apply N1. rewrite D2. now apply in_map.
  - exfalso. apply N1. rewrite <- D2. now apply in_map.
Qed.

Lemma free_ok p held cid used now : pinv p held -> In cid held ->
  exists p', free_connection p cid used now = Some p' /\ pinv p' (remove Z.eq_dec cid held) /\ (plb p -> plb p').
Proof.
  intros IV IH. pose proof IH as IH'. apply (iv_used _ _ IV) in IH' as (c & C1 & C2 & C3). unfold free_connection.
  destruct (find (fun c => k_id c =? cid) (pl_conns p)) as [c0|] eqn:F.
  2:{ eapply find_none in F; [|exact C1]. cbn in F. lia. }
  apply find_some in F as [F1 F2]. apply Z.eqb_eq in F2.
  assert (c0 = c) by (eapply nodup_conn; [apply (iv_conns _ _ IV)| | |]; auto; congruence). subst c0. clear F1 F2.
  set (f := fun c => mkPC (k_id c) (k_srv c) false (k_open c) (if used then now else k_time c)).
  assert (G : forall lv, length lv = length (pl_levels p) ->
    pinv (mkPool (pl_srvs p) (on_conn cid f (pl_conns p)) lv (pl_max p) (pl_gen p) (pl_retry p) (pl_next p)) (remove Z.eq_dec cid held)).
  { intros lv L. apply (pinv_upd p held); auto.
    - apply on_conn_ids. reflexivity.
    - apply on_conn_srvs. reflexivity.
    - pose proof (iv_held _ _ IV) as NH. clear - NH. induction held as [|x l IHl]; [constructor|]. inversion NH; subst. cbn [remove].
      destruct (Z.eq_dec cid x); [auto|]. constructor; [|auto]. intros X. apply in_remove in X as [X _]. contradiction.
    - intros i. split.
      + intros X. apply in_remove in X as [X N]. apply (iv_used _ _ IV) in X as (d & D1 & D2 & D3). exists d.
        split; [|auto]. apply on_conn_in. left. split; [assumption|]. congruence.
      + intros (d & D1 & D2 & D3). apply on_conn_in in D1 as [[D1 N]|(e & _ & _ & ->)]; [|discriminate].
        apply in_in_remove; [congruence|]. apply (iv_used _ _ IV). eauto. }
  set (s := srv (pl_srvs p) (k_srv c)).
  assert (CC : forall l, Z.of_nat (length (filter (free_at (pl_srvs p) l) (on_conn cid f (pl_conns p)))) =
     Z.of_nat (length (filter (free_at (pl_srvs p) l) (pl_conns p))) + (if v_active s && (v_norm s =? l) then 1 else 0)).
  { intros l. pose proof (count_on_conn (free_at (pl_srvs p) l) f (pl_conns p) c (iv_conns _ _ IV) C1) as X. rewrite C2 in X.
    assert (free_at (pl_srvs p) l c = false) as F0 by (unfold free_at; now rewrite C3).
    assert (free_at (pl_srvs p) l (f c) = v_active s && (v_norm s =? l)) as F1 by reflexivity. rewrite F0, F1 in X. lia. }
  destruct (Z.ltb_spec (-1) (v_norm s)) as [A|A]; cbn [andb]; [destruct (v_active s) eqn:B|].
  - pose proof (iv_srv _ _ IV) as SR. rewrite Forall_forall in SR. destruct (srv_id _ _ (SR c C1)) as [_ IN].
    pose proof (iv_norm _ _ IV _ IN) as NM. fold s in NM.
    destruct (add_at_some (Z.to_nat (v_norm s)) 1 (pl_levels p)) as (lv & E & L & V); [lia|]. rewrite E.
    eexists. split; [reflexivity|]. split; [now apply G|]. intros LB l Pl. cbn [pl_srvs pl_conns pl_levels]. unfold avail.
    rewrite CC, V. specialize (LB l Pl). unfold avail in LB. cbn [andb]. destruct (Z.eqb_spec (v_norm s) l) as [El|El].
    + rewrite El, Nat.eqb_refl. lia.
    + assert ((Z.to_nat l =? Z.to_nat (v_norm s))%nat = false) as -> by (apply Nat.eqb_neq; lia). lia.
  - eexists. split; [reflexivity|]. split; [now apply G|]. intros LB l Pl. cbn [pl_srvs pl_conns pl_levels]. unfold avail.
    rewrite CC. specialize (LB l Pl). unfold avail in LB. cbn [andb]. lia.
  - eexists. split; [reflexivity|]. split; [now apply G|]. intros LB l Pl. cbn [pl_srvs pl_conns pl_levels]. unfold avail.
    rewrite CC. specialize (LB l Pl). unfold avail in LB. replace (v_norm s =? l) with false by lia. rewrite andb_false_r. lia.
Qed.

(** Closing connections leaves identity, server and use alone. *)
Definition ksig (c : pconn) := (k_id c, k_srv c, k_used c).

Lemma close_level_sig srvs now conns level : map ksig (close_level srvs now conns level) = map ksig conns.
Proof.
  unfold close_level. destruct (_ && _); [|reflexivity]. rewrite map_map. apply map_ext. intros c.
  destruct (_ =? level); reflexivity.
Qed.

Lemma close_levels_sig srvs now : forall ls conns, map ksig (fold_left (close_level srvs now) ls conns) = map ksig conns.
Proof. induction ls as [|l ls IH]; intros conns; [reflexivity|]. cbn [fold_left]. rewrite IH. apply close_level_sig. Qed.

Lemma sig_filter {P : pconn -> bool} {Q : Z * Z * bool -> bool} l : (forall c, P c = Q (ksig c)) ->
  length (filter P l) = length (filter Q (map ksig l)).
Proof. intros H. induction l as [|c l IH]; [reflexivity|]. cbn [filter map]. rewrite H. destruct (Q (ksig c)); cbn [length]; auto. Qed.

Lemma sig_ids a b : map ksig a = map ksig b -> map k_id a = map k_id b /\ map k_srv a = map k_srv b.
Proof.
  intros H. split.
  - apply (f_equal (map (fun x : Z * Z * bool => fst (fst x)))) in H. rewrite !map_map in H. exact H.
  - apply (f_equal (map (fun x : Z * Z * bool => snd (fst x)))) in H. rewrite !map_map in H. exact H.
Qed.

Lemma sig_used a b cid : map ksig a = map ksig b ->
  (exists c, In c a /\ k_id c = cid /\ k_used c = true) -> exists c, In c b /\ k_id c = cid /\ k_used c = true.
Proof.
  intros H (c & I & J & K). apply (in_map ksig) in I. rewrite H in I. apply in_map_iff in I as (d & E & I).
  exists d. unfold ksig in E. inversion E. repeat split; congruence.
Qed.

Lemma pinv_sig p held conns' : pinv p held -> map ksig conns' = map ksig (pl_conns p) ->
  pinv (mkPool (pl_srvs p) conns' (pl_levels p) (pl_max p) (pl_gen p) (pl_retry p) (pl_next p)) held.
Proof.
  intros IV H. destruct (sig_ids _ _ H). apply (pinv_upd p held); auto; [apply (iv_held _ _ IV)|].
  intros cid. rewrite (iv_used _ _ IV). split; apply sig_used; auto.
Qed.

Lemma plb_sig p conns' : plb p -> map ksig conns' = map ksig (pl_conns p) ->
  plb (mkPool (pl_srvs p) conns' (pl_levels p) (pl_max p) (pl_gen p) (pl_retry p) (pl_next p)).
Proof.
  intros LB H l Pl. cbn [pl_srvs pl_conns pl_levels]. specialize (LB l Pl). unfold avail in *.
  set (Q := fun x : Z * Z * bool => negb (snd x) && v_active (srv (pl_srvs p) (snd (fst x))) && (v_norm (srv (pl_srvs p) (snd (fst x))) =? l)).
  rewrite (sig_filter (Q := Q)) in * by reflexivity. now rewrite H.
Qed.

Lemma filter_nodup {A} (f : A -> bool) (g : A -> Z) l : NoDup (map g l) -> NoDup (map g (filter f l)).
Proof.
  induction l as [|x l IH]; intros N; [constructor|]. cbn [map] in N. inversion N; subst. cbn [filter]. destruct (f x); [|auto].
  cbn [map]. constructor; [|auto]. intros I. apply in_map_iff in I as (y & E & I). apply filter_In in I as [I _].
  apply H1. rewrite <- E. now apply in_map.
Qed.

Lemma close_ok p held now : pinv p held -> pinv (close_unused p now) held /\ (plb p -> plb (close_unused p now)).
Proof.
  intros IV. unfold close_unused.
  set (keep := fun c => k_used c || negb ((v_norm (srv (pl_srvs p) (k_srv c)) =? -1) || negb (v_active (srv (pl_srvs p) (k_srv c))))).
  set (conns := filter keep (pl_conns p)).
  set (p1 := mkPool (pl_srvs p) conns (pl_levels p) (pl_max p) (pl_gen p) (pl_retry p) (pl_next p)).
  assert (IV1 : pinv p1 held).
  { destruct IV as [A B C D E F G H]. constructor; cbn [p1 pl_srvs pl_conns pl_next pl_levels]; auto.
    - now apply filter_nodup.
    - apply Forall_forall. intros c I. apply filter_In in I as [I _]. rewrite Forall_forall in C. now apply C.
    - apply Forall_forall. intros c I. apply filter_In in I as [I _]. rewrite Forall_forall in D. now apply D.
    - intros s I. specialize (E s I). unfold conns, conns_of in *.
      assert (X : (length (filter (fun c => (k_srv c =? v_id s)%Z) (filter keep (pl_conns p))) <= length (filter (fun c => (k_srv c =? v_id s)%Z) (pl_conns p)))%nat).
      { clear. induction (pl_conns p) as [|c l IH]; [cbn; lia|]. cbn [filter]. destruct (keep c); cbn [filter].
        - destruct (k_srv c =? v_id s); cbn [length]; lia.
        - destruct (k_srv c =? v_id s); cbn [length]; lia. }
      lia.
    - intros cid. rewrite G. split; intros (c & I & J & K); exists c; repeat split; auto.
      + apply filter_In. split; [assumption|]. unfold keep. now rewrite K.
      + now apply filter_In in I as [I _]. }
  pose proof (close_levels_sig (pl_srvs p) now (map Z.of_nat (seq 0 (Z.to_nat (pl_max p + 1)))) conns) as SG.
  split; [exact (pinv_sig p1 held _ IV1 SG)|].
  intros LB. apply (plb_sig p1); [|exact SG]. intros l Pl. cbn [p1 pl_srvs pl_conns pl_levels]. specialize (LB l Pl).
  assert (X : avail (pl_srvs p) conns l <= avail (pl_srvs p) (pl_conns p) l).
  { unfold avail, conns. apply inj_le. clear. induction (pl_conns p) as [|c r IH]; [cbn; lia|]. cbn [filter].
    destruct (keep c); cbn [filter]; destruct (free_at (pl_srvs p) l c); cbn [length]; lia. }
  lia.
Qed.

Lemma activate_ok p held id b : pinv p held -> pinv (activate p id b) held.
Proof.
  intros [A B C D E F G H]. constructor; cbn [activate with_srvs pl_srvs pl_conns pl_next pl_levels]; auto.
  - now rewrite on_srv_ids by apply keeps_active.
  - now rewrite on_srv_ids by apply keeps_active.
  - intros s I. unfold on_srv in I. apply in_map_iff in I as (t & X & I). specialize (E t I). destruct (v_id t =? id); subst; exact E.
  - intros s I. unfold on_srv in I. apply in_map_iff in I as (t & X & I). specialize (H t I). destruct (v_id t =? id); subst; exact H.
Qed.

Lemma block_ok p held id now : pinv p held -> pinv (block_server p id now) held /\ (plb p -> plb (block_server p id now)).
Proof.
  intros IV. pose proof (static_sym _ _ (static_on id now (pl_srvs p))) as S. split; [now apply pinv_static|].
  intros LB l Pl. cbn [block_server with_srvs pl_srvs pl_conns pl_levels].
  rewrite <- (avail_static _ _ _ _ S). now apply LB.
Qed.

Lemma changed_ok p held now : pinv p held -> exists p', changed p now = Some p' /\ pinv p' held /\ plb p'.
Proof.
  intros IV. unfold changed. destruct (init_ok p held (or_introl IV)) as (p1 & -> & I1 & L1).
  destruct (close_ok p1 held now I1) as [A B]. eauto.
Qed.

(** ** Histories *)

(** Requests are for levels from 0. *)
Definition ev_ok (e : pevent) : Prop := match e with EvGet level _ _ _ _ => 0 <= level | _ => True end.

Lemma pstep_ok p held e : pinv p held -> ev_ok e ->
  exists p' held', pstep (p, held) e = Some (p', held') /\ pinv p' held' /\
    (match e with EvActive _ _ => True | EvChanged _ => plb p' | _ => plb p -> plb p' end).
Proof.
  intros IV OK. destruct e; cbn [pstep].
  - destruct (get_go_ok want ignore rnd now (length (pl_levels p)) p held level IV OK) as (p' & r & E & _ & LB & H).
    unfold get_connection. rewrite E. destruct r as [c|]; eexists; eexists; split; try reflexivity; split; auto. apply H.
  - destruct (existsb (Z.eqb cid) held) eqn:EX.
    + apply existsb_exists in EX as (x & I & Ex). apply Z.eqb_eq in Ex. subst x.
      destruct (free_ok p held cid used now IV I) as (p' & -> & A & B). eauto 6.
    + eexists; eexists; split; [reflexivity|]. auto.
  - destruct (block_ok p held id now IV). eauto 6.
  - pose proof (activate_ok p held id b IV). eauto 6.
  - destruct (changed_ok p held now IV) as (p' & -> & A & B). eauto 6.
  - destruct (close_ok p held now IV). eauto 6.
  - destruct (existsb (Z.eqb cid) held); [|eexists; eexists; split; [reflexivity|auto]].
    assert (SG : map ksig (on_conn cid (fun c => mkPC (k_id c) (k_srv c) (k_used c) b (k_time c)) (pl_conns p)) = map ksig (pl_conns p)).
    { unfold on_conn. rewrite map_map. apply map_ext. intros c. now destruct (k_id c =? cid). }
    eexists; eexists; split; [reflexivity|]. split; [now apply pinv_sig|]. intros LB. now apply plb_sig.
Qed.

Lemma start_ok srvs retry : config srvs -> exists p0, start_pool srvs retry = Some p0 /\ pinv p0 [] /\ plb p0.
Proof. intros C. unfold start_pool. apply init_ok. right. repeat split; assumption. Qed.

Lemma prun_ok : forall es p held, pinv p held -> Forall ev_ok es ->
  exists p' held', prun (p, held) es = Some (p', held') /\ pinv p' held'.
Proof.
  induction es as [|e es IH]; intros p held IV F; cbn [prun]; [eauto|]. inversion F; subst.
  destruct (pstep_ok p held e IV) as (p1 & h1 & -> & I1 & _); [assumption|]. now apply IH.
Qed.

Lemma prun_lb : forall es p held p' held', pinv p held -> Forall ev_ok es -> settled_history es ->
  (plb p \/ match es with EvChanged _ :: _ => True | EvActive _ _ :: _ => True | _ => False end) ->
  prun (p, held) es = Some (p', held') -> plb p'.
Proof.
  induction es as [|e es IH]; intros p held p' held' IV F S LB H; cbn [prun] in H.
  - inversion H; subst. destruct LB; [assumption|contradiction].
  - inversion F; subst. destruct (pstep_ok p held e IV) as (p1 & h1 & E & I1 & L1); [assumption|]. rewrite E in H.
    assert (X : settled_history es) by (destruct e; cbn [settled_history] in S; tauto).
    eapply IH; [exact I1|assumption|exact X| |exact H].
    destruct e; cbn [settled_history] in S; try (left; destruct LB as [LB|[]]; now apply L1).
    right. destruct S as [S _]. destruct es as [|[] ?]; tauto.
Qed.

Lemma reachable_inv srvs retry es p held : config srvs -> Forall ev_ok es -> reachable srvs retry es p held -> pinv p held.
Proof.
  intros C F (p0 & E & R). destruct (start_ok srvs retry C) as (q & E' & I & _). rewrite E in E'. inversion E'; subst q.
  destruct (prun_ok es p0 [] I F) as (p1 & h1 & R1 & I1). rewrite R in R1. now inversion R1; subst.
Qed.

Lemma reachable_lb srvs retry es p held : config srvs -> Forall ev_ok es -> settled_history es -> reachable srvs retry es p held -> plb p.
Proof.
  intros C F S (p0 & E & R). destruct (start_ok srvs retry C) as (q & E' & I & L). rewrite E in E'. inversion E'; subst q.
  eapply prun_lb; eauto.
Qed.

Lemma reachable_exists srvs retry es : config srvs -> Forall ev_ok es -> exists p held, reachable srvs retry es p held.
Proof.
  intros C F. destruct (start_ok srvs retry C) as (p0 & E & I & _). destruct (prun_ok es p0 [] I F) as (p1 & h1 & R1 & I1).
  exists p1, h1, p0. auto.
Qed.
