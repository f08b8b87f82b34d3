(** Proofs about the connection pool. *)
From Verif Require Import Base PoolModel PoolSpec.
From Coq Require Import Permutation.

(** ** Lists *)

Lemma add_at_some n d : forall l, (n < length l)%nat -> exists l', add_at n d l = Some l' /\ length l' = length l /\
  forall k, nth k l' 0 = nth k l 0 + (if (k =? n)%nat then d else 0).
Proof.
  induction n as [|n IH]; intros [|x r] H; cbn [length] in H; try lia.
  - exists (x + d :: r). split; [reflexivity|]. split; [reflexivity|]. intros [|k]; cbn [nth]; [reflexivity|].
    change (S k =? 0)%nat with false. cbv iota. lia.
  - destruct (IH r) as (l' & A & B & C); [lia|]. exists (x :: l'). cbn [add_at]. rewrite A. cbn.
    split; [reflexivity|]. split; [now rewrite B|]. intros [|k]; [cbn; lia|]. cbn [nth]. rewrite C. reflexivity.
Qed.

Lemma add_at_inv n d l l' : add_at n d l = Some l' -> (n < length l)%nat /\ length l' = length l /\
  forall k, nth k l' 0 = nth k l 0 + (if (k =? n)%nat then d else 0).
Proof.
  intros H. destruct (Nat.lt_ge_cases n (length l)) as [L|L].
  - destruct (add_at_some n d l L) as (x & A & B & C). rewrite H in A. inversion A; subst. auto.
  - exfalso. revert l l' H L. induction n as [|n IH]; intros [|x r] l' H L; cbn in *; try discriminate; try lia.
    destruct (add_at n d r) eqn:E; [|discriminate]. eapply IH; [exact E | lia].
Qed.

Lemma srv_in l s : NoDup (map v_id l) -> In s l -> srv l (v_id s) = s.
Proof.
  unfold srv. intros N I. destruct (find (fun t => v_id t =? v_id s) l) as [t|] eqn:F.
  - apply find_some in F as [F1 F2]. apply Z.eqb_eq in F2. apply in_split in I as (a & b & ->).
    rewrite map_app in N. cbn [map] in N. apply NoDup_remove_2 in N. apply in_app_or in F1 as [F1|F1].
    + exfalso. apply N. apply in_or_app. left. rewrite <- F2. now apply in_map.
    + destruct F1 as [->|F1]; [reflexivity|]. exfalso. apply N. apply in_or_app. right. rewrite <- F2. now apply in_map.
  - eapply find_none in F; [|exact I]. rewrite Z.eqb_refl in F. discriminate.
Qed.

Lemma srv_id l id : In id (map v_id l) -> v_id (srv l id) = id /\ In (srv l id) l.
Proof.
  unfold srv. intros I. destruct (find (fun t => v_id t =? id) l) as [t|] eqn:F.
  - apply find_some in F as [F1 F2]. split; [now apply Z.eqb_eq | assumption].
  - apply in_map_iff in I as (s & E & I). eapply find_none in F; [|exact I]. cbn in F. lia.
Qed.

(** Changing servers without changing the identifiers. *)
Definition keeps_id (f : nsrv -> nsrv) : Prop := forall s, v_id (f s) = v_id s.

Lemma map_ids f l : keeps_id f -> map v_id (map f l) = map v_id l.
Proof. intros K. rewrite map_map. apply map_ext. exact K. Qed.

Lemma on_srv_ids id f l : keeps_id f -> map v_id (on_srv id f l) = map v_id l.
Proof. intros K. apply map_ids. intros s. destruct (v_id s =? id); auto. Qed.

Lemma srv_map f l id : keeps_id f -> In id (map v_id l) -> srv (map f l) id = f (srv l id).
Proof.
  intros K. unfold srv. induction l as [|s l IH]; cbn [map find In]; intros I; [contradiction|].
  rewrite K. destruct (Z.eqb_spec (v_id s) id); [reflexivity|]. apply IH. destruct I; [congruence|assumption].
Qed.

Lemma srv_out l id : ~ In id (map v_id l) -> srv l id = no_srv.
Proof.
  unfold srv. intros N. destruct (find (fun t => v_id t =? id) l) as [t|] eqn:F; [|reflexivity].
  apply find_some in F as [F1 F2]. apply Z.eqb_eq in F2. subst. exfalso. apply N. now apply in_map.
Qed.

Lemma srv_on_srv id f l i : keeps_id f -> In i (map v_id l) ->
  srv (on_srv id f l) i = if i =? id then f (srv l i) else srv l i.
Proof.
  intros K I. unfold on_srv. rewrite srv_map; auto.
  - destruct (srv_id l i I) as [E _]. rewrite E. reflexivity.
  - intros s. destruct (v_id s =? id); auto.
Qed.

Lemma on_conn_in id f l c : In c (on_conn id f l) <-> (In c l /\ k_id c <> id) \/ exists c0, In c0 l /\ k_id c0 = id /\ c = f c0.
Proof.
  unfold on_conn. rewrite in_map_iff. split.
  - intros (x & E & I). destruct (Z.eqb_spec (k_id x) id).
    + right. exists x. auto.
    + left. subst. auto.
  - intros [[I N]|(x & I & E & ->)].
    + exists c. split; [|assumption]. destruct (Z.eqb_spec (k_id c) id); [congruence|reflexivity].
    + exists x. split; [|assumption]. now rewrite E, Z.eqb_refl.
Qed.

Lemma on_conn_ids id f l : (forall c, k_id (f c) = k_id c) -> map k_id (on_conn id f l) = map k_id l.
Proof. intros K. unfold on_conn. rewrite map_map. apply map_ext. intros c. destruct (k_id c =? id); auto. Qed.

Lemma on_conn_srvs id f l : (forall c, k_srv (f c) = k_srv c) -> map k_srv (on_conn id f l) = map k_srv l.
Proof. intros K. unfold on_conn. rewrite map_map. apply map_ext. intros c. destruct (k_id c =? id); auto. Qed.

(** The number of connections of a server depends on the server numbers only. *)
Lemma conns_of_len id l : length (conns_of id l) = length (filter (Z.eqb id) (map k_srv l)).
Proof.
  unfold conns_of. induction l as [|c l IH]; [reflexivity|]. cbn [filter map]. rewrite (Z.eqb_sym id).
  destruct (k_srv c =? id); cbn [length]; now rewrite IH.
Qed.

(** ** Normalisation of levels *)

Lemma insert_perm s l : Permutation (insert_level s l) (s :: l).
Proof.
  induction l as [|t r IH]; cbn [insert_level]; [reflexivity|]. destruct (v_level s <=? v_level t); [reflexivity|].
  rewrite IH. apply perm_swap.
Qed.

Lemma sort_perm l : Permutation (sort_level l) l.
Proof. induction l as [|s l IH]; cbn [sort_level fold_right]; [reflexivity|]. rewrite insert_perm. now constructor. Qed.

Fixpoint sorted_lv (l : list nsrv) : Prop :=
  match l with [] => True | s :: r => Forall (fun t => v_level s <= v_level t) r /\ sorted_lv r end.

Lemma insert_sorted s l : sorted_lv l -> sorted_lv (insert_level s l).
Proof.
  induction l as [|t r IH]; cbn [insert_level sorted_lv]; [repeat constructor|]. intros [A B].
  destruct (Z.leb_spec (v_level s) (v_level t)) as [C|C]; cbn [sorted_lv].
  - split; [|auto]. constructor; [assumption|]. eapply Forall_impl; [|exact A]. cbv beta; intros; lia.
  - split; [|auto]. eapply Permutation_Forall; [symmetry; apply insert_perm|]. constructor; [lia|assumption].
Qed.

Lemma sort_sorted l : sorted_lv (sort_level l).
Proof. induction l; cbn [sort_level fold_right]; [exact I|]. now apply insert_sorted. Qed.

Lemma min_fold : forall l m, (forall t, In t l -> m <= v_level t) ->
  fold_left (fun m t => if v_level t <? m then v_level t else m) l m = m.
Proof.
  induction l as [|s l IH]; intros m H; [reflexivity|]. cbn [fold_left].
  pose proof (H s (or_introl eq_refl)). destruct (Z.ltb_spec (v_level s) m); [lia|]. apply IH. intros t I. apply H. now right.
Qed.

Lemma min_level_sorted s l : sorted_lv (s :: l) -> min_level (s :: l) = v_level s.
Proof.
  intros [A _]. unfold min_level. apply min_fold. intros t [->|I]; [lia|]. rewrite Forall_forall in A. now apply A.
Qed.

(** What the loop does to a server. *)
Lemma norm_go_map minl : forall l last mx l' m, norm_go minl last mx l = (l', m) ->
  Forall2 (fun s t => t = set_norm (v_norm t) s) l l'.
Proof.
  induction l as [|s l IH]; intros last mx l' m H; cbn [norm_go] in H.
  - inversion H. constructor.
  - destruct (counted minl s).
    + destruct (norm_go minl (v_level s) (if v_level s =? last then mx else mx + 1) l) eqn:E. inversion H; subst.
      constructor; [reflexivity|]. eapply IH; exact E.
    + destruct (norm_go minl last mx l) eqn:E. inversion H; subst. constructor; [reflexivity|]. eapply IH; exact E.
Qed.

(** Levels never jump. *)
Fixpoint chain (k : Z) (l : list nsrv) : Prop :=
  match l with
  | [] => True
  | s :: r => (v_norm s = -1 /\ chain k r) \/ (k <= v_norm s <= k + 1 /\ chain (v_norm s) r)
  end.
Fixpoint top (k : Z) (l : list nsrv) : Z :=
  match l with
  | [] => k
  | s :: r => if v_norm s =? -1 then top k r else top (v_norm s) r
  end.

Lemma norm_go_chain minl : forall l last mx l' m, 0 <= mx -> norm_go minl last mx l = (l', m) -> chain mx l' /\ m = top mx l'.
Proof.
  induction l as [|s l IH]; intros last mx l' m P H; cbn [norm_go] in H.
  - inversion H. split; [exact I|reflexivity].
  - destruct (counted minl s).
    + destruct (norm_go minl (v_level s) (if v_level s =? last then mx else mx + 1) l) as [r' m'] eqn:E. inversion H; subst.
      apply IH in E; [|destruct (v_level s =? last); lia]. destruct E as [E1 E2]. cbn [chain top set_norm v_norm]. split.
      * right. split; [destruct (v_level s =? last); lia | assumption].
      * destruct (Z.eqb_spec (if v_level s =? last then mx else mx + 1) (-1)); [destruct (v_level s =? last); lia|assumption].
    + destruct (norm_go minl last mx l) as [r' m'] eqn:E. inversion H; subst. apply IH in E; [|assumption]. destruct E as [E1 E2].
      cbn [chain top set_norm v_norm]. change (-1 =? -1) with true. split; [now left|assumption].
Qed.

Lemma chain_top : forall l k s, 0 <= k -> chain k l -> In s l -> v_norm s <= top k l.
Proof.
  assert (M : forall l k, 0 <= k -> chain k l -> k <= top k l).
  { induction l as [|s l IH]; intros k P C; cbn [top]; [lia|]. cbn [chain] in C. destruct C as [[E C]|[E C]].
    - rewrite E. apply IH; assumption.
    - destruct (Z.eqb_spec (v_norm s) (-1)); [lia|]. assert (Q : 0 <= v_norm s) by lia. specialize (IH _ Q C). lia. }
  induction l as [|t l IH]; intros k s P C I; [contradiction|]. cbn [chain top] in *. destruct C as [[E C]|[E C]].
  - rewrite E. change (-1 =? -1) with true. cbv iota. destruct I as [X|I]; [subst t; pose proof (M _ _ P C); lia | eapply IH; eauto].
  - destruct (Z.eqb_spec (v_norm t) (-1)); [lia|]. destruct I as [X|I].
    + subst t. pose proof (M l (v_norm s) ltac:(lia) C). lia.
    + eapply IH; [|exact C|exact I]. lia.
Qed.

Lemma chain_low : forall l k s, 0 <= k -> chain k l -> In s l -> -1 <= v_norm s.
Proof.
  induction l as [|t l IH]; intros k s P C I; [contradiction|]. cbn [chain] in C. destruct C as [[E C]|[E C]]; (destruct I as [X|I]; [subst t; lia|]).
  - eapply IH; eauto.
  - eapply IH; [|exact C|exact I]. lia.
Qed.

(** ** Invariant *)

Record pinv (p : pool) (held : list Z) : Prop := mkInv {
  iv_ids : NoDup (map v_id (pl_srvs p));
  iv_conns : NoDup (map k_id (pl_conns p));
  iv_next : Forall (fun c => k_id c < pl_next p) (pl_conns p);
  iv_srv : Forall (fun c => In (k_srv c) (map v_id (pl_srvs p))) (pl_conns p);
  iv_max : forall s, In s (pl_srvs p) -> Z.of_nat (length (conns_of (v_id s) (pl_conns p))) <= Z.max 0 (v_max s);
  iv_held : NoDup held;
  iv_used : forall cid, In cid held <-> exists c, In c (pl_conns p) /\ k_id c = cid /\ k_used c = true;
  iv_norm : forall s, In s (pl_srvs p) -> -1 <= v_norm s < Z.of_nat (length (pl_levels p)) }.

(** *** Initialisation *)

Lemma new_conns_len n id : forall next, length (new_conns n id next) = n.
Proof. induction n; intros; cbn; auto. Qed.

Lemma new_conns_in n id : forall next c, In c (new_conns n id next) ->
  k_srv c = id /\ k_used c = false /\ k_open c = false /\ next <= k_id c < next + Z.of_nat n.
Proof.
  induction n as [|n IH]; intros next c I; [contradiction|]. cbn [new_conns] in I. destruct I as [<-|I].
  - cbn. repeat split; lia.
  - apply IH in I as (A & B & C & D). repeat split; auto; lia.
Qed.

Lemma new_conns_nodup n id : forall next, NoDup (map k_id (new_conns n id next)).
Proof.
  induction n as [|n IH]; intros next; cbn [new_conns map]; constructor; auto.
  intros I. apply in_map_iff in I as (c & E & I). apply new_conns_in in I as (_ & _ & _ & D). cbn in E. lia.
Qed.

Lemma conns_of_app id a b : conns_of id (a ++ b) = conns_of id a ++ conns_of id b.
Proof. apply filter_app. Qed.

Lemma conns_of_new n id id' next : conns_of id (new_conns n id' next) = if id' =? id then new_conns n id' next else [].
Proof.
  revert next. induction n as [|n IH]; intros next; cbn [new_conns conns_of filter k_srv].
  - now destruct (id' =? id).
  - change (filter (fun c => k_srv c =? id) (new_conns n id' (next + 1))) with (conns_of id (new_conns n id' (next + 1))).
    rewrite IH. destruct (id' =? id); reflexivity.
Qed.

(** Number of connections whose server is one of [done], active and of level [l]. *)
Definition lv_has (done : list nsrv) (l : Z) (c : pconn) : bool :=
  existsb (fun s => (v_id s =? k_srv c) && v_active s && (v_norm s =? l)) done.
Definition lv_total (done : list nsrv) (l : Z) (conns : list pconn) : Z :=
  Z.of_nat (length (filter (lv_has done l) conns)).

Lemma lv_total_app_c done l a b : lv_total done l (a ++ b) = lv_total done l a + lv_total done l b.
Proof. unfold lv_total. rewrite filter_app, app_length. lia. Qed.

Lemma filter_none {A} (f : A -> bool) l : (forall x, In x l -> f x = false) -> filter f l = [].
Proof. induction l as [|x l IH]; intros H; [reflexivity|]. cbn. rewrite H by now left. apply IH. intros; apply H; now right. Qed.

Lemma lv_total_snoc done s l conns : ~ In (v_id s) (map v_id done) ->
  lv_total (done ++ [s]) l conns =
  lv_total done l conns + (if v_active s && (v_norm s =? l) then Z.of_nat (length (conns_of (v_id s) conns)) else 0).
Proof.
  intros N. unfold lv_total, conns_of. induction conns as [|c r IH]; cbn [filter length].
  - now destruct (v_active s && (v_norm s =? l)).
  - unfold lv_has at 1. rewrite existsb_app. cbn [existsb]. rewrite orb_false_r. rewrite (Z.eqb_sym (k_srv c)).
    fold (lv_has done l c). destruct (Z.eqb_spec (v_id s) (k_srv c)) as [E|E].
    + assert (lv_has done l c = false) as ->.
      { unfold lv_has. apply not_true_is_false. intros H. apply existsb_exists in H as (t & I & H). apply N. rewrite E.
        apply andb_prop in H as [H _]. apply andb_prop in H as [H _]. apply Z.eqb_eq in H. rewrite <- H. now apply in_map. }
      cbn [orb andb]. destruct (v_active s && (v_norm s =? l)) eqn:B; cbn [length]; lia.
    + cbn [andb]. rewrite orb_false_r. destruct (lv_has done l c); cbn [length]; lia.
Qed.

(** The state of the initialisation loop after the servers [done]. *)
Record iinv (conns0 : list pconn) (all done : list nsrv) (k : Z) (conns : list pconn) (levels : list Z) (next : Z) : Prop := mkI {
  ii_new : exists new, conns = conns0 ++ new /\ Forall (fun c => k_used c = false) new;
  ii_conns : NoDup (map k_id conns);
  ii_next : Forall (fun c => k_id c < next) conns;
  ii_srv : Forall (fun c => In (k_srv c) (map v_id all)) conns;
  ii_len : Z.of_nat (length levels) = k + 1;
  ii_lv : forall l, 0 <= l -> nth (Z.to_nat l) levels 0 = lv_total done l conns;
  ii_max : forall s, In s all -> Z.of_nat (length (conns_of (v_id s) conns)) <= Z.max 0 (v_max s) }.

Lemma nth_snoc0 (l : list Z) n : nth n (l ++ [0]) 0 = nth n l 0.
Proof.
  destruct (Nat.lt_ge_cases n (length l)) as [H|H]; [now rewrite app_nth1|].
  rewrite app_nth2 by assumption. rewrite (nth_overflow l) by assumption.
  destruct (n - length l)%nat as [|[|m]]; reflexivity.
Qed.

Lemma nodup_app_i {A} (a b : list A) : NoDup a -> NoDup b -> (forall x, In x a -> ~ In x b) -> NoDup (a ++ b).
Proof.
  induction a as [|x a IH]; intros Na Nb D; [assumption|]. inversion Na; subst. cbn. constructor.
  - intros I. apply in_app_or in I as [I|I]; [contradiction|]. apply (D x); [now left|assumption].
  - apply IH; auto. intros y I. apply D. now right.
Qed.

Lemma init_server_ok conns0 all done k conns levels next s :
  NoDup (map v_id all) -> In s all -> ~ In (v_id s) (map v_id done) ->
  iinv conns0 all done k conns levels next -> -1 <= k ->
  (v_norm s = -1 \/ (0 <= v_norm s <= k + 1)) ->
  exists conns' levels' next', init_server (conns, levels, next) s = Some (conns', levels', next') /\
    iinv conns0 all (done ++ [s]) (if v_norm s =? -1 then k else Z.max k (v_norm s)) conns' levels' next' /\ next <= next'.
Proof.
  intros ND Is Nd [(new & E & Un) C N SR L LV MX] K H. unfold init_server.
  destruct H as [H|H].
  { rewrite H. change (-1 <? -1) with false. change (-1 =? -1) with true. cbv iota. exists conns, levels, next.
    split; [reflexivity|]. split; [|lia]. constructor; eauto. intros l Pl. rewrite LV by assumption.
    rewrite lv_total_snoc by assumption. rewrite H. replace (-1 =? l) with false by lia. rewrite andb_false_r. lia. }
  replace (-1 <? v_norm s) with true by lia. replace (v_norm s =? -1) with false by lia.
  set (lv1 := if Z.of_nat (length levels) <=? v_norm s then levels ++ [0] else levels).
  assert (L1 : Z.of_nat (length lv1) = Z.max k (v_norm s) + 1).
  { unfold lv1. destruct (Z.leb_spec (Z.of_nat (length levels)) (v_norm s)); [rewrite app_length; cbn [length]; lia | lia]. }
  assert (V1 : forall n, nth n lv1 0 = nth n levels 0).
  { intros n. unfold lv1. destruct (_ <=? _); [apply nth_snoc0|reflexivity]. }
  destruct (v_active s) eqn:A.
  - set (have := Z.of_nat (length (conns_of (v_id s) conns))). set (more := Z.to_nat (v_max s - have)).
    destruct (add_at_some (Z.to_nat (v_norm s)) (have + Z.of_nat more) lv1) as (lv2 & E2 & L2 & V2); [lia|].
    rewrite E2. eexists; eexists; eexists. split; [reflexivity|]. split; [|lia].
    assert (NC : forall c, In c (new_conns more (v_id s) next) ->
      k_srv c = v_id s /\ k_used c = false /\ k_open c = false /\ next <= k_id c < next + Z.of_nat more) by apply new_conns_in.
    constructor.
    + exists (new ++ new_conns more (v_id s) next). split; [now rewrite E, app_assoc|].
      apply Forall_app. split; [assumption|]. apply Forall_forall. intros c I. now apply NC.
    + rewrite map_app. apply nodup_app_i; [assumption|apply new_conns_nodup|].
      intros x I J. apply in_map_iff in I as (c & Ec & I). apply in_map_iff in J as (d & Ed & J).
      rewrite Forall_forall in N. apply N in I. apply NC in J as (_ & _ & _ & J). lia.
    + apply Forall_app. split.
      * eapply Forall_impl; [|exact N]. intros; cbn in *. lia.
      * apply Forall_forall. intros c I. apply NC in I as (_ & _ & _ & I). lia.
    + apply Forall_app. split; [assumption|]. apply Forall_forall. intros c I. apply NC in I as (-> & _). now apply in_map.
    + rewrite L2. assumption.
    + intros l Pl. rewrite V2, V1, LV by assumption. rewrite lv_total_app_c. rewrite !lv_total_snoc by assumption.
      rewrite A. cbn [andb].
      assert (Z0 : lv_total done l (new_conns more (v_id s) next) = 0).
      { unfold lv_total. rewrite filter_none; [reflexivity|]. intros c I. apply NC in I as (I & _). unfold lv_has.
        apply not_true_is_false. intros X. apply existsb_exists in X as (t & It & X). apply Nd. rewrite <- I.
        apply andb_prop in X as [X _]. apply andb_prop in X as [X _]. apply Z.eqb_eq in X. rewrite <- X. now apply in_map. }
      rewrite Z0. rewrite conns_of_new, Z.eqb_refl, new_conns_len. fold have.
      destruct (Z.eqb_spec (v_norm s) l) as [El|El].
      * subst l. rewrite Nat.eqb_refl. lia.
      * assert ((Z.to_nat l =? Z.to_nat (v_norm s))%nat = false) as -> by (apply Nat.eqb_neq; lia). lia.
    + intros t It. rewrite conns_of_app, app_length, conns_of_new.
      destruct (Z.eqb_spec (v_id s) (v_id t)) as [Et|Et].
      * assert (s = t) as <- by (rewrite <- (srv_in all s ND Is), <- (srv_in all t ND It), Et; reflexivity).
        rewrite new_conns_len. pose proof (MX s Is). unfold more, have. lia.
      * cbn [length]. rewrite Nat.add_0_r. now apply MX.
  - exists conns, lv1, next. split; [reflexivity|]. split; [|lia]. constructor; eauto.
    intros l Pl. rewrite V1, LV by assumption. rewrite lv_total_snoc by assumption. rewrite A. cbn [andb]. lia.
Qed.

(** What InitConnections leaves behind. *)
Lemma init_servers_ok conns0 all : NoDup (map v_id all) -> forall todo done k conns levels next,
  all = done ++ todo -> iinv conns0 all done k conns levels next -> -1 <= k ->
  ((k = -1 /\ match todo with [] => True | s :: r => v_norm s = 0 /\ chain 0 r end) \/ (0 <= k /\ chain k todo)) ->
  exists conns' levels' next', init_servers (conns, levels, next) todo = Some (conns', levels', next') /\
    iinv conns0 all all (match todo with [] => k | _ => top (Z.max 0 k) todo end) conns' levels' next' /\ next <= next'.
Proof.
  intros ND. induction todo as [|s r IH]; intros done k conns levels next E I K H; cbn [init_servers].
  - exists conns, levels, next. rewrite app_nil_r in E. subst. split; [reflexivity|]. split; [assumption|lia].
  - assert (Is : In s all) by (rewrite E; apply in_or_app; right; now left).
    assert (Nd : ~ In (v_id s) (map v_id done)).
    { rewrite E, map_app in ND. cbn [map] in ND. apply NoDup_remove_2 in ND. intros X. apply ND. apply in_or_app. now left. }
    assert (HS : v_norm s = -1 \/ 0 <= v_norm s <= k + 1).
    { destruct H as [[-> [H _]]|[P [[H _]|[H _]]]]; [right; lia | left; lia | right; lia]. }
    destruct (init_server_ok conns0 all done k conns levels next s ND Is Nd I K HS) as (c1 & l1 & n1 & E1 & I1 & N1).
    rewrite E1. set (k1 := if v_norm s =? -1 then k else Z.max k (v_norm s)) in *.
    assert (H1 : 0 <= k1 /\ chain k1 r).
    { unfold k1. destruct H as [[-> [H C]]|[P [[H C]|[H C]]]].
      - rewrite H. cbn. split; [lia|assumption].
      - rewrite H. cbn. split; assumption.
      - replace (v_norm s =? -1) with false by lia. rewrite Z.max_r by lia. split; [lia|assumption]. }
    destruct (IH (done ++ [s]) k1 c1 l1 n1) as (c2 & l2 & n2 & E2 & I2 & N2).
    + rewrite E, <- app_assoc. reflexivity.
    + assumption.
    + lia.
    + right. assumption.
    + exists c2, l2, n2. split; [assumption|]. split; [|lia].
      replace (top (Z.max 0 k) (s :: r)) with (match r with [] => k1 | _ => top (Z.max 0 k1) r end); [assumption|].
      cbn [top]. unfold k1. destruct H1 as [H1 _]. unfold k1 in H1. destruct r as [|t r'].
      * cbn [top]. destruct (Z.eqb_spec (v_norm s) (-1)); [lia|].
        destruct H as [[-> [H _]]|[P [[H _]|[H _]]]]; lia.
      * destruct (Z.eqb_spec (v_norm s) (-1)); [reflexivity|]. f_equal.
        destruct H as [[-> [H _]]|[P [[H _]|[H _]]]]; lia.
Qed.
