(** Proofs about the connection pool: the operations. *)
From Verif Require Import Base PoolModel PoolSpec PoolProofs.
From Coq Require Import Permutation.

(** ** Servers that differ in the block time only *)

Definition static (a b : list nsrv) : Prop := map (set_block 0) a = map (set_block 0) b.

Lemma keeps_block t : keeps_id (set_block t).
Proof. intros s. reflexivity. Qed.
Lemma keeps_active b : keeps_id (set_active b).
Proof. intros s. reflexivity. Qed.
Lemma keeps_norm n : keeps_id (set_norm n).
Proof. intros s. reflexivity. Qed.

Lemma static_refl a : static a a.
Proof. reflexivity. Qed.
Lemma static_trans a b c : static a b -> static b c -> static a c.
Proof. unfold static. congruence. Qed.
Lemma static_sym a b : static a b -> static b a.
Proof. unfold static. congruence. Qed.

Lemma static_ids a b : static a b -> map v_id a = map v_id b.
Proof.
  unfold static. intros H. rewrite <- (map_ids (set_block 0) a (keeps_block 0)), <- (map_ids (set_block 0) b (keeps_block 0)).
  now rewrite H.
Qed.

Lemma static_srv a b i : static a b -> set_block 0 (srv a i) = set_block 0 (srv b i).
Proof.
  intros H. pose proof (static_ids _ _ H) as I. unfold static in H.
  destruct (in_dec Z.eq_dec i (map v_id a)) as [In_|Out].
  - rewrite <- !srv_map by (try apply keeps_block; congruence). now rewrite H.
  - rewrite !srv_out by congruence. reflexivity.
Qed.

Lemma block_eq s t : set_block 0 s = set_block 0 t ->
  v_id s = v_id t /\ v_active s = v_active t /\ v_max s = v_max t /\ v_level s = v_level t /\ v_norm s = v_norm t /\
  v_group s = v_group t /\ v_optional s = v_optional t.
Proof. destruct s, t. unfold set_block. cbn. intros H. inversion H. subst. repeat split. Qed.

Lemma static_in a b s : static a b -> In s a -> exists t, In t b /\ set_block 0 s = set_block 0 t.
Proof.
  unfold static. intros H I. apply (in_map (set_block 0)) in I. rewrite H in I. apply in_map_iff in I as (t & E & I).
  exists t. auto.
Qed.

Lemma static_on id t l : static (on_srv id (set_block t) l) l.
Proof.
  unfold static, on_srv. rewrite map_map. apply map_ext. intros s. now destruct (v_id s =? id).
Qed.

(** ** Updating connections *)

Lemma pinv_static p srvs' held : static (pl_srvs p) srvs' -> pinv p held -> pinv (with_srvs srvs' p) held.
Proof.
  intros S [A B C D E F G H]. pose proof (static_ids _ _ S) as I. constructor; cbn [with_srvs pl_srvs pl_conns pl_next pl_levels]; auto.
  - now rewrite <- I.
  - now rewrite <- I.
  - intros s J. destruct (static_in _ _ _ (static_sym _ _ S) J) as (t & T & X). apply block_eq in X as (X1 & X2 & X3 & _).
    rewrite X1, X3. now apply E.
  - intros s J. destruct (static_in _ _ _ (static_sym _ _ S) J) as (t & T & X). apply block_eq in X as (_ & _ & _ & _ & X & _).
    rewrite X. now apply H.
Qed.

Lemma pinv_upd p held conns' levels' held' :
  pinv p held -> map k_id conns' = map k_id (pl_conns p) -> map k_srv conns' = map k_srv (pl_conns p) ->
  NoDup held' -> (forall cid, In cid held' <-> exists c, In c conns' /\ k_id c = cid /\ k_used c = true) ->
  length levels' = length (pl_levels p) ->
  pinv (mkPool (pl_srvs p) conns' levels' (pl_max p) (pl_gen p) (pl_retry p) (pl_next p)) held'.
Proof.
  intros [A B C D E F G H] I J K L M. constructor; cbn [pl_srvs pl_conns pl_next pl_levels]; auto.
  - now rewrite I.
  - rewrite <- Forall_map with (P := fun x => x < pl_next p). rewrite I. now rewrite Forall_map.
  - rewrite <- Forall_map with (P := fun x => In x (map v_id (pl_srvs p))). rewrite J. now rewrite Forall_map.
  - intros s X. rewrite conns_of_len, J, <- conns_of_len. now apply E.
  - now rewrite M.
Qed.

(** Free connections of a level. *)
Definition free_at (srvs : list nsrv) (l : Z) (c : pconn) : bool :=
  negb (k_used c) && v_active (srv srvs (k_srv c)) && (v_norm (srv srvs (k_srv c)) =? l).
Definition avail (srvs : list nsrv) (conns : list pconn) (l : Z) : Z :=
  Z.of_nat (length (filter (free_at srvs l) conns)).
Definition plb (p : pool) : Prop :=
  forall l, 0 <= l -> avail (pl_srvs p) (pl_conns p) l <= nth (Z.to_nat l) (pl_levels p) 0.

Lemma free_at_static a b l c : static a b -> free_at a l c = free_at b l c.
Proof.
  intros S. unfold free_at. pose proof (static_srv _ _ (k_srv c) S) as X. apply block_eq in X as (_ & -> & _ & _ & -> & _). reflexivity.
Qed.

Lemma avail_static a b conns l : static a b -> avail a conns l = avail b conns l.
Proof.
  intros S. unfold avail. rewrite (filter_ext (free_at a l) (free_at b l)); [reflexivity|].
  intros c. now apply free_at_static.
Qed.

Lemma on_conn_none id f l : ~ In id (map k_id l) -> on_conn id f l = l.
Proof.
  intros N. unfold on_conn. rewrite <- (map_id l) at 2. apply map_ext_in. intros c I.
  destruct (Z.eqb_spec (k_id c) id); [|reflexivity]. subst. exfalso. apply N. now apply in_map.
Qed.

Lemma count_on_conn (P : pconn -> bool) f l c : NoDup (map k_id l) -> In c l ->
  Z.of_nat (length (filter P (on_conn (k_id c) f l))) + (if P c then 1 else 0) =
  Z.of_nat (length (filter P l)) + (if P (f c) then 1 else 0).
Proof.
  intros N I. induction l as [|x l IH]; [contradiction|]. cbn [map] in N. inversion N as [|? ? N1 N2]; subst.
  unfold on_conn. cbn [map filter]. fold (on_conn (k_id c) f l). destruct I as [->|I].
  - rewrite Z.eqb_refl, on_conn_none by assumption. destruct (P c), (P (f c)); cbn [length]; lia.
  - destruct (Z.eqb_spec (k_id x) (k_id c)) as [E|E].
    + exfalso. apply N1. rewrite E. now apply in_map.
    + specialize (IH N2 I). destruct (P x); cbn [length]; lia.
Qed.

(** ** Initialisation *)

Lemma perm_ids a b : Permutation a b -> NoDup (map v_id a) -> NoDup (map v_id b).
Proof. intros P. apply Permutation_NoDup. now apply Permutation_map. Qed.

Lemma forall2_norm_ids l l' : Forall2 (fun s t => t = set_norm (v_norm t) s) l l' -> map v_id l' = map v_id l.
Proof. intros F. induction F as [|s t l l' E F IH]; [reflexivity|]. cbn [map]. rewrite E, IH. reflexivity. Qed.

Lemma forall2_in {A B} (R : A -> B -> Prop) l l' y : Forall2 R l l' -> In y l' -> exists x, In x l /\ R x y.
Proof.
  intros F. induction F as [|a b l l' E F IH]; intros I; [contradiction|]. destruct I as [->|I].
  - exists a. split; [now left|assumption].
  - destruct (IH I) as (x & X & Y). exists x. split; [now right|assumption].
Qed.

(** The normalised servers: the same ones, with levels that do not jump. *)
Lemma normalize_ok l mx srvs m : normalize l mx = (srvs, m) ->
  exists l1, Permutation l1 l /\ Forall2 (fun s t => t = set_norm (v_norm t) s) l1 srvs /\
  match srvs with [] => l = [] | s :: r => v_norm s = 0 /\ chain 0 r /\ m = top 0 srvs end.
Proof.
  unfold normalize. destruct l as [|s0 l0].
  { intros H; inversion H; subst. exists []. repeat split; constructor. }
  intros H. set (l := s0 :: l0) in *. exists (sort_level l). split; [apply sort_perm|].
  split; [eapply norm_go_map; exact H|].
  pose proof (sort_sorted l) as S. pose proof (sort_perm l) as P. destruct (sort_level l) as [|s r].
  { apply Permutation_nil in P. discriminate P. }
  rewrite (min_level_sorted _ _ S) in H. cbn [norm_go] in H. unfold counted in H at 1.
  rewrite Z.eqb_refl, orb_true_r in H. destruct (norm_go (v_level s) (v_level s) 0 r) as [r' m'] eqn:E. inversion H; subst.
  apply norm_go_chain in E; [|lia]. destruct E as [E1 E2]. split; [reflexivity|]. split; [assumption|].
  cbn [top set_norm v_norm]. exact E2.
Qed.

Lemma lv_total_srv srvs l conns : NoDup (map v_id srvs) ->
  lv_total srvs l conns = Z.of_nat (length (filter (fun c => v_active (srv srvs (k_srv c)) && (v_norm (srv srvs (k_srv c)) =? l) && existsb (Z.eqb (k_srv c)) (map v_id srvs)) conns)).
Proof.
  intros N. unfold lv_total. do 2 f_equal. apply filter_ext. intros c. unfold lv_has. apply eq_true_iff_eq. rewrite existsb_exists. split.
  - intros (s & I & H). apply andb_prop in H as [H H3]. apply andb_prop in H as [H1 H2]. apply Z.eqb_eq in H1.
    rewrite <- H1, srv_in by assumption. rewrite H2, H3. cbn. apply existsb_exists. exists (v_id s). split; [now apply in_map|apply Z.eqb_refl].
  - intros H. apply andb_prop in H as [H H3]. apply andb_prop in H as [H1 H2]. apply existsb_exists in H3 as (i & I & E).
    apply Z.eqb_eq in E. subst i. destruct (srv_id _ _ I) as [E J]. exists (srv srvs (k_srv c)). split; [assumption|].
    now rewrite E, Z.eqb_refl, H1, H2.
Qed.

Lemma filter_length_imp {A} (f g : A -> bool) l : (forall x, In x l -> f x = true -> g x = true) ->
  (length (filter f l) <= length (filter g l))%nat.
Proof.
  induction l as [|x l IH]; intros H; [cbn; lia|]. cbn [filter]. specialize (IH (fun y I => H y (or_intror I))).
  destruct (f x) eqn:E; [rewrite (H x (or_introl eq_refl) E); cbn; lia|]. destruct (g x); cbn; lia.
Qed.

Lemma init_ok p held : pinv p held \/ (held = [] /\ pl_conns p = [] /\ NoDup (map v_id (pl_srvs p))) ->
  exists p', init_connections p = Some p' /\ pinv p' held /\ plb p'.
Proof.
  intros H0. unfold init_connections. destruct (normalize (pl_srvs p) (pl_max p)) as [srvs m] eqn:NZ.
  destruct (normalize_ok _ _ _ _ NZ) as (l1 & P & F & HD).
  assert (NDp : NoDup (map v_id (pl_srvs p))) by (destruct H0 as [[A _ _ _ _ _ _ _]|(_ & _ & A)]; exact A).
  pose proof (forall2_norm_ids _ _ F) as IDS.
  assert (ND : NoDup (map v_id srvs)) by (rewrite IDS; eapply perm_ids; [symmetry; exact P|assumption]).
  assert (SRC : forall t, In t srvs -> exists s, In s (pl_srvs p) /\ v_id t = v_id s /\ v_max t = v_max s).
  { intros t I. destruct (forall2_in _ _ _ _ F I) as (s & X & Y). exists s. split; [now apply (Permutation_in _ P)|].
    rewrite Y. split; reflexivity. }
  assert (II : iinv (pl_conns p) srvs [] (-1) (pl_conns p) [] (pl_next p)).
  { destruct H0 as [[A B C D E _ _ _]|(_ & E & _)].
    - constructor; auto.
      + exists []. rewrite app_nil_r. split; [reflexivity|constructor].
      + eapply Forall_impl; [|exact D]. intros c X. cbv beta in *. rewrite IDS.
        eapply Permutation_in; [apply Permutation_map; symmetry; exact P|assumption].
      + intros l Pl. cbn [nth]. destruct (Z.to_nat l); unfold lv_total; rewrite filter_none; try reflexivity; intros; reflexivity.
      + intros s I. destruct (SRC s I) as (t & T & E1 & E2). rewrite E1, E2. now apply E.
    - rewrite E. constructor; cbn; try constructor; try (intros; lia).
      + exists []. split; [reflexivity|constructor].
      + intros l Pl. now destruct (Z.to_nat l). }
  destruct (init_servers_ok (pl_conns p) srvs ND srvs [] (-1) _ _ _ eq_refl II) as (cs & lv & nx & E & I & NX); [lia| |].
  { left. split; [reflexivity|]. destruct srvs; [exact Coq.Init.Logic.I|]. tauto. }
  rewrite E. eexists. split; [reflexivity|].
  destruct I as [(new & EN & UN) B C D L LV MX].
  assert (ST : static (map (set_block 0) srvs) srvs) by (unfold static; rewrite map_map; apply map_ext; intros; reflexivity).
  split.
  - constructor; cbn [pl_srvs pl_conns pl_next pl_levels]; auto.
    + rewrite map_ids by apply keeps_block. assumption.
    + rewrite map_ids by apply keeps_block. assumption.
    + intros s I. apply in_map_iff in I as (t & <- & I). cbn. now apply MX.
    + destruct H0 as [[_ _ _ _ _ X _ _]|(-> & _)]; [exact X|constructor].
    + intros cid. destruct H0 as [[_ _ _ _ _ _ X _]|(-> & EC & _)].
      * rewrite X. rewrite EN. split; intros (c & J & K1 & K2); exists c; repeat split; auto.
        -- apply in_or_app. now left.
        -- apply in_app_or in J as [J|J]; [assumption|]. rewrite Forall_forall in UN. rewrite UN in K2 by assumption. discriminate.
      * rewrite EN, EC. cbn. split; [contradiction|]. intros (c & J & K1 & K2). rewrite Forall_forall in UN.
        rewrite UN in K2 by assumption. discriminate.
    + intros s I. apply in_map_iff in I as (t & <- & I). cbn [v_norm set_block]. rewrite L.
      destruct srvs as [|s0 r]; [contradiction|]. destruct HD as (H1 & H2 & H3).
      assert (CH : chain 0 (s0 :: r)) by (cbn [chain]; right; rewrite H1; split; [lia|assumption]).
      pose proof (chain_top _ 0 t ltac:(lia) CH I). pose proof (chain_low _ 0 t ltac:(lia) CH I).
      change (Z.max 0 (-1)) with 0. lia.
  - intros l Pl. cbn [pl_srvs pl_conns pl_levels]. rewrite LV by assumption. rewrite (avail_static _ _ _ _ ST).
    rewrite lv_total_srv by assumption. unfold avail. apply inj_le. apply filter_length_imp. intros c I X. unfold free_at in X.
    apply andb_prop in X as [X X3]. apply andb_prop in X as [X1 X2]. rewrite X2, X3. cbn.
    rewrite Forall_forall in D. apply existsb_exists. exists (k_srv c). split; [now apply D|apply Z.eqb_refl].
Qed.

(** ** Looking for a connection *)

(** Blocks are only cleared. *)
Definition unblocks (a b : list nsrv) : Prop :=
  static a b /\ forall i, v_block (srv b i) = v_block (srv a i) \/ v_block (srv b i) = 0.

Lemma unblocks_refl a : unblocks a a.
Proof. split; [apply static_refl|auto]. Qed.

Lemma unblocks_trans a b c : unblocks a b -> unblocks b c -> unblocks a c.
Proof.
  intros [A1 A2] [B1 B2]. split; [eapply static_trans; eauto|]. intros i. destruct (B2 i) as [->|]; auto.
Qed.

Lemma unblocks_on id l : unblocks l (on_srv id (set_block 0) l).
Proof.
  split; [apply static_sym, static_on|]. intros i. destruct (in_dec Z.eq_dec i (map v_id l)) as [In_|Out].
  - rewrite srv_on_srv by (try apply keeps_block; assumption). destruct (i =? id); auto.
  - rewrite !srv_out; auto. now rewrite on_srv_ids by apply keeps_block.
Qed.

Lemma blocked_iff retry now s : blocked retry now s = true <-> is_blocked retry now s.
Proof. unfold blocked, is_blocked. destruct (v_block s =? 0) eqn:E; [split; [discriminate|lia]|lia]. Qed.
Lemma unblocks_blocked a b i retry now : unblocks a b -> blocked retry now (srv b i) = true -> blocked retry now (srv a i) = true.
Proof.
  intros [_ U]. unfold blocked. destruct (U i) as [-> | ->]; [auto|]. cbn. discriminate.
Qed.

Lemma want_static a b want i : static a b -> want_ok a want (srv a i) = want_ok b want (srv b i).
Proof.
  intros S. unfold want_ok. destruct want as [w|]; [|reflexivity].
  pose proof (static_srv _ _ i S) as X. apply block_eq in X as (X1 & _ & _ & _ & _ & X6 & _).
  pose proof (static_srv _ _ w S) as Y. apply block_eq in Y as (_ & _ & _ & _ & _ & Y6 & _). now rewrite X1, X6, Y6.
Qed.

Lemma excludes_static a b i j : static a b -> excludes a (srv a i) j = excludes b (srv b i) j.
Proof.
  intros S. unfold excludes.
  pose proof (static_srv _ _ i S) as X. apply block_eq in X as (X1 & _ & _ & _ & X5 & X6 & _).
  pose proof (static_srv _ _ j S) as Y. apply block_eq in Y as (_ & _ & _ & _ & Y5 & Y6 & _). now rewrite X1, X5, X6, Y5, Y6.
Qed.

Lemma usable_static a b want ignore c : static a b -> is_usable want ignore a c = is_usable want ignore b c.
Proof.
  intros S. unfold is_usable. destruct want; [reflexivity|]. f_equal. induction ignore as [|i l IH]; [reflexivity|]. cbn [existsb].
  rewrite IH. now rewrite (excludes_static a b (k_srv c) i S).
Qed.

Lemma candidate_mono a b retry now level want c : unblocks a b ->
  is_candidate retry now level want a c = true -> is_candidate retry now level want b c = true.
Proof.
  intros U H. pose proof U as [S _]. unfold is_candidate in *.
  pose proof (static_srv _ _ (k_srv c) S) as X. apply block_eq in X as (X1 & X2 & _ & _ & X5 & _).
  rewrite <- (want_static a b want (k_srv c) S), <- X2, <- X5.
  apply andb_prop in H as [H H5]. rewrite H. cbn [andb]. destruct (k_open c); [reflexivity|]. cbn [orb] in *.
  apply negb_true_iff in H5. apply negb_true_iff. destruct (blocked retry now (srv b (k_srv c))) eqn:E; [|reflexivity].
  rewrite (unblocks_blocked a b _ _ _ U E) in H5. discriminate.
Qed.

(** Soundness and completeness of the scan. *)
Lemma scan_ok retry now level want ignore : forall l srvs srvs' cs,
  scan_conns retry now level want ignore srvs l = (srvs', cs) ->
  unblocks srvs srvs' /\
  (forall c, In c cs -> In c l /\ k_used c = false /\ v_active (srv srvs (k_srv c)) = true /\
     v_norm (srv srvs (k_srv c)) = level /\ want_ok srvs want (srv srvs (k_srv c)) = true /\ is_usable want ignore srvs c = true) /\
  (forall c, In c l -> is_candidate retry now level want srvs c = true -> is_usable want ignore srvs c = true -> In c cs).
Proof.
  induction l as [|c l IH]; intros srvs srvs' cs H; cbn [scan_conns] in H.
  - inversion H; subst. split; [apply unblocks_refl|]. split; contradiction.
  - destruct (is_candidate retry now level want srvs c) eqn:CA.
    + destruct (scan_conns retry now level want ignore (on_srv (k_srv c) (set_block 0) srvs) l) as [srvs1 cs1] eqn:E.
      pose proof (unblocks_on (k_srv c) srvs) as U. pose proof U as [S _]. apply IH in E as (A & B & C).
      inversion H; subst. split; [eapply unblocks_trans; eauto|]. split.
      * intros d I. assert (X : In d cs1 -> In d (c :: l) /\ k_used d = false /\ v_active (srv srvs (k_srv d)) = true /\
          v_norm (srv srvs (k_srv d)) = level /\ want_ok srvs want (srv srvs (k_srv d)) = true /\ is_usable want ignore srvs d = true).
        { intros J. apply B in J as (J1 & J2 & J3 & J4 & J5 & J6). split; [now right|].
          pose proof (static_srv _ _ (k_srv d) S) as Y. apply block_eq in Y as (_ & Y2 & _ & _ & Y5 & _).
          rewrite Y2, Y5, (want_static _ _ want (k_srv d) S), (usable_static _ _ want ignore d S). auto. }
        destruct (is_usable want ignore srvs c) eqn:US; [|now apply X]. destruct I as [<- |I]; [|now apply X].
        split; [now left|]. unfold is_candidate in CA. apply andb_prop in CA as [CA _]. apply andb_prop in CA as [CA C4].
        apply andb_prop in CA as [CA C3]. apply andb_prop in CA as [C1 C2]. apply negb_true_iff in C1. apply Z.eqb_eq in C3. auto.
      * intros d [<- |I] D1 D2.
        -- rewrite D2. now left.
        -- assert (In d cs1).
           { apply C; auto; [eapply candidate_mono; eauto|]. now rewrite <- (usable_static _ _ want ignore d S). }
           destruct (is_usable want ignore srvs c); [now right|assumption].
    + apply IH in H as (A & B & C). split; [assumption|]. split.
      * intros d I. apply B in I as (I1 & I2). split; [now right|assumption].
      * intros d [<- |I] D1 D2; [congruence|]. now apply C.
Qed.

(** One level. *)
Lemma locked_get_ok p held level want ignore rnd now : pinv p held -> 0 <= level -> 0 <= level_count p level ->
  exists p' r, locked_get p level want ignore rnd now = Some (p', r) /\
    unblocks (pl_srvs p) (pl_srvs p') /\ pl_retry p' = pl_retry p /\ length (pl_levels p') = length (pl_levels p) /\
    (plb p -> plb p') /\
    match r with
    | None => pinv p' held /\ pl_conns p' = pl_conns p /\ pl_levels p' = pl_levels p /\
              (level_count p level = 0 \/
               forall c, In c (pl_conns p) -> is_candidate (pl_retry p) now level want (pl_srvs p) c = true ->
                         is_usable want ignore (pl_srvs p) c = true -> False)
    | Some c => pinv p' (k_id c :: held) /\ ~ In (k_id c) held /\ In c (pl_conns p) /\
                v_active (srv (pl_srvs p) (k_srv c)) = true /\ v_norm (srv (pl_srvs p) (k_srv c)) = level /\
                want_ok (pl_srvs p) want (srv (pl_srvs p) (k_srv c)) = true /\ is_usable want ignore (pl_srvs p) c = true
    end.
Proof.
  intros IV PL LC. unfold locked_get. destruct (Z.eqb_spec (level_count p level) 0) as [Z0|Z0].
  { exists p, None. split; [reflexivity|]. split; [apply unblocks_refl|]. repeat (split; [auto; fail|]).
    repeat split; auto. }
  destruct (scan_conns (pl_retry p) now level want ignore (pl_srvs p) (pl_conns p)) as [srvs cs] eqn:SC.
  apply scan_ok in SC as (U & SND & CMP). pose proof U as [S _].
  destruct (nth_error cs (Z.to_nat (rnd mod Z.of_nat (length cs)))) as [c|] eqn:NE.
  - apply nth_error_In in NE. apply SND in NE as (I1 & I2 & I3 & I4 & I5 & I6).
    assert (LT : (Z.to_nat level < length (pl_levels p))%nat).
    { unfold level_count in Z0. destruct (Z.ltb_spec level (Z.of_nat (length (pl_levels p)))); [lia|congruence]. }
    destruct (add_at_some (Z.to_nat level) (-1) (pl_levels p) LT) as (lv & E & L & V). rewrite E.
    eexists; exists (Some c). split; [reflexivity|]. cbn [pl_srvs pl_retry pl_levels].
    split; [assumption|]. split; [reflexivity|]. split; [assumption|].
    assert (NI : ~ In (k_id c) held).
    { intros X. apply (iv_used _ _ IV) in X as (d & D1 & D2 & D3). assert (d = c); [|congruence].
      pose proof (iv_conns _ _ IV) as N. clear - N I1 D1 D2. induction (pl_conns p) as [|x l IH]; [contradiction|].
      cbn [map] in N. inversion N as [|? ? N1 N2]; subst. destruct I1 as [->|I1], D1 as [->|D1]; auto.
      - exfalso. apply N1. rewrite <- D2. now apply in_map.
      - exfalso. apply N1. rewrite D2. now apply in_map. }
    split.
    + intros LB l Pl. cbn [pl_srvs pl_conns pl_levels]. rewrite <- (avail_static (pl_srvs p) srvs) by assumption.
      rewrite V. specialize (LB l Pl). unfold avail in *.
      pose proof (count_on_conn (free_at (pl_srvs p) l) (set_used true) (pl_conns p) c (iv_conns _ _ IV) I1) as CC.
      assert (free_at (pl_srvs p) l (set_used true c) = false) as F0 by reflexivity. rewrite F0 in CC.
      assert (free_at (pl_srvs p) l c = (level =? l)) as F1 by (unfold free_at; now rewrite I2, I3, I4). rewrite F1 in CC.
      destruct (Z.eqb_spec level l) as [->|Nl]; [rewrite Nat.eqb_refl; lia|].
      assert ((Z.to_nat l =? Z.to_nat level)%nat = false) as -> by (apply Nat.eqb_neq; lia). lia.
    + split; [|split; [assumption|repeat split; assumption]].
      pose proof (pinv_static p srvs held S IV) as IV'.
      apply (pinv_upd (with_srvs srvs p) held); cbn [with_srvs pl_conns pl_levels]; auto.
      * apply on_conn_ids. reflexivity.
      * apply on_conn_srvs. reflexivity.
      * constructor; [assumption|apply (iv_held _ _ IV)].
      * intros cid. split.
        -- intros [<- |X].
           ++ exists (set_used true c). split; [|split; reflexivity]. apply on_conn_in. right. exists c. auto.
           ++ apply (iv_used _ _ IV) in X as (d & D1 & D2 & D3). exists d. split; [|auto]. apply on_conn_in. left.
              split; [assumption|]. intros E1. apply NI. rewrite <- E1. apply (iv_used _ _ IV). eauto.
        -- intros (d & D1 & D2 & D3). apply on_conn_in in D1 as [[D1 N]|(e & E1 & E2 & ->)].
           ++ right. apply (iv_used _ _ IV). eauto.
           ++ left. rewrite <- D2. cbn. now symmetry.
  - exists (with_srvs srvs p), None. split; [reflexivity|]. cbn [with_srvs pl_srvs pl_retry pl_levels pl_conns].
    split; [assumption|]. split; [reflexivity|]. split; [reflexivity|]. split.
    + intros LB l Pl. cbn [pl_srvs pl_conns pl_levels]. rewrite <- (avail_static (pl_srvs p) srvs) by assumption. now apply LB.
    + split; [now apply pinv_static|]. split; [reflexivity|]. split; [reflexivity|]. right. intros c C1 C2 C3.
      specialize (CMP c C1 C2 C3). apply nth_error_None in NE. destruct cs as [|x cs']; [contradiction|].
      pose proof (Z.mod_pos_bound rnd (Z.of_nat (length (x :: cs')))). cbn [length] in *. lia.
Qed.
