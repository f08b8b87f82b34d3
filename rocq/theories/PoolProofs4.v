(** Proofs about the connection pool: normalised levels. *)
From Verif Require Import Base PoolModel PoolSpec PoolProofs PoolProofs2 PoolProofs3.
From Coq Require Import Permutation.

Lemma counted_norm minl n s : counted minl (set_norm n s) = counted minl s.
Proof. reflexivity. Qed.

Lemma norm_go_iso minl : forall l last mx l' m, sorted_lv l -> Forall (fun s => last <= v_level s) l -> 0 <= mx ->
  norm_go minl last mx l = (l', m) ->
  mx <= m /\
  (forall s, In s l' -> last <= v_level s /\
     if counted minl s then (v_level s = last -> v_norm s = mx) /\ (last < v_level s -> mx < v_norm s <= m) else v_norm s = -1) /\
  (forall s t, In s l' -> In t l' -> counted minl s = true -> counted minl t = true ->
     (v_level s < v_level t <-> v_norm s < v_norm t)) /\
  (forall n, mx < n <= m -> exists s, In s l' /\ v_norm s = n).
Proof.
  induction l as [|s l IH]; intros last mx l' m S F P H; cbn [norm_go] in H.
  - inversion H; subst. repeat split; try lia; try contradiction. 
  - destruct S as [S1 S2]. inversion F as [|? ? F1 F2]; subst. destruct (counted minl s) eqn:C.
    + set (mx' := if v_level s =? last then mx else mx + 1) in *.
      assert (M : mx <= mx' /\ (v_level s = last -> mx' = mx) /\ (last < v_level s -> mx' = mx + 1)) by (unfold mx'; destruct (Z.eqb_spec (v_level s) last); lia).
      clearbody mx'. destruct (norm_go minl (v_level s) mx' l) as [r m'] eqn:E. inversion H; subst l' m'. clear H.
      destruct (IH (v_level s) mx' r m S2 S1 ltac:(lia) E) as (A & B & D & G).
      split; [lia|]. split; [|split].
      * intros x [X|I]; [subst x; rewrite counted_norm, C; cbn [set_norm v_level v_norm]; lia|].
        destruct (B x I) as [B1 B2]. split; [lia|]. destruct (counted minl x); [|assumption]. split; intros; lia.
      * intros x y [X|I] [Y|J] K1 K2; [subst x y; lia| | |now apply D].
        -- subst x. cbn [set_norm v_level v_norm]. destruct (B y J) as [B1 B2]. rewrite K2 in B2. lia.
        -- subst y. cbn [set_norm v_level v_norm]. destruct (B x I) as [B1 B2]. rewrite K1 in B2. lia.
      * intros n N. destruct (Z.eq_dec n mx') as [->|Q].
        -- eexists. split; [left; reflexivity|reflexivity].
        -- destruct (G n ltac:(lia)) as (t & T1 & T2). exists t. split; [now right|assumption].
    + destruct (norm_go minl last mx l) as [r m'] eqn:E. inversion H; subst l' m'. clear H.
      destruct (IH last mx r m S2 F2 P E) as (A & B & D & G).
      split; [lia|]. split; [|split].
      * intros x [X|I]; [subst x; rewrite counted_norm, C; cbn [set_norm v_level v_norm]; lia|]. now apply B.
      * intros x y [X|I] [Y|J] K1 K2; [subst x y; lia| | |now apply D].
        -- subst x. rewrite counted_norm in K1. congruence.
        -- subst y. rewrite counted_norm in K2. congruence.
      * intros n N. destruct (G n N) as (t & T1 & T2). exists t. split; [now right|assumption].
Qed.

Lemma forall2_option l l' : Forall2 (fun s t => t = set_norm (v_norm t) s) l l' -> map server_option l' = map server_option l.
Proof. intros F. induction F as [|s t l l' E F IH]; [reflexivity|]. cbn [map]. rewrite E, IH. reflexivity. Qed.

(** The levels of the servers after normalisation. *)
Lemma normalize_iso l mx srvs m : normalize l mx = (srvs, m) -> l <> [] ->
  0 <= m /\
  Permutation (map server_option srvs) (map server_option l) /\
  (forall s, In s srvs -> takes_part srvs s -> 0 <= v_norm s <= m) /\
  (forall s, In s srvs -> ~ takes_part srvs s -> v_norm s = -1) /\
  (forall s t, In s srvs -> In t srvs -> takes_part srvs s -> takes_part srvs t -> (v_level s < v_level t <-> v_norm s < v_norm t)) /\
  (forall n, 0 <= n <= m -> exists s, In s srvs /\ v_norm s = n).
Proof.
  intros H NE. destruct (normalize_ok _ _ _ _ H) as (l1 & P & F2 & HD). revert H. unfold normalize.
  destruct l as [|s0 l0]; [congruence|]. intros H. set (l := s0 :: l0) in *. clearbody l.
  pose proof (sort_sorted l) as S. pose proof (sort_perm l) as PM.
  assert (PO : Permutation (map server_option srvs) (map server_option l)).
  { rewrite (forall2_option _ _ F2). now apply Permutation_map. }
  destruct (sort_level l) as [|s r] eqn:SL.
  { apply Permutation_nil in PM. congruence. }
  rewrite (min_level_sorted _ _ S) in H. pose proof H as H'. apply norm_go_iso in H'; [|assumption|..|lia].
  2:{ destruct S as [S1 S2]. constructor; [lia|]. eapply Forall_impl; [|exact S1]. auto. }
  destruct H' as (A & B & D & G).
  assert (TP : forall x, In x srvs -> takes_part srvs x <-> counted (v_level s) x = true).
  { assert (MIN : forall x, In x srvs -> v_level s <= v_level x) by (intros x I; now apply B).
    assert (EX : exists x, In x srvs /\ v_level x = v_level s).
    { cbn [norm_go] in H. destruct (counted (v_level s) s); destruct (norm_go _ _ _ r) in H; inversion H; subst;
        (eexists; split; [left; reflexivity|reflexivity]). }
    destruct EX as (y & Y1 & Y2). intros x I. unfold takes_part, counted. rewrite orb_true_iff, andb_true_iff, Z.ltb_lt, Z.eqb_eq.
    split; (intros [X|X]; [left; assumption|right]).
    - specialize (X y Y1). specialize (MIN x I). lia.
    - intros t T. specialize (MIN t T). lia. }
  split; [lia|]. split; [assumption|]. split; [|split; [|split]].
  - intros x I T. apply TP in T; [|assumption]. destruct (B x I) as [B1 B2]. rewrite T in B2. lia.
  - intros x I T. destruct (B x I) as [B1 B2]. destruct (counted (v_level s) x) eqn:C; [|assumption].
    exfalso. apply T. now apply TP.
  - intros x y I J T1 T2. apply D; auto; now apply TP.
  - intros n N. destruct (Z.eq_dec n 0) as [->|Q].
    + destruct srvs as [|x q]; [congruence|]. exists x. destruct HD as [HD _]. split; [now left|assumption].
    + apply G. lia.
Qed.

Lemma init_shape p p' : init_connections p = Some p' ->
  exists srvs, normalize (pl_srvs p) (pl_max p) = (srvs, pl_max p') /\ pl_srvs p' = map (set_block 0) srvs.
Proof.
  unfold init_connections. destruct (normalize (pl_srvs p) (pl_max p)) as [srvs m]. destruct (init_servers _ _) as [[[c l] n]|]; [|discriminate].
  intros H; inversion H; subst. exists srvs. split; reflexivity.
Qed.

Lemma takes_part_block srvs s : takes_part (map (set_block 0) srvs) (set_block 0 s) <-> takes_part srvs s.
Proof.
  unfold takes_part. split; (intros [X|X]; [left; exact X|right]).
  - intros t I. exact (X (set_block 0 t) (in_map _ _ _ I)).
  - intros t I. apply in_map_iff in I as (u & <- & I). exact (X u I).
Qed.

Lemma init_iso p p' : init_connections p = Some p' -> pl_srvs p <> [] ->
  0 <= pl_max p' /\
  Permutation (map server_option (pl_srvs p')) (map server_option (pl_srvs p)) /\
  (forall s, In s (pl_srvs p') -> takes_part (pl_srvs p') s -> 0 <= v_norm s <= pl_max p') /\
  (forall s, In s (pl_srvs p') -> ~ takes_part (pl_srvs p') s -> v_norm s = -1) /\
  (forall s t, In s (pl_srvs p') -> In t (pl_srvs p') -> takes_part (pl_srvs p') s -> takes_part (pl_srvs p') t ->
     (v_level s < v_level t <-> v_norm s < v_norm t)) /\
  (forall n, 0 <= n <= pl_max p' -> exists s, In s (pl_srvs p') /\ v_norm s = n).
Proof.
  intros H NE. apply init_shape in H as (srvs & N & ->). apply normalize_iso in N as (A & B & C & D & E & F); [|assumption].
  split; [assumption|]. split.
  { rewrite map_map. erewrite map_ext; [exact B|]. reflexivity. }
  split; [|split; [|split]].
  - intros s I. apply in_map_iff in I as (t & <- & I). rewrite takes_part_block. exact (C t I).
  - intros s I. apply in_map_iff in I as (t & <- & I). rewrite takes_part_block. exact (D t I).
  - intros s t I J. apply in_map_iff in I as (s' & <- & I). apply in_map_iff in J as (t' & <- & J).
    rewrite !takes_part_block. exact (E s' t' I J).
  - intros n N. destruct (F n N) as (s & I & K). exists (set_block 0 s). split; [now apply in_map|assumption].
Qed.

(** ** No server is above the highest level *)

Definition mxinv (p : pool) : Prop := forall s, In s (pl_srvs p) -> v_norm s <= pl_max p.

Lemma mx_init p p' : init_connections p = Some p' -> mxinv p'.
Proof.
  intros H s I. destruct (pl_srvs p) as [|x l] eqn:E.
  - apply init_shape in H as (srvs & N & E'). rewrite E in N. cbn in N. inversion N; subst. rewrite E' in I. contradiction.
  - pose proof (init_iso _ _ H ltac:(rewrite E; discriminate)) as (A & _ & B & C & _).
    assert (T : takes_part (pl_srvs p') s \/ ~ takes_part (pl_srvs p') s).
    { unfold takes_part. destruct (v_active s); [destruct (Z.ltb_spec 0 (v_max s)); [left; auto|]|].
      - destruct (forallb (fun t => v_level s <=? v_level t) (pl_srvs p')) eqn:Q.
        + left. right. rewrite forallb_forall in Q. intros t T. specialize (Q t T). cbv beta in Q. lia.
        + right. intros [[_ X]|X]; [lia|]. apply not_true_iff_false in Q. apply Q. apply forallb_forall. intros t T. specialize (X t T). lia.
      - destruct (forallb (fun t => v_level s <=? v_level t) (pl_srvs p')) eqn:Q.
        + left. right. rewrite forallb_forall in Q. intros t T. specialize (Q t T). cbv beta in Q. lia.
        + right. intros [[X _]|X]; [discriminate|]. apply not_true_iff_false in Q. apply Q. apply forallb_forall. intros t T. specialize (X t T). lia. }
    destruct T as [T|T]; [apply B in T; auto; lia|]. apply C in T; auto. lia.
Qed.

Lemma mx_static p p' : static (pl_srvs p) (pl_srvs p') -> pl_max p' = pl_max p -> mxinv p -> mxinv p'.
Proof.
  intros S M H s I. destruct (static_in _ _ _ (static_sym _ _ S) I) as (t & T & E). apply block_eq in E as (_ & _ & _ & _ & -> & _).
  rewrite M. now apply H.
Qed.

Lemma locked_get_max p level want ignore rnd now p' r : locked_get p level want ignore rnd now = Some (p', r) -> pl_max p' = pl_max p.
Proof.
  unfold locked_get. destruct (_ =? 0); [now intros H; inversion H|]. destruct (scan_conns _ _ _ _ _ _ _) as [srvs cs].
  destruct (nth_error _ _); [destruct (add_at _ _ _)|]; intros H; inversion H; reflexivity.
Qed.

Lemma get_go_max want ignore rnd now : forall fuel p level p' r, get_go fuel p level want ignore rnd now = Some (p', r) -> pl_max p' = pl_max p.
Proof.
  induction fuel as [|f IH]; intros p level p' r; cbn [get_go]; [now intros H; inversion H|].
  destruct (0 <? _); [|now intros H; inversion H]. destruct (locked_get _ _ _ _ _ _) as [[p1 [c|]]|] eqn:E; [| |discriminate].
  - intros H; inversion H; subst. eapply locked_get_max; eauto.
  - apply locked_get_max in E. destruct (existsb _ _); [now intros H; inversion H; subst|]. intros H. apply IH in H. congruence.
Qed.

Lemma free_shape p cid used now p' : free_connection p cid used now = Some p' -> pl_srvs p' = pl_srvs p /\ pl_max p' = pl_max p.
Proof.
  unfold free_connection. destruct (find _ _); [|discriminate]. destruct (_ && _); [destruct (add_at _ _ _); [|discriminate]|];
    intros H; inversion H; auto.
Qed.

Lemma pstep_max p held e p' held' : pinv p held -> ev_ok e -> mxinv p -> pstep (p, held) e = Some (p', held') -> mxinv p'.
Proof.
  intros IV OK M. destruct e; cbn [pstep].
  - destruct (get_go_ok want ignore rnd now (length (pl_levels p)) p held level IV OK) as (p1 & r & E & [U _] & _).
    unfold get_connection. rewrite E. apply get_go_max in E.
    destruct r; intros H; inversion H; subst; eapply mx_static; eauto.
  - destruct (existsb _ _); [|now intros H; inversion H; subst]. destruct (free_connection _ _ _ _) eqn:E; [|discriminate].
    apply free_shape in E as [E1 E2]. intros H; inversion H; subst. unfold mxinv. rewrite E1, E2. exact M.
  - intros H; inversion H; subst. eapply mx_static; [apply static_sym, static_on|reflexivity|exact M].
  - intros H; inversion H; subst. intros s I. cbn [activate with_srvs pl_srvs pl_max] in *. unfold on_srv in I.
    apply in_map_iff in I as (t & X & I). specialize (M t I). destruct (v_id t =? id); subst; exact M.
  - unfold changed. destruct (init_connections p) eqn:E; [|discriminate]. intros H; inversion H; subst. apply mx_init in E. exact E.
  - intros H; inversion H; subst. exact M.
  - destruct (existsb _ _); intros H; inversion H; subst; exact M.
Qed.

Lemma prun_max : forall es p held p' held', pinv p held -> Forall ev_ok es -> mxinv p -> prun (p, held) es = Some (p', held') -> mxinv p'.
Proof.
  induction es as [|e es IH]; intros p held p' held' IV F M H; cbn [prun] in H; [inversion H; subst; exact M|].
  inversion F; subst. destruct (pstep_ok p held e IV) as (p1 & h1 & E & I1 & _); [assumption|]. rewrite E in H.
  assert (M1 : mxinv p1) by (apply (pstep_max p held e p1 h1); assumption). apply (IH p1 h1 p' held'); assumption.
Qed.

Lemma reachable_max srvs retry es p held : config srvs -> Forall ev_ok es -> reachable srvs retry es p held -> mxinv p.
Proof.
  intros C F (p0 & E & R). destruct (start_ok srvs retry C) as (q & E' & I & _). rewrite E in E'. inversion E'; subst q.
  eapply prun_max; eauto. eapply mx_init. exact E.
Qed.
