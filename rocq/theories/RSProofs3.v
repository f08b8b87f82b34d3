(** Reed-Solomon: success of the elimination for consecutive exponents. *)
From Verif Require Import Base CrcProofs GaloisModel GaloisSpec GaloisProofs RSModel RSSpec RSProofs RSProofs2.

(** ** Polynomials over the field, lowest coefficient first *)
Definition peval (p : list Z) (x : Z) : Z := fold_right (fun a acc => gadd a (gmul x acc)) 0 p.
Lemma peval_cons a p x : peval (a :: p) x = gadd a (gmul x (peval p x)). Proof. reflexivity. Qed.
Lemma peval_u16 p x : u16s p -> u16 x -> u16 (peval p x).
Proof. intros P X. induction P; [apply u16_0|]. rewrite peval_cons. apply u16_lxor; [assumption|]. apply gmul_u16; assumption. Qed.
Fixpoint padd (a b : list Z) : list Z :=
  match a, b with
  | x :: a', y :: b' => gadd x y :: padd a' b'
  | [], _ => b
  | _, [] => a
  end.
Lemma peval_padd x a : forall b, u16 x -> u16s a -> u16s b -> peval (padd a b) x = gadd (peval a x) (peval b x).
Proof.
  induction a as [|p a IH]; intros [|q b] X A B.
  - reflexivity.
  - symmetry. apply Z.lxor_0_l.
  - symmetry. apply Z.lxor_0_r.
  - inversion A; inversion B; subst. cbn [padd]. rewrite !peval_cons, IH, gmul_add_r by (try apply peval_u16; assumption). apply lxor4.
Qed.
Lemma peval_scale x c p : u16 x -> u16 c -> u16s p -> peval (map (gmul c) p) x = gmul c (peval p x).
Proof.
  intros X C P. induction P as [|a p A P IH]; [symmetry; apply gmul_0_r|]. cbn [map]. rewrite !peval_cons, IH.
  assert (Q : u16 (peval p x)) by (apply peval_u16; assumption).
  rewrite gmul_add_r by (try apply gmul_u16; assumption). f_equal.
  rewrite <- !gmul_assoc, (gmul_comm x c) by assumption. reflexivity.
Qed.
Lemma padd_u16 a : forall b, u16s a -> u16s b -> u16s (padd a b).
Proof.
  induction a as [|p a IH]; intros [|q b] A B; cbn [padd]; try assumption. inversion A; inversion B; subst.
  constructor; [apply u16_lxor; assumption|apply IH; assumption].
Qed.
Lemma padd_monic a : forall b, (length b <= length a)%nat -> padd (a ++ [1]) b = padd a b ++ [1] /\ length (padd a b) = length a.
Proof.
  induction a as [|p a IH]; intros [|q b] L; cbn [length] in L; try lia; [auto|auto|].
  destruct (IH b ltac:(lia)) as [E F]. cbn [app padd length]. rewrite E, F. auto.
Qed.
(** Quotient of the division by x - r. *)
Fixpoint quo (p : list Z) (r : Z) : list Z :=
  match p with
  | [] => []
  | a :: p' => match p' with [] => [] | _ => peval p' r :: quo p' r end
  end.
Lemma quo_cons a p r : p <> [] -> quo (a :: p) r = peval p r :: quo p r.
Proof. destruct p; [congruence|reflexivity]. Qed.
Lemma quo_u16 p r : u16s p -> u16 r -> u16s (quo p r).
Proof.
  intros P R. induction P as [|a p A P IH]; [constructor|]. destruct p as [|b p]; [constructor|].
  rewrite quo_cons by discriminate. constructor; [apply peval_u16; assumption|exact IH].
Qed.
Lemma quo_monic r q : exists q', quo (q ++ [1]) r = match q with [] => [] | _ => q' ++ [1] end /\ S (length q') = Nat.max 1 (length q).
Proof.
  induction q as [|a q (q' & E & L)].
  - exists []. split; reflexivity.
  - cbn [app]. rewrite quo_cons by (destruct q; discriminate). destruct q as [|b q].
    + exists []. cbn [app quo]. split; [|reflexivity]. cbn [app peval fold_right]. rewrite gmul_0_r. reflexivity.
    + exists (peval ((b :: q) ++ [1]) r :: q'). rewrite E. split; [reflexivity|]. cbn [length] in *. lia.
Qed.
Lemma lx3 a b c : Z.lxor a b = Z.lxor (Z.lxor c b) (Z.lxor a c).
Proof.
  apply Z.bits_inj'. intros n _. rewrite !Z.lxor_spec. destruct (Z.testbit a n), (Z.testbit b n), (Z.testbit c n); reflexivity.
Qed.
Lemma quo_ok p r x : u16s p -> u16 r -> u16 x -> gadd (peval p x) (peval p r) = gmul (gadd x r) (peval (quo p r) x).
Proof.
  intros P R X. induction P as [|a p A P IH].
  - symmetry. apply gmul_0_r.
  - destruct p as [|b p].
    { cbn [quo]. change (peval [] x) with 0. rewrite gmul_0_r. cbn [peval fold_right]. rewrite !gmul_0_r. apply Z.lxor_nilpotent. }
    set (p' := b :: p) in *. rewrite quo_cons by discriminate. rewrite !peval_cons.
    assert (U1 : u16 (peval p' x)) by (apply peval_u16; assumption). assert (U2 : u16 (peval p' r)) by (apply peval_u16; assumption).
    assert (U3 : u16 (peval (quo p' r) x)) by (apply peval_u16; [apply quo_u16|]; assumption).
    assert (XR : u16 (gadd x r)) by (apply u16_lxor; assumption).
    rewrite gmul_add_r by (try apply gmul_u16; assumption).
    assert (E : gmul (gadd x r) (gmul x (peval (quo p' r) x)) = gmul x (gadd (peval p' x) (peval p' r))).
    { rewrite IH, <- !gmul_assoc by assumption. rewrite (gmul_comm _ x) by assumption. reflexivity. }
    rewrite E, gmul_add_r, gmul_add_l by assumption. unfold gadd.
    rewrite lxor4, Z.lxor_nilpotent, Z.lxor_0_l. apply lx3.
Qed.
Lemma monic_roots n : forall q xs, length q = n -> u16s q -> u16s xs -> NoDup xs -> (n < length xs)%nat ->
  ~ Forall (fun x => peval (q ++ [1]) x = 0) xs.
Proof.
  induction n as [|n IH]; intros q xs L Q X N H F.
  - destruct q; [|discriminate L]. destruct xs as [|x xs]; [cbn in H; lia|]. inversion F as [|? ? F1 F2]; subst. inversion X; subst.
    cbn [app peval fold_right] in F1. rewrite gmul_0_r in F1. discriminate F1.
  - destruct xs as [|r xs]; [cbn in H; lia|]. inversion N as [|? ? N1 N2]; subst. inversion X as [|? ? X1 X2]; subst. inversion F as [|? ? F1 F2]; subst.
    destruct (quo_monic r q) as (q' & E & L'). destruct q as [|a q]; [discriminate L|]. set (qq := a :: q) in *.
    assert (U : u16s (qq ++ [1])) by (apply Forall_app; split; [exact Q|constructor; [apply u16_1|constructor]]).
    assert (U' : u16s (q' ++ [1])) by (rewrite <- E; apply quo_u16; assumption).
    apply (IH q' xs).
    + lia.
    + apply Forall_app in U'. tauto.
    + exact X2.
    + exact N2.
    + cbn [length] in H. lia.
    + rewrite Forall_forall in F2, X2 |- *. intros x Hx. assert (D := quo_ok (qq ++ [1]) r x U X1 (X2 x Hx)).
      rewrite F1, (F2 x Hx), E in D. change (gadd 0 0) with 0 in D.
      destruct (Z.eq_dec (peval (q' ++ [1]) x) 0) as [Z0|Z0]; [exact Z0|exfalso].
      apply (gmul_nonzero (gadd x r) (peval (q' ++ [1]) x)); [apply u16_lxor; auto|apply peval_u16; auto| |exact Z0|congruence].
      unfold gadd. intros Y. apply Z.lxor_eq in Y. subst. contradiction.
Qed.

(** ** Powers *)
Lemma gpow_S b e : u16 b -> 0 <= e -> e + 1 < 65536 -> gpow b (e + 1) = gmul b (gpow b e).
Proof.
  intros B E F. assert (P := gpow_ok b e B ltac:(lia)). assert (P' := gpow_ok b (e + 1) B ltac:(lia)).
  apply is_rem_cong in P as [P1 P2]. eapply rem_unique; [exact P'|].
  replace (Z.to_nat (e + 1)) with (S (Z.to_nat e)) by lia. cbn [clpow]. apply is_rem_cong. split; [apply gmul_u16; assumption|].
  eapply cong_trans; [|apply gmul_cong; assumption].
  apply cong_mul; [apply u16_nonneg; assumption|apply u16_nonneg; assumption|apply clpow_nonneg, u16_nonneg; assumption|apply u16_nonneg; assumption|apply cong_refl|exact P2].
Qed.
Lemma gpow_0 b : u16 b -> gpow b 0 = 1.
Proof.
  intros B. assert (P := gpow_ok b 0 B ltac:(lia)). eapply rem_unique; [exact P|]. apply is_rem_cong. split; [apply u16_1|apply cong_refl].
Qed.
Lemma gpow_nz b e : u16 b -> b <> 0 -> 0 <= e < 65536 -> gpow b e <> 0.
Proof.
  intros B N E. replace e with (Z.of_nat (Z.to_nat e)) by lia. assert (H : Z.of_nat (Z.to_nat e) < 65536) by lia. revert H. clear E.
  induction (Z.to_nat e) as [|n IH]; intros H.
  - change (Z.of_nat 0) with 0. rewrite gpow_0 by exact B. lia.
  - rewrite Nat2Z.inj_succ. unfold Z.succ. rewrite gpow_S by (try exact B; lia).
    apply gmul_nonzero; [exact B|apply gpow_u16; [exact B|lia]|exact N|apply IH; lia].
Qed.
Lemma gpow_shift b e0 i : u16 b -> 0 <= e0 -> e0 + Z.of_nat i < 65536 ->
  gpow b (e0 + Z.of_nat i) = gmul (gpow b e0) (peval (repeat 0 i ++ [1]) b).
Proof.
  intros B E. induction i as [|i IH]; intros H.
  - rewrite Z.add_0_r. cbn [repeat app peval fold_right]. rewrite gmul_0_r. change (gadd 1 0) with 1.
    rewrite gmul_comm, gmul_1_l by (first [apply u16_1 | apply gpow_u16; [exact B|lia]]). reflexivity.
  - replace (e0 + Z.of_nat (S i)) with (e0 + Z.of_nat i + 1) by lia. rewrite gpow_S, IH by (try exact B; lia).
    cbn [repeat app]. rewrite peval_cons. unfold gadd. rewrite Z.lxor_0_l.
    assert (U : u16 (peval (repeat 0 i ++ [1]) b)).
    { apply peval_u16; [|exact B]. apply Forall_app. split; [apply repeat0_u16|constructor; [apply u16_1|constructor]]. }
    assert (V : u16 (gpow b e0)) by (apply gpow_u16; [exact B|lia]).
    rewrite <- !gmul_assoc, (gmul_comm b) by assumption. reflexivity.
Qed.

(** ** The invariant: row [i] holds the values of a monic polynomial of degree [i] *)
Definition mono (dm k : nat) (bm : list Z) (w : Z -> Z) (m : list mrow) : Prop :=
  forall i q, (k <= i < dm)%nat -> nth_error m i = Some q ->
    exists p, length p = i /\ u16s p /\ forall c, (c < dm)%nat -> nth c (snd q) 0 = gmul (w (nth c bm 0)) (peval (p ++ [1]) (nth c bm 0)).
Lemma mono_pivot lc rc dm k bm w m q : Forall (wfr lc rc) m -> solved rc dm k m -> mono dm k bm w m -> (k < dm)%nat -> (dm <= rc)%nat ->
  length bm = dm -> NoDup bm -> u16s bm -> (forall b, In b bm -> u16 (w b) /\ w b <> 0) -> nth_error m k = Some q -> nth k (snd q) 0 <> 0.
Proof.
  intros W S M Hk Hd L N U Hw E Hp. destruct (M k q ltac:(lia) E) as (p & Lp & Up & Fp).
  assert (V : forall c, (c < Datatypes.S k)%nat -> peval (p ++ [1]) (nth c bm 0) = 0).
  { intros c Hc. assert (Z0 : nth c (snd q) 0 = 0).
    { destruct (Nat.eq_dec c k) as [->|]; [exact Hp|]. rewrite (S k q c E) by lia. unfold delta.
      replace (Nat.eqb k c) with false; [reflexivity|]. symmetry. apply Nat.eqb_neq. lia. }
    rewrite (Fp c) in Z0 by lia. destruct (Z.eq_dec (peval (p ++ [1]) (nth c bm 0)) 0) as [Y|Y]; [exact Y|exfalso].
    assert (I : In (nth c bm 0) bm) by (apply nth_In; lia). destruct (Hw _ I) as [W1 W2].
    rewrite Forall_forall in U.
    apply (gmul_nonzero (w (nth c bm 0)) (peval (p ++ [1]) (nth c bm 0))); try assumption.
    apply peval_u16; [|apply U, I]. apply Forall_app. split; [exact Up|constructor; [apply u16_1|constructor]]. }
  apply (monic_roots k p (firstn (Datatypes.S k) bm)); try assumption.
  - apply forall_firstn, U.
  - apply nodup_firstn, N.
  - rewrite firstn_length. lia.
  - apply Forall_forall. intros x Hx. apply (In_nth _ _ 0) in Hx as (c & Hc & <-). rewrite firstn_length in Hc.
    replace (nth c (firstn (Datatypes.S k) bm) 0) with (nth c bm 0); [apply V; lia|].
    rewrite <- (firstn_skipn (Datatypes.S k) bm) at 1. apply app_nth1. rewrite firstn_length. lia.
Qed.
Lemma gperm s v w e : u16 s -> u16 v -> u16 w -> u16 e -> gmul s (gmul v (gmul w e)) = gmul w (gmul (gmul s v) e).
Proof.
  intros A B C D. assert (E : u16 (gmul s v)) by (apply gmul_u16; assumption). assert (F : u16 (gmul w e)) by (apply gmul_u16; assumption).
  rewrite <- (gmul_assoc s v _ A B F), <- (gmul_assoc _ w e E C D), (gmul_comm _ w E C). apply gmul_assoc; assumption.
Qed.
Lemma mono_step lc rc dm k bm w m m' : Forall (wfr lc rc) m -> solved rc dm k m -> mono dm k bm w m -> (k < dm)%nat -> (dm <= rc)%nat ->
  length bm = dm -> u16s bm -> (forall b, In b bm -> u16 (w b)) -> gauss_step k m = Some m' -> mono dm (S k) bm w m'.
Proof.
  intros W S M Hk Hd L U Hw H i x Hi Hx. destruct (step_form _ _ _ _ _ _ W S Hk Hd H) as (q & pv & E & -> & Up & Np & _ & F).
  rewrite F in Hx. destruct (nth_error m i) as [y|] eqn:Ey; [|discriminate].
  replace (Nat.eqb i k) with false in Hx by (symmetry; apply Nat.eqb_neq; lia). inversion Hx; subst x; clear Hx.
  destruct (M k q ltac:(lia) E) as (pk & Lk & Uk & Fk). destruct (M i y ltac:(lia) Ey) as (pi & Li & Ui & Fi).
  rewrite Forall_forall in W.
  assert (Wq : wfr lc rc q) by (apply W; eapply nth_error_In, E).
  assert (Wy : wfr lc rc y) by (apply W; eapply nth_error_In, Ey).
  destruct (ginv_ok _ Up Np) as (Iu & _ & _). set (iv := ginv (nth k (snd q) 0)) in *.
  set (s := nth k (snd y) 0) in *. assert (Us : u16 s). { destruct Wy as (_ & Ly & _ & Uy). rewrite Forall_forall in Uy. apply Uy, nth_In. lia. }
  set (c0 := gmul s iv). assert (C0 : u16 c0) by (apply gmul_u16; assumption).
  set (pk1 := pk ++ [1]) in *. assert (Uk1 : u16s pk1) by (apply Forall_app; split; [exact Uk|constructor; [apply u16_1|constructor]]).
  assert (Ui1 : u16s (pi ++ [1])) by (apply Forall_app; split; [exact Ui|constructor; [apply u16_1|constructor]]).
  assert (LL : (length (map (gmul c0) pk1) <= length pi)%nat) by (rewrite map_length; unfold pk1; rewrite app_length; cbn [length]; lia).
  destruct (padd_monic pi (map (gmul c0) pk1) LL) as [PE PL].
  exists (padd pi (map (gmul c0) pk1)). split; [congruence|]. split; [apply padd_u16; [exact Ui|apply u16_scaled; assumption]|].
  intros c Hc. rewrite <- PE. unfold added. cbn [snd]. rewrite nth_map2.
  2:{ unfold scaled. cbn [snd]. rewrite !map_length. destruct Wy as (_ & -> & _), Wq as (_ & -> & _). reflexivity. }
  unfold scaled. cbn [snd]. rewrite !nth_scaled, (Fi c Hc), (Fk c Hc).
  rewrite Forall_forall in U. assert (I : In (nth c bm 0) bm) by (apply nth_In; lia). assert (Ub := U _ I). assert (Uw := Hw _ I).
  rewrite peval_padd, peval_scale by (try apply u16_scaled; assumption).
  assert (E1 : u16 (peval (pi ++ [1]) (nth c bm 0))) by (apply peval_u16; assumption).
  assert (E2 : u16 (peval pk1 (nth c bm 0))) by (apply peval_u16; assumption).
  rewrite gmul_add_r by (try apply gmul_u16; assumption). f_equal. unfold c0.
  apply gperm; assumption.
Qed.

Lemma gauss_succeeds lc rc dm bm w : (dm <= rc)%nat -> length bm = dm -> NoDup bm -> u16s bm ->
  (forall b, In b bm -> u16 (w b) /\ w b <> 0) -> forall todo k m, (todo + k = dm)%nat -> (dm <= length m)%nat ->
  Forall (wfr lc rc) m -> solved rc dm k m -> mono dm k bm w m -> gauss_loop todo k m <> None.
Proof.
  intros Hd L N U Hw. induction todo as [|t IH]; intros k m T Lm W S M; cbn [gauss_loop]; [discriminate|].
  destruct (gauss_step k m) as [m1|] eqn:E.
  - destruct (step_form lc rc dm k m m1) as (_ & _ & _ & _ & _ & _ & L1 & _); try assumption; [lia|].
    apply IH; [lia|lia| | |].
    + eapply (step_wf lc rc dm); eauto. lia.
    + eapply (step_solved lc rc dm); eauto. lia.
    + eapply (mono_step lc rc dm); eauto; [lia|]. intros b Hb. apply Hw, Hb.
  - exfalso. unfold gauss_step in E. destruct (nth_error m k) as [q|] eqn:Eq; [|apply nth_error_None in Eq; lia].
    destruct (nth k (snd q) 0 =? 0) eqn:Ep; [|discriminate]. 
    apply (mono_pivot lc rc dm k bm w m q W S M); try assumption; lia.
Qed.

Lemma those_nodup {A} b fl : forall l : list A, NoDup l -> NoDup (those b fl l).
Proof.
  assert (S : forall fl (l : list A) x, In x (those b fl l) -> In x l).
  { induction fl0 as [|f fl0 IHf]; intros [|y l] x H; cbn [those] in H; try contradiction. destruct (Bool.eqb f b); cbn [In] in *; intuition eauto. }
  induction fl as [|f fl IH]; intros [|x l] H; cbn [those]; try constructor. inversion H; subst.
  destruct (Bool.eqb f b); [constructor|]; auto. intros F. apply S in F. contradiction.
Qed.
Lemma compute_succeeds pres outs e0 :
  (length pres <= length base_logs)%nat ->
  let dm := length (those false pres pres) in
  let ps := map snd (filter fst outs) in
  Forall (fun o => expo (snd o)) outs ->
  (0 < dm)%nat -> (dm <= length ps)%nat ->
  (forall i, (i < dm)%nat -> nth i ps 0 = e0 + Z.of_nat i) ->
  rs_compute pres outs <> None.
Proof.
  intros Lp dm ps Ho Hd Hl Hc. unfold rs_compute. assert (B := bases_spec (length pres)).
  destruct (bases (length pres) 0) as [db|] eqn:Eb; [|lia]. clear B. destruct (bases_facts _ _ Eb) as (Ld & Nd & Ub0 & _).
  assert (Ub : u16s db) by (eapply Forall_impl; [|exact Ub0]; intros a [A _]; exact A).
  rewrite !pick_those. fold ps. set (bm := those false pres db). set (bp := those true pres db).
  assert (Lm : length bm = dm) by (apply those_length; congruence). rewrite Lm.
  replace (Nat.ltb (length ps) dm) with false by (symmetry; apply Nat.ltb_ge; exact Hl).
  set (ms := map snd (filter (fun o => negb (fst o)) outs)).
  replace (Nat.eqb (dm + length ms) 0) with false by (symmetry; apply Nat.eqb_neq; lia).
  replace (Nat.eqb dm 0) with false by (symmetry; apply Nat.eqb_neq; lia).
  set (es := firstn dm ps). assert (Les : length es = length bm) by (unfold es; rewrite firstn_length; lia).
  assert (X : forall f, Forall expo (map snd (filter f outs))).
  { intros f. apply Forall_map, Forall_forall. intros o Hin. apply filter_In in Hin as [Hin _]. rewrite Forall_forall in Ho. apply Ho, Hin. }
  assert (Xes : Forall expo es) by apply forall_firstn, X.
  assert (Ebm : Forall (fun b => u16 b /\ b <> 0) bm) by apply those_forall, Ub0.
  assert (Ubm : u16s bm) by apply those_forall, Ub.
  assert (E0 : 0 <= e0 < 65536).
  { assert (H0 := Hc 0%nat Hd). rewrite Z.add_0_r in H0. rewrite <- H0. assert (Xp := X fst). fold ps in Xp. rewrite Forall_forall in Xp. apply Xp, nth_In. lia. }
  assert (G : gauss_loop dm 0 (init_rows bp bm es ms) <> None).
  { apply (gauss_succeeds (length bp + length bm) (length bm + length ms) dm bm (fun b => gpow b e0)).
    - lia.
    - exact Lm.
    - apply those_nodup, Nd.
    - exact Ubm.
    - intros b Hb. rewrite Forall_forall in Ebm. destruct (Ebm b Hb). split; [apply gpow_u16|apply gpow_nz]; assumption.
    - lia.
    - rewrite init_length by exact Les. lia.
    - apply init_wf; try assumption; [apply those_forall, Ub|apply X].
    - rewrite <- Lm. apply init_solved, Les.
    - intros i q Hi Hq. rewrite nth_error_init in Hq by exact Les. replace (Nat.ltb i (length bm)) with true in Hq by (symmetry; apply Nat.ltb_lt; lia).
      destruct (nth_error es i) as [e|] eqn:Ee; [|discriminate]. inversion Hq; subst q; clear Hq.
      assert (Ee' : e = e0 + Z.of_nat i).
      { rewrite <- (Hc i) by lia. symmetry. apply nth_error_nth. rewrite <- (firstn_skipn dm ps), nth_error_app1; [exact Ee|]. fold es. lia. }
      assert (Xe : expo e) by (rewrite Forall_forall in Xes; apply Xes; eapply nth_error_In, Ee). unfold expo in Xe.
      exists (repeat 0 i). split; [apply repeat_length|]. split; [apply repeat0_u16|]. intros c Hcc. cbn [snd].
      rewrite app_nth1 by (unfold prow; rewrite map_length; lia). subst e.
      rewrite <- gpow_shift; [|rewrite Forall_forall in Ubm; apply Ubm, nth_In; lia|lia|lia].
      unfold prow. rewrite (nth_indep _ 0 ((fun b => gpow b (e0 + Z.of_nat i)) 0)) by (rewrite map_length; lia).
      exact (map_nth (fun b => gpow b (e0 + Z.of_nat i)) bm 0 c). }
  destruct (gauss_loop dm 0 (init_rows bp bm es ms)); [discriminate|congruence].
Qed.
