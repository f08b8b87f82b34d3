(** Proofs about aligning a selection, moving it to a target, and reordering files. *)
From Verif Require Import Base MoveModel MoveSpec MoveProofs.
From Coq Require Import Permutation Arith.

Lemma nth_error_mid {A} (P : list A) x Q : nth_error (P ++ x :: Q) (length P) = Some x.
Proof. rewrite nth_error_app2, Nat.sub_diag by lia. reflexivity. Qed.

Lemma insert_at_len {A} (P : list A) x Q : insert_at (length P) x (P ++ Q) = P ++ x :: Q.
Proof. unfold insert_at. rewrite firstn_app, skipn_app, firstn_all, skipn_all, Nat.sub_diag. cbn [firstn skipn]. now rewrite app_nil_r. Qed.

Lemma align_go2 ids : forall rest A S1 B fuel, (length rest <= fuel)%nat -> S1 <> [] ->
  align_go fuel ids (length A + length S1 + length B) (Some (length A + length S1 - 1)%nat) (A ++ S1 ++ B ++ rest)
  = A ++ (S1 ++ filter (mem ids) rest) ++ B ++ filter (fun x => negb (mem ids x)) rest.
Proof.
  induction rest as [|x rest IH]; intros A S1 B fuel F NE.
  - cbn [filter]. rewrite !app_nil_r.
    assert (N : nth_error (A ++ S1 ++ B) (length A + length S1 + length B) = None)
      by (apply nth_error_None; rewrite !app_length; lia).
    destruct fuel as [|f]; cbn [align_go]; [reflexivity|]. rewrite N. reflexivity.
  - destruct fuel as [|f]; [cbn [length] in F; lia|]. cbn [length] in F. cbn [align_go filter].
    assert (EL : A ++ S1 ++ B ++ x :: rest = (A ++ S1 ++ B) ++ x :: rest) by (rewrite <- !app_assoc; reflexivity).
    assert (LL : (length A + length S1 + length B)%nat = length (A ++ S1 ++ B)) by (rewrite !app_length; lia).
    rewrite EL, LL, nth_error_mid.
    assert (S0 : (0 < length S1)%nat) by (destruct S1; [congruence|cbn [length]; lia]).
    destruct (mem ids x) eqn:Hx; cbn [negb].
    + destruct (Nat.ltb_spec 1 (length (A ++ S1 ++ B) - (length A + length S1 - 1))) as [C|C].
      * rewrite remove_at_app.
        replace (Datatypes.S (length A + length S1 - 1)) with (length (A ++ S1)) by (rewrite app_length; lia).
        replace ((A ++ S1 ++ B) ++ rest) with ((A ++ S1) ++ B ++ rest) by (rewrite <- !app_assoc; reflexivity).
        rewrite insert_at_len.
        specialize (IH A (S1 ++ [x]) B f ltac:(lia)).
        replace (length A + length (S1 ++ [x]) + length B)%nat with (Datatypes.S (length (A ++ S1 ++ B))) in IH
          by (rewrite !app_length; cbn [length]; lia).
        replace (length A + length (S1 ++ [x]) - 1)%nat with (length (A ++ S1)) in IH
          by (rewrite !app_length; cbn [length]; lia).
        replace ((A ++ S1) ++ x :: B ++ rest) with (A ++ (S1 ++ [x]) ++ B ++ rest) by (rewrite <- !app_assoc; reflexivity).
        rewrite IH; [rewrite <- !app_assoc; reflexivity|]. intros E; apply app_eq_nil in E; destruct E; discriminate.
      * assert (B = []) by (destruct B; [reflexivity|rewrite !app_length in C; cbn [length] in C; lia]). subst B.
        specialize (IH A (S1 ++ [x]) [] f ltac:(lia)). rewrite app_nil_r in *.
        replace (length A + length (S1 ++ [x]) + length (@nil Z))%nat with (Datatypes.S (length (A ++ S1))) in IH
          by (rewrite !app_length; cbn [length]; lia).
        replace (length A + length (S1 ++ [x]) - 1)%nat with (length (A ++ S1)) in IH
          by (rewrite !app_length; cbn [length]; lia).
        cbn [app] in *.
        replace ((A ++ S1) ++ x :: rest) with (A ++ (S1 ++ [x]) ++ rest) by (rewrite <- !app_assoc; reflexivity).
        rewrite IH; [rewrite <- !app_assoc; reflexivity|]. intros E; apply app_eq_nil in E; destruct E; discriminate.
    + specialize (IH A S1 (B ++ [x]) f ltac:(lia) NE).
      replace (length A + length S1 + length (B ++ [x]))%nat with (Datatypes.S (length (A ++ S1 ++ B))) in IH
        by (rewrite !app_length; cbn [length]; lia).
      replace ((A ++ S1 ++ B) ++ x :: rest) with (A ++ S1 ++ (B ++ [x]) ++ rest) by (rewrite <- !app_assoc; reflexivity).
      rewrite IH. rewrite <- !app_assoc. reflexivity.
Qed.

Lemma align_go1 ids : forall rest A fuel, (length rest <= fuel)%nat ->
  Forall (fun x => mem ids x = false) A ->
  exists A' B', align_go fuel ids (length A) None (A ++ rest) = A' ++ filter (mem ids) rest ++ B' /\
    A' ++ B' = A ++ filter (fun x => negb (mem ids x)) rest /\
    (forall A2 y R2, rest = A2 ++ y :: R2 -> Forall (fun x => mem ids x = false) A2 -> mem ids y = true -> A' = A ++ A2).
Proof.
  induction rest as [|x rest IH]; intros A fuel F HA.
  - exists A, []. cbn [filter]. rewrite !app_nil_r. repeat split.
    + destruct fuel as [|f]; cbn [align_go]; [reflexivity|].
      assert (N : nth_error A (length A) = None) by (apply nth_error_None; lia). rewrite N. reflexivity.
    + intros A2 y R2 E. destruct A2; discriminate.
  - destruct fuel as [|f]; [cbn [length] in F; lia|]. cbn [length] in F. cbn [align_go].
    rewrite nth_error_mid. cbn [filter]. destruct (mem ids x) eqn:Hx; cbn [negb].
    + exists A, (filter (fun x0 => negb (mem ids x0)) rest). split; [|split; [reflexivity|]].
      * pose proof (align_go2 ids rest A [x] [] f ltac:(lia) ltac:(discriminate)) as E.
        cbn [length app] in E. rewrite Nat.add_0_r, Nat.add_sub in E.
        replace (length A + 1)%nat with (Datatypes.S (length A)) in E by lia. exact E.
      * intros A2 y R2 E FA Hy. destruct A2 as [|z A2]; [now rewrite app_nil_r|].
        cbn [app] in E. injection E as -> _. inversion FA; congruence.
    + destruct (IH (A ++ [x]) f) as (A' & B' & E & E2 & E3); [lia| |].
      * apply Forall_app. split; [exact HA|]. constructor; [exact Hx|constructor].
      * rewrite app_length in E. cbn [length] in E.
        replace (length A + 1)%nat with (Datatypes.S (length A)) in E by lia.
        replace ((A ++ [x]) ++ rest) with (A ++ x :: rest) in E by (rewrite <- app_assoc; reflexivity).
        exists A', B'. split; [exact E|]. split; [rewrite E2, <- app_assoc; reflexivity|].
        intros A2 y R2 E4 FA Hy. destruct A2 as [|z A2].
        -- cbn [app] in E4. injection E4 as -> _. congruence.
        -- cbn [app] in E4. injection E4 as <- ->. inversion FA; subst.
           rewrite (E3 A2 y R2 eq_refl); auto. rewrite <- app_assoc. reflexivity.
Qed.

Lemma align_spec ids l :
  exists A B, align ids l = A ++ filter (mem ids) l ++ B /\
    A ++ B = filter (fun x => negb (mem ids x)) l /\
    (forall A2 y R2, l = A2 ++ y :: R2 -> Forall (fun x => mem ids x = false) A2 -> mem ids y = true -> A = A2).
Proof. exact (align_go1 ids l [] (length l) (le_n _) (Forall_nil _)). Qed.

(** ** A contiguous selection *)

Lemma block_cut {A} (Sl : list A) : forall p r, (p + length Sl <= length r)%nat ->
  (forall j x, nth_error Sl j = Some x -> nth_error r (p + j) = Some x) ->
  r = firstn p r ++ Sl ++ skipn (p + length Sl) r.
Proof.
  induction Sl as [|x Sl IH]; intros p r L H.
  - cbn [length app]. rewrite Nat.add_0_r, firstn_skipn. reflexivity.
  - cbn [length] in *.
    assert (H0 : nth_error r p = Some x) by (rewrite <- (Nat.add_0_r p); apply H; reflexivity).
    assert (IH' : r = firstn (Datatypes.S p) r ++ Sl ++ skipn (Datatypes.S p + length Sl) r).
    { apply IH; [lia|]. intros j y Hj. replace (Datatypes.S p + j)%nat with (p + Datatypes.S j)%nat by lia. apply H; exact Hj. }
    replace (p + Datatypes.S (length Sl))%nat with (Datatypes.S p + length Sl)%nat by lia.
    rewrite IH' at 1. cbn [app].
    assert (F : firstn (Datatypes.S p) r = firstn p r ++ [x]).
    { apply nth_error_split in H0. destruct H0 as (l1 & l2 & -> & <-).
      replace (Datatypes.S (length l1)) with (length l1 + 1)%nat by lia.
      rewrite firstn_app_2. cbn [firstn]. f_equal.
      pose proof (firstn_app_2 0 l1 (x :: l2)) as Z0. rewrite Nat.add_0_r in Z0. cbn [firstn] in Z0.
      rewrite app_nil_r in Z0. now rewrite Z0. }
    rewrite F, <- app_assoc. reflexivity.
Qed.

Lemma app_sandwich_nil {A} (f g : list A) S1 : f ++ S1 ++ g = S1 -> f = [] /\ g = [].
Proof.
  intros H. apply (f_equal (@length A)) in H. rewrite !app_length in H.
  split; apply length_zero_iff_nil; lia.
Qed.

Lemma filter_nil_Forall {A} (f : A -> bool) l : filter f l = [] -> Forall (fun x => negb (f x) = true) l.
Proof.
  induction l as [|x l IH]; cbn [filter]; intros H; constructor.
  - destruct (f x); [discriminate|reflexivity].
  - apply IH. destruct (f x); [discriminate|exact H].
Qed.

Lemma negb_false_Forall (sel : Z -> bool) l : Forall (fun x => sel x = false) l -> Forall (fun x => negb (sel x) = true) l.
Proof. apply Forall_impl. now intros x ->. Qed.
Lemma negb_true_Forall (sel : Z -> bool) l : Forall (fun x => sel x = true) l -> Forall (fun x => negb (sel x) = false) l.
Proof. apply Forall_impl. now intros x ->. Qed.

Lemma block_up sel k A S1 B r :
  Forall (fun x => sel x = false) A -> Forall (fun x => sel x = true) S1 -> Forall (fun x => sel x = false) B ->
  moved_up sel k (A ++ S1 ++ B) r ->
  r = firstn (length A - k) (A ++ B) ++ S1 ++ skipn (length A - k) (A ++ B).
Proof.
  intros HA HS HB [[F1 F2] P].
  assert (FS : filter sel (A ++ S1 ++ B) = S1).
  { rewrite !filter_app, (filter_none sel A HA), (filter_all sel S1 HS), (filter_none sel B HB), app_nil_r. reflexivity. }
  assert (FU : filter (fun x => negb (sel x)) (A ++ S1 ++ B) = A ++ B).
  { rewrite !filter_app. rewrite (filter_all _ A (negb_false_Forall _ _ HA)), (filter_none _ S1 (negb_true_Forall _ _ HS)),
      (filter_all _ B (negb_false_Forall _ _ HB)). reflexivity. }
  pose proof (Permutation_length (same_orders_perm sel _ _ (conj F1 F2))) as LP. rewrite !app_length in LP.
  rewrite FS in F1. rewrite FU in F2.
  set (p := (length A - k)%nat) in *.
  assert (C : r = firstn p r ++ S1 ++ skipn (p + length S1) r).
  { apply block_cut; [unfold p; lia|].
    intros j x Hj.
    assert (J : (j < length S1)%nat) by (apply nth_error_Some; congruence).
    assert (Hn : nth_error (A ++ S1 ++ B) (length A + j) = Some x).
    { rewrite nth_error_app2 by lia. replace (length A + j - length A)%nat with j by lia.
      rewrite nth_error_app1 by exact J. exact Hj. }
    assert (Hx : sel x = true) by (eapply (proj1 (Forall_forall _ _) HS), nth_error_In; eauto).
    specialize (P _ _ Hn Hx).
    assert (SB : sel_before sel (length A + j) (A ++ S1 ++ B) = j).
    { unfold sel_before. rewrite firstn_app_2, firstn_app. replace (j - length S1)%nat with O by lia.
      cbn [firstn]. rewrite app_nil_r, filter_app, (filter_none sel A HA). cbn [app].
      rewrite filter_all; [rewrite firstn_length; lia|].
      apply Forall_forall. intros y Hy. apply (proj1 (Forall_forall _ _) HS).
      rewrite <- (firstn_skipn j S1). apply in_app_iff. left; exact Hy. }
    rewrite SB in P. rewrite <- P. f_equal. unfold p. lia. }
  set (u1 := firstn p r) in *. set (u2 := skipn (p + length S1) r) in *.
  rewrite C in F1, F2. rewrite !filter_app, (filter_all sel S1 HS) in F1.
  apply app_sandwich_nil in F1. destruct F1 as [N1 N2].
  apply filter_nil_Forall in N1. apply filter_nil_Forall in N2.
  rewrite !filter_app, (filter_all _ u1 N1), (filter_all _ u2 N2), (filter_none _ S1 (negb_true_Forall _ _ HS)) in F2.
  cbn [app] in F2.
  assert (L1 : length u1 = p) by (unfold u1; rewrite firstn_length; unfold p; lia).
  rewrite C, <- F2, <- L1. rewrite firstn_app, skipn_app, firstn_all, skipn_all, Nat.sub_diag. cbn [firstn skipn].
  rewrite app_nil_r. reflexivity.
Qed.

Lemma block_down sel k A S1 B r :
  Forall (fun x => sel x = false) A -> Forall (fun x => sel x = true) S1 -> Forall (fun x => sel x = false) B ->
  moved_down sel k (A ++ S1 ++ B) r ->
  r = firstn (length (A ++ B) - (length B - k)) (A ++ B) ++ S1 ++ skipn (length (A ++ B) - (length B - k)) (A ++ B).
Proof.
  intros HA HS HB H. unfold moved_down in H. rewrite !rev_app_distr, <- app_assoc in H.
  apply block_up in H; [|apply Forall_rev; assumption..].
  rewrite <- rev_app_distr, rev_length in H.
  generalize dependent (A ++ B). intros L H. set (p := (length B - k)%nat) in *. apply (f_equal (@rev Z)) in H. rewrite rev_involutive in H. rewrite H.
  rewrite !rev_app_distr, rev_involutive, firstn_rev, skipn_rev, !rev_involutive, <- app_assoc.
  reflexivity.
Qed.

(** Where a block starting at [a] of [m] unselected entries goes. *)
Definition clamp (m z : Z) : Z := Z.max 0 (Z.min m z).

Lemma move_block ids o A S1 B (p := Z.to_nat (clamp (Z.of_nat (length (A ++ B))) (Z.of_nat (length A) + o))) :
  NoDup (A ++ S1 ++ B) ->
  Forall (fun x => mem ids x = false) A -> Forall (fun x => mem ids x = true) S1 -> Forall (fun x => mem ids x = false) B ->
  -2147483648 <= o -> o + Z.of_nat (length (A ++ S1 ++ B)) <= 2147483648 -> Z.of_nat (length (A ++ S1 ++ B)) <= 2147483648 ->
  move_by ids o (A ++ S1 ++ B) = Some (firstn p (A ++ B) ++ S1 ++ skipn p (A ++ B)).
Proof.
  intros N HA HS HB O1 O2 O3.
  assert (LL : length (A ++ B) = (length A + length B)%nat) by apply app_length.
  destruct (Z.compare_spec o 0) as [E|E|E].
  - subst o. rewrite move_zero by exact N. f_equal.
    replace p with (length A) by (unfold p, clamp; lia).
    rewrite firstn_app, skipn_app, firstn_all, skipn_all, Nat.sub_diag. cbn [firstn skipn]. now rewrite app_nil_r.
  - destruct (move_up ids (Z.to_nat (- o)) (A ++ S1 ++ B)) as (r & E1 & M); auto; try lia.
    replace (- Z.of_nat (Z.to_nat (- o))) with o in E1 by lia. rewrite E1. f_equal.
    apply block_up in M; auto. rewrite M.
    replace (length A - Z.to_nat (- o))%nat with p by (unfold p, clamp; lia). reflexivity.
  - destruct (move_down ids (Z.to_nat o) (A ++ S1 ++ B)) as (r & E1 & M); auto; try lia.
    rewrite Z2Nat.id in E1 by lia. rewrite E1. f_equal.
    apply block_down in M; auto. rewrite M.
    replace (length (A ++ B) - (length B - Z.to_nat o))%nat with p by (unfold p, clamp; lia). reflexivity.
Qed.

(** ** The offset to the target *)

Lemma calc_skip b t m k step off L R : ~ In t L -> ~ In m L ->
  calc_offset b t m k false step off (L ++ R) = calc_offset b t m k false step off R.
Proof.
  induction L as [|x L IH]; intros H1 H2; [reflexivity|]. cbn [app calc_offset].
  destruct (Z.eqb_spec x t) as [->|]; [exfalso; apply H1; left; reflexivity|].
  destruct (Z.eqb_spec x m) as [->|]; [exfalso; apply H2; left; reflexivity|]. cbn [orb].
  apply IH; intro; [apply H1|apply H2]; right; assumption.
Qed.

Lemma calc_run b t m k step L R : ~ In t L -> ~ In m L ->
  (match R with [] => True | x :: _ => x = t \/ x = m end) -> forall off,
  calc_offset b t m k true step off (L ++ R) = off + step * Z.of_nat (length L).
Proof.
  intros H1 H2 HR. induction L as [|x L IH]; intros off.
  - cbn [app length]. rewrite Z.mul_0_r, Z.add_0_r. destruct R as [|x R]; [reflexivity|]. cbn [calc_offset].
    assert (E : (x =? t) || (x =? m) = true) by (destruct HR as [->| ->]; rewrite Z.eqb_refl; [reflexivity|apply orb_true_r]).
    rewrite E. reflexivity.
  - cbn [app calc_offset length].
    destruct (Z.eqb_spec x t) as [->|]; [exfalso; apply H1; left; reflexivity|].
    destruct (Z.eqb_spec x m) as [->|]; [exfalso; apply H2; left; reflexivity|]. cbn [orb].
    rewrite IH; [lia| |]; intro; [apply H1|apply H2]; right; assumption.
Qed.

Definition b2n (b : bool) : Z := if b then 1 else 0.

Lemma calc_target b t m A S1 B U1 U2 :
  NoDup (A ++ (m :: S1) ++ B) -> A ++ B = U1 ++ t :: U2 -> ~ In t (m :: S1) ->
  Z.of_nat (length A) + calc_offset b t m (Z.of_nat (length (m :: S1))) false 0 0 (A ++ (m :: S1) ++ B)
  = Z.of_nat (length U1) + b2n (negb b).
Proof.
  intros N E NT.
  assert (TM : t <> m) by (intros ->; apply NT; left; reflexivity).
  assert (NU : NoDup (U1 ++ t :: U2)).
  { rewrite <- E. eapply Permutation_NoDup in N;
      [| apply Permutation_app_head, Permutation_app_comm]. rewrite app_assoc in N.
    apply NoDup_rev in N. rewrite rev_app_distr in N.
    clear - N. assert (H : forall X Y : list Z, NoDup (X ++ Y) -> NoDup Y).
    { induction X as [|x X IH]; intros Y H; [exact H|]. inversion H; auto. }
    apply H in N. apply NoDup_rev in N. now rewrite rev_involutive in N. }
  assert (MA : ~ In m A) by (apply (NoDup_mid_l A m (S1 ++ B)); exact N).
  assert (MSB : ~ In m (S1 ++ B)) by (apply (NoDup_mid_r A m (S1 ++ B)); exact N).
  assert (NT1 : ~ In t U1) by (eapply NoDup_mid_l; eauto).
  assert (NT2 : ~ In t U2) by (eapply NoDup_mid_r; eauto).
  apply (app_eq_app A B U1 (t :: U2)) in E. destruct E as (M & [[EA EB]|[EA EB]]).
  - (* A = U1 ++ M, t :: U2 = M ++ B *)
    destruct M as [|x M].
    + cbn [app] in EB. rewrite app_nil_r in EA. subst A B.
      rewrite calc_skip by assumption. cbn [app calc_offset].
      destruct (Z.eqb_spec m t); [congruence|]. rewrite Z.eqb_refl. cbn [orb negb]. cbv zeta.
      change (0 <? 1) with true.
      rewrite calc_run; [ | intros H; apply NT; right; exact H | intros H; apply MSB, in_app_iff; auto | left; reflexivity].
      unfold b2n. cbn [length]. destruct b; cbn [negb]; lia.
    + cbn [app] in EB. injection EB as <- ->. subst A.
      rewrite <- app_assoc. rewrite calc_skip; [|assumption|intros H; apply MA, in_app_iff; auto].
      cbn [app calc_offset]. rewrite Z.eqb_refl. cbn [orb negb]. cbv zeta. change (0 <? -1) with false.
      rewrite calc_run; [ | intros H; apply NT2, in_app_iff; auto
                          | intros H; apply MA, in_app_iff; right; right; exact H
                          | right; reflexivity].
      rewrite app_length. unfold b2n. cbn [length]. destruct b; cbn [negb]; lia.
  - (* U1 = A ++ M, B = M ++ t :: U2 *)
    subst U1 B.
    rewrite calc_skip; [|intros H; apply NT1, in_app_iff; auto|assumption].
    cbn [app calc_offset].
    destruct (Z.eqb_spec m t); [congruence|]. rewrite Z.eqb_refl. cbn [orb negb]. cbv zeta.
    change (0 <? 1) with true. rewrite app_assoc.
    rewrite calc_run; [ | intros H; apply in_app_iff in H; destruct H; [apply NT; right; assumption|apply NT1, in_app_iff; auto]
                        | intros H; apply MSB; rewrite app_assoc; apply in_app_iff; left; exact H
                        | left; reflexivity].
    rewrite !app_length. unfold b2n. cbn [length]. destruct b; cbn [negb]; lia.
Qed.

Lemma calc_unknown b t m A S1 B :
  NoDup (A ++ (m :: S1) ++ B) -> ~ In t (A ++ (m :: S1) ++ B) ->
  Z.of_nat (length A) + calc_offset b t m (Z.of_nat (length (m :: S1))) false 0 0 (A ++ (m :: S1) ++ B)
  = Z.of_nat (length (A ++ B)) + b2n (negb b).
Proof.
  intros N NT.
  assert (MA : ~ In m A) by (apply (NoDup_mid_l A m (S1 ++ B)); exact N).
  assert (MSB : ~ In m (S1 ++ B)) by (apply (NoDup_mid_r A m (S1 ++ B)); exact N).
  rewrite calc_skip; [|intros H; apply NT, in_app_iff; auto|assumption].
  cbn [app calc_offset].
  destruct (Z.eqb_spec m t) as [->|]; [exfalso; apply NT, in_app_iff; right; left; reflexivity|].
  rewrite Z.eqb_refl. cbn [orb negb]. cbv zeta. change (0 <? 1) with true.
  rewrite <- (app_nil_r (S1 ++ B)).
  rewrite calc_run; [|intros H; apply NT, in_app_iff; right; right; exact H|exact MSB|exact I].
  rewrite !app_length. unfold b2n. cbn [length]. destruct b; cbn [negb]; lia.
Qed.

(** ** [MoveGroupsTo] *)

Lemma mem_In ids x : mem ids x = true <-> In x ids.
Proof.
  unfold mem. rewrite existsb_exists. split.
  - intros (y & H & E). apply Z.eqb_eq in E. now subst.
  - intros H. exists x. split; [exact H|apply Z.eqb_refl].
Qed.

Lemma mem_items ids l x : In x l -> mem (filter (mem ids) l) x = mem ids x.
Proof.
  intros H. apply eq_true_iff_eq. rewrite (mem_In (filter _ _)), filter_In. tauto.
Qed.

Lemma next_found items l : next_unmoved items 0 true l =
  match filter (fun x => negb (mem items x)) l with [] => None | x :: _ => Some x end.
Proof.
  induction l as [|x l IH]; [reflexivity|]. cbn [next_unmoved filter]. destruct (mem items x); cbn [negb]; auto.
Qed.
Lemma next_found_any items t t' l : next_unmoved items t true l = next_unmoved items t' true l.
Proof. induction l as [|x l IH]; [reflexivity|]. cbn [next_unmoved]. destruct (mem items x); auto. Qed.
Lemma next_search items t X Y : ~ In t X ->
  next_unmoved items t false (X ++ t :: Y) =
  match filter (fun x => negb (mem items x)) Y with [] => None | x :: _ => Some x end.
Proof.
  induction X as [|x X IH]; intros H; cbn [app next_unmoved].
  - rewrite Z.eqb_refl, (next_found_any items t 0). apply next_found.
  - destruct (Z.eqb_spec t x) as [->|]; [exfalso; apply H; left; reflexivity|]. apply IH. intro; apply H; right; assumption.
Qed.

Lemma filter_items_ext ids l (f := fun x => negb (mem (filter (mem ids) l) x)) m :
  incl m l -> filter f m = filter (fun x => negb (mem ids x)) m.
Proof.
  intros H. apply filter_ext_in. intros x Hx. unfold f. now rewrite mem_items by (apply H; exact Hx).
Qed.

Lemma filter_neg_Forall (sel : Z -> bool) l u : incl u (filter (fun x => negb (sel x)) l) -> Forall (fun x => sel x = false) u.
Proof.
  intros H. apply Forall_forall. intros x Hx. apply H, filter_In in Hx. destruct (sel x); [destruct Hx; discriminate|reflexivity].
Qed.
Lemma filter_pos_Forall (sel : Z -> bool) l : Forall (fun x => sel x = true) (filter sel l).
Proof. apply Forall_forall. intros x Hx. apply filter_In in Hx. tauto. Qed.

Lemma align_items ids l : NoDup l ->
  exists A B, align (filter (mem ids) l) l = A ++ filter (mem ids) l ++ B /\
    A ++ B = filter (fun x => negb (mem ids x)) l /\
    NoDup (A ++ filter (mem ids) l ++ B) /\ length (A ++ filter (mem ids) l ++ B) = length l /\
    Forall (fun x => mem ids x = false) A /\ Forall (fun x => mem ids x = false) B.
Proof.
  intros N. destruct (align_spec (filter (mem ids) l) l) as (A & B & E & EU & _).
  rewrite filter_items_ext in EU by apply incl_refl.
  assert (ES : filter (mem (filter (mem ids) l)) l = filter (mem ids) l)
    by (apply filter_ext_in; intros x Hx; now apply mem_items).
  rewrite ES in E.
  assert (FA : Forall (fun x => mem ids x = false) A)
    by (apply (filter_neg_Forall (mem ids) l); rewrite <- EU; apply incl_appl, incl_refl).
  assert (FB : Forall (fun x => mem ids x = false) B)
    by (apply (filter_neg_Forall (mem ids) l); rewrite <- EU; apply incl_appr, incl_refl).
  assert (P : Permutation l (A ++ filter (mem ids) l ++ B)).
  { apply (same_orders_perm (mem ids)). split; rewrite !filter_app.
    - rewrite (filter_none _ A FA), (filter_none _ B FB), app_nil_r.
      rewrite (filter_all _ (filter (mem ids) l) (filter_pos_Forall _ _)). reflexivity.
    - rewrite (filter_all _ A (negb_false_Forall _ _ FA)), (filter_all _ B (negb_false_Forall _ _ FB)).
      rewrite (filter_none _ (filter (mem ids) l) (negb_true_Forall _ _ (filter_pos_Forall _ _))). exact EU. }
  exists A, B. repeat split; auto.
  - eapply Permutation_NoDup; eauto.
  - symmetry; apply Permutation_length; exact P.
Qed.

Lemma cut_at {A} (u1 u2 : list A) n : n = length u1 -> firstn n (u1 ++ u2) = u1 /\ skipn n (u1 ++ u2) = u2.
Proof.
  intros ->. rewrite firstn_app, skipn_app, firstn_all, skipn_all, Nat.sub_diag. cbn [firstn skipn].
  now rewrite app_nil_r.
Qed.

Lemma move_items_to ids o A S1 B l u1 u2 :
  NoDup (A ++ S1 ++ B) -> S1 = filter (mem ids) l ->
  Forall (fun x => mem ids x = false) A -> Forall (fun x => mem ids x = false) B ->
  A ++ B = u1 ++ u2 -> (length (A ++ S1 ++ B) <= length l)%nat -> Z.of_nat (length l) <= max_id ->
  clamp (Z.of_nat (length (A ++ B))) (Z.of_nat (length A) + o) = Z.of_nat (length u1) -> - max_id <= o <= max_id ->
  move_by ids o (A ++ S1 ++ B) = Some (u1 ++ S1 ++ u2).
Proof.
  intros N ES FA FB EU L1 L2 C O. unfold max_id in *.
  rewrite move_block; auto; try lia.
  - rewrite C, Nat2Z.id, EU. destruct (cut_at u1 u2 (length u1) eq_refl) as [-> ->]. reflexivity.
  - rewrite ES. apply filter_pos_Forall.
Qed.

(** The target is not one of the moved groups. *)
Lemma move_to_unmoved ids b t X Y (l := X ++ t :: Y) (un := filter (fun x => negb (mem ids x))) :
  NoDup l -> Z.of_nat (length l) < max_id -> mem ids t = false -> filter (mem ids) l <> [] ->
  move_to ids b t l = Some (if b then un X ++ filter (mem ids) l ++ t :: un Y
                            else (un X ++ [t]) ++ filter (mem ids) l ++ un Y).
Proof.
  intros N L T NE. unfold move_to.
  destruct (align_items ids l N) as (A & B & E & EU & NB & LB & FA & FB).
  destruct (filter (mem ids) l) as [|m S1] eqn:ES; [congruence|]. rewrite <- ES at 1.
  rewrite mem_items by (apply in_app_iff; right; left; reflexivity). rewrite T. cbn [Z.eqb]. rewrite E.
  assert (EU' : A ++ B = un X ++ t :: un Y).
  { rewrite EU. unfold l, un. rewrite filter_app. cbn [filter]. rewrite T. reflexivity. }
  assert (TS : ~ In t (m :: S1)) by (rewrite <- ES; intros H; apply filter_In in H; destruct H; congruence).
  pose proof (calc_target b t m A S1 B (un X) (un Y) NB EU' TS) as C.
  pose proof (f_equal (@length Z) EU') as LU. rewrite !app_length in LU. rewrite !app_length in LB. cbn [length] in *.
  set (o := calc_offset b t m (Z.of_nat (Datatypes.S (length S1))) false 0 0 (A ++ (m :: S1) ++ B)) in *.
  assert (OB : - max_id <= o <= max_id) by (unfold max_id, b2n in *; destruct b; cbn [negb] in *; lia).
  destruct b; cbn [negb b2n] in C.
  - apply (move_items_to ids o A (m :: S1) B l (un X) (t :: un Y)); auto.
    + rewrite !app_length; cbn [length]; lia.
    + lia.
    + unfold clamp. rewrite app_length. lia.
  - apply (move_items_to ids o A (m :: S1) B l (un X ++ [t]) (un Y)); auto.
    + rewrite EU', <- app_assoc. reflexivity.
    + rewrite !app_length; cbn [length]; lia.
    + lia.
    + unfold clamp. rewrite !app_length. cbn [length]. lia.
Qed.

(** The target is one of the moved groups: the block gathers there. *)
Lemma move_to_moved ids b t X Y (l := X ++ t :: Y) (un := filter (fun x => negb (mem ids x))) :
  NoDup l -> Z.of_nat (length l) < max_id -> mem ids t = true ->
  move_to ids b t l = Some (un X ++ filter (mem ids) l ++ un Y).
Proof.
  intros N L T. unfold move_to.
  destruct (align_items ids l N) as (A & B & E & EU & NB & LB & FA & FB).
  assert (NTX : ~ In t X) by (eapply NoDup_mid_l; exact N).
  pose proof (next_search (filter (mem ids) l) t X Y NTX) as NX. fold l in NX.
  rewrite filter_items_ext in NX by (unfold l; apply incl_appr, incl_tl, incl_refl).
  assert (M : mem (filter (mem ids) l) t = true)
    by (rewrite mem_items; [exact T|apply in_app_iff; right; left; reflexivity]).
  assert (EU' : A ++ B = un X ++ un Y).
  { rewrite EU. unfold l, un. rewrite filter_app. cbn [filter]. rewrite T. reflexivity. }
  destruct (filter (mem ids) l) as [|m S1] eqn:ES; [discriminate M|].
  rewrite M, NX, E. pose proof (f_equal (@length Z) EU') as LU. rewrite !app_length in LU, LB. cbn [length] in LB.
  fold un. destruct (un Y) as [|u UY] eqn:EY.
  - change (max_id =? 0) with false. cbv iota.
    apply (move_items_to ids max_id A (m :: S1) B l (un X) []); auto.
    + rewrite !app_length; cbn [length]; lia.
    + lia.
    + unfold clamp. rewrite !app_length. unfold max_id in *. cbn [length] in *. lia.
    + unfold max_id; lia.
  - cbn [Z.eqb].
    assert (TS : ~ In u (m :: S1)).
    { rewrite <- ES. intros H. apply filter_In in H. destruct H as [_ H].
      assert (Hu : In u (un Y)) by (rewrite EY; left; reflexivity).
      apply filter_In in Hu. destruct Hu as [_ Hu]. rewrite H in Hu. discriminate. }
    pose proof (calc_target true u m A S1 B (un X) UY NB EU' TS) as C. cbn [negb b2n length] in *.
    set (o := calc_offset true u m (Z.of_nat (Datatypes.S (length S1))) false 0 0 (A ++ (m :: S1) ++ B)) in *.
    apply (move_items_to ids o A (m :: S1) B l (un X) (u :: UY)); auto.
    + rewrite !app_length; cbn [length]; lia.
    + lia.
    + unfold clamp. rewrite app_length. lia.
    + unfold max_id in *. lia.
Qed.

(** The target is not in the queue: to the bottom. *)
Lemma move_to_unknown ids b t l :
  NoDup l -> Z.of_nat (length l) < max_id -> ~ In t l -> filter (mem ids) l <> [] ->
  move_to ids b t l = Some (filter (fun x => negb (mem ids x)) l ++ filter (mem ids) l).
Proof.
  intros N L T NE. unfold move_to.
  destruct (align_items ids l N) as (A & B & E & EU & NB & LB & FA & FB).
  destruct (filter (mem ids) l) as [|m S1] eqn:ES; [congruence|].
  assert (M : mem (m :: S1) t = false).
  { apply not_true_is_false. rewrite mem_In, <- ES, filter_In. tauto. }
  rewrite M. cbn [Z.eqb]. rewrite E.
  assert (NT : ~ In t (A ++ (m :: S1) ++ B)).
  { intros H. apply T. rewrite <- ES in H. rewrite !in_app_iff, filter_In in H.
    assert (K : In t (A ++ B) -> In t l) by (rewrite EU, filter_In; tauto).
    rewrite in_app_iff in K. tauto. }
  pose proof (calc_unknown b t m A S1 B NB NT) as C.
  pose proof (f_equal (@length Z) EU) as LU. rewrite !app_length in *. cbn [length] in *.
  set (o := calc_offset b t m (Z.of_nat (Datatypes.S (length S1))) false 0 0 (A ++ (m :: S1) ++ B)) in *.
  rewrite <- (app_nil_r (m :: S1)) at 2.
  apply (move_items_to ids o A (m :: S1) B l _ []); auto.
  - now rewrite app_nil_r.
  - rewrite !app_length; cbn [length]; lia.
  - lia.
  - unfold clamp. rewrite app_length. unfold b2n in C. destruct b; cbn [negb] in C; lia.
  - unfold max_id, b2n in *. destruct b; cbn [negb] in C; lia.
Qed.

(** ** Top and bottom *)

Lemma nth_filter (f : Z -> bool) : forall m j x, nth_error (filter f m) j = Some x ->
  exists i, nth_error m i = Some x /\ sel_before f i m = j /\ f x = true.
Proof.
  induction m as [|y m IH]; intros j x Hj; [destruct j; discriminate|].
  cbn [filter] in Hj. destruct (f y) eqn:Hy.
  - destruct j as [|j]; cbn [nth_error] in Hj.
    + injection Hj as <-. exists O. repeat split; auto.
    + destruct (IH j x Hj) as (i & H1 & H2 & H3). exists (Datatypes.S i). repeat split; auto.
      unfold sel_before in *. cbn [firstn filter]. rewrite Hy. cbn [length]. now rewrite H2.
  - destruct (IH j x Hj) as (i & H1 & H2 & H3). exists (Datatypes.S i). repeat split; auto.
    unfold sel_before in *. cbn [firstn filter]. now rewrite Hy.
Qed.

Lemma up_far sel k l r : (length l <= k)%nat -> moved_up sel k l r ->
  r = filter sel l ++ filter (fun x => negb (sel x)) l.
Proof.
  intros L [[F1 F2] P].
  assert (C : r = firstn 0 r ++ filter sel l ++ skipn (0 + length (filter sel l)) r).
  { apply block_cut.
    - rewrite <- F1. apply filter_skipn_le.
    - intros j x Hj. destruct (nth_filter sel l j x Hj) as (i & H1 & H2 & H3).
      specialize (P i x H1 H3). rewrite H2 in P.
      assert (I : (i < length l)%nat) by (apply nth_error_Some; congruence).
      replace (Nat.max (i - k) j) with j in P by lia. exact P. }
  cbn [firstn app Nat.add] in C. set (u2 := skipn (length (filter sel l)) r) in *.
  rewrite C in F1, F2. rewrite filter_app in F1, F2.
  rewrite (filter_all _ _ (filter_pos_Forall sel l)) in F1.
  rewrite <- (app_nil_r (filter sel l)) in F1 at 2. apply app_inv_head in F1. apply filter_nil_Forall in F1.
  rewrite (filter_none _ _ (negb_true_Forall _ _ (filter_pos_Forall sel l))), (filter_all _ u2 F1) in F2.
  cbn [app] in F2. rewrite C, F2. reflexivity.
Qed.

Lemma filter_rev {A} (f : A -> bool) l : filter f (rev l) = rev (filter f l).
Proof.
  induction l as [|x l IH]; [reflexivity|]. cbn [rev filter]. rewrite filter_app, IH. cbn [filter].
  destruct (f x); cbn [rev]; [reflexivity|apply app_nil_r].
Qed.

Lemma max_id_nat : exists k, (0 < k)%nat /\ Z.of_nat k = max_id.
Proof. exists (Z.to_nat max_id). rewrite Z2Nat.id by (unfold max_id; lia). split; [|reflexivity]. apply Nat2Z.inj_lt. rewrite Z2Nat.id by (unfold max_id; lia). reflexivity. Qed.

Lemma max_id_range : 0 < max_id /\ max_id + max_id <= 2147483648.
Proof. unfold max_id; lia. Qed.

Lemma move_by_top ids l : NoDup l -> Z.of_nat (length l) <= max_id ->
  move_top ids l = Some (filter (mem ids) l ++ filter (fun x => negb (mem ids x)) l).
Proof.
  intros N L. unfold move_top. destruct max_id_nat as (k & K & E). pose proof max_id_range as R. rewrite <- E in *.
  destruct (move_up ids k l) as (r & E1 & M); auto; try lia.
  rewrite E1. f_equal. apply (up_far _ k); [lia|exact M].
Qed.

Lemma move_by_bottom ids l : NoDup l -> Z.of_nat (length l) <= max_id ->
  move_bottom ids l = Some (filter (fun x => negb (mem ids x)) l ++ filter (mem ids) l).
Proof.
  intros N L. unfold move_bottom. destruct max_id_nat as (k & K & E). pose proof max_id_range as R. rewrite <- E in *.
  destruct (move_down ids k l) as (r & E1 & M); auto; try lia.
  rewrite E1. f_equal. unfold moved_down in M. apply up_far in M; [|rewrite rev_length; lia].
  apply (f_equal (@rev Z)) in M. rewrite rev_involutive in M. rewrite M.
  rewrite rev_app_distr, !filter_rev, !rev_involutive. reflexivity.
Qed.

(** ** Reordering files *)

Lemma reorder_go_spec : forall items D l, NoDup items -> NoDup (D ++ l) ->
  (forall x, In x items -> ~ In x D) ->
  reorder_go items (length D) (D ++ l) =
  D ++ filter (mem l) items ++ filter (fun x => negb (mem items x)) l.
Proof.
  induction items as [|x items IH]; intros D l NI N H.
  - cbn [reorder_go filter app]. rewrite filter_all; [reflexivity|]. apply Forall_forall. reflexivity.
  - inversion NI as [|? ? NX NI']; subst. cbn [reorder_go filter].
    destruct (mem l x) eqn:Hx.
    + apply mem_In in Hx. apply in_split in Hx. destruct Hx as (P & Q & ->).
      assert (ND : ~ In x D) by (apply H; left; reflexivity).
      rewrite app_assoc in N.
      assert (NDP : ~ In x (D ++ P)) by (eapply NoDup_mid_l; exact N).
      assert (NQ : ~ In x Q) by (eapply NoDup_mid_r; exact N).
      rewrite app_assoc, index_of_app by exact NDP.
      destruct (Nat.ltb_spec (length (D ++ P)) (length ((D ++ P) ++ x :: Q))) as [_|C];
        [|rewrite !app_length in C; cbn [length] in C; lia].
      rewrite remove_at_app, <- app_assoc, insert_at_len.
      replace (Datatypes.S (length D)) with (length (D ++ [x])) by (rewrite app_length; cbn [length]; lia).
      replace (D ++ x :: P ++ Q) with ((D ++ [x]) ++ P ++ Q) by (rewrite <- app_assoc; reflexivity).
      rewrite IH; auto.
      * rewrite <- app_assoc. cbn [app]. do 2 f_equal.
        assert (E1 : filter (mem (P ++ Q)) items = filter (mem (P ++ x :: Q)) items).
        { apply filter_ext_in. intros y Hy. apply eq_true_iff_eq. rewrite !mem_In, !in_app_iff. cbn [In].
          split; [tauto|]. intros [?|[->|?]]; tauto. }
        rewrite E1. f_equal. rewrite !filter_app. cbn [filter].
        assert (E2 : mem (x :: items) x = true) by (apply mem_In; left; reflexivity). rewrite E2. cbn [negb].
        assert (E3 : forall L, ~ In x L -> filter (fun y => negb (mem items y)) L = filter (fun y => negb (mem (x :: items) y)) L).
        { intros L HL. apply filter_ext_in. intros y Hy. f_equal. unfold mem. cbn [existsb].
          destruct (Z.eqb_spec y x) as [->|]; [contradiction|reflexivity]. }
        rewrite (E3 P), (E3 Q); auto. intro; apply NDP, in_app_iff; auto.
      * eapply Permutation_NoDup; [|exact N]. rewrite <- !app_assoc. apply Permutation_app_head.
        cbn [app]. apply Permutation_sym, Permutation_middle.
      * intros y Hy Hin. apply in_app_iff in Hin. destruct Hin as [Hin|[<-|[]]]; [|contradiction].
        apply (H y); [right; exact Hy|exact Hin].
    + assert (NL : ~ In x l) by (rewrite <- mem_In; congruence).
      assert (NA : ~ In x (D ++ l)) by (rewrite in_app_iff; intros [K|K]; [apply (H x); [left; reflexivity|exact K]|contradiction]).
      assert (EI : forall L, ~ In x L -> index_of x L = length L).
      { induction L as [|y L IHL]; intros HL; [reflexivity|]. cbn [index_of length].
        destruct (Z.eqb_spec y x) as [->|]; [exfalso; apply HL; left; reflexivity|]. f_equal. apply IHL. intro; apply HL; right; assumption. }
      rewrite (EI _ NA), Nat.ltb_irrefl. rewrite IH; auto; [|intros y Hy; apply H; right; exact Hy].
      do 2 f_equal. apply filter_ext_in. intros y Hy. f_equal. unfold mem. cbn [existsb].
      destruct (Z.eqb_spec y x) as [->|]; [contradiction|reflexivity].
Qed.

Lemma reorder_spec items l : NoDup items -> NoDup l ->
  reorder_files items l = filter (mem l) items ++ filter (fun x => negb (mem items x)) l.
Proof. intros NI N. apply (reorder_go_spec items [] l NI N). intros x _ []. Qed.
