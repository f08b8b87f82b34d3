(** The tables give multiplication modulo the polynomial. *)
From Verif Require Import Base CrcProofs GaloisModel GaloisSpec.

(** ** Polynomials *)
Lemma dbl a : 2 * a = Z.shiftl a 1.
Proof. rewrite Z.shiftl_mul_pow2 by lia. change (2 ^ 1) with 2. lia. Qed.
Lemma dbl_lxor a b : 2 * Z.lxor a b = Z.lxor (2 * a) (2 * b).
Proof. rewrite !dbl. apply Z.shiftl_lxor. Qed.
Lemma lxor4 a b c d : Z.lxor (Z.lxor a b) (Z.lxor c d) = Z.lxor (Z.lxor a c) (Z.lxor b d).
Proof. rewrite !Z.lxor_assoc. f_equal. apply lxor_swap. Qed.

Lemma pmul_lin b : forall a c, pmul (Z.lxor a c) b = Z.lxor (pmul a b) (pmul c b).
Proof.
  induction b as [b IH|b IH|]; intros a c; cbn [pmul].
  - rewrite IH, dbl_lxor. apply lxor4.
  - rewrite IH. apply dbl_lxor.
  - reflexivity.
Qed.
Lemma pmul_dbl b : forall a, pmul (2 * a) b = 2 * pmul a b.
Proof.
  induction b as [b IH|b IH|]; intros a; cbn [pmul].
  - rewrite IH, dbl_lxor. reflexivity.
  - rewrite IH. reflexivity.
  - reflexivity.
Qed.
Lemma pmul_0 b : pmul 0 b = 0.
Proof. induction b as [b IH|b IH|]; cbn [pmul]; rewrite ?IH; reflexivity. Qed.
Lemma pmul_1 b : pmul 1 b = Zpos b.
Proof.
  induction b as [b IH|b IH|]; cbn [pmul]; rewrite ?IH; [|reflexivity|reflexivity].
  change (2 * Z.pos b) with (Z.pos b~0). reflexivity.
Qed.

Lemma clmul_0_r a : clmul a 0 = 0. Proof. reflexivity. Qed.
Lemma clmul_1_r a : clmul a 1 = a. Proof. reflexivity. Qed.
Lemma clmul_0_l b : clmul 0 b = 0.
Proof. destruct b; [reflexivity|apply pmul_0|reflexivity]. Qed.
Lemma clmul_1_l b : 0 <= b -> clmul 1 b = b.
Proof. destruct b; [reflexivity|intros _; apply pmul_1|lia]. Qed.
Lemma clmul_lin_l a c b : clmul (Z.lxor a c) b = Z.lxor (clmul a b) (clmul c b).
Proof. destruct b; [reflexivity|apply pmul_lin|reflexivity]. Qed.
Lemma clmul_dbl_l a b : clmul (2 * a) b = 2 * clmul a b.
Proof. destruct b; [reflexivity|apply pmul_dbl|reflexivity]. Qed.
Lemma clmul_dbl_r a b : clmul a (2 * b) = 2 * clmul a b.
Proof. destruct b; reflexivity. Qed.
(** Numbers as doubled number plus lowest bit. *)
Lemma bit_ind (P : Z -> Prop) : P 0 -> (forall b, 0 <= b -> P b -> P (2 * b)) ->
  (forall b, 0 <= b -> P b -> P (Z.lxor 1 (2 * b))) -> forall b, 0 <= b -> P b.
Proof.
  intros H0 H1 H2 b Hb. destruct b as [|p|p]; [exact H0| |lia]. clear Hb.
  induction p as [p IH|p IH|].
  - replace (Z.pos p~1) with (Z.lxor 1 (2 * Z.pos p)) by reflexivity. apply H2; [lia|exact IH].
  - replace (Z.pos p~0) with (2 * Z.pos p) by reflexivity. apply H1; [lia|exact IH].
  - change 1 with (Z.lxor 1 (2 * 0)). apply H2; [lia|exact H0].
Qed.
Lemma clmul_odd_r a b : 0 <= b -> clmul a (Z.lxor 1 (2 * b)) = Z.lxor a (2 * clmul a b).
Proof.
  intros H. destruct b as [|p|p]; [|reflexivity|lia].
  change (Z.lxor 1 (2 * 0)) with 1. rewrite clmul_1_r, clmul_0_r. change (2 * 0) with 0. symmetry. apply Z.lxor_0_r.
Qed.
Lemma lxor_nonneg_l a b : 0 <= a -> 0 <= b -> 0 <= Z.lxor a b.
Proof. intros A B. apply Z.lxor_nonneg. tauto. Qed.
Lemma clmul_nonneg a b : 0 <= a -> 0 <= b -> 0 <= clmul a b.
Proof.
  intros A. revert b. apply bit_ind.
  - rewrite clmul_0_r. lia.
  - intros b B IH. rewrite clmul_dbl_r. lia.
  - intros b B IH. rewrite clmul_odd_r by exact B. apply lxor_nonneg_l; lia.
Qed.
Lemma bit_cases c : 0 <= c -> exists c', 0 <= c' /\ (c = 2 * c' \/ c = Z.lxor 1 (2 * c')).
Proof.
  revert c. apply bit_ind.
  - exists 0. split; [lia|left; reflexivity].
  - intros b B _. exists b. auto.
  - intros b B _. exists b. auto.
Qed.
Lemma lxor_cancel a b c : Z.lxor (Z.lxor a b) (Z.lxor a c) = Z.lxor b c.
Proof. rewrite lxor4, Z.lxor_nilpotent. apply Z.lxor_0_l. Qed.
Lemma clmul_lin_r a b : 0 <= b -> forall c, 0 <= c -> clmul a (Z.lxor b c) = Z.lxor (clmul a b) (clmul a c).
Proof.
  revert b. apply (bit_ind (fun b => forall c, 0 <= c -> clmul a (Z.lxor b c) = Z.lxor (clmul a b) (clmul a c))).
  - intros c _. rewrite clmul_0_r, !Z.lxor_0_l. reflexivity.
  - intros b B IH c C. destruct (bit_cases c C) as (c' & C' & [->| ->]).
    + rewrite <- dbl_lxor, !clmul_dbl_r, IH, dbl_lxor by exact C'. reflexivity.
    + rewrite lxor_swap, <- dbl_lxor, clmul_odd_r by (apply lxor_nonneg_l; assumption).
      rewrite IH by exact C'. rewrite clmul_dbl_r, clmul_odd_r by exact C'. rewrite dbl_lxor. apply lxor_swap.
  - intros b B IH c C. destruct (bit_cases c C) as (c' & C' & [->| ->]).
    + rewrite Z.lxor_assoc, <- dbl_lxor, clmul_odd_r by (apply lxor_nonneg_l; assumption).
      rewrite IH by exact C'. rewrite clmul_dbl_r, clmul_odd_r by exact B. rewrite dbl_lxor, Z.lxor_assoc. reflexivity.
    + rewrite lxor_cancel, <- dbl_lxor, clmul_dbl_r, IH by exact C'. rewrite !clmul_odd_r by assumption.
      rewrite lxor_cancel. apply dbl_lxor.
Qed.
Lemma clmul_comm a b : 0 <= a -> 0 <= b -> clmul a b = clmul b a.
Proof.
  intros A. revert b. apply bit_ind.
  - rewrite clmul_0_r, clmul_0_l. reflexivity.
  - intros b B IH. rewrite clmul_dbl_r, clmul_dbl_l, IH. reflexivity.
  - intros b B IH. rewrite clmul_odd_r by exact B. rewrite clmul_lin_l, clmul_1_l by exact A.
    rewrite clmul_dbl_l, IH. reflexivity.
Qed.
Lemma clmul_assoc a b c : 0 <= b -> 0 <= c -> clmul (clmul a b) c = clmul a (clmul b c).
Proof.
  intros B. revert c. apply bit_ind.
  - reflexivity.
  - intros c C IH. rewrite !clmul_dbl_r, IH. reflexivity.
  - intros c C IH. rewrite !clmul_odd_r by exact C. rewrite IH.
    rewrite clmul_lin_r; [|exact B|assert (0 <= clmul b c) by (apply clmul_nonneg; assumption); lia].
    rewrite clmul_dbl_r. reflexivity.
Qed.

(** ** Degrees *)
Lemma log2_lxor_lt a b : 0 <= a -> 0 < b -> Z.log2 a < Z.log2 b -> Z.log2 (Z.lxor a b) = Z.log2 b.
Proof.
  intros A B L. apply Z.log2_bits_unique.
  - rewrite Z.lxor_spec, (Z.bit_log2 b B), (Z.bits_above_log2 a (Z.log2 b) A L). reflexivity.
  - intros m H. rewrite Z.lxor_spec, !Z.bits_above_log2 by lia. reflexivity.
Qed.
Lemma pmul_degree a p : 0 < a -> 0 < pmul a p /\ Z.log2 (pmul a p) = Z.log2 a + Z.log2 (Z.pos p).
Proof.
  intros A. induction p as [p [IH1 IH2]|p [IH1 IH2]|]; cbn [pmul].
  - assert (L : Z.log2 (Z.pos p~1) = Z.log2 (Z.pos p) + 1).
    { change (Z.pos p~1) with (2 * Z.pos p + 1). rewrite Z.log2_succ_double by lia. reflexivity. }
    assert (D : Z.log2 (2 * pmul a p) = Z.log2 (pmul a p) + 1) by (rewrite Z.log2_double by exact IH1; reflexivity).
    assert (N := Z.log2_nonneg (Z.pos p)).
    assert (E : Z.log2 (Z.lxor a (2 * pmul a p)) = Z.log2 (2 * pmul a p)) by (apply log2_lxor_lt; lia).
    split; [|lia].
    assert (0 <= Z.lxor a (2 * pmul a p)) by (apply lxor_nonneg_l; lia).
    destruct (Z.eq_dec (Z.lxor a (2 * pmul a p)) 0) as [Z0|]; [|lia].
    rewrite Z0 in E. change (Z.log2 0) with 0 in E. assert (N2 := Z.log2_nonneg a). lia.
  - change (Z.pos p~0) with (2 * Z.pos p). rewrite !Z.log2_double by lia. lia.
  - change (Z.log2 1) with 0. lia.
Qed.
Lemma clmul_degree a b : 0 < a -> 0 < b -> 0 < clmul a b /\ Z.log2 (clmul a b) = Z.log2 a + Z.log2 b.
Proof. destruct b; try lia. intros A _. apply pmul_degree, A. Qed.

(** ** Congruence *)
Lemma modulus_val : modulus = 0x1100B. Proof. reflexivity. Qed.
Lemma u16_lxor a b : u16 a -> u16 b -> u16 (Z.lxor a b).
Proof.
  unfold u16. intros A B. assert (N : 0 <= Z.lxor a b) by (apply lxor_nonneg_l; lia). split; [exact N|].
  destruct (Z.eq_dec (Z.lxor a b) 0) as [->|Nz]; [lia|].
  change 65536 with (2 ^ 16). apply Z.log2_lt_pow2; [lia|].
  assert (L := Z.log2_lxor a b ltac:(lia) ltac:(lia)).
  assert (La : Z.log2 a < 16). { destruct (Z.eq_dec a 0) as [->|]; [reflexivity|]. apply Z.log2_lt_pow2; [lia|]. change (2 ^ 16) with 65536. lia. }
  assert (Lb : Z.log2 b < 16). { destruct (Z.eq_dec b 0) as [->|]; [reflexivity|]. apply Z.log2_lt_pow2; [lia|]. change (2 ^ 16) with 65536. lia. }
  lia.
Qed.
Definition cong (a b : Z) : Prop := exists q, 0 <= q /\ Z.lxor a b = clmul q modulus.
Lemma cong_refl a : cong a a.
Proof. exists 0. split; [lia|]. rewrite Z.lxor_nilpotent, clmul_0_l. reflexivity. Qed.
Lemma cong_sym a b : cong a b -> cong b a.
Proof. intros (q & Q & E). exists q. rewrite Z.lxor_comm. auto. Qed.
Lemma cong_trans a b c : cong a b -> cong b c -> cong a c.
Proof.
  intros (q & Q & E) (r & R & F). exists (Z.lxor q r). split; [apply lxor_nonneg_l; assumption|].
  rewrite clmul_lin_l, <- E, <- F. rewrite Z.lxor_assoc, <- (Z.lxor_assoc b b c), Z.lxor_nilpotent, Z.lxor_0_l. reflexivity.
Qed.
Lemma cong_add a b c d : cong a b -> cong c d -> cong (Z.lxor a c) (Z.lxor b d).
Proof.
  intros (q & Q & E) (r & R & F). exists (Z.lxor q r). split; [apply lxor_nonneg_l; assumption|].
  rewrite clmul_lin_l, <- E, <- F. apply lxor4.
Qed.
Lemma cong_mul_l a b c : 0 <= c -> cong a b -> cong (clmul a c) (clmul b c).
Proof.
  intros C (q & Q & E). exists (clmul q c). split; [apply clmul_nonneg; assumption|].
  rewrite <- clmul_lin_l, E. rewrite !clmul_assoc by (try exact C; discriminate).
  f_equal. apply clmul_comm; [discriminate|exact C].
Qed.
Lemma cong_mul a b c d : 0 <= a -> 0 <= b -> 0 <= c -> 0 <= d -> cong a b -> cong c d -> cong (clmul a c) (clmul b d).
Proof.
  intros A B C D H1 H2. eapply cong_trans; [apply cong_mul_l; [exact C|exact H1]|].
  rewrite (clmul_comm b c), (clmul_comm b d) by assumption. apply cong_mul_l; assumption.
Qed.
Lemma cong_small a b : u16 a -> u16 b -> cong a b -> a = b.
Proof.
  intros A B (q & Q & E). apply Z.lxor_eq. assert (U := u16_lxor a b A B).
  destruct (Z.eq_dec q 0) as [->|Nq]; [rewrite clmul_0_l in E; exact E|].
  destruct (clmul_degree q modulus ltac:(lia) ltac:(reflexivity)) as [P L]. rewrite <- E in P, L.
  change (Z.log2 modulus) with 16 in L. assert (Hq := Z.log2_nonneg q).
  assert (Z.log2 (Z.lxor a b) < 16); [|lia]. apply Z.log2_lt_pow2; [exact P|]. unfold u16 in U. change (2 ^ 16) with 65536. lia.
Qed.
Lemma is_rem_cong a r : is_rem a r <-> u16 r /\ cong a r.
Proof.
  unfold is_rem, cong. split; intros (U & q & Q & E); (split; [exact U|]); exists q; (split; [exact Q|]).
  - rewrite E, Z.lxor_assoc, Z.lxor_nilpotent, Z.lxor_0_r. reflexivity.
  - rewrite <- E, Z.lxor_assoc, Z.lxor_nilpotent, Z.lxor_0_r. reflexivity.
Qed.
Lemma rem_unique a r s : is_rem a r -> is_rem a s -> r = s.
Proof.
  rewrite !is_rem_cong. intros [U C] [V D]. apply cong_small; [exact U|exact V|].
  eapply cong_trans; [apply cong_sym, C|exact D].
Qed.

(** ** The orbit of the tables *)
Lemma gstep_ok b : u16 b -> u16 (gstep b) /\ cong (clmul 2 b) (gstep b).
Proof.
  intros U. unfold gstep. rewrite <- dbl.
  assert (E : clmul 2 b = 2 * b).
  { change 2 with (2 * 1) at 1. rewrite clmul_dbl_l, clmul_1_l by (unfold u16 in U; lia). reflexivity. }
  rewrite E. destruct (Z.testbit (2 * b) 16) eqn:T.
  - assert (H : exists m, 2 * b = Z.lxor 65536 m /\ u16 m).
    { exists (Z.lxor 65536 (2 * b)). rewrite <- Z.lxor_assoc, Z.lxor_nilpotent, Z.lxor_0_l. split; [reflexivity|].
      assert (N : 0 <= Z.lxor 65536 (2 * b)) by (apply lxor_nonneg_l; unfold u16 in U; lia).
      unfold u16. split; [exact N|]. destruct (Z.eq_dec (Z.lxor 65536 (2 * b)) 0) as [->|Nz]; [lia|].
      change 65536 with (2 ^ 16) at 2. apply Z.log2_lt_pow2; [lia|].
      destruct (Z_lt_le_dec (Z.log2 (Z.lxor 65536 (2 * b))) 16) as [L|L]; [exact L|exfalso].
      assert (T2 := Z.bit_log2 (Z.lxor 65536 (2 * b)) ltac:(lia)). rewrite Z.lxor_spec in T2.
      set (n := Z.log2 (Z.lxor 65536 (2 * b))) in *. change 65536 with (2 ^ 16) in T2.
      destruct (Z.eq_dec n 16) as [->|Nn].
      - rewrite T in T2. rewrite Z.pow2_bits_true in T2 by lia. discriminate T2.
      - rewrite Z.pow2_bits_false in T2 by lia. rewrite xorb_false_l in T2.
        rewrite Z.bits_above_log2 in T2; [discriminate T2|unfold u16 in U; lia|].
        destruct (Z.eq_dec b 0) as [->|Nb]; [change (Z.log2 (2 * 0)) with 0; lia|].
        rewrite Z.log2_double by (unfold u16 in U; lia).
        assert (Z.log2 b < 16) by (apply Z.log2_lt_pow2; [unfold u16 in U; lia|change (2 ^ 16) with 65536; unfold u16 in U; lia]). lia. }
    destruct H as (m & -> & Um). split.
    + rewrite (Z.lxor_comm 65536 m), Z.lxor_assoc. apply u16_lxor; [exact Um|]. change (Z.lxor 65536 69643) with 4107. unfold u16; lia.
    + exists 1. split; [lia|]. rewrite clmul_1_l by discriminate. rewrite <- Z.lxor_assoc, Z.lxor_nilpotent, Z.lxor_0_l. reflexivity.
  - split; [|apply cong_refl]. unfold u16 in *. split; [lia|].
    destruct (Z_lt_le_dec (2 * b) 65536) as [L|L]; [exact L|exfalso].
    assert (Lg : Z.log2 (2 * b) = 16).
    { apply Z.log2_unique; [lia|]. change (2 ^ 16) with 65536. change (2 ^ Z.succ 16) with 131072. lia. }
    assert (T2 := Z.bit_log2 (2 * b) ltac:(lia)). rewrite Lg in T2. congruence.
Qed.

Definition ga (n : nat) : Z := Nat.iter n gstep 1.
Lemma ga_S n : ga (S n) = gstep (ga n). Proof. reflexivity. Qed.
Lemma ga_u16 n : u16 (ga n).
Proof. induction n as [|n IH]; [unfold u16, ga; cbn; lia|]. rewrite ga_S. apply gstep_ok, IH. Qed.
Lemma clpow_nonneg a n : 0 <= a -> 0 <= clpow a n.
Proof. intros A. induction n as [|n IH]; cbn [clpow]; [lia|apply clmul_nonneg; assumption]. Qed.
Lemma clpow_add a n m : 0 <= a -> clpow a (n + m) = clmul (clpow a n) (clpow a m).
Proof.
  intros A. induction n as [|n IH]; cbn [clpow Nat.add].
  - symmetry. apply clmul_1_l, clpow_nonneg, A.
  - rewrite IH. symmetry. apply clmul_assoc; apply clpow_nonneg, A.
Qed.
Lemma ga_cong n : cong (clpow 2 n) (ga n).
Proof.
  induction n as [|n IH]; [apply cong_refl|]. rewrite ga_S. cbn [clpow].
  eapply cong_trans; [|apply gstep_ok, ga_u16].
  apply cong_mul; try lia; [apply clpow_nonneg; lia|apply ga_u16|apply cong_refl|exact IH].
Qed.
Lemma iter_add {A} (f : A -> A) n m x : Nat.iter (n + m) f x = Nat.iter n f (Nat.iter m f x).
Proof. induction n as [|n IH]; [reflexivity|]. cbn [Nat.add Nat.iter]. cbn. f_equal. exact IH. Qed.
Lemma ga_add n m : ga (n + m) = Nat.iter n gstep (ga m).
Proof. apply iter_add. Qed.

Notation K := (Z.to_nat 65535).
Fixpoint none_one (n : nat) (b : Z) : bool :=
  match n with O => true | S n' => negb (b =? 1) && none_one n' (gstep b) end.
Lemma none_one_ok n : forall b, none_one n b = true -> forall i, (i < n)%nat -> Nat.iter i gstep b <> 1.
Proof.
  induction n as [|n IH]; intros b H i L; [lia|]. cbn [none_one] in H. apply andb_prop in H as [H1 H2].
  destruct i as [|i]; [cbn; apply negb_true_iff in H1; lia|].
  replace (S i) with (i + 1)%nat by lia. rewrite iter_add. apply IH; [exact H2|lia].
Qed.
Lemma period : ga K = 1.
Proof. vm_compute. reflexivity. Qed.
Lemma order_check : none_one (Z.to_nat 65534) (gstep 1) = true.
Proof. vm_compute. reflexivity. Qed.
Lemma order i : (0 < i < K)%nat -> ga i <> 1.
Proof.
  intros H. destruct i as [|i]; [lia|]. replace (S i) with (i + 1)%nat by lia. rewrite ga_add.
  apply (none_one_ok _ _ order_check). lia.
Qed.
Lemma ga_period n m : ga (n + m * K) = ga n.
Proof.
  induction m as [|m IH]; [f_equal; lia|]. cbn [Nat.mul].
  replace (n + (K + m * K))%nat with ((n + m * K) + K)%nat by lia. rewrite ga_add, period. exact IH.
Qed.
Lemma ga_inj i j : (i < K)%nat -> (j < K)%nat -> ga i = ga j -> i = j.
Proof.
  assert (W : forall i j, (i < j)%nat -> (j < K)%nat -> ga i = ga j -> False).
  { intros a b L1 L2 E. assert (E2 : ga (K - a + a) = ga (K - a + b)) by (rewrite !ga_add, E; reflexivity).
    replace (K - a + a)%nat with K in E2 by lia. rewrite period in E2.
    replace (K - a + b)%nat with ((b - a) + 1 * K)%nat in E2 by lia. rewrite ga_period in E2.
    symmetry in E2. revert E2. apply order. lia. }
  intros Hi Hj E. destruct (Nat.lt_trichotomy i j) as [L|[L|L]]; [exfalso; eauto|exact L|exfalso; eauto].
Qed.
Lemma ga_nonzero n : ga n <> 0.
Proof.
  intros E. assert (Z0 : forall m, Nat.iter m gstep 0 = 0).
  { induction m as [|m IH]; [reflexivity|]. change (Nat.iter (S m) gstep 0) with (gstep (Nat.iter m gstep 0)). rewrite IH. reflexivity. }
  assert (ga ((K - n mod K) + n) = 0) by (rewrite ga_add, E; apply Z0).
  assert (Kn : K <> 0%nat) by (intros F; apply (f_equal Z.of_nat) in F; rewrite Z2Nat.id in F by lia; lia).
  assert (D := Nat.div_mod n K Kn). assert (B := Nat.mod_upper_bound n K Kn).
  assert (Q : (K - n mod K + n = 0 + S (n / K) * K)%nat) by (cbn [Nat.mul]; rewrite (Nat.mul_comm (n / K) K); lia).
  rewrite Q, ga_period in H. discriminate H.
Qed.
Lemma nodup_map_in {A B} (f : A -> B) l : (forall x y, In x l -> In y l -> f x = f y -> x = y) -> NoDup l -> NoDup (map f l).
Proof.
  intros H N. induction N as [|x l Hx N IH]; cbn [map]; constructor.
  - intros F. apply in_map_iff in F as (y & E & Hy). apply H in E; [subst; contradiction|right; exact Hy|left; reflexivity].
  - apply IH. intros a b Ha Hb. apply H; right; assumption.
Qed.
Lemma ga_surj v : u16 v -> v <> 0 -> exists i, (i < K)%nat /\ ga i = v.
Proof.
  intros U N. set (l := map ga (seq 0 K)). set (r := map Z.of_nat (seq 1 K)).
  assert (ND : NoDup l).
  { unfold l. apply nodup_map_in; [|apply seq_NoDup].
    intros x y Hx Hy. apply in_seq in Hx, Hy. apply ga_inj; lia. }
  assert (I : incl l r).
  { intros x Hx. apply in_map_iff in Hx as (i & <- & _). apply in_map_iff. exists (Z.to_nat (ga i)).
    assert (Ui := ga_u16 i). assert (Ni := ga_nonzero i). unfold u16 in Ui. split; [lia|]. apply in_seq. lia. }
  assert (L : (length r <= length l)%nat) by (unfold l, r; rewrite !map_length, !seq_length; lia).
  assert (In v l).
  { apply (NoDup_length_incl ND L I). apply in_map_iff. exists (Z.to_nat v). unfold u16 in U. split; [lia|]. apply in_seq. lia. }
  apply in_map_iff in H as (i & E & Hi). apply in_seq in Hi. exists i. split; [lia|exact E].
Qed.

(** ** The tables *)
Lemma gset_same f k v : gset f k v k = v.
Proof. unfold gset. rewrite Z.eqb_refl. reflexivity. Qed.
Lemma gset_other f k v x : x <> k -> gset f k v x = f x.
Proof. intros H. unfold gset. replace (x =? k) with false by lia. reflexivity. Qed.
Lemma gtab_keep n : forall l b log alog x y,
  (forall i, (i < n)%nat -> Nat.iter i gstep b <> x) -> y < l ->
  fst (gtab_loop n l b log alog) x = log x /\ snd (gtab_loop n l b log alog) y = alog y.
Proof.
  induction n as [|n IH]; intros l b log alog x y H L; cbn [gtab_loop]; [split; reflexivity|].
  destruct (IH (l + 1) (gstep b) (gset log b l) (gset alog l b) x y) as [-> ->]; [|lia|].
  - intros i Hi. assert (E := H (i + 1)%nat ltac:(lia)). rewrite iter_add in E. exact E.
  - rewrite !gset_other; [split; reflexivity|lia|]. intros ->. apply (H 0%nat); [lia|reflexivity].
Qed.
Lemma gtab_ok n : forall l b log alog i, (i < n)%nat ->
  (forall i j, (i < n)%nat -> (j < n)%nat -> Nat.iter i gstep b = Nat.iter j gstep b -> i = j) ->
  fst (gtab_loop n l b log alog) (Nat.iter i gstep b) = l + Z.of_nat i /\
  snd (gtab_loop n l b log alog) (l + Z.of_nat i) = Nat.iter i gstep b.
Proof.
  induction n as [|n IH]; intros l b log alog i Hi D; [lia|]. cbn [gtab_loop]. destruct i as [|i].
  - cbn [Nat.iter]. change (Nat.iter 0 gstep b) with b. replace (l + Z.of_nat 0) with l by lia.
    destruct (gtab_keep n (l + 1) (gstep b) (gset log b l) (gset alog l b) b l) as [-> ->]; [|lia|].
    + intros i L E. assert (i + 1 = 0)%nat; [|lia]. apply D; [lia|lia|]. rewrite iter_add. exact E.
    + rewrite !gset_same. split; reflexivity.
  - replace (S i) with (i + 1)%nat by lia. rewrite iter_add. change (Nat.iter 1 gstep b) with (gstep b).
    replace (l + Z.of_nat (i + 1)) with (l + 1 + Z.of_nat i) by lia. apply IH; [lia|].
    intros a c La Lc E. assert (a + 1 = c + 1)%nat; [|lia]. apply D; [lia|lia|]. rewrite !iter_add. exact E.
Qed.
Lemma gtables_eq : gtables = (gset (fst (gtab_loop K 0 1 (fun _ => 0) (fun _ => 0))) 0 65535,
                              gset (snd (gtab_loop K 0 1 (fun _ => 0) (fun _ => 0))) 65535 0).
Proof. unfold gtables. destruct (gtab_loop _ _ _ _ _). reflexivity. Qed.
Lemma glog_ga i : (i < K)%nat -> glog (ga i) = Z.of_nat i.
Proof.
  intros H. unfold glog. rewrite gtables_eq. cbn [fst]. rewrite gset_other by apply ga_nonzero.
  destruct (gtab_ok K 0 1 (fun _ => 0) (fun _ => 0) i H ga_inj) as [E _]. unfold ga. rewrite E. apply Z.add_0_l.
Qed.
Lemma galog_ga i : (i < K)%nat -> galog (Z.of_nat i) = ga i.
Proof.
  intros H. unfold galog. rewrite gtables_eq. cbn [snd]. rewrite gset_other by lia.
  destruct (gtab_ok K 0 1 (fun _ => 0) (fun _ => 0) i H ga_inj) as [_ E]. rewrite Z.add_0_l in E. exact E.
Qed.
Lemma glog_0 : glog 0 = 65535.
Proof. unfold glog. rewrite gtables_eq. cbn [fst]. rewrite gset_same. reflexivity. Qed.
Lemma galog_limit : galog 65535 = 0.
Proof. unfold galog. rewrite gtables_eq. cbn [snd]. rewrite gset_same. reflexivity. Qed.
Global Opaque glog galog gtables.
Lemma glog_range a : u16 a -> a <> 0 -> 0 <= glog a < 65535 /\ galog (glog a) = a.
Proof.
  intros U N. destruct (ga_surj a U N) as (i & Hi & <-). rewrite (glog_ga i Hi), (galog_ga i Hi). split; [lia|reflexivity].
Qed.

(** ** Operations *)
Lemma gmul_ga i j : (i < K)%nat -> (j < K)%nat -> gmul (ga i) (ga j) = ga (i + j).
Proof.
  intros Hi Hj. unfold gmul. assert (Ni := ga_nonzero i). assert (Nj := ga_nonzero j).
  replace (ga i =? 0) with false by lia. replace (ga j =? 0) with false by lia. cbn [orb].
  rewrite (glog_ga i Hi), (glog_ga j Hj). destruct (65535 <=? Z.of_nat i + Z.of_nat j) eqn:E.
  - replace (Z.of_nat i + Z.of_nat j - 65535) with (Z.of_nat (i + j - K)) by lia. rewrite galog_ga by lia.
    replace (i + j)%nat with ((i + j - K) + 1 * K)%nat at 2 by lia. symmetry. apply ga_period.
  - replace (Z.of_nat i + Z.of_nat j) with (Z.of_nat (i + j)) by lia. apply galog_ga. lia.
Qed.
Lemma gmul_ok a b : u16 a -> u16 b -> is_rem (clmul a b) (gmul a b).
Proof.
  intros A B. apply is_rem_cong. destruct (Z.eq_dec a 0) as [->|Na].
  { unfold gmul. change (0 =? 0) with true. cbn [orb]. rewrite clmul_0_l. split; [unfold u16; lia|apply cong_refl]. }
  destruct (Z.eq_dec b 0) as [->|Nb].
  { unfold gmul. change (0 =? 0) with true. rewrite orb_true_r, clmul_0_r. split; [unfold u16; lia|apply cong_refl]. }
  destruct (ga_surj a A Na) as (i & Hi & <-). destruct (ga_surj b B Nb) as (j & Hj & <-).
  rewrite gmul_ga by assumption. split; [apply ga_u16|].
  eapply cong_trans; [|apply ga_cong]. rewrite clpow_add by lia. apply cong_sym.
  apply cong_mul; try apply clpow_nonneg; try apply ga_u16; try lia; apply ga_cong.
Qed.
Lemma gmul_u16 a b : u16 a -> u16 b -> u16 (gmul a b).
Proof. intros A B. apply (proj1 (gmul_ok a b A B)). Qed.
Lemma u16_nonneg a : u16 a -> 0 <= a. Proof. unfold u16. lia. Qed.
Lemma gmul_cong a b : u16 a -> u16 b -> cong (clmul a b) (gmul a b).
Proof. intros A B. apply is_rem_cong, gmul_ok; assumption. Qed.
Lemma gmul_comm a b : u16 a -> u16 b -> gmul a b = gmul b a.
Proof.
  intros A B. apply cong_small; try (apply gmul_u16; assumption).
  eapply cong_trans; [apply cong_sym, gmul_cong; assumption|].
  rewrite clmul_comm by (apply u16_nonneg; assumption). apply gmul_cong; assumption.
Qed.
Lemma gmul_assoc a b c : u16 a -> u16 b -> u16 c -> gmul (gmul a b) c = gmul a (gmul b c).
Proof.
  intros A B C. assert (AB := gmul_u16 a b A B). assert (BC := gmul_u16 b c B C).
  assert (A0 := u16_nonneg a A). assert (B0 := u16_nonneg b B). assert (C0 := u16_nonneg c C).
  apply cong_small; try (apply gmul_u16; assumption).
  eapply cong_trans; [apply cong_sym, gmul_cong; assumption|].
  eapply cong_trans; [apply cong_mul_l; [exact C0|apply cong_sym, gmul_cong; assumption]|].
  rewrite clmul_assoc by assumption.
  eapply cong_trans; [|apply gmul_cong; assumption].
  apply cong_mul; try apply clmul_nonneg; try assumption; try (apply u16_nonneg; assumption); [apply cong_refl|apply gmul_cong; assumption].
Qed.
Lemma gmul_add_r a b c : u16 a -> u16 b -> u16 c -> gmul a (gadd b c) = gadd (gmul a b) (gmul a c).
Proof.
  intros A B C. unfold gadd. assert (BC := u16_lxor b c B C).
  apply cong_small; try (apply gmul_u16; assumption); [apply u16_lxor; apply gmul_u16; assumption|].
  eapply cong_trans; [apply cong_sym, gmul_cong; assumption|].
  rewrite clmul_lin_r by (apply u16_nonneg; assumption). apply cong_add; apply gmul_cong; assumption.
Qed.
Lemma gmul_add_l a b c : u16 a -> u16 b -> u16 c -> gmul (gadd a b) c = gadd (gmul a c) (gmul b c).
Proof.
  intros A B C. rewrite (gmul_comm (gadd a b) c) by (try exact C; apply u16_lxor; assumption).
  rewrite gmul_add_r by assumption. f_equal; apply gmul_comm; assumption.
Qed.
Lemma gmul_1_l a : u16 a -> gmul 1 a = a.
Proof.
  intros A. apply cong_small; [apply gmul_u16; [unfold u16; lia|exact A]|exact A|].
  eapply cong_trans; [apply cong_sym, gmul_cong; [unfold u16; lia|exact A]|].
  rewrite clmul_1_l by (apply u16_nonneg, A). apply cong_refl.
Qed.
Lemma gmul_0_l a : gmul 0 a = 0. Proof. reflexivity. Qed.
Lemma gmul_0_r a : gmul a 0 = 0. Proof. unfold gmul. rewrite orb_true_r. reflexivity. Qed.
Lemma gmul_nonzero a b : u16 a -> u16 b -> a <> 0 -> b <> 0 -> gmul a b <> 0.
Proof.
  intros A B Na Nb. destruct (ga_surj a A Na) as (i & Hi & <-). destruct (ga_surj b B Nb) as (j & Hj & <-).
  rewrite gmul_ga by assumption. apply ga_nonzero.
Qed.

Lemma gdiv_ok a b : u16 a -> u16 b -> b <> 0 -> exists q, gdiv a b = Some q /\ u16 q /\ gmul q b = a.
Proof.
  intros A B Nb. unfold gdiv. destruct (a =? 0) eqn:Ea.
  - exists 0. split; [reflexivity|]. split; [unfold u16; lia|]. rewrite gmul_0_l. lia.
  - replace (b =? 0) with false by lia. destruct (ga_surj a A ltac:(lia)) as (i & Hi & <-).
    destruct (ga_surj b B Nb) as (j & Hj & <-). rewrite (glog_ga i Hi), (glog_ga j Hj).
    assert (E : (if Z.of_nat i - Z.of_nat j <? 0 then galog (Z.of_nat i - Z.of_nat j + 65535) else galog (Z.of_nat i - Z.of_nat j))
                = ga (if (i <? j)%nat then i + K - j else i - j)).
    { destruct (i <? j)%nat eqn:L.
      - apply Nat.ltb_lt in L. replace (Z.of_nat i - Z.of_nat j <? 0) with true by lia.
        rewrite <- galog_ga by lia. f_equal. lia.
      - apply Nat.ltb_ge in L. replace (Z.of_nat i - Z.of_nat j <? 0) with false by lia.
        rewrite <- galog_ga by lia. f_equal. lia. }
    eexists. split; [reflexivity|]. rewrite E. split; [apply ga_u16|].
    rewrite gmul_ga; [|destruct (i <? j)%nat eqn:L; [apply Nat.ltb_lt in L|apply Nat.ltb_ge in L]; lia|exact Hj].
    destruct (i <? j)%nat eqn:L; [apply Nat.ltb_lt in L|apply Nat.ltb_ge in L].
    + replace (i + K - j + j)%nat with (i + 1 * K)%nat by lia. apply ga_period.
    + f_equal. lia.
Qed.
Lemma gmul_cancel a b c : u16 a -> u16 b -> u16 c -> c <> 0 -> gmul a c = gmul b c -> a = b.
Proof.
  intros A B C N E. apply Z.lxor_eq. destruct (Z.eq_dec (Z.lxor a b) 0) as [H|H]; [exact H|exfalso].
  assert (U := u16_lxor a b A B). apply (gmul_nonzero _ c U C H N).
  change (Z.lxor a b) with (gadd a b). rewrite gmul_add_l by assumption. rewrite E. apply Z.lxor_nilpotent.
Qed.

(** Powers. *)
Lemma ga_mod i m : Z.of_nat i mod 65535 = Z.of_nat m mod 65535 -> ga i = ga m.
Proof.
  assert (R : forall n, ga n = ga (Z.to_nat (Z.of_nat n mod 65535))).
  { intros n. assert (D := Z.div_mod (Z.of_nat n) 65535 ltac:(lia)). assert (B := Z.mod_pos_bound (Z.of_nat n) 65535 ltac:(lia)).
    rewrite <- (ga_period (Z.to_nat (Z.of_nat n mod 65535)) (Z.to_nat (Z.of_nat n / 65535))). f_equal. nia. }
  intros E. rewrite (R i), (R m), E. reflexivity.
Qed.
Lemma clpow_ga i n : cong (clpow (ga i) n) (ga (i * n)).
Proof.
  induction n as [|n IH]; cbn [clpow].
  - rewrite Nat.mul_0_r. apply cong_refl.
  - eapply cong_trans; [|apply ga_cong]. replace (i * S n)%nat with (i + i * n)%nat by lia. rewrite clpow_add by lia.
    apply cong_mul; try (apply clpow_nonneg; try lia); try (apply u16_nonneg, ga_u16).
    + apply cong_sym, ga_cong.
    + eapply cong_trans; [exact IH|apply cong_sym, ga_cong].
Qed.
Lemma gpow_index_ok a n : 0 <= glog a < 65535 -> 0 <= n < 65536 ->
  0 <= gpow_index a n < 65535 /\ gpow_index a n mod 65535 = (glog a * n) mod 65535.
Proof.
  intros L N. unfold gpow_index. set (p := glog a * n).
  assert (P : 0 <= p <= 65534 * 65535) by (unfold p; nia).
  rewrite Z.mod_small by (change (2 ^ 32) with 4294967296; lia). rewrite Z.shiftr_div_pow2 by lia.
  assert (LO : Z.land p 65535 = p mod 65536) by (change 65535 with (Z.ones 16); rewrite Z.land_ones by lia; reflexivity).
  cbv zeta. rewrite LO. change (2 ^ 16) with 65536. clear LO.
  assert (D := Z.div_mod p 65536 ltac:(lia)). assert (B := Z.mod_pos_bound p 65536 ltac:(lia)).
  set (h := p / 65536) in *. set (w := p mod 65536) in *. clearbody h w p.
  assert (H : 0 <= h <= 65533) by lia.
  destruct (65535 <=? h + w) eqn:E; (split; [lia|]).
  - replace p with ((h + w - 65535) + (h + 1) * 65535) by lia. rewrite Z.mod_add by lia. reflexivity.
  - replace p with ((h + w) + h * 65535) by lia. rewrite Z.mod_add by lia. reflexivity.
Qed.
Lemma gpow_ok a n : u16 a -> 0 <= n < 65536 -> is_rem (clpow a (Z.to_nat n)) (gpow a n).
Proof.
  intros A N. apply is_rem_cong. unfold gpow. destruct (n =? 0) eqn:En.
  { replace (Z.to_nat n) with 0%nat by lia. split; [unfold u16; lia|apply cong_refl]. }
  destruct (a =? 0) eqn:Ea.
  { replace a with 0 by lia. destruct (Z.to_nat n) as [|m] eqn:Em; [lia|]. cbn [clpow]. rewrite clmul_0_l.
    split; [unfold u16; lia|apply cong_refl]. }
  destruct (ga_surj a A ltac:(lia)) as (i & Hi & <-).
  assert (Li := glog_ga i Hi). destruct (gpow_index_ok (ga i) n) as [R M]; [lia|lia|].
  rewrite <- (Z2Nat.id (gpow_index (ga i) n)) by lia. rewrite galog_ga by lia. split; [apply ga_u16|].
  eapply cong_trans; [apply clpow_ga|]. rewrite (ga_mod _ (Z.to_nat (gpow_index (ga i) n))); [apply cong_refl|].
  rewrite Z2Nat.id by lia. rewrite M, Li. f_equal. lia.
Qed.
