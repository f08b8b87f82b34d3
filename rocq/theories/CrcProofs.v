From Verif Require Import Base CrcModel CrcSpec.

Definition u32 (x : Z) : Prop := 0 <= x < 2 ^ 32.

Lemma lxor_swap a b c : Z.lxor a (Z.lxor b c) = Z.lxor b (Z.lxor a c).
Proof. rewrite <- !Z.lxor_assoc. f_equal. apply Z.lxor_comm. Qed.

Lemma odd_lxor a b : Z.odd (Z.lxor a b) = xorb (Z.odd a) (Z.odd b).
Proof. rewrite <- !Z.bit0_odd. apply Z.lxor_spec. Qed.

Lemma crc_bit_lin a b : crc_bit (Z.lxor a b) = Z.lxor (crc_bit a) (crc_bit b).
Proof.
  unfold crc_bit. rewrite odd_lxor, Z.shiftr_lxor.
  destruct (Z.odd a), (Z.odd b); simpl xorb; cbn iota.
  - symmetry. rewrite Z.lxor_assoc. rewrite (lxor_swap poly).
    rewrite Z.lxor_nilpotent, Z.lxor_0_r. reflexivity.
  - rewrite !Z.lxor_assoc. f_equal. apply Z.lxor_comm.
  - rewrite Z.lxor_assoc. reflexivity.
  - reflexivity.
Qed.

Lemma crc_bit_0 : crc_bit 0 = 0. Proof. reflexivity. Qed.

Lemma crc_bits_lin n a b : crc_bits n (Z.lxor a b) = Z.lxor (crc_bits n a) (crc_bits n b).
Proof. revert a b; induction n as [|n IH]; intros a b; cbn [crc_bits]; [reflexivity|].
  rewrite crc_bit_lin. apply IH. Qed.

Lemma crc_bits_0 n : crc_bits n 0 = 0.
Proof. induction n as [|n IH]; cbn [crc_bits]; [reflexivity|]. rewrite crc_bit_0. exact IH. Qed.

Lemma crc_bits_add n m x : crc_bits (n + m) x = crc_bits m (crc_bits n x).
Proof. revert x; induction n as [|n IH]; intros x; cbn [crc_bits plus]; auto. Qed.

Lemma u32_bits x : u32 x <-> (0 <= x /\ forall i, 32 <= i -> Z.testbit x i = false).
Proof.
  unfold u32. split.
  - intros [H0 H]. split; [assumption|]. intros i Hi. rewrite Z.testbit_false by lia.
    rewrite Z.div_small; [reflexivity|]. split; [lia|].
    apply Z.lt_le_trans with (2 ^ 32); [lia|]. apply Z.pow_le_mono_r; lia.
  - intros [H0 H]. split; [assumption|].
    destruct (Z.eq_dec x 0) as [->|Hx]; [reflexivity|].
    apply Z.log2_lt_pow2; [lia|].
    destruct (Z_lt_ge_dec (Z.log2 x) 32) as [|Hge]; [assumption|].
    exfalso. assert (Hc := Z.bit_log2 x ltac:(lia)). rewrite H in Hc by lia. discriminate.
Qed.

Lemma u32_lxor a b : u32 a -> u32 b -> u32 (Z.lxor a b).
Proof.
  rewrite !u32_bits. intros [Ha Ha'] [Hb Hb']. split.
  - apply Z.lxor_nonneg. tauto.
  - intros i Hi. rewrite Z.lxor_spec, Ha', Hb' by lia. reflexivity.
Qed.

Lemma u32_shiftr a n : u32 a -> 0 <= n -> u32 (Z.shiftr a n).
Proof.
  rewrite !u32_bits. intros [Ha Ha'] Hn. split.
  - apply Z.shiftr_nonneg. assumption.
  - intros i Hi. rewrite Z.shiftr_spec by lia. apply Ha'. lia.
Qed.

Lemma u32_poly : u32 poly. Proof. unfold u32, poly; lia. Qed.

Lemma u32_crc_bit r : u32 r -> u32 (crc_bit r).
Proof.
  intros H. unfold crc_bit. destruct (Z.odd r).
  - apply u32_lxor; [apply u32_shiftr; [assumption|lia] | apply u32_poly].
  - apply u32_shiftr; [assumption|lia].
Qed.

Lemma u32_crc_bits n r : u32 r -> u32 (crc_bits n r).
Proof. revert r; induction n as [|n IH]; intros r H; cbn [crc_bits]; auto using u32_crc_bit. Qed.

(** Shifting out zero bits is just a shift. *)
Lemma crc_bit_shiftl x : crc_bit (Z.shiftl x 1) = x.
Proof.
  unfold crc_bit. rewrite <- Z.bit0_odd.
  rewrite Z.shiftl_spec_low by lia. cbn iota.
  rewrite Z.shiftr_shiftl_l by lia. simpl. apply Z.shiftl_0_r.
Qed.

Lemma crc_bits_shiftl n x : crc_bits n (Z.shiftl x (Z.of_nat n)) = x.
Proof.
  revert x; induction n as [|n IH]; intros x; cbn [crc_bits]; [apply Z.shiftl_0_r|].
  replace (Z.of_nat (S n)) with (Z.of_nat n + 1) by lia.
  rewrite <- Z.shiftl_shiftl by lia. rewrite crc_bit_shiftl. apply IH.
Qed.

(** Table contents. *)
Lemma tab_sweep t n :
  forallb (fun i => tab t i =? crc_bits n i) all_bytes = true ->
  forall i, is_byte i -> tab t i = crc_bits n i.
Proof. intros H i Hi. apply Z.eqb_eq. exact (byte_sweep _ H i Hi). Qed.

Lemma tab0_ok i : is_byte i -> tab crc32_tab0 i = crc_bits 8 i.
Proof. apply tab_sweep. vm_compute. reflexivity. Qed.
Lemma tab1_ok i : is_byte i -> tab crc32_tab1 i = crc_bits 16 i.
Proof. apply tab_sweep. vm_compute. reflexivity. Qed.
Lemma tab2_ok i : is_byte i -> tab crc32_tab2 i = crc_bits 24 i.
Proof. apply tab_sweep. vm_compute. reflexivity. Qed.
Lemma tab3_ok i : is_byte i -> tab crc32_tab3 i = crc_bits 32 i.
Proof. apply tab_sweep. vm_compute. reflexivity. Qed.

Lemma land_ff x : Z.land x 0xFF = x mod 256.
Proof. change 0xFF with (Z.ones 8). rewrite Z.land_ones by lia. reflexivity. Qed.

Lemma is_byte_land x : is_byte (Z.land x 0xFF).
Proof. rewrite land_ff. unfold is_byte. lia. Qed.

Lemma split_low x : x = Z.lxor (Z.land x 0xFF) (Z.shiftl (Z.shiftr x 8) 8).
Proof.
  apply Z.bits_inj'. intros i Hi. rewrite Z.lxor_spec, Z.land_spec.
  change 0xFF with (Z.ones 8).
  destruct (Z_lt_ge_dec i 8).
  - rewrite Z.ones_spec_low by lia. rewrite Z.shiftl_spec_low by lia.
    rewrite andb_true_r, xorb_false_r. reflexivity.
  - rewrite Z.ones_spec_high by lia. rewrite Z.shiftl_spec by lia.
    rewrite Z.shiftr_spec by lia. rewrite andb_false_r, xorb_false_l. f_equal. lia.
Qed.

Lemma crc_bits8_split x : crc_bits 8 x = Z.lxor (Z.shiftr x 8) (crc_bits 8 (Z.land x 0xFF)).
Proof.
  rewrite (split_low x) at 1. rewrite crc_bits_lin.
  change 8 with (Z.of_nat 8) at 3. rewrite crc_bits_shiftl. apply Z.lxor_comm.
Qed.

Lemma land_low24 crc : u32 crc -> Z.land (Z.shiftr crc 8) 0x00FFFFFF = Z.shiftr crc 8.
Proof.
  intros H. change 0x00FFFFFF with (Z.ones 24). rewrite Z.land_ones by lia.
  apply Z.mod_small. rewrite Z.shiftr_div_pow2 by lia. unfold u32 in H. lia.
Qed.

Lemma shiftr_byte b : is_byte b -> Z.shiftr b 8 = 0.
Proof. intros H. rewrite Z.shiftr_div_pow2 by lia. apply Z.div_small. unfold is_byte in H; lia. Qed.

Lemma crc_table_byte_ok crc b : u32 crc -> is_byte b -> crc_table_byte crc b = crc_byte crc b.
Proof.
  intros Hc Hb. unfold crc_table_byte, crc_byte.
  rewrite land_low24 by assumption. rewrite tab0_ok by apply is_byte_land.
  rewrite (crc_bits8_split (Z.lxor crc b)). rewrite Z.shiftr_lxor, (shiftr_byte b Hb).
  rewrite Z.lxor_0_r. reflexivity.
Qed.

Lemma u32_byte b : is_byte b -> u32 b.
Proof. unfold is_byte, u32; lia. Qed.

Lemma u32_crc_byte crc b : u32 crc -> is_byte b -> u32 (crc_byte crc b).
Proof. intros. apply u32_crc_bits, u32_lxor; auto using u32_byte. Qed.

Lemma u32_crc_reg l : forall r, u32 r -> bytes_ok l -> u32 (crc_reg r l).
Proof.
  induction l as [|b l IH]; intros r Hr Hl; [exact Hr|].
  inversion Hl; subst. apply IH; auto using u32_crc_byte.
Qed.

Lemma fold_table_ok l : forall crc, u32 crc -> bytes_ok l ->
  fold_left crc_table_byte l crc = crc_reg crc l.
Proof.
  induction l as [|b l IH]; intros crc Hc Hl; [reflexivity|].
  inversion Hl; subst. cbn [fold_left]. rewrite crc_table_byte_ok by assumption.
  apply IH; auto using u32_crc_byte.
Qed.

Lemma lor_lxor_disjoint a b : Z.land a b = 0 -> Z.lor a b = Z.lxor a b.
Proof. intros H. symmetry. apply Z.lxor_lor, H. Qed.

Lemma land_low_shiftl a b n : 0 <= n -> 0 <= a < 2 ^ n -> Z.land a (Z.shiftl b n) = 0.
Proof.
  intros Hn Ha. apply Z.bits_inj'. intros i Hi. rewrite Z.land_spec, Z.bits_0.
  destruct (Z_lt_ge_dec i n).
  - rewrite Z.shiftl_spec_low by lia. apply andb_false_r.
  - assert (E : Z.testbit a i = false); [|rewrite E; reflexivity].
    rewrite Z.testbit_false by lia. rewrite Z.div_small.
    + reflexivity.
    + split; [lia|]. apply Z.lt_le_trans with (2 ^ n); [lia|]. apply Z.pow_le_mono_r; lia.
Qed.

Lemma le32_lxor b0 b1 b2 b3 :
  is_byte b0 -> is_byte b1 -> is_byte b2 -> is_byte b3 ->
  le32 b0 b1 b2 b3 =
  Z.lxor b0 (Z.lxor (Z.shiftl b1 8) (Z.lxor (Z.shiftl b2 16) (Z.shiftl b3 24))).
Proof.
  unfold is_byte; intros H0 H1 H2 H3. unfold le32.
  assert (E23 : Z.lor (Z.shiftl b2 16) (Z.shiftl b3 24) = Z.lxor (Z.shiftl b2 16) (Z.shiftl b3 24)).
  { apply lor_lxor_disjoint. apply land_low_shiftl; [lia|]. rewrite Z.shiftl_mul_pow2 by lia. lia. }
  assert (E123 : Z.lor (Z.shiftl b1 8) (Z.lxor (Z.shiftl b2 16) (Z.shiftl b3 24)) =
                 Z.lxor (Z.shiftl b1 8) (Z.lxor (Z.shiftl b2 16) (Z.shiftl b3 24))).
  { apply lor_lxor_disjoint.
    replace (Z.lxor (Z.shiftl b2 16) (Z.shiftl b3 24)) with (Z.shiftl (Z.lxor b2 (Z.shiftl b3 8)) 16).
    - apply land_low_shiftl; [lia|]. rewrite Z.shiftl_mul_pow2 by lia. lia.
    - rewrite Z.shiftl_lxor, Z.shiftl_shiftl by lia. reflexivity. }
  rewrite E23, E123. apply lor_lxor_disjoint.
  replace (Z.lxor (Z.shiftl b1 8) (Z.lxor (Z.shiftl b2 16) (Z.shiftl b3 24)))
    with (Z.shiftl (Z.lxor b1 (Z.lxor (Z.shiftl b2 8) (Z.shiftl b3 16))) 8).
  - apply land_low_shiftl; lia.
  - rewrite !Z.shiftl_lxor, !Z.shiftl_shiftl by lia. reflexivity.
Qed.

(** Four bytes with the bitwise algorithm: 32 bit steps of the xored word. *)
Lemma four_bytes crc b0 b1 b2 b3 :
  crc_reg crc [b0; b1; b2; b3] =
  crc_bits 32 (Z.lxor crc (Z.lxor b0 (Z.lxor (Z.shiftl b1 8) (Z.lxor (Z.shiftl b2 16) (Z.shiftl b3 24))))).
Proof.
  assert (S1 : forall x b, crc_byte (crc_bits 8 x) b = crc_bits 16 (Z.lxor x (Z.shiftl b 8))).
  { intros x b. unfold crc_byte. change 16%nat with (8 + 8)%nat. rewrite crc_bits_add.
    f_equal. rewrite crc_bits_lin. f_equal. symmetry. apply (crc_bits_shiftl 8). }
  assert (S2 : forall x b, crc_byte (crc_bits 16 x) b = crc_bits 24 (Z.lxor x (Z.shiftl b 16))).
  { intros x b. unfold crc_byte. change 24%nat with (16 + 8)%nat. rewrite crc_bits_add.
    f_equal. rewrite crc_bits_lin. f_equal. symmetry. apply (crc_bits_shiftl 16). }
  assert (S3 : forall x b, crc_byte (crc_bits 24 x) b = crc_bits 32 (Z.lxor x (Z.shiftl b 24))).
  { intros x b. unfold crc_byte. change 32%nat with (24 + 8)%nat. rewrite crc_bits_add.
    f_equal. rewrite crc_bits_lin. f_equal. symmetry. apply (crc_bits_shiftl 24). }
  unfold crc_reg. cbn [fold_left].
  change (crc_byte crc b0) with (crc_bits 8 (Z.lxor crc b0)).
  rewrite S1, S2, S3. f_equal. rewrite !Z.lxor_assoc. reflexivity.
Qed.

Lemma bits_part k n x : is_byte x ->
  crc_bits (n + k) (Z.shiftl x (Z.of_nat n)) = crc_bits k x.
Proof. intros _. rewrite crc_bits_add, crc_bits_shiftl. reflexivity. Qed.

Lemma word_split one : u32 one ->
  one = Z.lxor (Z.land one 0xFF)
       (Z.lxor (Z.shiftl (Z.land (Z.shiftr one 8) 0xFF) 8)
       (Z.lxor (Z.shiftl (Z.land (Z.shiftr one 16) 0xFF) 16)
               (Z.shiftl (Z.land (Z.shiftr one 24) 0xFF) 24))).
Proof.
  intros H.
  assert (E24 : Z.land (Z.shiftr one 24) 0xFF = Z.shiftr one 24).
  { rewrite land_ff. apply Z.mod_small. rewrite Z.shiftr_div_pow2 by lia. unfold u32 in H. lia. }
  rewrite E24.
  rewrite (split_low one) at 1. f_equal.
  rewrite (split_low (Z.shiftr one 8)) at 1. rewrite Z.shiftl_lxor. f_equal.
  rewrite Z.shiftr_shiftr by lia. simpl (8 + 8).
  rewrite (split_low (Z.shiftr one 16)) at 1. rewrite !Z.shiftl_lxor, !Z.shiftr_shiftr, !Z.shiftl_shiftl by lia.
  reflexivity.
Qed.

Lemma crc_slice4_ok crc b0 b1 b2 b3 :
  u32 crc -> is_byte b0 -> is_byte b1 -> is_byte b2 -> is_byte b3 ->
  crc_slice4 crc b0 b1 b2 b3 = crc_reg crc [b0; b1; b2; b3].
Proof.
  intros Hc H0 H1 H2 H3. rewrite four_bytes.
  rewrite <- le32_lxor by assumption.
  unfold crc_slice4. rewrite (Z.lxor_comm (le32 _ _ _ _) crc).
  set (one := Z.lxor crc (le32 b0 b1 b2 b3)).
  assert (Hone : u32 one).
  { apply u32_lxor; [assumption|]. rewrite le32_lxor by assumption.
    unfold is_byte in *.
    repeat apply u32_lxor; unfold u32; rewrite ?Z.shiftl_mul_pow2 by lia; lia. }
  cbv zeta.
  rewrite tab0_ok, tab1_ok, tab2_ok, tab3_ok by apply is_byte_land.
  rewrite (word_split one Hone) at 5.
  rewrite !crc_bits_lin.
  assert (P1 := bits_part 24 8 (Z.land (Z.shiftr one 8) 0xFF) (is_byte_land _)).
  assert (P2 := bits_part 16 16 (Z.land (Z.shiftr one 16) 0xFF) (is_byte_land _)).
  assert (P3 := bits_part 8 24 (Z.land (Z.shiftr one 24) 0xFF) (is_byte_land _)).
  simpl plus in P1, P2, P3. simpl Z.of_nat in P1, P2, P3.
  rewrite P1, P2, P3.
  rewrite !Z.lxor_assoc.
  set (A := crc_bits 8 _). set (B := crc_bits 16 _). set (C := crc_bits 24 _). set (D := crc_bits 32 _).
  rewrite (lxor_swap A B). rewrite (lxor_swap A C). rewrite (lxor_swap B C).
  rewrite (Z.lxor_comm A D). rewrite (lxor_swap B D), (lxor_swap C D). reflexivity.
Qed.

Lemma crc_reg_app r a b : crc_reg r (a ++ b) = crc_reg (crc_reg r a) b.
Proof. apply fold_left_app. Qed.

Lemma crc_words_ok n : forall l crc, (length l <= n)%nat -> u32 crc -> bytes_ok l ->
  crc_words crc l = crc_reg crc l.
Proof.
  induction n as [|n IH]; intros l crc Hn Hc Hl.
  { destruct l; [reflexivity | simpl in Hn; lia]. }
  destruct l as [|b0 [|b1 [|b2 [|b3 t]]]]; try (apply fold_table_ok; assumption).
  inversion Hl as [|? ? Hb0 Hl1]; subst. inversion Hl1 as [|? ? Hb1 Hl2]; subst.
  inversion Hl2 as [|? ? Hb2 Hl3]; subst. inversion Hl3 as [|? ? Hb3 Hl4]; subst.
  cbn [crc_words]. rewrite crc_slice4_ok by assumption.
  rewrite IH; [| simpl in Hn; lia | | assumption].
  - symmetry. apply (crc_reg_app crc [b0; b1; b2; b3] t).
  - apply u32_crc_reg; [assumption|]. repeat (apply Forall_cons; [assumption|]); apply Forall_nil.
Qed.

Lemma bytes_ok_app a b : bytes_ok (a ++ b) <-> bytes_ok a /\ bytes_ok b.
Proof. apply Forall_app. Qed.

Lemma crc_slice_ok align crc l :
  u32 crc -> bytes_ok l -> crc_slice align crc l = crc_reg crc l.
Proof.
  intros Hc Hl. unfold crc_slice.
  destruct (negb (align =? 0) && (4 <=? Z.of_nat (length l))) eqn:E.
  - set (u := Z.to_nat (4 - align)).
    assert (Hsp : bytes_ok (firstn u l) /\ bytes_ok (skipn u l)).
    { rewrite <- bytes_ok_app, firstn_skipn. assumption. }
    destruct Hsp as [Hf Hs].
    rewrite fold_table_ok by assumption.
    rewrite (crc_words_ok (length (skipn u l))); [|lia|apply u32_crc_reg; assumption|assumption].
    rewrite <- crc_reg_app, firstn_skipn. reflexivity.
  - apply (crc_words_ok (length l)); auto.
Qed.

Lemma u32_ones : u32 0xFFFFFFFF. Proof. unfold u32; lia. Qed.

(** A sequence of [Append] calls, each with its own buffer alignment. *)
Definition crc_updates (crc : Z) (us : list (Z * list Z)) : Z :=
  fold_left (fun c '(al, l) => crc_slice al c l) us crc.

Lemma crc_updates_ok us : forall crc, u32 crc -> Forall (fun u => bytes_ok (snd u)) us ->
  crc_updates crc us = crc_reg crc (concat (map snd us)) /\ u32 (crc_updates crc us).
Proof.
  induction us as [|[al l] us IH]; intros crc Hc Hu; [split; [reflexivity|exact Hc]|].
  inversion Hu as [|? ? Hu1 Hu2]; subst. simpl in Hu1.
  unfold crc_updates. cbn [fold_left map snd concat].
  rewrite crc_slice_ok by assumption. rewrite crc_reg_app.
  apply IH; [apply u32_crc_reg|]; assumption.
Qed.

Lemma crc_incremental us : Forall (fun u => bytes_ok (snd u)) us ->
  crc_finish (crc_updates crc_init us) = crc32 (concat (map snd us)).
Proof.
  intros Hu. unfold crc_finish, crc32, crc_init. rewrite (proj1 (crc_updates_ok us _ u32_ones Hu)). reflexivity.
Qed.

(** ** Combine *)

Lemma mtimes_0 m : mtimes m 0 = 0.
Proof. destruct m; reflexivity. Qed.

Lemma mtimes_cons m mat v :
  mtimes (m :: mat) v = Z.lxor (if Z.odd v then m else 0) (mtimes mat (Z.shiftr v 1)).
Proof.
  cbn [mtimes]. destruct (v =? 0) eqn:E; [|reflexivity].
  apply Z.eqb_eq in E as ->. simpl. rewrite mtimes_0. reflexivity.
Qed.

Lemma mtimes_lin mat : forall a b, mtimes mat (Z.lxor a b) = Z.lxor (mtimes mat a) (mtimes mat b).
Proof.
  induction mat as [|m mat IH]; intros a b; [reflexivity|].
  rewrite !mtimes_cons, odd_lxor, Z.shiftr_lxor, IH.
  set (x := mtimes mat _). set (y := mtimes mat _).
  destruct (Z.odd a), (Z.odd b); simpl xorb; cbn iota; rewrite ?Z.lxor_0_l.
  - symmetry. rewrite Z.lxor_assoc. rewrite (lxor_swap x m y).
    rewrite <- Z.lxor_assoc, Z.lxor_nilpotent, Z.lxor_0_l. reflexivity.
  - rewrite Z.lxor_assoc. reflexivity.
  - apply lxor_swap.
  - reflexivity.
Qed.

Lemma mtimes_map M N v : mtimes (map (mtimes M) N) v = mtimes M (mtimes N v).
Proof.
  revert v; induction N as [|m N IH]; intros v; cbn [map].
  - simpl. rewrite mtimes_0. reflexivity.
  - rewrite !mtimes_cons, IH, mtimes_lin. f_equal.
    destruct (Z.odd v); [reflexivity | rewrite mtimes_0; reflexivity].
Qed.

(** [M] represents [n] zero bits. *)
Definition represents (M : list Z) (n : nat) : Prop :=
  forall v, u32 v -> mtimes M v = crc_bits n v.

Lemma represents_square M n : represents M n -> represents (msquare M) (n + n).
Proof.
  intros H v Hv. unfold msquare. rewrite mtimes_map, crc_bits_add.
  rewrite (H v Hv). apply H. apply u32_crc_bits, Hv.
Qed.

Lemma mtimes_powers n : forall k w, 0 <= w < 2 ^ Z.of_nat n ->
  mtimes (map (fun i => 2 ^ Z.of_nat i) (seq k n)) w = Z.shiftl w (Z.of_nat k).
Proof.
  induction n as [|n IH]; intros k w Hw.
  { simpl in Hw. replace w with 0 by lia. simpl. rewrite Z.shiftl_0_l. reflexivity. }
  cbn [seq map]. rewrite mtimes_cons, IH.
  2:{ rewrite Z.shiftr_div_pow2 by lia. replace (Z.of_nat (S n)) with (Z.of_nat n + 1) in Hw by lia.
      rewrite Z.pow_add_r in Hw by lia. change (2 ^ 1) with 2 in *. lia. }
  replace (Z.of_nat (S k)) with (1 + Z.of_nat k) by lia.
  rewrite <- (Z.shiftl_shiftl (Z.shiftr w 1) 1 (Z.of_nat k)) by lia.
  apply Z.bits_inj'. intros i Hi. rewrite Z.lxor_spec.
  destruct (Z_lt_ge_dec i (Z.of_nat k)).
  - rewrite !Z.shiftl_spec_low by lia.
    destruct (Z.odd w); [rewrite Z.pow2_bits_false by lia | rewrite Z.bits_0]; reflexivity.
  - rewrite !(Z.shiftl_spec _ (Z.of_nat k)) by lia.
    destruct (Z.eq_dec i (Z.of_nat k)) as [->|Hne].
    + rewrite Z.sub_diag. rewrite Z.shiftl_spec_low by lia. rewrite xorb_false_r.
      rewrite Z.bit0_odd.
      destruct (Z.odd w); [apply Z.pow2_bits_true; lia | apply Z.bits_0].
    + rewrite Z.shiftl_spec by lia. rewrite Z.shiftr_spec by lia.
      replace (i - Z.of_nat k - 1 + 1) with (i - Z.of_nat k) by lia.
      destruct (Z.odd w); [rewrite Z.pow2_bits_false by lia | rewrite Z.bits_0]; apply xorb_false_l.
Qed.

Lemma represents_odd0 : represents odd0 1.
Proof.
  intros v Hv. unfold odd0. rewrite mtimes_cons, mtimes_powers.
  - rewrite Z.shiftl_0_r. cbn [crc_bits]. unfold crc_bit, poly.
    destruct (Z.odd v); [apply Z.lxor_comm | apply Z.lxor_0_l].
  - rewrite Z.shiftr_div_pow2 by lia. unfold u32 in Hv.
    change (2 ^ Z.of_nat 31) with 2147483648. change (2 ^ 1) with 2.
    change (2 ^ 32) with 4294967296 in Hv. lia.
Qed.

(** The loop applies [unit * len2] bit steps, [unit] being the operator of the
    first round. *)
Lemma combine_loop_ok fuel : forall M n crc1 len2,
  represents M n -> u32 crc1 -> 0 < len2 < 2 ^ Z.of_nat fuel ->
  combine_loop fuel M crc1 len2 = crc_bits (2 * n * Z.to_nat len2) crc1.
Proof.
  induction fuel as [|fuel IH]; intros M n crc1 len2 HM Hc Hl; [simpl in Hl; lia|].
  cbn [combine_loop]. cbv zeta.
  assert (HM2 := represents_square M n HM).
  assert (Hodd : Z.odd len2 = true -> (2 * n * Z.to_nat len2 = (n + n) + 2 * (n + n) * Z.to_nat (Z.shiftr len2 1))%nat).
  { intros Ho. rewrite Z.shiftr_div_pow2 by lia. change (2 ^ 1) with 2.
    rewrite Zodd_mod in Ho. apply Zeq_bool_eq in Ho.
    assert (E : (Z.to_nat len2 = 1 + 2 * Z.to_nat (len2 / 2))%nat) by lia. rewrite E. lia. }
  assert (Heven : Z.odd len2 = false -> (2 * n * Z.to_nat len2 = 2 * (n + n) * Z.to_nat (Z.shiftr len2 1))%nat).
  { intros Ho. rewrite Z.shiftr_div_pow2 by lia. change (2 ^ 1) with 2.
    assert (Ho' : Z.even len2 = true) by (rewrite <- Z.negb_odd, Ho; reflexivity).
    rewrite Zeven_mod in Ho'. apply Zeq_bool_eq in Ho'.
    assert (E : (Z.to_nat len2 = 2 * Z.to_nat (len2 / 2))%nat) by lia. rewrite E. lia. }
  set (crc' := if Z.odd len2 then mtimes (msquare M) crc1 else crc1).
  assert (Hcrc' : crc' = if Z.odd len2 then crc_bits (n + n) crc1 else crc1).
  { unfold crc'. destruct (Z.odd len2); [apply HM2, Hc | reflexivity]. }
  assert (Hu : u32 crc').
  { rewrite Hcrc'. destruct (Z.odd len2); [apply u32_crc_bits|]; exact Hc. }
  destruct (Z.shiftr len2 1 =? 0) eqn:E0.
  - apply Z.eqb_eq in E0. rewrite Hcrc'.
    destruct (Z.odd len2) eqn:Eo.
    + rewrite Hodd by reflexivity. rewrite E0. simpl Z.to_nat. rewrite Nat.mul_0_r, Nat.add_0_r. reflexivity.
    + rewrite Heven by reflexivity. rewrite E0. simpl Z.to_nat. rewrite Nat.mul_0_r. reflexivity.
  - rewrite (IH _ (n + n)%nat); [| exact HM2 | exact Hu |].
    + rewrite Hcrc'. destruct (Z.odd len2) eqn:Eo.
      * rewrite Hodd by reflexivity. symmetry. apply crc_bits_add.
      * rewrite Heven by reflexivity. reflexivity.
    + rewrite Z.shiftr_div_pow2 in * by lia. change (2 ^ 1) with 2 in *.
      replace (Z.of_nat (S fuel)) with (Z.of_nat fuel + 1) in Hl by lia.
      rewrite Z.pow_add_r in Hl by lia. change (2 ^ 1) with 2 in Hl. lia.
Qed.

Lemma crc_reg_lin l : forall r s, crc_reg (Z.lxor r s) l = Z.lxor (crc_bits (8 * length l) r) (crc_reg s l).
Proof.
  induction l as [|b l IH]; intros r s; [reflexivity|].
  unfold crc_reg. cbn [fold_left length].
  replace (8 * S (length l))%nat with (8 + 8 * length l)%nat by lia. rewrite crc_bits_add.
  unfold crc_byte at 2. rewrite Z.lxor_assoc, crc_bits_lin. apply IH.
Qed.

Lemma combine_ok a b :
  bytes_ok a -> bytes_ok b -> Z.of_nat (length b) < 2 ^ 32 ->
  crc_combine (crc32 a) (crc32 b) (Z.of_nat (length b)) = crc32 (a ++ b).
Proof.
  intros Ha Hb Hlen. unfold crc_combine.
  destruct (Z.of_nat (length b) <=? 0) eqn:E.
  { destruct b; [rewrite app_nil_r; reflexivity | simpl length in E; lia]. }
  assert (HR : represents (msquare (msquare odd0)) 4).
  { apply (represents_square _ 2), (represents_square _ 1), represents_odd0. }
  rewrite (combine_loop_ok 33 _ 4); [| exact HR | | ].
  - rewrite Nat2Z.id. unfold crc32. rewrite crc_reg_app.
    set (F := 0xFFFFFFFF). set (sa := crc_reg F a).
    assert (E1 : crc_reg sa b = Z.lxor (crc_bits (8 * length b) (Z.lxor sa F)) (crc_reg F b)).
    { rewrite <- crc_reg_lin. f_equal. rewrite Z.lxor_assoc, Z.lxor_nilpotent, Z.lxor_0_r. reflexivity. }
    rewrite E1. change (2 * 4)%nat with 8%nat. rewrite Z.lxor_assoc. reflexivity.
  - apply u32_lxor; [apply u32_crc_reg; [apply u32_ones|assumption] | apply u32_ones].
  - split; [lia|]. apply Z.lt_trans with (2 ^ 32); [assumption|reflexivity].
Qed.

Lemma combine_all_ok parts : forall (first : bool) acc,
  bytes_ok acc -> Forall bytes_ok parts ->
  Forall (fun p => Z.of_nat (length p) < 2 ^ 32) parts ->
  (first = true -> acc = [] /\ parts <> []) ->
  combine_all first (if first then 0 else crc32 acc)
    (map (fun p => (crc32 p, Z.of_nat (length p))) parts) = crc32 (acc ++ concat parts).
Proof.
  induction parts as [|p ps IH]; intros first acc Hacc Hp Hl Hf.
  - destruct first; [destruct (Hf eq_refl); congruence|]. simpl. rewrite app_nil_r. reflexivity.
  - inversion Hp; subst. inversion Hl; subst. cbn [map combine_all concat].
    assert (E : (if first then crc32 p else crc_combine (if first then 0 else crc32 acc) (crc32 p) (Z.of_nat (length p)))
                = crc32 (acc ++ p)).
    { destruct first; [destruct (Hf eq_refl) as [-> _]; reflexivity|]. apply combine_ok; assumption. }
    rewrite E. rewrite app_assoc. apply (IH false (acc ++ p)); auto; [|discriminate].
    apply bytes_ok_app; auto.
Qed.

Lemma combine_file parts :
  parts <> [] -> Forall bytes_ok parts -> Forall (fun p => Z.of_nat (length p) < 2 ^ 32) parts ->
  combine_all true 0 (map (fun p => (crc32 p, Z.of_nat (length p))) parts) = crc32 (concat parts).
Proof. intros Hne Hp Hl. apply (combine_all_ok parts true []); auto. constructor. Qed.
