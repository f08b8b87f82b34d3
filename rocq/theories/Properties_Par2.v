(** PAR2: field arithmetic and repair of missing blocks. *)
From Coq Require Import Permutation.
From Verif Require Import Base GaloisModel GaloisSpec GaloisProofs RSModel RSSpec RSProofs RSProofs2 RSProofs3.

(** ** C39: arithmetic is that of polynomials over GF(2) modulo x^16 + x^12 + x^3 + x + 1 *)
Theorem C39_mul : forall a b, u16 a -> u16 b -> is_rem (clmul a b) (gmul a b).
Proof. exact gmul_ok. Qed.
Print Assumptions C39_mul.
(** The remainder is unique, so the above determines the product. *)
Theorem C39_mul_only : forall a b r, u16 a -> u16 b -> is_rem (clmul a b) r -> gmul a b = r.
Proof. intros a b r A B R. exact (rem_unique _ _ _ (gmul_ok a b A B) R). Qed.
Print Assumptions C39_mul_only.
Theorem C39_assoc : forall a b c, u16 a -> u16 b -> u16 c -> gmul (gmul a b) c = gmul a (gmul b c).
Proof. exact gmul_assoc. Qed.
Print Assumptions C39_assoc.
Theorem C39_comm : forall a b, u16 a -> u16 b -> gmul a b = gmul b a.
Proof. exact gmul_comm. Qed.
Print Assumptions C39_comm.
Theorem C39_distr : forall a b c, u16 a -> u16 b -> u16 c -> gmul a (gadd b c) = gadd (gmul a b) (gmul a c).
Proof. exact gmul_add_r. Qed.
Print Assumptions C39_distr.
Theorem C39_div : forall a b, u16 a -> u16 b -> b <> 0 -> exists q, gdiv a b = Some q /\ u16 q /\ gmul q b = a.
Proof. exact gdiv_ok. Qed.
Print Assumptions C39_div.
Theorem C39_div_mul : forall a b, u16 a -> u16 b -> b <> 0 -> gdiv (gmul a b) b = Some a.
Proof.
  intros a b A B N. destruct (gdiv_ok (gmul a b) b (gmul_u16 a b A B) B N) as (q & -> & U & M).
  f_equal. exact (gmul_cancel q a b U A B N M).
Qed.
Print Assumptions C39_div_mul.
Theorem C39_pow : forall a n, u16 a -> 0 <= n < 65536 -> is_rem (clpow a (Z.to_nat n)) (gpow a n).
Proof. exact gpow_ok. Qed.
Print Assumptions C39_pow.
Theorem C39_no_zero_divisors : forall a b, u16 a -> u16 b -> gmul a b = 0 -> a = 0 \/ b = 0.
Proof.
  intros a b A B H. destruct (Z.eq_dec a 0) as [->|NA]; [auto|]. destruct (Z.eq_dec b 0) as [->|NB]; [auto|].
  exfalso. exact (gmul_nonzero a b A B NA NB H).
Qed.
Print Assumptions C39_no_zero_divisors.
(** All accesses to the tables stay inside them. *)
Theorem C39_table_indices : forall a b n, u16 a -> u16 b -> a <> 0 -> b <> 0 -> 0 <= n ->
  let inside i := 0 <= i < 65536 in
  let sum := glog a + glog b in let dif := glog a - glog b in
  inside (glog a) /\ inside (if 65535 <=? sum then sum - 65535 else sum) /\
  inside (if dif <? 0 then dif + 65535 else dif) /\ inside (gpow_index a n).
Proof.
  intros a b n A B NA NB N inside sum dif. destruct (glog_range a A NA) as [GA _]. destruct (glog_range b B NB) as [GB _].
  unfold inside, sum, dif, gpow_index. split; [lia|]. split; [destruct (65535 <=? _) eqn:E; lia|]. split; [destruct (_ <? 0) eqn:E; lia|].
  assert (R := Z.mod_pos_bound (glog a * n) (2 ^ 32) eq_refl). set (s := (glog a * n) mod 2 ^ 32) in *. clearbody s.
  assert (S1 : Z.shiftr s 16 = s / 65536) by (rewrite Z.shiftr_div_pow2 by lia; reflexivity).
  assert (S2 : Z.land s 65535 = s mod 65536) by (change 65535 with (Z.ones 16); rewrite Z.land_ones by lia; reflexivity).
  rewrite S1, S2. change (2 ^ 32) with 4294967296 in R. clear - R. destruct (65535 <=? _) eqn:E; lia.
Qed.
Print Assumptions C39_table_indices.
Example C39_ex : gmul 40000 50000 = 5124 /\ gdiv 5124 50000 = Some 40000 /\ gpow 2 16 = 0x100B /\ gdiv 5 0 = None.
Proof. vm_compute. repeat split; reflexivity. Qed.
(** [operator ^=] is not the power: its test for exponent 0 compares with 1. (PAR2 repair uses
    only [operator ^].) *)
Theorem C39_power_assign_refuted : exists a n, u16 a /\ 0 <= n < 65536 /\ ~ is_rem (clpow a (Z.to_nat n)) (gpow_assign a n).
Proof.
  exists 2, 1. split; [unfold u16; lia|]. split; [lia|]. intros R.
  assert (E := rem_unique _ _ _ R (gpow_ok 2 1 ltac:(unfold u16; lia) ltac:(lia))). vm_compute in E. discriminate E.
Qed.
Print Assumptions C39_power_assign_refuted.

(** ** C40: the coefficients reproduce the missing blocks *)
(** [blocks] are all data blocks of a set (32-bit words), [pres] says which are present,
    [outs] which recovery blocks are at hand ([true]) or wanted ([false]), with exponents.
    Whenever [Compute] succeeds, processing the present data blocks and the recovery blocks
    yields exactly the missing data blocks, and the wanted recovery blocks. *)
Theorem C40_repair : forall pres outs left bs blocks recs n,
  rs_compute pres outs = Some left ->
  length bs = length pres -> par2_bases bs ->
  length blocks = length pres -> Forall (fun b => length b = n /\ Forall u32w b) blocks ->
  Forall2 (fun o rec => 0 <= snd o < 65536 /\ recovery_block n bs blocks (snd o) rec) outs recs ->
  rs_repair left (those true pres blocks ++
                  firstn (length (those false pres blocks)) (those true (map fst outs) recs)) n
  = those false pres blocks ++ those false (map fst outs) recs.
Proof. exact repair_ok. Qed.
Print Assumptions C40_repair.
(** The processing of one block into another: in each half word, plus factor times source. *)
Theorem C40_process : forall n f s d, u16 f ->
  length s = n /\ Forall u32w s -> length d = n /\ Forall u32w d ->
  (length (rs_process f s d) = n /\ Forall u32w (rs_process f s d)) /\
  forall k, (k < n)%nat ->
    is_rem (Z.lxor (lo16 (nth k d 0)) (clmul f (lo16 (nth k s 0)))) (lo16 (nth k (rs_process f s d) 0)) /\
    is_rem (Z.lxor (hi16 (nth k d 0)) (clmul f (hi16 (nth k s 0)))) (hi16 (nth k (rs_process f s d) 0)).
Proof.
  intros n f s d F S D. destruct (process_ok n f s d F S D) as [P K]. split; [exact P|]. intros k Hk.
  destruct (K k Hk) as [-> ->]. assert (US := buf_nth _ _ _ S Hk). assert (UD := buf_nth _ _ _ D Hk).
  split; apply is_rem_cong; (split; [apply u16_lxor; [|apply gmul_u16]|apply cong_add; [apply cong_refl|apply gmul_cong]]);
    try assumption; try apply lo16_u; apply hi16_u; assumption.
Qed.
Print Assumptions C40_process.
(** A block of a recovery file computed from scratch (no missing data): the same words. *)
Theorem C40_create : forall pres outs left bs blocks recs n,
  rs_compute pres outs = Some left -> Forall (fun p => p = true) pres -> Forall (fun o => fst o = false) outs ->
  length bs = length pres -> par2_bases bs ->
  length blocks = length pres -> Forall (fun b => length b = n /\ Forall u32w b) blocks ->
  Forall2 (fun o rec => 0 <= snd o < 65536 /\ recovery_block n bs blocks (snd o) rec) outs recs ->
  rs_repair left blocks n = recs.
Proof.
  intros pres outs left bs blocks recs n H P O L B LB FB F.
  assert (T : forall (A : Type) fl (l : list A), Forall (fun p => p = true) fl -> length l = length fl -> those true fl l = l /\ those false fl l = []).
  { induction fl as [|f fl IH]; intros [|x l] Q E; try discriminate E; [auto|]. inversion Q; subst. cbn [those Bool.eqb].
    destruct (IH l ltac:(assumption) ltac:(cbn [length] in E; congruence)) as [-> ->]. auto. }
  assert (T2 : forall (A : Type) fl (l : list A), Forall (fun p => p = false) fl -> length l = length fl -> those false fl l = l).
  { induction fl as [|f fl IH]; intros [|x l] Q E; try discriminate E; [auto|]. inversion Q; subst. cbn [those Bool.eqb].
    rewrite (IH l ltac:(assumption) ltac:(cbn [length] in E; congruence)). reflexivity. }
  assert (R := repair_ok pres outs left bs blocks recs n H L B LB FB F). destruct (T _ pres blocks P LB) as [E1 E2].
  rewrite E1, E2 in R. cbn [length firstn app] in R. rewrite app_nil_r in R. rewrite R. apply T2.
  - apply Forall_map. exact O.
  - rewrite map_length. symmetry. exact (forall2_length _ _ _ F).
Qed.
Print Assumptions C40_create.
(** The bases are those of the format: the powers of two by the numbers prime to 65535, in
    ascending order; more than 32768 blocks are refused. *)
Theorem C40_bases : forall n db, bases n 0 = Some db -> length db = n /\ NoDup db /\ par2_bases db.
Proof. intros n db H. destruct (bases_facts n db H) as (A & B & _ & C). exact (conj A (conj B C)). Qed.
Print Assumptions C40_bases.
Theorem C40_block_limit : forall n, bases n 0 = None <-> 32768 < Z.of_nat n.
Proof.
  intros n. assert (S := bases_spec n). assert (C := base_count). destruct (bases n 0); split; intros H; try discriminate H; try reflexivity; lia.
Qed.
Print Assumptions C40_block_limit.
(** Three blocks of two words; the first and last are lost and computed from the second and
    the recovery blocks with exponents 3 and 4. *)
Definition ex_blocks : list (list Z) := [[0x12345678; 1]; [0xDEADBEEF; 2]; [0xFFFF0001; 3]].
Definition ex_recs : list (list Z) :=
  match rs_compute [true; true; true] [(false, 3); (false, 4)] with Some l => rs_repair l ex_blocks 2 | None => [] end.
Example C40_ex : ex_recs = [[309717257; 12424]; [1594662107; 12813]] /\
  match rs_compute [false; true; false] [(true, 3); (true, 4)] with
  | Some l => rs_repair l ([[0xDEADBEEF; 2]] ++ ex_recs) 2 = [[0x12345678; 1]; [0xFFFF0001; 3]]
  | None => False end.
Proof. vm_compute. split; reflexivity. Qed.
(** The hypotheses of [C40_repair] hold for it. *)
Example C40_nonvacuous : par2_bases [2; 4; 16] /\
  Forall2 (fun o rec => 0 <= snd o < 65536 /\ recovery_block 2 [2; 4; 16] ex_blocks (snd o) rec) [(true, 3); (true, 4)] ex_recs.
Proof.
  assert (B : bases 3 0 = Some [2; 4; 16]) by (vm_compute; reflexivity).
  assert (W : forall ds e w, 0 <= e < 65536 -> u16s ds -> dot (prow e [2; 4; 16]) ds = w -> recovery_word [2; 4; 16] ds e w).
  { intros ds e w E D <-. apply dot_word; [exact E| |exact D]. repeat constructor; unfold u16; lia. }
  split; [exact (proj2 (proj2 (proj2 (bases_facts _ _ B))))|]. replace ex_recs with [[309717257; 12424]; [1594662107; 12813]] by (vm_compute; reflexivity).
  assert (R : forall e rec, 0 <= e < 65536 -> length rec = 2%nat -> Forall u32w rec ->
    (forall k, (k < 2)%nat -> dot (prow e [2; 4; 16]) (map (fun b => lo16 (nth k b 0)) ex_blocks) = lo16 (nth k rec 0) /\
                              dot (prow e [2; 4; 16]) (map (fun b => hi16 (nth k b 0)) ex_blocks) = hi16 (nth k rec 0)) ->
    recovery_block 2 [2; 4; 16] ex_blocks e rec).
  { intros e rec E L U K. split; [exact L|]. split; [exact U|]. intros k Hk. destruct (K k Hk) as [K1 K2]. split; apply W; try assumption;
      apply Forall_map; unfold ex_blocks; (repeat (apply Forall_cons; [first [apply lo16_u | apply hi16_u; destruct k as [|[|k]]; [| |lia]; unfold u32w; cbn [nth]; lia]|]));
      apply Forall_nil. }
  apply Forall2_cons; [|apply Forall2_cons; [|apply Forall2_nil]]; (split; [cbn [snd]; lia|]); (apply R; [cbn [snd]; lia|reflexivity| |]);
    try (repeat (apply Forall_cons; [unfold u32w; lia|]); apply Forall_nil);
    (intros [|[|k]] Hk; [| |lia]; vm_compute; split; reflexivity).
Qed.

(** ** C74: enough recovery blocks *)
(** With the recovery blocks used having consecutive exponents, there are always enough when
    there are as many as missing blocks. *)
Theorem C74_consecutive_partial : forall pres outs e0,
  Z.of_nat (length pres) <= 32768 ->
  let dm := length (those false pres pres) in
  let ps := map snd (filter fst outs) in
  Forall (fun o => 0 <= snd o < 65536) outs ->
  (0 < dm)%nat -> (dm <= length ps)%nat ->
  (forall i, (i < dm)%nat -> nth i ps 0 = e0 + Z.of_nat i) ->
  rs_compute pres outs <> None.
Proof.
  intros pres outs e0 L. apply compute_succeeds. assert (C := base_count). lia.
Qed.
Print Assumptions C74_consecutive_partial.
(** One missing block: any recovery block will do. *)
Theorem C74_one_block : forall pres outs e, Z.of_nat (length pres) <= 32768 -> length (those false pres pres) = 1%nat ->
  Forall (fun o => 0 <= snd o < 65536) outs -> In (true, e) outs -> rs_compute pres outs <> None.
Proof.
  intros pres outs e L D F I. assert (C := base_count).
  destruct (filter fst outs) as [|o r] eqn:E.
  { exfalso. assert (X : In (true, e) (filter fst outs)) by (apply filter_In; auto). rewrite E in X. contradiction. }
  apply (compute_succeeds pres outs (snd o)); try assumption; rewrite ?D, ?E; try lia; cbn [map length]; try lia.
  intros i Hi. replace i with 0%nat by lia. cbn [nth]. lia.
Qed.
Print Assumptions C74_one_block.
Example C74_ex : rs_compute [false; true; false] [(true, 7); (true, 8)] <> None.
Proof. apply (C74_consecutive_partial _ _ 7); cbn; try lia; [repeat constructor; cbn; lia|]. intros [|[|i]] H; cbn; lia. Qed.
(** In general there are not: with two missing blocks and two recovery blocks the equations
    can be singular. *)
Theorem C74_enough_blocks_refuted : exists pres outs, length (those false pres pres) = length outs /\
  NoDup (map snd outs) /\ Forall (fun o => fst o = true /\ 0 <= snd o < 65536) outs /\ rs_compute pres outs = None.
Proof.
  exists [false; true; false], [(true, 0); (true, 21845)]. split; [reflexivity|]. split; [|split].
  - repeat constructor; cbn; intuition congruence.
  - repeat constructor; cbn; lia.
  - vm_compute. reflexivity.
Qed.
Print Assumptions C74_enough_blocks_refuted.
(** And even when the equations have a solution it is missed, because rows are never
    exchanged: the same recovery blocks in another order succeed. *)
Theorem C74_row_order_refuted : exists pres outs outs', Permutation outs outs' /\
  Forall (fun o => fst o = true /\ 0 <= snd o < 65536) outs /\
  rs_compute pres outs = None /\ rs_compute pres outs' <> None.
Proof.
  exists [false; true; false; true; false], [(true, 0); (true, 21845); (true, 21846)], [(true, 0); (true, 21846); (true, 21845)].
  split; [apply perm_skip, perm_swap|]. split; [repeat constructor; cbn; lia|]. split; [vm_compute; reflexivity|].
  vm_compute. discriminate.
Qed.
Print Assumptions C74_row_order_refuted.
