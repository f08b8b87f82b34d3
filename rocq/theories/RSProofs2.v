(** Reed-Solomon: the equations set up, the processing of buffers, the repair. *)
From Verif Require Import Base CrcProofs GaloisModel GaloisSpec GaloisProofs RSModel RSSpec RSProofs.

(** ** Picking *)
Lemma pick_those {A} w fl : forall l : list A, pick w fl l = those w fl l.
Proof.
  unfold pick. induction fl as [|f fl IH]; intros [|x l]; try reflexivity. cbn [combine filter fst those].
  destruct (Bool.eqb f w); cbn [map snd]; rewrite IH; reflexivity.
Qed.
Lemma filter_those outs : map snd (filter fst outs) = those true (map fst outs) (map (@snd bool Z) outs) /\
  map snd (filter (fun o => negb (fst o)) outs) = those false (map fst outs) (map snd outs).
Proof.
  induction outs as [|[b e] outs [IH1 IH2]]; [auto|]. cbn [map filter fst snd those]. destruct b; cbn [Bool.eqb negb map snd]; rewrite ?IH1, ?IH2; auto.
Qed.
Lemma those_map {A B} (f : A -> B) w fl : forall l, those w fl (map f l) = map f (those w fl l).
Proof. induction fl as [|b fl IH]; intros [|x l]; try reflexivity. cbn [map those]. destruct (Bool.eqb b w); cbn [map]; rewrite IH; reflexivity. Qed.
Lemma those_length {A B} w fl : forall (l : list A) (m : list B), length fl = length l -> length fl = length m -> length (those w fl l) = length (those w fl m).
Proof.
  induction fl as [|b fl IH]; intros [|x l] [|y m] E F; try discriminate E; try discriminate F; [reflexivity|]. cbn [those length] in *.
  destruct (Bool.eqb b w); cbn [length]; rewrite (IH l m); congruence.
Qed.
Lemma those_forall {A} (P : A -> Prop) w fl : forall l, Forall P l -> Forall P (those w fl l).
Proof.
  induction fl as [|b fl IH]; intros [|x l] F; cbn [those]; try constructor. inversion F; subst.
  destruct (Bool.eqb b w); [constructor|]; auto.
Qed.
Lemma those_forall2 {A B} (P : A -> B -> Prop) w fl : forall l m, Forall2 P l m -> Forall2 P (those w fl l) (those w fl m).
Proof.
  induction fl as [|b fl IH]; intros l m F; [constructor|]. inversion F; subst; cbn [those]; [constructor|].
  destruct (Bool.eqb b w); [constructor|]; auto.
Qed.

(** ** Recovery words *)
Definition prow (e : Z) (bs : list Z) : list Z := map (fun b => gpow b e) bs.
Lemma gpow_u16 b e : u16 b -> 0 <= e < 65536 -> u16 (gpow b e).
Proof. intros B E. destruct (gpow_ok b e B E) as [U _]. exact U. Qed.
Lemma prow_u16 e bs : 0 <= e < 65536 -> u16s bs -> u16s (prow e bs).
Proof. intros E B. apply Forall_map. eapply Forall_impl; [|exact B]. intros b Hb. apply gpow_u16; assumption. Qed.
Lemma poly_sum_cong e bs : 0 <= e < 65536 -> forall ds, u16s bs -> u16s ds -> cong (poly_sum e bs ds) (dot (prow e bs) ds).
Proof.
  intros E. unfold poly_sum, dot, prow. induction bs as [|b bs IH]; intros [|d ds] B D; try apply cong_refl.
  inversion B; inversion D; subst. cbn [map map2 xsum fold_right]. apply cong_add; [|apply IH; assumption].
  assert (P := gpow_ok b e H1 E). apply is_rem_cong in P as [P1 P2].
  eapply cong_trans; [|apply gmul_cong; assumption].
  apply cong_mul; [apply clpow_nonneg, u16_nonneg; assumption|apply u16_nonneg; assumption|apply u16_nonneg; assumption|apply u16_nonneg; assumption|assumption|apply cong_refl].
Qed.
Lemma word_dot bs ds e w : 0 <= e < 65536 -> u16s bs -> u16s ds -> recovery_word bs ds e w -> w = dot (prow e bs) ds.
Proof.
  intros E B D R. eapply rem_unique; [exact R|]. apply is_rem_cong. split; [apply dot_u16; [apply prow_u16|]; assumption|].
  apply poly_sum_cong; assumption.
Qed.
Lemma dot_word bs ds e : 0 <= e < 65536 -> u16s bs -> u16s ds -> recovery_word bs ds e (dot (prow e bs) ds).
Proof.
  intros E B D. apply is_rem_cong. split; [apply dot_u16; [apply prow_u16|]; assumption|].
  apply poly_sum_cong; assumption.
Qed.
Lemma dot_those fl : forall r ds, length fl = length r -> length fl = length ds ->
  dot r ds = gadd (dot (those true fl r) (those true fl ds)) (dot (those false fl r) (those false fl ds)).
Proof.
  induction fl as [|f fl IH]; intros [|a r] [|d ds] E F; try discriminate E; try discriminate F; [reflexivity|].
  cbn [length those] in *. rewrite dot_cons, (IH r ds) by congruence. unfold gadd. destruct f; cbn [Bool.eqb]; rewrite dot_cons; unfold gadd.
  - symmetry. apply Z.lxor_assoc.
  - apply lxor_swap.
Qed.
Lemma unit_row_length n k : length (unit_row n k) = n.
Proof. unfold unit_row. rewrite map_length, seq_length. reflexivity. Qed.
Lemma unit_row_u16 n k : u16s (unit_row n k).
Proof. apply Forall_map, Forall_forall. intros c _. destruct (Nat.eqb k c); [apply u16_1|apply u16_0]. Qed.
Lemma unit_row_nth n k c : (c < n)%nat -> nth c (unit_row n k) 0 = delta k c.
Proof.
  intros H. change (unit_row n k) with (map (delta k) (seq 0 n)).
  rewrite (nth_indep _ 0 (delta k 0)) by (rewrite map_length, seq_length; exact H).
  rewrite map_nth, seq_nth by exact H. reflexivity.
Qed.
Lemma repeat0_u16 n : u16s (repeat 0 n).
Proof. apply Forall_forall. intros x H. apply repeat_spec in H. subst. apply u16_0. Qed.
Lemma nth_repeat0 n c : nth c (repeat 0 n) 0 = 0.
Proof. revert c. induction n; intros [|c]; cbn [repeat nth]; auto. Qed.
Lemma repeat0_zeros n : Forall (eq 0) (repeat 0 n).
Proof. apply Forall_forall. intros x H. apply repeat_spec in H. auto. Qed.

(** The rows before elimination. *)
Lemma nth_error_init bp bm es ms i : length es = length bm ->
  nth_error (init_rows bp bm es ms) i =
  if Nat.ltb i (length bm) then match nth_error es i with
    | Some e => Some (prow e bp ++ unit_row (length bm) i, prow e bm ++ repeat 0 (length ms)) | None => None end
  else match nth_error ms (i - length bm) with
    | Some e => Some (prow e bp ++ repeat 0 (length bm), prow e bm ++ unit_row (length ms) (i - length bm)) | None => None end.
Proof.
  intros L. unfold init_rows. destruct (Nat.ltb i (length bm)) eqn:E.
  - apply Nat.ltb_lt in E. rewrite nth_error_app1 by (rewrite map_length, combine_length, seq_length; lia).
    rewrite nth_error_map, <- L, nth_error_combine_seq. destruct (nth_error es i); [|reflexivity]. cbn [option_map fst snd Nat.add]. rewrite L. reflexivity.
  - apply Nat.ltb_ge in E. rewrite nth_error_app2 by (rewrite map_length, combine_length, seq_length; lia).
    rewrite map_length, combine_length, seq_length, L, Nat.min_id, nth_error_map, nth_error_combine_seq.
    destruct (nth_error ms (i - length bm)); reflexivity.
Qed.
Lemma init_length bp bm es ms : length es = length bm -> length (init_rows bp bm es ms) = (length bm + length ms)%nat.
Proof. intros L. unfold init_rows. rewrite app_length, !map_length, !combine_length, !seq_length. lia. Qed.
Definition expo (e : Z) : Prop := 0 <= e < 65536.
Lemma init_wf bp bm es ms : length es = length bm -> u16s bp -> u16s bm -> Forall expo es -> Forall expo ms ->
  Forall (wfr (length bp + length bm) (length bm + length ms)) (init_rows bp bm es ms).
Proof.
  intros L P M E F. apply Forall_forall. intros q Hq. apply In_nth_error in Hq as (i & Hi). rewrite nth_error_init in Hi by exact L.
  rewrite Forall_forall in E, F.
  destruct (Nat.ltb i (length bm)).
  - destruct (nth_error es i) as [e|] eqn:Ee; [|discriminate]. inversion Hi; subst. assert (Xe := E e (nth_error_In _ _ Ee)). unfold expo in Xe.
    repeat split; cbn [fst snd]; unfold prow; rewrite ?app_length, ?map_length, ?unit_row_length, ?repeat_length; try reflexivity;
      apply Forall_app; split; try apply unit_row_u16; try apply repeat0_u16; apply prow_u16; assumption.
  - destruct (nth_error ms (i - length bm)) as [e|] eqn:Ee; [|discriminate]. inversion Hi; subst. assert (Xe := F e (nth_error_In _ _ Ee)). unfold expo in Xe.
    repeat split; cbn [fst snd]; unfold prow; rewrite ?app_length, ?map_length, ?unit_row_length, ?repeat_length; try reflexivity;
      apply Forall_app; split; try apply unit_row_u16; try apply repeat0_u16; apply prow_u16; assumption.
Qed.
Lemma init_solved bp bm es ms : length es = length bm -> solved (length bm + length ms) (length bm) 0 (init_rows bp bm es ms).
Proof.
  intros L i q c Hi Hc [H|H]; [lia|]. rewrite nth_error_init in Hi by exact L. destruct (Nat.ltb i (length bm)) eqn:E.
  - apply Nat.ltb_lt in E. destruct (nth_error es i); [|discriminate]. inversion Hi; subst. cbn [snd].
    rewrite app_nth2 by (unfold prow; rewrite map_length; lia). rewrite nth_repeat0. unfold delta.
    replace (Nat.eqb i c) with false; [reflexivity|]. symmetry. apply Nat.eqb_neq. lia.
  - apply Nat.ltb_ge in E. destruct (nth_error ms (i - length bm)); [|discriminate]. inversion Hi; subst. cbn [snd].
    unfold prow. rewrite app_nth2 by (rewrite map_length; lia). rewrite map_length, unit_row_nth by lia. unfold delta.
    destruct (Nat.eqb_spec (i - length bm) (c - length bm)), (Nat.eqb_spec i c); try reflexivity; lia.
Qed.
Lemma nth_app_l {A} (l m : list A) i d : (i < length l)%nat -> nth i (l ++ m) d = nth i l d.
Proof. apply app_nth1. Qed.
Lemma forall2_nth_error {A B} (P : A -> B -> Prop) l m i x : Forall2 P l m -> nth_error l i = Some x -> exists y, nth_error m i = Some y /\ P x y.
Proof.
  intros F. revert i. induction F; intros [|i] E; try discriminate E; cbn [nth_error] in *.
  - inversion E; subst. eauto.
  - apply IHF, E.
Qed.
Lemma forall2_length {A B} (P : A -> B -> Prop) l m : Forall2 P l m -> length l = length m.
Proof. induction 1; cbn [length]; congruence. Qed.
Lemma forall2_firstn {A B} (P : A -> B -> Prop) n : forall l m, Forall2 P l m -> Forall2 P (firstn n l) (firstn n m).
Proof. induction n; intros l m F; [constructor|]. inversion F; subst; cbn [firstn]; constructor; auto. Qed.

Lemma init_eqn pres bs ds es ms rw cw :
  length pres = length bs -> length pres = length ds -> u16s bs -> u16s ds ->
  let bp := those true pres bs in let bm := those false pres bs in
  length es = length bm -> u16s rw -> u16s cw ->
  Forall2 (fun e w => expo e /\ recovery_word bs ds e w) es rw ->
  Forall2 (fun e w => expo e /\ recovery_word bs ds e w) ms cw ->
  Forall (eqn (those true pres ds ++ rw) (those false pres ds ++ cw)) (init_rows bp bm es ms).
Proof.
  intros L1 L2 B D bp bm L R C F G. apply Forall_forall. intros q Hq. apply In_nth_error in Hq as (i & Hi).
  rewrite nth_error_init in Hi by exact L.
  assert (LP : length bp = length (those true pres ds)) by (apply those_length; assumption).
  assert (LM : length bm = length (those false pres ds)) by (apply those_length; assumption).
  assert (LR := forall2_length _ _ _ F). assert (LC := forall2_length _ _ _ G).
  assert (Sp : forall e, dot (prow e bs) ds = gadd (dot (prow e bp) (those true pres ds)) (dot (prow e bm) (those false pres ds))).
  { intros e. rewrite (dot_those pres) by (unfold prow; rewrite ?map_length; assumption). unfold prow. rewrite !those_map. reflexivity. }
  unfold eqn. destruct (Nat.ltb i (length bm)) eqn:E.
  - apply Nat.ltb_lt in E. destruct (nth_error es i) as [e|] eqn:Ee; [|discriminate]. inversion Hi; subst q; clear Hi. cbn [fst snd].
    destruct (forall2_nth_error _ _ _ _ _ F Ee) as (w & Ew & Xe & Rw).
    rewrite !dot_app by (unfold prow; rewrite map_length; assumption).
    rewrite (dot_unit (unit_row (length bm) i) i rw).
    2:{ rewrite unit_row_length. exact E. }
    2:{ rewrite unit_row_length. congruence. }
    2:{ exact R. }
    2:{ intros c Hc. rewrite unit_row_length in Hc. apply unit_row_nth, Hc. }
    rewrite (nth_error_nth _ _ 0 Ew), (dot_zeros (repeat 0 _)) by apply repeat0_zeros.
    rewrite (word_dot _ _ _ _ Xe B D Rw), Sp. unfold gadd. rewrite Z.lxor_0_r, <- Z.lxor_assoc, Z.lxor_nilpotent. apply Z.lxor_0_l.
  - apply Nat.ltb_ge in E. destruct (nth_error ms (i - length bm)) as [e|] eqn:Ee; [|discriminate]. inversion Hi; subst q; clear Hi. cbn [fst snd].
    destruct (forall2_nth_error _ _ _ _ _ G Ee) as (w & Ew & Xe & Rw).
    assert (Hi : (i - length bm < length ms)%nat) by (apply nth_error_Some; congruence).
    rewrite !dot_app by (unfold prow; rewrite map_length; assumption).
    rewrite (dot_unit (unit_row (length ms) (i - length bm)) (i - length bm) cw).
    2:{ rewrite unit_row_length. exact Hi. }
    2:{ rewrite unit_row_length. congruence. }
    2:{ exact C. }
    2:{ intros c Hc. rewrite unit_row_length in Hc. apply unit_row_nth, Hc. }
    rewrite (nth_error_nth _ _ 0 Ew), (dot_zeros (repeat 0 _)) by apply repeat0_zeros.
    rewrite (word_dot _ _ _ _ Xe B D Rw), Sp. unfold gadd. rewrite Z.lxor_0_r.
    rewrite (Z.lxor_comm (dot (prow e bp) _)), <- Z.lxor_assoc, Z.lxor_nilpotent. symmetry. apply Z.lxor_0_l.
Qed.

Lemma nth_error_ext {A} (l : list A) : forall m, (forall i, nth_error l i = nth_error m i) -> l = m.
Proof.
  induction l as [|x l IH]; intros [|y m] H; [reflexivity| | |].
  - discriminate (H 0%nat).
  - discriminate (H 0%nat).
  - assert (E := H 0%nat). cbn in E. inversion E; subst. f_equal. apply IH. intros i. apply (H (S i)).
Qed.
(** ** The left matrix *)
Lemma par2_base_fun i a b : par2_base i a -> par2_base i b -> a = b.
Proof. intros (l & E & R) (l' & E' & R'). rewrite E in E'. inversion E'; subst. eapply rem_unique; eauto. Qed.
Lemma bases_unique n db bs : bases n 0 = Some db -> length bs = n -> par2_bases bs -> db = bs.
Proof.
  intros H L P. destruct (bases_facts _ _ H) as (Ld & _ & _ & Fd). apply nth_error_ext. intros i.
  destruct (nth_error db i) as [a|] eqn:Ea.
  - assert (Hi : (i < length bs)%nat). { rewrite L, <- Ld. apply nth_error_Some. congruence. }
    destruct (nth_error bs i) as [b|] eqn:Eb; [|apply nth_error_None in Eb; lia].
    f_equal. eapply par2_base_fun; eauto.
  - symmetry. apply nth_error_None. apply nth_error_None in Ea. lia.
Qed.

Lemma compute_solution pres outs left bs ds rw :
  rs_compute pres outs = Some left -> length bs = length pres -> par2_bases bs ->
  length ds = length pres -> u16s ds -> u16s rw ->
  Forall2 (fun o w => expo (snd o) /\ recovery_word bs ds (snd o) w) outs rw ->
  let dm := length (those false pres ds) in
  let x := those true pres ds ++ firstn dm (those true (map fst outs) rw) in
  let y := those false pres ds ++ those false (map fst outs) rw in
  length left = length y /\ Forall (fun l => length l = length x /\ u16s l) left /\
  forall i l, nth_error left i = Some l -> dot l x = nth i y 0.
Proof.
  intros H Lb Pb Ld Ud Ur F dm x y. unfold rs_compute in H. destruct (bases (length pres) 0) as [db|] eqn:Eb; [|discriminate].
  assert (db = bs) by (eapply bases_unique; eauto). subst db. destruct (bases_facts _ _ Eb) as (_ & _ & Ub0 & _).
  assert (Ub : u16s bs) by (eapply Forall_impl; [|exact Ub0]; intros a [A _]; exact A).
  rewrite !pick_those in H. destruct (filter_those outs) as [F1 F2]. rewrite F1, F2 in H.
  assert (Lm : length (those false pres bs) = dm) by (apply those_length; congruence). rewrite Lm in H.
  set (bp := those true pres bs) in *. set (bm := those false pres bs) in *.
  set (ps := those true (map fst outs) (map snd outs)) in *. set (ms := those false (map fst outs) (map snd outs)) in *.
  destruct (Nat.ltb (length ps) dm) eqn:Ep; [discriminate|]. apply Nat.ltb_ge in Ep.
  destruct (Nat.eqb (dm + length ms) 0) eqn:E0; [discriminate|].
  set (m := init_rows bp bm (firstn dm ps) ms) in *.
  assert (G : exists m', gauss_loop dm 0 m = Some m' /\ left = map fst m').
  { destruct (Nat.eqb dm 0) eqn:Ed.
    - apply Nat.eqb_eq in Ed. rewrite Ed in *. exists m. split; [reflexivity|congruence].
    - destruct (gauss_loop dm 0 m) as [m'|]; [|discriminate]. exists m'. split; congruence. }
  destruct G as (m' & G & ->). clear H.
  assert (F' : Forall2 (fun e w => expo e /\ recovery_word bs ds e w) (map snd outs) rw).
  { clear - F. induction F; cbn [map]; constructor; auto. }
  assert (FP := forall2_firstn _ dm _ _ (those_forall2 _ true (map fst outs) _ _ F')). fold ps in FP.
  assert (FM := those_forall2 _ false (map fst outs) _ _ F'). fold ms in FM.
  assert (Les : length (firstn dm ps) = length bm) by (rewrite firstn_length; lia).
  assert (UP : u16s (firstn dm (those true (map fst outs) rw))) by apply forall_firstn, those_forall, Ur.
  assert (UM : u16s (those false (map fst outs) rw)) by apply those_forall, Ur.
  assert (Ees : Forall expo (firstn dm ps)). { clear - FP. revert FP. generalize (firstn dm ps) (firstn dm (those true (map fst outs) rw)). induction 1; constructor; tauto. }
  assert (Ems : Forall expo ms). { clear - FM. revert FM. generalize ms (those false (map fst outs) rw). induction 1; constructor; tauto. }
  assert (LC := forall2_length _ _ _ FM). assert (LR := forall2_length _ _ _ FP).
  assert (Lp : length bp = length (those true pres ds)) by (apply those_length; congruence).
  assert (Lx : length x = (length bp + length bm)%nat). { unfold x. rewrite app_length, <- LR, Les. lia. }
  assert (Ly : length y = (length bm + length ms)%nat). { unfold y. rewrite app_length, <- LC, Lm. lia. }
  destruct (gauss_solution (length bp + length bm) (length bm + length ms) dm x y m m') as (S1 & S2 & S3).
  - lia.
  - apply init_length, Les.
  - exact Ly.
  - apply Forall_app. split; [apply those_forall, Ud|exact UP].
  - apply Forall_app. split; [apply those_forall, Ud|exact UM].
  - apply init_wf; try assumption; apply those_forall, Ub.
  - rewrite <- Lm. apply init_solved, Les.
  - apply (init_eqn pres bs ds (firstn dm ps) ms _ _); try assumption; try congruence.
  - exact G.
  - rewrite map_length. split; [congruence|]. split.
    + apply Forall_map. eapply Forall_impl; [|exact S2]. intros q (W1 & _ & W2 & _). split; [congruence|exact W2].
    + intros i l Hl. rewrite nth_error_map in Hl. destruct (nth_error m' i) as [q|] eqn:Eq; [|discriminate]. inversion Hl; subst. apply S3, Eq.
Qed.

(** ** Words of 32 bits *)
Lemma land255 a : 0 <= a -> Z.land a 255 = a mod 256.
Proof. intros H. change 255 with (Z.ones 8). apply Z.land_ones. lia. Qed.
Lemma land255_b a : 0 <= Z.land a 255 < 256.
Proof. change 255 with (Z.ones 8). rewrite Z.land_ones by lia. apply Z.mod_pos_bound. reflexivity. Qed.
Lemma bytes16 a : u16 a -> a = Z.lxor (Z.land a 255) (Z.shiftl (Z.land (Z.shiftr a 8) 255) 8).
Proof.
  intros U. apply Z.bits_inj'. intros n Hn. rewrite Z.lxor_spec, Z.land_spec. change 255 with (Z.ones 8).
  destruct (Z_lt_dec n 8).
  - rewrite Z.ones_spec_low, andb_true_r, Z.shiftl_spec_low, xorb_false_r by lia. reflexivity.
  - rewrite Z.ones_spec_high, andb_false_r, Z.shiftl_spec, Z.land_spec, Z.shiftr_spec by lia. cbn [xorb].
    replace (n - 8 + 8) with n by lia. destruct (Z_lt_dec n 16).
    + rewrite Z.ones_spec_low by lia. rewrite andb_true_r. destruct (Z.testbit a n); reflexivity.
    + rewrite Z.ones_spec_high, andb_false_r by lia. destruct (Z.eq_dec a 0) as [->|]; [apply Z.testbit_0_l|].
      apply Z.bits_above_log2; [unfold u16 in U; lia|]. apply Z.log2_lt_pow2; unfold u16 in U; [lia|].
      assert (2 ^ 16 <= 2 ^ n) by (apply Z.pow_le_mono_r; lia). change (2 ^ 16) with 65536 in *. lia.
Qed.
Lemma byte_u16 b : 0 <= b < 256 -> u16 b /\ u16 (Z.shiftl b 8).
Proof. intros H. rewrite Z.shiftl_mul_pow2 by lia. change (2 ^ 8) with 256. unfold u16. lia. Qed.
Lemma tab_l_ok f i : u16 f -> 0 <= i < 256 -> tab_l f i = gmul f i.
Proof.
  intros F I. unfold tab_l, glmt. change (0 =? 0) with true. change (1 =? 0) with false. change (1 =? 1) with true. cbv iota.
  destruct (byte_u16 _ I) as [I1 I2]. destruct (byte_u16 _ (land255_b f)) as [A1 A2]. destruct (byte_u16 _ (land255_b (Z.shiftr f 8))) as [B1 B2].
  rewrite (bytes16 f F) at 3. fold (gadd (Z.land f 255) (Z.shiftl (Z.land (Z.shiftr f 8) 255) 8)).
  rewrite gmul_add_l, (gmul_comm i) by assumption. reflexivity.
Qed.
Lemma tab_h_ok f i : u16 f -> 0 <= i < 256 -> tab_h f i = gmul f (Z.shiftl i 8).
Proof.
  intros F I. unfold tab_h, glmt. change (2 =? 0) with false. change (2 =? 1) with false. change (1 =? 0) with false. change (1 =? 1) with true. cbv iota.
  destruct (byte_u16 _ I) as [I1 I2]. destruct (byte_u16 _ (land255_b f)) as [A1 A2]. destruct (byte_u16 _ (land255_b (Z.shiftr f 8))) as [B1 B2].
  rewrite (bytes16 f F) at 3. fold (gadd (Z.land f 255) (Z.shiftl (Z.land (Z.shiftr f 8) 255) 8)).
  rewrite gmul_add_l by assumption. reflexivity.
Qed.
Lemma lo16_u s : u16 (lo16 s).
Proof. apply Z.mod_pos_bound. reflexivity. Qed.
Lemma hi16_u s : u32w s -> u16 (hi16 s).
Proof. unfold u32w, u16, hi16. change (2 ^ 32) with 4294967296. lia. Qed.
Lemma lo16_ones s : lo16 s = Z.land s (Z.ones 16).
Proof. rewrite Z.land_ones by lia. reflexivity. Qed.
Lemma hi16_shift s : hi16 s = Z.shiftr s 16.
Proof. rewrite Z.shiftr_div_pow2 by lia. reflexivity. Qed.
Lemma lo16_lxor a b : lo16 (Z.lxor a b) = Z.lxor (lo16 a) (lo16 b).
Proof.
  rewrite !lo16_ones. apply Z.bits_inj'. intros n Hn. rewrite Z.lxor_spec, !Z.land_spec, Z.lxor_spec.
  destruct (Z.testbit a n), (Z.testbit b n), (Z.testbit (Z.ones 16) n); reflexivity.
Qed.
Lemma hi16_lxor a b : hi16 (Z.lxor a b) = Z.lxor (hi16 a) (hi16 b).
Proof. rewrite !hi16_shift. apply Z.shiftr_lxor. Qed.
Lemma lo16_small a : u16 a -> lo16 a = a. Proof. intros H. apply Z.mod_small, H. Qed.
Lemma hi16_small a : u16 a -> hi16 a = 0. Proof. intros H. apply Z.div_small, H. Qed.
Lemma lo16_shl a : lo16 (Z.shiftl a 16) = 0.
Proof. unfold lo16. rewrite Z.shiftl_mul_pow2 by lia. change (2 ^ 16) with 65536. apply Z.mod_mul. lia. Qed.
Lemma hi16_shl a : hi16 (Z.shiftl a 16) = a.
Proof. unfold hi16. rewrite Z.shiftl_mul_pow2 by lia. change (2 ^ 16) with 65536. apply Z.div_mul. lia. Qed.
Lemma u32w_lxor a b : u32w a -> u32w b -> u32w (Z.lxor a b).
Proof.
  intros A B. assert (HA := hi16_u _ A). assert (HB := hi16_u _ B). assert (H := u16_lxor _ _ HA HB). rewrite <- hi16_lxor in H.
  unfold u32w, u16, hi16 in *. change (2 ^ 32) with 4294967296 in *. lia.
Qed.
Lemma u32w_shl a : u16 a -> u32w (Z.shiftl a 16).
Proof. unfold u16, u32w. rewrite Z.shiftl_mul_pow2 by lia. change (2 ^ 16) with 65536. change (2 ^ 32) with 4294967296. lia. Qed.
Lemma u32w_small a : u16 a -> u32w a.
Proof. unfold u16, u32w. change (2 ^ 32) with 4294967296. lia. Qed.
Lemma byte_lo s : Z.land s 255 = Z.land (lo16 s) 255.
Proof.
  rewrite lo16_ones, <- Z.land_assoc. f_equal.
Qed.
Lemma byte_lo8 s : Z.land (Z.shiftr s 8) 255 = Z.land (Z.shiftr (lo16 s) 8) 255.
Proof. rewrite lo16_ones, Z.shiftr_land, <- Z.land_assoc. f_equal. Qed.
Lemma byte_hi s : Z.land (Z.shiftr s 16) 255 = Z.land (hi16 s) 255.
Proof. rewrite hi16_shift. reflexivity. Qed.
Lemma byte_hi8 s : Z.land (Z.shiftr s 24) 255 = Z.land (Z.shiftr (hi16 s) 8) 255.
Proof. rewrite hi16_shift, Z.shiftr_shiftr by lia. reflexivity. Qed.
Lemma tabs_ok f a : u16 f -> u16 a -> Z.lxor (tab_l f (Z.land a 255)) (tab_h f (Z.land (Z.shiftr a 8) 255)) = gmul f a.
Proof.
  intros F A. rewrite tab_l_ok, tab_h_ok by (try exact F; apply land255_b). rewrite (bytes16 a A) at 3.
  symmetry. apply gmul_add_r; [exact F|apply byte_u16, land255_b|apply byte_u16, land255_b].
Qed.
Lemma proc32_ok f s d : u16 f -> u32w s -> u32w d ->
  u32w (proc32 f s d) /\ lo16 (proc32 f s d) = gadd (lo16 d) (gmul f (lo16 s)) /\ hi16 (proc32 f s d) = gadd (hi16 d) (gmul f (hi16 s)).
Proof.
  intros F S D. unfold proc32. rewrite byte_lo, byte_lo8, byte_hi, byte_hi8.
  assert (TL : forall i, 0 <= i < 256 -> u16 (tab_l f i)). { intros i I. rewrite tab_l_ok by assumption. apply gmul_u16; [exact F|apply byte_u16, I]. }
  assert (TH : forall i, 0 <= i < 256 -> u16 (tab_h f i)). { intros i I. rewrite tab_h_ok by assumption. apply gmul_u16; [exact F|apply byte_u16, I]. }
  assert (T1 := TL _ (land255_b (lo16 s))). assert (T2 := TH _ (land255_b (Z.shiftr (lo16 s) 8))).
  assert (T3 := TL _ (land255_b (hi16 s))). assert (T4 := TH _ (land255_b (Z.shiftr (hi16 s) 8))).
  assert (M1 := tabs_ok f _ F (lo16_u s)). assert (M2 := tabs_ok f _ F (hi16_u s S)).
  revert T1 T2 T3 T4 M1 M2. generalize (tab_l f (Z.land (lo16 s) 255)) (tab_h f (Z.land (Z.shiftr (lo16 s) 8) 255))
    (tab_l f (Z.land (hi16 s) 255)) (tab_h f (Z.land (Z.shiftr (hi16 s) 8) 255)).
  intros t1 t2 t3 t4 T1 T2 T3 T4 M1 M2. split; [|split].
  - repeat apply u32w_lxor; first [assumption|apply u32w_shl; assumption|apply u32w_small; assumption].
  - rewrite !lo16_lxor, !lo16_shl, (lo16_small t1), (lo16_small t2), !Z.lxor_0_r, Z.lxor_assoc, M1 by assumption. reflexivity.
  - rewrite !hi16_lxor, !hi16_shl, (hi16_small t1), (hi16_small t2), !Z.lxor_0_r, Z.lxor_assoc, M2 by assumption. reflexivity.
Qed.

(** ** Buffers *)
Definition buf (n : nat) (b : list Z) : Prop := length b = n /\ Forall u32w b.
Lemma buf_nth n b k : buf n b -> (k < n)%nat -> u32w (nth k b 0).
Proof. intros [L F] H. rewrite Forall_forall in F. apply F, nth_In. lia. Qed.
Lemma process_ok n f s d : u16 f -> buf n s -> buf n d -> buf n (rs_process f s d) /\
  forall k, (k < n)%nat -> lo16 (nth k (rs_process f s d) 0) = gadd (lo16 (nth k d 0)) (gmul f (lo16 (nth k s 0))) /\
                           hi16 (nth k (rs_process f s d) 0) = gadd (hi16 (nth k d 0)) (gmul f (hi16 (nth k s 0))).
Proof.
  intros F [LS S] [LD D]. unfold rs_process. destruct (f =? 0) eqn:E.
  - split; [split; assumption|]. intros k H. replace f with 0 by lia. rewrite !gmul_0_l. split; symmetry; apply Z.lxor_0_r.
  - clear E. revert s d LS S LD D. induction n as [|n IH]; intros s d LS S LD D.
    + destruct s, d; try discriminate. cbn [map2]. split; [split; [reflexivity|constructor]|]. intros; lia.
    + destruct s as [|a s], d as [|b d]; try discriminate. cbn [map2 length] in *. inversion S; inversion D; subst.
      destruct (IH s d ltac:(lia) ltac:(assumption) ltac:(lia) ltac:(assumption)) as ([L1 F1] & K).
      destruct (proc32_ok f a b) as (U & P1 & P2); try assumption.
      split; [split; [cbn [length]; congruence|constructor; assumption]|]. intros [|k] H; cbn [nth]; [auto|]. apply K. lia.
Qed.
Lemma row_ok n row : forall inputs out, length row = length inputs -> u16s row -> Forall (buf n) inputs -> buf n out ->
  let r := fold_left (fun out p => rs_process (fst p) (snd p) out) (combine row inputs) out in
  buf n r /\ forall k, (k < n)%nat ->
    lo16 (nth k r 0) = gadd (lo16 (nth k out 0)) (dot row (map (fun b => lo16 (nth k b 0)) inputs)) /\
    hi16 (nth k r 0) = gadd (hi16 (nth k out 0)) (dot row (map (fun b => hi16 (nth k b 0)) inputs)).
Proof.
  induction row as [|f row IH]; intros [|s inputs] out L U B O; try discriminate L.
  - cbn. split; [exact O|]. intros k _. split; symmetry; apply Z.lxor_0_r.
  - cbn [combine fold_left map length fst snd] in *. inversion U; inversion B; subst.
    destruct (process_ok n f s out) as [O' P]; try assumption.
    destruct (IH inputs (rs_process f s out)) as [R Q]; try assumption; [congruence|]. split; [exact R|].
    intros k Hk. destruct (Q k Hk) as [Q1 Q2]. destruct (P k Hk) as [P1 P2]. rewrite Q1, Q2, P1, P2, !dot_cons. unfold gadd.
    split; apply Z.lxor_assoc.
Qed.
Lemma buf_repeat n : buf n (repeat 0 n).
Proof.
  split; [apply repeat_length|]. apply Forall_forall. intros x H. apply repeat_spec in H. subst. unfold u32w. lia.
Qed.

Lemma word_split a b : lo16 a = lo16 b -> hi16 a = hi16 b -> a = b.
Proof. unfold lo16, hi16. intros. rewrite (Z.div_mod a 65536), (Z.div_mod b 65536) by lia. congruence. Qed.

Lemma repair_ok pres outs left bs blocks recs n :
  rs_compute pres outs = Some left -> length bs = length pres -> par2_bases bs ->
  length blocks = length pres -> Forall (buf n) blocks ->
  Forall2 (fun o rec => expo (snd o) /\ recovery_block n bs blocks (snd o) rec) outs recs ->
  rs_repair left (those true pres blocks ++ firstn (length (those false pres blocks)) (those true (map fst outs) recs)) n
  = those false pres blocks ++ those false (map fst outs) recs.
Proof.
  intros H Lb Pb Lk Bk F.
  set (inputs := those true pres blocks ++ firstn _ _). set (outp := those false pres blocks ++ _).
  assert (Br : Forall (buf n) recs).
  { clear - F. induction F as [|o r outs recs [_ (L & U & _)] F IH]; constructor; [split; assumption|exact IH]. }
  assert (Bi : Forall (buf n) inputs). { apply Forall_app. split; [apply those_forall, Bk|apply forall_firstn, those_forall, Br]. }
  assert (Bo : Forall (buf n) outp). { apply Forall_app. split; apply those_forall; assumption. }
  assert (Ein : forall g : list Z -> Z, those true pres (map g blocks) ++
     firstn (length (those false pres (map g blocks))) (those true (map fst outs) (map g recs)) = map g inputs).
  { intros g. unfold inputs. rewrite map_app, !those_map, firstn_map, map_length. reflexivity. }
  assert (Eout : forall g : list Z -> Z, those false pres (map g blocks) ++ those false (map fst outs) (map g recs) = map g outp).
  { intros g. unfold outp. rewrite map_app, !those_map. reflexivity. }
  assert (W : forall (h : Z -> Z) k, (h = lo16 \/ h = hi16) -> (k < n)%nat ->
    let g b := h (nth k b 0) in
    length left = length outp /\ Forall (fun l => length l = length inputs /\ u16s l) left /\
    forall i l, nth_error left i = Some l -> dot l (map g inputs) = nth i (map g outp) 0).
  { intros h k Hh Hk g.
    assert (Ug : forall l, Forall (buf n) l -> u16s (map g l)).
    { intros l Hl. apply Forall_map. eapply Forall_impl; [|exact Hl]. intros b Hb. unfold g.
      assert (X := buf_nth n b k Hb Hk). destruct Hh as [->| ->]; [apply lo16_u|apply hi16_u, X]. }
    destruct (compute_solution pres outs left bs (map g blocks) (map g recs) H Lb Pb) as (S1 & S2 & S3).
    - rewrite map_length. exact Lk.
    - apply Ug, Bk.
    - apply Ug, Br.
    - clear - F Hh Hk. induction F as [|o r outs recs [E (_ & _ & R)] F IH]; constructor; [|exact IH].
      split; [exact E|]. destruct (R k Hk) as [R1 R2]. unfold g. destruct Hh as [->| ->]; assumption.
    - cbv zeta in S1, S2, S3. rewrite Ein in S2, S3. rewrite Eout in S1, S3. rewrite map_length in S1.
      split; [exact S1|]. split; [|exact S3]. eapply Forall_impl; [|exact S2]. intros l [A B]. rewrite map_length in A. auto. }
  assert (N0 : n = 0%nat \/ (0 < n)%nat) by lia.
  assert (Q : length left = length outp /\ Forall (fun l => length l = length inputs /\ u16s l) left).
  { destruct N0 as [->|N0].
    - (* empty blocks: lengths come from the data of blocks of zero words *)
      destruct (compute_solution pres outs left bs (map (fun _ => 0) blocks) (map (fun _ => 0) recs) H Lb Pb) as (S1 & S2 & _).
      + rewrite map_length. exact Lk.
      + apply Forall_map, Forall_forall. intros. apply u16_0.
      + apply Forall_map, Forall_forall. intros. apply u16_0.
      + assert (Z0 : forall e, recovery_word bs (map (fun _ => 0) blocks) e 0).
        { intros e. split; [apply u16_0|]. exists 0. split; [lia|]. unfold poly_sum. clear. revert bs.
          induction blocks as [|b bl IH]; intros [|x bs]; try reflexivity. cbn [map map2 xsum fold_right]. 
          unfold xsum in IH. rewrite (IH bs). rewrite clmul_0_r. reflexivity. }
        clear - F Z0. induction F as [|o r outs recs [E _] F IH]; constructor; auto.
      + cbv zeta in S1, S2. rewrite Ein in S2. rewrite Eout in S1. rewrite map_length in S1.
        split; [exact S1|]. eapply Forall_impl; [|exact S2]. intros l [A B]. rewrite map_length in A. auto.
    - destruct (W lo16 0%nat (or_introl eq_refl) N0) as (A & B & _). auto. }
  destruct Q as [LL LW]. unfold rs_repair. apply nth_error_ext. intros i. rewrite nth_error_map.
  destruct (nth_error left i) as [row|] eqn:Er.
  - assert (Hi : (i < length outp)%nat). { rewrite <- LL. apply nth_error_Some. congruence. }
    destruct (nth_error outp i) as [o|] eqn:Eo; [|apply nth_error_None in Eo; lia]. cbn [option_map]. f_equal.
    rewrite Forall_forall in LW. destruct (LW row (nth_error_In _ _ Er)) as [Lr Ur].
    destruct (row_ok n row inputs (repeat 0 n) Lr Ur Bi (buf_repeat n)) as [R K].
    assert (Ob : buf n o). { rewrite Forall_forall in Bo. apply Bo. eapply nth_error_In, Eo. }
    apply (nth_ext _ _ 0 0); [destruct R as [-> _], Ob as [-> _]; reflexivity|].
    intros k Hk. destruct R as [R1 R2]. rewrite R1 in Hk. destruct (K k Hk) as [K1 K2].
    rewrite nth_repeat0 in K1, K2.
    destruct (W lo16 k (or_introl eq_refl) Hk) as (_ & _ & W1). destruct (W hi16 k (or_intror eq_refl) Hk) as (_ & _ & W2).
    assert (NE : forall h, nth i (map (fun b => h (nth k b 0)) outp) 0 = h (nth k o 0) :> Z).
    { intros h. apply nth_error_nth. rewrite nth_error_map, Eo. reflexivity. }
    apply word_split.
    + rewrite K1, (W1 i row Er), NE. apply Z.lxor_0_l.
    + rewrite K2, (W2 i row Er), NE. apply Z.lxor_0_l.
  - symmetry. apply nth_error_None. apply nth_error_None in Er. cbn [option_map]. lia.
Qed.
