(** Proofs that the reading of rar-volumes of version 5 ends. *)
From Coq Require Import String.
From Verif Require Import Base RarModel RarSpec RarProofs RarProofs4.
Open Scope list_scope. Open Scope Z_scope.

Lemma one_inv c p t a q t' : bytes_ok c -> 0 <= p -> read 1 c (p, t) = Ok (a, (q, t')) ->
  exists x r, a = [x] /\ 0 <= x < 256 /\ at_ c p (x :: r) /\ q = p + 1 /\ t' = (t - 1) mod u64.
Proof.
  intros Bc P H. apply read_inv in H as (-> & -> & -> & L). change (Z.to_nat 1) with 1%nat.
  destruct (skipn (Z.to_nat p) c) as [|x r] eqn:E.
  - assert (X : length (skipn (Z.to_nat p) c) = 0%nat) by (rewrite E; reflexivity). rewrite skipn_length in X. unfold zlen in L. lia.
  - exists x, r. split; [reflexivity|]. split.
    + unfold bytes_ok in Bc. rewrite Forall_forall in Bc. apply Bc. rewrite <- (firstn_skipn (Z.to_nat p) c), E. apply in_or_app. right. left. reflexivity.
    + split; [split; [lia|exact E]|]. auto.
Qed.

Lemma vgo_inv fuel : forall bits acc c p t a q t', bytes_ok c -> 0 <= p -> 0 <= bits -> read_v_go fuel bits acc c (p, t) = Ok (a, (q, t')) ->
  exists i z r, at_ c p ((i ++ [z]) ++ r) /\ Forall (fun b => 128 <= b < 256) i /\ 0 <= z < 128 /\ (length i < fuel)%nat /\
    q = p + zlen (i ++ [z]) /\ t' = (t - zlen (i ++ [z])) mod u64 /\ a = (acc + vval (i ++ [z]) * 2 ^ bits) mod u64.
Proof.
  induction fuel as [|fuel IH]; intros bits acc c p t a q t' Bc P Hb H; cbn [read_v_go] in H; apply bind_inv in H as (b & [q1 t1] & H1 & H); [discriminate|].
  apply one_inv in H1 as (x & r & -> & Hx & A & -> & ->); auto. cbn [nth] in H. rewrite has128 in H by lia. rewrite land127 in H.
  destruct (128 <=? x) eqn:E.
  - apply IH in H as (i & z & r' & A2 & F & Hz & L & -> & -> & ->); auto; try lia.
    exists (x :: i), z, r'. split.
    + cbn [app]. replace (x :: (i ++ [z]) ++ r') with (x :: r); [exact A|]. f_equal. pose proof (at_app c p [x] r A) as A3. destruct A2 as [_ A2]. destruct A3 as [_ A3]. change (zlen [x]) with 1 in A3. congruence.
    + split; [constructor; [lia|exact F]|]. split; [exact Hz|]. split; [cbn [length]; lia|]. cbn [app]. rewrite zlen_cons. split; [lia|]. split; [rewrite sub_mod; f_equal; lia|].
      cbn [vval]. rewrite Zplus_mod_idemp_l, Z.shiftl_mul_pow2, Z.pow_add_r by lia. f_equal. change (2 ^ 7) with 128. ring.
  - apply ret_inv in H as (-> & -> & ->). exists [], x, r. split; [exact A|]. split; [constructor|]. split; [lia|]. split; [cbn [length]; lia|]. change (zlen ([] ++ [x])) with 1.
    split; [reflexivity|]. split; [reflexivity|]. cbn [app vval]. rewrite Z.shiftl_mul_pow2 by lia. f_equal. rewrite Z.mul_0_r, Z.add_0_r. reflexivity.
Qed.

Lemma v_inv c p t a q t' : bytes_ok c -> 0 <= p -> read_v c (p, t) = Ok (a, (q, t')) ->
  exists l r, at_ c p (l ++ r) /\ vlike l /\ q = p + zlen l /\ t' = (t - zlen l) mod u64 /\ a = vval l mod u64 /\ 1 <= zlen l.
Proof.
  intros Bc P H. apply vgo_inv in H as (i & z & r & A & F & Hz & L & -> & -> & ->); auto; [|lia].
  exists (i ++ [z]), r. split; [exact A|]. split.
  - exists i, z. repeat apply conj; auto; try lia. rewrite zlen_app. change (zlen [z]) with 1. unfold zlen. lia.
  - repeat apply conj; auto; [f_equal; lia|]. rewrite zlen_app. change (zlen [z]) with 1. pose proof (zlen_pos i). lia.
Qed.

(** Reading keeps the end of the block. *)
Definition steady {A} (m : rdr A) : Prop := forall c p t a q t', bytes_ok c -> 0 <= p <= zlen c -> 0 <= t < u64 -> m c (p, t) = Ok (a, (q, t')) ->
  p <= q <= zlen c /\ (q + t') mod u64 = (p + t) mod u64 /\ 0 <= t' < u64.
Lemma st_mod n : (n - n) = 0. Proof. lia. Qed.
Lemma steady_sub p t n : (p + n + (t - n) mod u64) mod u64 = (p + t) mod u64.
Proof. rewrite Zplus_mod_idemp_r. f_equal. lia. Qed.
Lemma mod_range t : 0 <= t mod u64 < u64.
Proof. apply Z.mod_pos_bound. reflexivity. Qed.
Lemma steady_bind {A B} (m : rdr A) (k : A -> rdr B) : steady m -> (forall a, steady (k a)) -> steady (bind m k).
Proof.
  intros Hm Hk c p t a q t' Bc P T H. apply bind_inv in H as (x & [q1 t1] & H1 & H2). apply Hm in H1 as (X1 & X2 & X3); auto.
  apply Hk in H2 as (Y1 & Y2 & Y3); auto; [|lia]. split; [lia|]. split; [congruence|exact Y3].
Qed.
Lemma steady_ret {A} (a : A) : steady (ret a).
Proof. intros c p t b q t' _ P T H. apply ret_inv in H as (-> & -> & ->). repeat split; lia. Qed.
Lemma steady_fail {A} : steady (@fail A). Proof. intros c p t b q t' _ P T H. discriminate. Qed.
Lemma steady_read n : 0 <= n -> steady (read n).
Proof. intros N c p t b q t' _ P T H. apply read_inv in H as (_ & -> & -> & L). split; [lia|]. split; [apply steady_sub|apply mod_range]. Qed.
Lemma steady_num n : 0 <= n -> steady (read_num n).
Proof. intros N. apply steady_bind; [apply steady_read, N|intros; apply steady_ret]. Qed.
Lemma steady_skip n : steady (skip n).
Proof. unfold skip. destruct (0 <? s64 n) eqn:E; [apply steady_read; lia|apply steady_ret]. Qed.
Lemma steady_get : steady get_trail.
Proof. intros c p t b q t' _ P T H. unfold get_trail in H. injection H as <- <- <-. repeat split; lia. Qed.
Lemma steady_v : steady read_v.
Proof. intros c p t b q t' Bc P T H. apply v_inv in H as (l & r & A & V & -> & -> & _ & L); auto; [|lia]. apply at_app in A. destruct A as [A _]. split; [lia|]. split; [apply steady_sub|apply mod_range]. Qed.
Ltac steady := repeat first [match goal with |- steady (bind _ _) => apply steady_bind; [|intros ?] end | apply steady_ret | apply steady_fail | apply steady_num; lia | apply steady_skip | apply steady_get | apply steady_v
  | match goal with |- steady (if ?b then _ else _) => destruct b end].
Lemma steady_extra fuel : forall rem time, steady (read5_extra fuel rem time).
Proof.
  induction fuel as [|fuel IH]; intros rem time; cbn [read5_extra]; destruct (rem =? 0); try apply steady_ret; [intros c p t a q t' _ _ _ H; discriminate|].
  steady; apply IH.
Qed.
Lemma v_nonneg c p t a q t' : bytes_ok c -> 0 <= p -> read_v c (p, t) = Ok (a, (q, t')) -> 0 <= a.
Proof. intros Bc P H. apply v_inv in H as (l & r & _ & _ & _ & _ & -> & _); auto. apply mod_range. Qed.
Lemma steady_file5 b : steady (read5_file b).
Proof.
  unfold read5_file. do 7 (apply steady_bind; [solve [steady]|intros ?]).
  intros c p t x q t' Bc P T H. apply bind_inv in H as (nl & [q1 t1] & H1 & H). pose proof (v_nonneg _ _ _ _ _ _ Bc (proj1 P) H1) as N.
  apply steady_v in H1 as (X1 & X2 & X3); auto.
  assert (K : steady (if 8192 <? nl then fail else name <- read nl;;
       time <- (if has (b_flags b) 1 then fun c => read5_extra (S (length c)) (b_add b) a2 c else ret a2);;
       ret (RFile (upto0 name) time (a1 mod 2 ^ 32) (s64 a0) (has (b_flags b) 8) (has (b_flags b) 16)))).
  { destruct (8192 <? nl); [apply steady_fail|]. apply steady_bind; [apply steady_read, N|intros nm]. apply steady_bind; [|intros; apply steady_ret].
    destruct (has (b_flags b) 1); [|apply steady_ret]. intros c' p' t0 a' q' t0' B' P' T' H'. revert H'. apply steady_extra; auto. }
  apply K in H as (Y1 & Y2 & Y3); auto; [|lia]. split; [lia|]. split; [congruence|exact Y3].
Qed.

(** Readers that end. *)
Definition ends {A} (m : rdr A) : Prop := forall c s, m c s <> Endless.
Lemma ends_bind {A B} (m : rdr A) (k : A -> rdr B) : ends m -> (forall a, ends (k a)) -> ends (bind m k).
Proof. intros Hm Hk c s. unfold bind. specialize (Hm c s). destruct (m c s) as [[a s']| | |]; try discriminate; [apply Hk|congruence]. Qed.
Lemma ends_quiet {A} (m : rdr A) : quiet m -> ends m. Proof. intros H c s. apply H. Qed.
Lemma ends_v : ends read_v.
Proof.
  unfold read_v. generalize 0 at 1. generalize 0. generalize 10%nat. intros n. induction n as [|n IH]; intros a b; cbn [read_v_go]; (apply ends_bind; [apply ends_quiet, quiet_read|intros x]).
  - intros c s. discriminate.
  - destruct (has (nth 0 x 0) 128); [apply IH|apply ends_quiet, quiet_ret].
Qed.
Ltac ends := repeat first [apply ends_v | match goal with |- ends (bind _ _) => apply ends_bind; [|intros] end | solve [apply ends_quiet; quiet]
  | match goal with |- ends (if ?b then _ else _) => destruct b end].
Lemma extra_ends fuel : forall rem time c p t, bytes_ok c -> 0 <= p <= zlen c -> 0 <= t < u64 -> zlen c - p < Z.of_nat fuel ->
  read5_extra fuel rem time c (p, t) <> Endless.
Proof.
  induction fuel as [|fuel IH]; intros rem time c p t Bc P T F; [lia|]. cbn [read5_extra]. destruct (rem =? 0); [discriminate|].
  rewrite get_at.
  unfold bind at 1. destruct (read_v c (p, t)) as [[len [q1 t1]]| | |] eqn:E1; try discriminate; [|exfalso; exact (ends_v _ _ E1)].
  assert (Q : p + 1 <= q1 <= zlen c /\ 0 <= t1 < u64).
  { apply v_inv in E1 as (l & r & A & _ & -> & -> & _ & L); auto; [|lia]. apply at_app in A as [A _]. split; [lia|apply mod_range]. }
  rewrite get_at. clear E1. destruct Q as [Q1 Q2].
  match goal with |- bind read_v ?k c _ <> _ => assert (G : forall a s', k a = k a /\ s' = s' :> Z * Z) by auto; clear G end.
  unfold bind at 1. destruct (read_v c (q1, t1)) as [[ty [q2 t2]]| | |] eqn:E2; try discriminate; [|exfalso; exact (ends_v _ _ E2)].
  apply steady_v in E2 as (X1 & _ & X3); auto; [|lia].
  match goal with |- bind ?m ?k c _ <> _ => assert (Em : ends m) by ends; assert (Sm : steady m) by steady end.
  unfold bind at 1. match goal with |- match ?m c (q2, t2) with _ => _ end <> _ => destruct (m c (q2, t2)) as [[tm [q3 t3]]| | |] eqn:E3 end; try discriminate; [|exfalso; exact (Em _ _ E3)].
  apply Sm in E3 as (Y1 & _ & Y3); auto; [|lia]. clear Em Sm. rewrite get_at.
  match goal with |- bind ?m ?k c _ <> _ => assert (Em : ends m) by (apply ends_quiet, quiet_skip); assert (Sm : steady m) by apply steady_skip end.
  unfold bind at 1. match goal with |- match ?m c (q3, t3) with _ => _ end <> _ => destruct (m c (q3, t3)) as [[sk [q4 t4]]| | |] eqn:E4 end; try discriminate; [|exfalso; exact (Em _ _ E4)].
  apply Sm in E4 as (W1 & _ & W3); auto; [|lia]. apply IH; auto; lia.
Qed.

Lemma at_det c p a b : at_ c p a -> at_ c p b -> a = b.
Proof. intros [_ <-] [_ <-]. reflexivity. Qed.
Lemma at_split c p r : at_ c p r -> exists pre, c = pre ++ r /\ zlen pre = p.
Proof.
  intros [P <-]. exists (firstn (Z.to_nat p) c). split; [symmetry; apply firstn_skipn|]. unfold zlen in *. rewrite firstn_length. lia.
Qed.

Lemma sub2 x a b : ((x mod u64 - a) mod u64 - b) mod u64 = (x - a - b) mod u64.
Proof. rewrite (sub_mod x a). apply sub_mod. Qed.
Lemma sub3 x a b d : (((x mod u64 - a) mod u64 - b) mod u64 - d) mod u64 = (x - a - b - d) mod u64.
Proof. rewrite (sub2 x a b). apply sub_mod. Qed.

Lemma bit_mod x n k : 0 <= n < k -> bit (x mod 2 ^ k) n = bit x n.
Proof. intros H. unfold bit. apply Z.mod_pow2_bits_low. lia. Qed.

Lemma read5_inv c p a q t' : bytes_ok c -> 0 <= p <= zlen c -> read5_block c (p, 0) = Ok (a, (q, t')) ->
  exists data next, header5 c p data next /\ (q + t') mod u64 = next mod u64 /\ p <= q <= zlen c /\ 0 <= t' < u64 /\ 0 <= data /\ p + 5 <= next - data /\ next - data <= p + 20 + 2 ^ 32.
Proof.
  intros Bc P H. unfold read5_block in H.
  apply bind_inv in H as (crc & [q1 t1] & H1 & H). unfold read_num in H1. apply bind_inv in H1 as (cb & [q2 t2] & H1 & H2). apply read_inv in H1 as (Ecb & -> & -> & L1). apply ret_inv in H2 as (_ & -> & ->).
  assert (A0 : at_ c p (cb ++ skipn 4 (skipn (Z.to_nat p) c))).
  { split; [lia|]. rewrite Ecb. change (Z.to_nat 4) with 4%nat. rewrite firstn_skipn. reflexivity. }
  assert (Lcb : zlen cb = 4). { rewrite Ecb. unfold zlen in *. rewrite firstn_length, skipn_length. lia. }
  pose proof (at_app _ _ _ _ A0) as A1. rewrite Lcb in A1. clear Ecb.
  apply bind_inv in H as (sz & [q3 t3] & H1 & H). apply v_inv in H1 as (vs & r1 & B1 & V1 & -> & -> & Esz & W1); auto; [|lia].
  rewrite (at_det _ _ _ _ A1 B1) in A0. clear A1. rewrite set_at in H. pose proof (at_app _ _ _ _ B1) as A1.
  apply bind_inv in H as (ty & [q3 t3] & H1 & H). apply v_inv in H1 as (vt & r2 & B2 & V2 & -> & -> & Ety & W2); auto; [|lia].
  rewrite (at_det _ _ _ _ A1 B2) in A0. clear A1 B1. pose proof (at_app _ _ _ _ B2) as A1.
  apply bind_inv in H as (fl & [q3 t3] & H1 & H). apply v_inv in H1 as (vf & r3 & B3 & V3 & -> & -> & Efl & W3); auto; [|lia].
  rewrite (at_det _ _ _ _ A1 B3) in A0. clear A1 B2. pose proof (at_app _ _ _ _ B3) as A1.
  remember (p + 4 + zlen vs + zlen vt + zlen vf) as P3 eqn:EP3 in *.
  assert (HP3 : 0 <= P3) by (clear -P W1 W2 W3 EP3; lia).
  assert (F0 : forall n, 0 <= n < 16 -> bit (fl mod 2 ^ 16) n = bit (vval vf) n). { intros n Hn. rewrite bit_mod by lia. rewrite Efl. unfold u64. apply bit_mod. lia. }
  change (has (fl mod 2 ^ 16) 1) with (has (fl mod 2 ^ 16) (2 ^ 0)) in H. change (has (fl mod 2 ^ 16) 2) with (has (fl mod 2 ^ 16) (2 ^ 1)) in H. rewrite !has_pow, !F0 in H by lia.
  apply bind_inv in H as (add & [q4 t4] & H1 & H).
  assert (G : exists va r4, at_ c P3 (va ++ r4) /\ (if bit (vval vf) 0 then vlike va else va = []) /\ q4 = P3 + zlen va /\
    t4 = ((sz mod 2 ^ 32) - zlen vt - zlen vf - zlen va) mod u64).
  { destruct (bit (vval vf) 0).
    - apply v_inv in H1 as (va & r4 & B4 & V4 & -> & -> & _ & _); [|exact Bc|exact HP3]. exists va, r4. split; [exact B4|]. split; [exact V4|]. split; [reflexivity|]. apply sub3.
    - apply ret_inv in H1 as (_ & -> & ->). exists [], r3. split; [exact A1|]. split; [reflexivity|]. change (zlen (@nil Z)) with 0. split; [clear; lia|]. rewrite sub2, Z.sub_0_r. reflexivity. }
  destruct G as (va & r4 & B4 & V4 & -> & ->). rewrite (at_det _ _ _ _ A1 B4) in A0. clear A1 H1. pose proof (at_app _ _ _ _ B4) as A1. pose proof (zlen_pos va) as Pva.
  apply bind_inv in H as (dat & [q5 t5] & H1 & H).
  assert (G : exists vd r5, at_ c (P3 + zlen va) (vd ++ r5) /\ (if bit (vval vf) 1 then vlike vd /\ dat = vval vd mod 2 ^ 64 else vd = [] /\ dat = 0) /\ q5 = P3 + zlen va + zlen vd /\
    t5 = ((sz mod 2 ^ 32) - zlen vt - zlen vf - zlen va - zlen vd) mod u64).
  { destruct (bit (vval vf) 1).
    - apply v_inv in H1 as (vd & r5 & B5 & V5 & -> & -> & E5 & _); [|exact Bc|clear -HP3 Pva; lia]. exists vd, r5. split; [exact B5|]. split; [split; [exact V5|exact E5]|]. split; [reflexivity|]. apply sub_mod.
    - apply ret_inv in H1 as (-> & -> & ->). exists [], r4. split; [exact A1|]. split; [split; reflexivity|]. change (zlen (@nil Z)) with 0. split; [clear; lia|]. rewrite Z.sub_0_r. reflexivity. }
  destruct G as (vd & r5 & B5 & V5 & -> & ->). rewrite (at_det _ _ _ _ A1 B5) in A0. clear A1 H1. pose proof (zlen_pos vd) as Pvd.
  rewrite get_at, set_at in H. apply ret_inv in H as (_ & -> & ->). rewrite Zplus_mod_idemp_l.
  destruct (at_split _ _ _ A0) as (pre & Ec & Ep).
  assert (Esz' : sz mod 2 ^ 32 = vval vs mod 2 ^ 32).
  { rewrite Esz. unfold u64. change (2 ^ 64) with (2 ^ 32 * 2 ^ 32). rewrite Z.rem_mul_r by lia. rewrite (Z.mul_comm (2 ^ 32)), Z_mod_plus_full, Z.mod_mod by lia. reflexivity. }
  exists dat, (p + 4 + zlen vs + vval vs mod 2 ^ 32 + dat).
  assert (Dat : 0 <= dat). { destruct (bit (vval vf) 1); destruct V5 as [_ ->]; [apply mod_range|apply Z.le_refl]. }
  assert (Wvs : zlen vs <= 10) by (destruct V1 as (? & ? & _ & _ & _ & ?); assumption).
  pose proof (Z.mod_pos_bound (vval vs) (2 ^ 32) eq_refl) as Hvs.
  pose proof (at_app _ _ _ _ B5) as [Q5 _].
  split; [|split; [|split; [clear -EP3 W1 W2 W3 Pva Pvd Q5; lia|split; [apply mod_range|split; [exact Dat|clear -Hvs Wvs W1; generalize dependent (vval vs mod 2 ^ 32); intros; lia]]]]].
  - exists pre, cb, vs, vt, vf, va, vd, r5. repeat apply conj; auto.
  - rewrite Zplus_mod_idemp_r. f_equal. rewrite EP3, Esz'. clear. generalize (vval vs mod 2 ^ 32). intros; lia.
Qed.

Lemma step5_inv v c p v' q t r : bytes_ok c -> 0 <= p <= zlen c -> step5 v c (p, 0) = Ok ((v', false), (q, t)) -> zlen c < 2 ^ 62 ->
  seek q t = Some r -> exists data next, header5 c p data next /\ (data < 2 ^ 62 -> r = next /\ p < next).
Proof.
  intros Bc P H C S0. unfold step5 in H. apply bind_inv in H as (b & [q1 t1] & Hb & H).
  destruct (read5_inv c p b q1 t1 Bc P Hb) as (data & next & Hd & Em & L & T1 & D & N1 & N2). exists data, next. split; [exact Hd|]. intros D2.
  match type of H with ?m c _ = _ => assert (Sm : steady m) end.
  { destruct (b_type b =? 0); [apply steady_fail|]. destruct (b_type b =? 1); [steady|]. destruct (b_type b =? 4); [steady|].
    destruct (b_type b =? 2); [apply steady_bind; [apply steady_file5|intros ?; apply steady_ret]|]. destruct (b_type b =? 5); [steady|]. destruct (5 <? b_type b); steady. }
  apply Sm in H as (Y1 & Y2 & Y3); auto; [|lia]. rewrite Em in Y2. clear Sm Hb.
  unfold seek, s64 in S0. assert (M : (q + t) mod u64 = next) by (rewrite Y2; apply Z.mod_small; unfold u64; lia).
  unfold u64 in *. destruct (t <? 2 ^ 63) eqn:W; destruct (_ && _) eqn:W2; try discriminate; injection S0 as <-.
  - rewrite Z.mod_small in M by lia. lia.
  - rewrite <- (Z_mod_plus_full _ (-1)), Z.mod_small in M by lia. lia.
Qed.

Lemma step5_ends v c p : bytes_ok c -> 0 <= p <= zlen c -> step5 v c (p, 0) <> Endless.
Proof.
  intros Bc P. unfold step5, bind at 1.
  assert (E : ends read5_block) by (unfold read5_block; ends). destruct (read5_block c (p, 0)) as [[b [q1 t1]]| | |] eqn:Hb; try discriminate; [|exfalso; exact (E _ _ Hb)].
  destruct (read5_inv c p b q1 t1 Bc P Hb) as (data & next & _ & _ & L & T1 & _). clear Hb E.
  destruct (b_type b =? 0); [discriminate|]. destruct (b_type b =? 1); [revert c q1 t1 Bc P L T1; assert (E : ends (arc <- read_v;;
    no <- (if has arc 2 then n <- read_v;; ret (n mod 2 ^ 32) else ret (vi_no v));;
    ret (VInfo no true (vi_has v) (has arc 1) (vi_files v), false))) by ends; intros; apply E|].
  destruct (b_type b =? 4); [assert (E : ends (x <- read_v;; if negb (x =? 0) then fail else _ <- read_v;; @fail (vinfo * bool))) by ends; apply E|].
  destruct (b_type b =? 2).
  - unfold bind at 1. assert (G : read5_file b c (q1, t1) <> Endless).
    { unfold read5_file.
      assert (K : forall A B (m : rdr A) (k : A -> rdr B) p t, ends m -> steady m -> 0 <= p <= zlen c -> 0 <= t < u64 ->
        (forall a q u, p <= q <= zlen c -> 0 <= u < u64 -> m c (p, t) = Ok (a, (q, u)) -> k a c (q, u) <> Endless) -> bind m k c (p, t) <> Endless).
      { intros A B m k p0 t0 E S0 P0 T0 Hk. unfold bind. destruct (m c (p0, t0)) as [[a [q u]]| | |] eqn:Em; try discriminate; [|exfalso; exact (E _ _ Em)].
        pose proof (S0 _ _ _ _ _ _ Bc P0 T0 Em) as (X1 & _ & X3). apply Hk; auto. }
      apply K; try solve [ends|steady|lia]; intros ff q2 u2 L2 U2 _.
      apply K; try solve [ends|steady|lia]; intros sz q3 u3 L3 U3 _.
      apply K; try solve [ends|steady|lia]; intros at0 q4 u4 L4 U4 _.
      apply K; try solve [ends|steady|lia]; intros tm q5 u5 L5 U5 _.
      apply K; try solve [ends|steady|lia]; intros sk q6 u6 L6 U6 _.
      apply K; try solve [ends|steady|lia]; intros x1 q7 u7 L7 U7 _.
      apply K; try solve [ends|steady|lia]; intros x2 q8 u8 L8 U8 _.
      apply K; try solve [ends|steady|lia]; intros nl q9 u9 L9 U9 Enl. apply v_nonneg in Enl; auto; [|lia].
      destruct (8192 <? nl); [discriminate|].
      apply K; try solve [ends|apply steady_read; exact Enl|lia]; intros nm qa ua La Ua _.
      destruct (has (b_flags b) 1); [|discriminate].
      unfold bind. pose proof (extra_ends (S (length c)) (b_add b) tm c qa ua Bc) as E. 
      destruct (read5_extra (S (length c)) (b_add b) tm c (qa, ua)) as [[? ?]| | |] eqn:E0; try discriminate.
      exfalso. apply E; auto; [lia|]. unfold zlen in *. lia. }
    destruct (read5_file b c (q1, t1)) as [[? ?]| | |]; try discriminate. congruence.
  - destruct (b_type b =? 5); [assert (E : ends (e <- read_v;; ret (VInfo (vi_no v) (vi_new v) (has e 1) (vi_multi v) (vi_files v), true))) by ends; apply E|].
    destruct (5 <? b_type b); discriminate.
Qed.

Lemma blocks5_end c : bytes_ok c -> zlen c < 2 ^ 62 -> (forall p data next, reach5 c p -> header5 c p data next -> data < 2 ^ 62) ->
  forall fuel v p, reach5 c p -> 0 <= p -> zlen c - p < Z.of_nat fuel -> (0 < fuel)%nat -> blocks step5 fuel v c p <> Endless.
Proof.
  intros Bc C T. induction fuel as [|fuel IH]; intros v p R P L F; [lia|]. cbn [blocks].
  destruct (Z_lt_le_dec (zlen c) p) as [N|N].
  - assert (E : step5 v c (p, 0) = Fail). { unfold step5, read5_block, bind, read_num, bind, read. replace (p + 4 <=? zlen c) with false by lia. reflexivity. } rewrite E. discriminate.
  - pose proof (step5_ends v c p Bc ltac:(lia)) as Q. destruct (step5 v c (p, 0)) as [[[v' e] [q t]]| | |] eqn:E; try congruence.
    destruct e; [discriminate|]. destruct (seek q t) as [r|] eqn:K; [|discriminate].
    destruct (step5_inv _ _ _ _ _ _ _ Bc (conj P N) E C K) as (data & next & Hd & Hr). destruct (Hr (T _ _ _ R Hd)) as [-> Hn].
    assert (Q4 : p + 4 <= zlen c).
    { destruct Hd as (pre & crc & vs & vt & vf & va & vd & r5 & Ec & E1 & E2 & _). rewrite Ec, zlen_app, zlen_app, E1, E2. pose proof (zlen_pos (vs ++ vt ++ vf ++ va ++ vd ++ r5)). lia. }
    apply IH; [econstructor; eauto|lia|lia|lia].
Qed.
