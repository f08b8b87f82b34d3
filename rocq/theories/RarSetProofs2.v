(** Names of volumes. *)
From Coq Require Import String.
From Verif Require Import Base NumFmt InfoModel NameModel NameProofs WildModel RarModel RarSetModel RarSetSpec RarSetProofs.
Open Scope list_scope. Open Scope Z_scope.

Lemma pad_ok w n : decimal w n (pad w n).
Proof. exists (w - length (udec n))%nat. split; [reflexivity|]. unfold pad. rewrite app_length, repeat_length. lia. Qed.
Lemma decimal_fun w n d e : decimal w n d -> decimal w n e -> d = e.
Proof. intros (k & -> & L) (j & -> & M). rewrite app_length, repeat_length in L, M. replace j with k by lia. reflexivity. Qed.
Lemma pad_digits w n : 0 <= n -> Forall (fun c => 48 <= c <= 57) (pad w n).
Proof.
  intros N. unfold pad. apply Forall_app. split.
  - apply Forall_forall. intros x X. apply repeat_spec in X as ->. lia.
  - eapply Forall_impl; [|apply udec_digits, N]. intros c C. unfold is_digit in C. lia.
Qed.
Lemma pdigits_zeros k r : pdigits 0 (repeat 48 k ++ r) = pdigits 0 r.
Proof. induction k as [|k IH]; [reflexivity|]. cbn [repeat app pdigits]. exact IH. Qed.
Lemma pdigits_pad w n : 0 <= n -> pdigits 0 (pad w n) = n.
Proof. intros N. unfold pad. rewrite pdigits_zeros. rewrite <- (app_nil_r (udec n)). apply pdigits_udec; [exact N|exact I]. Qed.
Lemma udec_len2 n : 0 <= n < 100 -> (length (udec n) <= 2)%nat.
Proof.
  intros H. assert (A : forallb (fun k => (length (udec (Z.of_nat k)) <=? 2)%nat) (seq 0 100) = true) by (vm_compute; reflexivity).
  rewrite forallb_forall in A. specialize (A (Z.to_nat n)). rewrite Z2Nat.id in A by lia. apply Nat.leb_le, A, in_seq. lia.
Qed.
Lemma upto0_no l : ~ In 0 l -> upto0 l = l.
Proof. induction l as [|c l IH]; intros H; [reflexivity|]. cbn [upto0]. destruct (Z.eqb_spec c 0) as [-> |N]; [exfalso; apply H; left; reflexivity|]. rewrite IH; [reflexivity|]. intros I. apply H. right. exact I. Qed.

Lemma old_ext_form n : 1 <= n <= 14200 -> old_ext n = (114 + (n - 1) / 100) :: pad 2 ((n - 1) mod 100).
Proof.
  intros H. unfold old_ext. replace (n =? 0) with false by lia. rewrite Z.mod_small by lia. apply upto0_no. intros [I|I]; [lia|].
  pose proof (pad_digits 2 ((n - 1) mod 100) ltac:(lia)) as F. rewrite Forall_forall in F. apply F in I. lia.
Qed.
Definition fine (v : vol) : Prop := 0 <= v_no v /\ (v_new v = false -> v_no v <= 14200).
Lemma old_ext_ok n : 0 <= n <= 14200 -> extension false n (old_ext n).
Proof.
  intros H. cbn [extension]. destruct (Z.eq_dec n 0) as [-> |N]; [left; split; reflexivity|right]. rewrite old_ext_form by lia.
  exists ((n - 1) / 100), ((n - 1) mod 100), (pad 2 ((n - 1) mod 100)). repeat apply conj; try lia; [apply pad_ok|reflexivity].
Qed.
Lemma extension_fun b n d e : extension b n d -> extension b n e -> d = e.
Proof.
  destruct b; cbn [extension].
  - intros (x & X & ->) (y & Y & ->). rewrite (decimal_fun _ _ _ _ X Y). reflexivity.
  - intros [[E ->]|(c & i & x & E & C & I & X & ->)] [[E' ->]|(c' & i' & x' & E' & C' & I' & X' & ->)]; try lia; [reflexivity|].
    assert (c = c') by lia. subst c'. assert (i = i') by lia. subst i'. rewrite (decimal_fun _ _ _ _ X X'). reflexivity.
Qed.
Lemma ext_ok v : fine v -> extension (v_new v) (v_no v) (ext_of v).
Proof.
  intros [P Q]. unfold ext_of. destruct (v_new v); [|apply old_ext_ok; lia]. exists (pad 4 (v_no v + 1)). split; [apply pad_ok|reflexivity].
Qed.
Lemma dest_ok dir base v : fine v -> volume_path dir base v (dest dir base v).
Proof. intros F. exists (ext_of v). split; [apply ext_ok, F|]. reflexivity. Qed.
Lemma dest_fun dir base v p : fine v -> volume_path dir base v p -> p = dest dir base v.
Proof. intros F (e & X & ->). rewrite (extension_fun _ _ _ _ X (ext_ok v F)). reflexivity. Qed.

Lemma pad_len2 i : 0 <= i < 100 -> length (pad 2 i) = 2%nat.
Proof. intros H. unfold pad. rewrite app_length, repeat_length. pose proof (udec_len2 i H). lia. Qed.
Lemma old_ext_len n : 0 <= n <= 14200 -> length (old_ext n) = 3%nat.
Proof.
  intros H. destruct (Z.eq_dec n 0) as [-> |N]; [reflexivity|]. rewrite old_ext_form by lia. cbn [length]. rewrite pad_len2 by lia. reflexivity.
Qed.
Lemma old_ext_nodot n : 0 <= n <= 14200 -> ~ In 46 (old_ext n).
Proof.
  intros H. destruct (Z.eq_dec n 0) as [-> |N]; [vm_compute; intuition discriminate|]. rewrite old_ext_form by lia. intros [I|I]; [lia|].
  pose proof (pad_digits 2 ((n - 1) mod 100) ltac:(lia)) as F. rewrite Forall_forall in F. apply F in I. lia.
Qed.

(** ** The regular expression *)
Lemma digits_back_app d r : Forall (fun c => is_digit c = true) d -> (match r with [] => True | c :: _ => is_digit c = false end) -> digits_back (d ++ r) = d.
Proof.
  induction 1 as [|c d H F IH]; intros R; cbn [app digits_back].
  - destruct r as [|c r]; [reflexivity|]. cbn [digits_back]. rewrite R. reflexivity.
  - rewrite H, IH by exact R. reflexivity.
Qed.
Lemma digits_back_split l : exists r, l = digits_back l ++ r /\ Forall (fun c => is_digit c = true) (digits_back l).
Proof.
  induction l as [|c l (r & E & F)]; [exists []; split; [reflexivity|constructor]|]. cbn [digits_back]. destruct (is_digit c) eqn:D.
  - exists r. split; [cbn [app]; rewrite <- E; reflexivity|constructor; assumption].
  - exists (c :: l). split; [reflexivity|constructor].
Qed.
Definition isd (c : Z) : Prop := 48 <= c <= 57.
Lemma isd_digit l : Forall isd l <-> Forall (fun c => is_digit c = true) l.
Proof. split; apply Forall_impl; intros c C; unfold isd, is_digit in *; lia. Qed.

Lemma part_match_ok n k d : part_match n = Some (k, d) <->
  exists b p r, n = b ++ p ++ d ++ r /\ b <> [] /\ ci p (str "part") /\ ci r (str ".rar") /\ d <> [] /\ Forall isd d /\ k = (length b + 4)%nat.
Proof.
  unfold part_match, ci. split.
  - destruct (_ || _) eqn:E1; [discriminate|]. apply orb_false_iff in E1 as [L R]. rewrite negb_false_iff in R. apply beqb_eq in R. apply Nat.ltb_ge in L.
    set (m := (length n - 4)%nat) in *. set (stem := firstn m n). destruct (digits_back_split (rev stem)) as (q & Eq & F). set (d0 := digits_back (rev stem)) in *.
    set (x := (length stem - length (rev d0))%nat). destruct (_ || _) eqn:E2; [discriminate|]. rewrite !orb_false_iff in E2. destruct E2 as [[D K] P]. rewrite negb_false_iff in P. apply beqb_eq in P.
    apply Nat.eqb_neq in D. apply Nat.ltb_ge in K. intros H. injection H as <- <-.
    assert (Es : stem = rev q ++ rev d0). { rewrite <- rev_app_distr, <- Eq, rev_involutive. reflexivity. }
    assert (Lq : x = length (rev q)). { unfold x. rewrite Es, app_length. lia. }
    assert (Fq : firstn x stem = rev q). { rewrite Es. apply firstn_app_len. exact Lq. }
    rewrite Fq in P. exists (firstn (x - 4) (rev q)), (skipn (x - 4) (rev q)), (skipn m n). repeat apply conj.
    + rewrite app_assoc, firstn_skipn, app_assoc, <- Es. unfold stem. symmetry. apply firstn_skipn.
    + intros Q. apply (f_equal (@length Z)) in Q. rewrite firstn_length, <- Lq in Q. cbn in Q. lia.
    + exact P.
    + exact R.
    + intros Q. rewrite Q in D. cbn in D. lia.
    + apply isd_digit. apply Forall_forall. intros c C. apply in_rev in C. rewrite Forall_forall in F. exact (F c C).
    + rewrite firstn_length, <- Lq. lia.
  - intros (b & p & r & -> & B & P & R & D & F & ->).
    assert (Lp : length p = 4%nat) by (apply (f_equal (@length Z)) in P; rewrite map_length in P; exact P).
    assert (Lr : length r = 4%nat) by (apply (f_equal (@length Z)) in R; rewrite map_length in R; exact R).
    assert (W : b ++ p ++ d ++ r = (b ++ p ++ d) ++ r) by (rewrite <- !app_assoc; reflexivity). rewrite W. set (stem := b ++ p ++ d).
    assert (Lm : (length (stem ++ r) - 4)%nat = length stem) by (rewrite app_length; lia). rewrite Lm.
    rewrite firstn_app_len by reflexivity. rewrite skipn_app, skipn_all, Nat.sub_diag. cbn [skipn app]. rewrite R, beqb_refl.
    replace (length (stem ++ r) <? 4)%nat with false by (symmetry; apply Nat.ltb_ge; rewrite app_length; lia). cbn [negb orb].
    assert (Ed : digits_back (rev stem) = rev d).
    { unfold stem. rewrite !rev_app_distr. rewrite <- app_assoc. apply digits_back_app.
      - apply isd_digit in F. apply Forall_forall. intros c C. apply in_rev in C. rewrite Forall_forall in F. exact (F c C).
      - do 4 (destruct p as [|? p]; [discriminate Lp|]). destruct p; [|discriminate Lp]. cbn [rev app]. injection P as _ _ _ P. unfold lower in P. destruct (_ && _) eqn:Q in P; unfold is_digit; lia. }
    rewrite Ed, rev_involutive. assert (Lk : (length stem - length d)%nat = (length b + 4)%nat) by (unfold stem; rewrite !app_length; lia). rewrite Lk.
    assert (Fk : firstn (length b + 4) stem = b ++ p). { unfold stem. rewrite app_assoc. apply firstn_app_len. rewrite app_length. lia. }
    rewrite Fk. replace (length b + 4 - 4)%nat with (length b) by lia. rewrite skipn_app, skipn_all, Nat.sub_diag. cbn [skipn app]. rewrite P, beqb_refl. cbn [negb].
    destruct b as [|? b]; [congruence|]. destruct d as [|? d]; [congruence|]. cbn [length]. replace (S (length b) + 4 <? 5)%nat with false by (symmetry; apply Nat.ltb_ge; lia). reflexivity.
Qed.

(** ** Sets named well *)
Definition bn (v : vol) : list Z := base_name (v_name v).
Definition good_new (base : list Z) (pl : nat) (v : vol) : Prop :=
  exists k d, part_match (bn v) = Some (k, d) /\ length base = length (bn v) /\ length d = pl /\ atoi_u d = (v_no v + 1) mod 2 ^ 32 /\ firstn k base = firstn k (bn v).
Lemma part_some n k d : part_match n = Some (k, d) -> (0 < length d)%nat.
Proof. intros H. apply part_match_ok in H as (b & p & r & _ & _ & _ & _ & D & _). destruct d; [congruence|cbn; lia]. Qed.
Lemma proper_go_new base : forall set pl, Forall (fun v => v_new v = true) set -> (0 < pl)%nat -> proper_go base pl set = true <-> Forall (good_new base pl) set.
Proof.
  induction set as [|v set IH]; intros pl N P; [split; [constructor|reflexivity]|]. cbn [proper_go]. inversion N as [|? ? Nv N']; subst. fold (bn v). rewrite Nv. split.
  - intros H. destruct (length base =? length (bn v))%nat eqn:L; [|discriminate]. cbn [negb] in H. apply Nat.eqb_eq in L.
    destruct (part_match (bn v)) as [[k d]|] eqn:M; [|discriminate]. replace (pl =? 0)%nat with false in H by (symmetry; apply Nat.eqb_neq; lia).
    destruct (_ && _ && _) eqn:A; [|discriminate]. rewrite !andb_true_iff in A. destruct A as [[A1 A2] A3]. apply Nat.eqb_eq in A2. apply beqb_eq in A3. constructor; [|apply IH; assumption].
    exists k, d. repeat apply conj; auto. lia.
  - intros F. inversion F as [|? ? (k & d & M & L & D & A & B) F']; subst. rewrite L, Nat.eqb_refl. cbn [negb]. rewrite M.
    replace (length d =? 0)%nat with false by (symmetry; apply Nat.eqb_neq; lia). rewrite A, Z.eqb_refl, Nat.eqb_refl, B, beqb_refl. cbn [andb]. apply IH; assumption.
Qed.
Lemma proper_new h r : Forall (fun v => v_new v = true) (h :: r) -> proper (h :: r) = true <-> exists pl, (0 < pl)%nat /\ Forall (good_new (bn h) pl) (h :: r).
Proof.
  intros N. unfold proper. cbn [hd]. fold (bn h). split.
  - intros H. destruct (part_match (bn h)) as [[k d]|] eqn:M.
    + exists (length d). split; [exact (part_some _ _ _ M)|]. apply proper_go_new; [exact N|exact (part_some _ _ _ M)|].
      cbn [proper_go] in H |- *. inversion N as [|? ? Nv N']; subst. fold (bn h) in *. rewrite Nv, M in *. pose proof (part_some _ _ _ M).
      replace (length d =? 0)%nat with false by (symmetry; apply Nat.eqb_neq; lia). exact H.
    + exfalso. cbn [proper_go] in H. inversion N as [|? ? Nv N']; subst. fold (bn h) in H. rewrite Nv, M in H. destruct (negb _); discriminate.
  - intros (pl & P & F). apply (proper_go_new _ _ _ N P) in F. inversion N as [|? ? Nv N']; subst. cbn [proper_go] in F |- *. fold (bn h) in *. rewrite Nv in *.
    destruct (negb _); [discriminate|]. destruct (part_match (bn h)) as [[k d]|] eqn:M; [|discriminate]. replace (pl =? 0)%nat with false in F by (symmetry; apply Nat.eqb_neq; lia).
    cbn [Nat.eqb]. destruct (length d =? pl)%nat eqn:Q; [|rewrite andb_false_r in F; discriminate]. apply Nat.eqb_eq in Q. rewrite Nat.eqb_refl. rewrite Q in *. exact F.
Qed.

Lemma atoi_small d : 0 <= pdigits 0 d < 2 ^ 32 -> atoi_u d = pdigits 0 d.
Proof. intros H. unfold atoi_u. rewrite Z.min_l by lia. apply Z.mod_small. lia. Qed.
Theorem well_proper new s h r : s = h :: r -> Forall (fun v => v_new v = new) s -> Forall fine s -> Forall (fun v => v_no v < 2 ^ 32 - 1) s ->
  well_named new s -> proper s = true.
Proof.
  intros -> N Fi Sm W. destruct new; cbn [well_named] in W.
  - destruct W as (base & p & w & B & P & W0 & W). apply proper_new; [exact N|]. exists w. split; [exact W0|]. apply Forall_forall. intros v V.
    assert (Lp : length p = 4%nat) by (apply (f_equal (@length Z)) in P; rewrite map_length in P; exact P).
    destruct (W v V) as (d & q & L & R & D & Ld & E). destruct (W h (or_introl eq_refl)) as (d' & q' & L' & R' & D' & Ld' & _).
    apply last_part_base in L. apply last_part_base in L'. fold (bn v) in L. fold (bn h) in L'.
    assert (Lq : length q = 4%nat) by (apply (f_equal (@length Z)) in R; rewrite map_length in R; exact R).
    assert (Lq' : length q' = 4%nat) by (apply (f_equal (@length Z)) in R'; rewrite map_length in R'; exact R').
    exists (length base + 4)%nat, d. repeat apply conj.
    + apply part_match_ok. exists base, p, q. repeat apply conj; auto. intros ->. cbn in Ld. lia.
    + rewrite L, L', !app_length. lia.
    + exact Ld.
    + rewrite Forall_forall in Fi, Sm. pose proof (Fi v V) as [F0 _]. pose proof (Sm v V) as F1. cbn beta in F1. rewrite atoi_small by lia. rewrite E. symmetry. apply Z.mod_small. lia.
    + rewrite L, L'. assert (X : forall y, firstn (length base + 4) (base ++ p ++ y) = base ++ p) by (intros y; rewrite app_assoc; apply firstn_app_len; rewrite app_length; lia). rewrite !X. reflexivity.
  - destruct W as (base & W). unfold proper. cbn [hd]. fold (bn h).
    assert (A : forall v, In v (h :: r) -> bn v = base ++ [46] ++ old_ext (v_no v) /\ length (old_ext (v_no v)) = 3%nat /\ ~ In 46 (old_ext (v_no v))).
    { intros v V. destruct (W v V) as (e & L & X). rewrite Forall_forall in Fi, N. pose proof (Fi v V) as [F0 F1]. pose proof (N v V) as Nv. cbn beta in Nv. specialize (F1 Nv).
      rewrite (extension_fun _ _ _ _ X (old_ext_ok (v_no v) ltac:(lia))) in L. repeat apply conj; [apply last_part_base, L|apply old_ext_len; lia|apply old_ext_nodot; lia]. }
    destruct (A h (or_introl eq_refl)) as (Eh & Lh & _). clear W Sm Fi.
    assert (G : forall l pl, incl l (h :: r) -> proper_go (bn h) pl l = true).
    { induction l as [|v l IH]; intros pl Hin; [reflexivity|]. cbn [proper_go]. fold (bn v). pose proof (Hin v (or_introl eq_refl)) as V. destruct (A v V) as (E & L & D).
      assert (L1 : length (bn h) = length (bn v)) by (rewrite Eh, E, !app_length, Lh, L; reflexivity).
      assert (F1 : firstn (length base) (bn h) = base) by (rewrite Eh; apply firstn_app_len; reflexivity).
      assert (S1 : strrchr dot (bn v) = Some (base, 46 :: old_ext (v_no v))) by (rewrite E; apply strrchr_app; exact D).
      rewrite L1, Nat.eqb_refl. cbn [negb]. rewrite Forall_forall in N. rewrite (N v V), S1. cbn [tl]. rewrite beqb_refl, F1, beqb_refl. cbn [andb].
      apply IH. intros x X. apply Hin. right. exact X. }
    apply G. apply incl_refl.
Qed.

Lemma pdigits_pos d a : 0 <= a -> 0 <= pdigits a d.
Proof. revert a. induction d as [|c d IH]; intros a A; [exact A|]. cbn [pdigits]. destruct (is_digit c) eqn:D; [|exact A]. apply IH. unfold is_digit in D. lia. Qed.
Theorem proper_well new s h r : s = h :: r -> Forall (fun v => v_new v = new) s -> Forall fine s -> Forall (fun v => v_no v < 2 ^ 32 - 1) s ->
  proper s = true -> well_named_but new s.
Proof.
  intros -> N Fi Sm W. destruct new; cbn [well_named_but].
  - apply (proper_new h r N) in W as (pl & P0 & F). rewrite Forall_forall in F. destruct (F h (or_introl eq_refl)) as (k & d & M & _ & Ld & _ & _).
    apply part_match_ok in M as (b & p & q & E & B & P & R & D & I & Ek). exists b, p, pl. repeat apply conj; auto. intros v V.
    assert (Lp : length p = 4%nat) by (apply (f_equal (@length Z)) in P; rewrite map_length in P; exact P).
    assert (Lq : length q = 4%nat) by (apply (f_equal (@length Z)) in R; rewrite map_length in R; exact R).
    destruct (F v V) as (k' & d' & M' & L' & Ld' & A' & B'). apply part_match_ok in M' as (b' & p' & q' & E' & _ & P' & R' & D' & I' & Ek').
    assert (Lp' : length p' = 4%nat) by (apply (f_equal (@length Z)) in P'; rewrite map_length in P'; exact P').
    assert (Lq' : length q' = 4%nat) by (apply (f_equal (@length Z)) in R'; rewrite map_length in R'; exact R').
    rewrite E, E', !app_length in L'. assert (Lb : length b = length b') by lia.
    assert (X : forall (a c y : list Z) n, length c = 4%nat -> n = (length a + 4)%nat -> firstn n (a ++ c ++ y) = a ++ c) by (intros a c y n Lc ->; rewrite app_assoc; apply firstn_app_len; rewrite app_length; lia).
    rewrite E, E', (X b p) in B' by lia. rewrite (X b' p') in B' by lia. apply app_eq_len in B' as [<- <-]; [|exact Lb].
    exists d', q'. split; [rewrite <- E'; apply base_name_part|]. repeat apply conj; auto.
    + rewrite Forall_forall in Fi, Sm. pose proof (Fi v V) as [F0 _]. pose proof (Sm v V) as F1. cbn beta in F1. destruct (Z_lt_le_dec (pdigits 0 d') (2 ^ 32)) as [K|K]; [left|right; exact K].
      pose proof (pdigits_pos d' 0 ltac:(lia)). rewrite atoi_small in A' by lia. rewrite Z.mod_small in A' by lia. exact A'.
  - cbn [well_named]. unfold proper in W. cbn [hd] in W. fold (bn h) in W.
    assert (G : forall l pl, incl l (h :: r) -> proper_go (bn h) pl l = true -> forall v, In v l -> exists a, bn v = a ++ 46 :: old_ext (v_no v) /\ length (bn h) = length (bn v) /\ firstn (length a) (bn h) = a).
    { induction l as [|v l IH]; intros pl Hin H x X; [destruct X|]. cbn [proper_go] in H. fold (bn v) in H. rewrite Forall_forall in N. rewrite (N v (Hin v (or_introl eq_refl))) in H.
      destruct (length (bn h) =? length (bn v))%nat eqn:L; [|discriminate]. apply Nat.eqb_eq in L. cbn [negb] in H. destruct (strrchr dot (bn v)) as [[a e]|] eqn:S; [|discriminate].
      destruct (_ && _) eqn:Q; [|discriminate]. apply andb_true_iff in Q as [Q1 Q2]. apply beqb_eq in Q1. apply beqb_eq in Q2. apply strrchr_some in S as (S & y & -> & _). cbn [tl] in Q1. subst y.
      destruct X as [<- | X]; [exists a; auto|]. apply (IH pl (fun z Zz => Hin z (or_intror Zz)) H x X). }
    specialize (G _ _ (incl_refl _) W). destruct (G h (or_introl eq_refl)) as (a & Ea & _ & _). exists a. intros v V. destruct (G v V) as (b & Eb & L & Fb).
    rewrite Forall_forall in Fi, N.
    assert (K : forall u, In u (h :: r) -> 0 <= v_no u <= 14200) by (intros u U; destruct (Fi u U) as [F0 F1]; specialize (F1 (N u U)); lia).
    assert (b = a).
    { rewrite Ea, Eb, !app_length in L. cbn [length] in L. rewrite !old_ext_len in L by (apply K; auto using in_eq). rewrite <- Fb, Ea. apply firstn_app_len. lia. }
    subst b. exists (old_ext (v_no v)). split; [|apply old_ext_ok, K, V]. change (a ++ str "." ++ old_ext (v_no v)) with (a ++ 46 :: old_ext (v_no v)). rewrite <- Eb. apply base_name_part.
Qed.
