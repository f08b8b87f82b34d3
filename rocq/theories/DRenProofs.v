(** Proofs: the first article of a file (C149). *)
From Coq Require Import String.
From Verif Require Import Base WildModel RarModel RarSetModel ParRenModel ParRenSpec DRenModel DRenSpec.
From Verif Require RarProofs4.
Open Scope list_scope. Open Scope Z_scope.

Definition follows (d : list Z) (a : ana) : Prop :=
  a_fed a = firstn (Z.to_nat 16384) d /\ a_size a = zlen d /\ length (a_sig a) = 64%nat /\ firstn (length d) (a_sig a) = firstn 64 d.

Lemma follows_append d a b : follows d a -> follows (d ++ b) (a_append b a).
Proof.
  intros (F & N & L & G). unfold follows, a_append. cbn [a_fed a_size a_sig]. rewrite N. unfold zlen in *. split; [|split; [|split]].
  - rewrite F, firstn_app. f_equal. f_equal. lia.
  - rewrite app_length. lia.
  - destruct (Z.ltb_spec (Z.of_nat (length d)) 64) as [H|H]; [|exact L].
    rewrite !app_length, !firstn_length, skipn_length. lia.
  - destruct (Z.ltb_spec (Z.of_nat (length d)) 64) as [H|H].
    + rewrite Nat2Z.id, G. rewrite (firstn_all2 (n := 64) d) by lia.
      replace (Z.to_nat (64 - Z.of_nat (length d))) with (64 - length d)%nat by lia.
      rewrite app_length, !firstn_app. replace (length d + length b - length d)%nat with (length b) by lia.
      rewrite (firstn_all2 (n := (length d + length b)%nat) d) by lia. rewrite (firstn_all2 (n := 64) d) by lia. f_equal.
      rewrite firstn_firstn, firstn_length. destruct (Nat.le_gt_cases (length b) (64 - length d)).
      * replace (length b - Nat.min (64 - length d) (length b))%nat with 0%nat by lia. rewrite firstn_O, app_nil_r.
        rewrite Nat.min_l by lia. rewrite !firstn_all2 by lia. reflexivity.
      * rewrite Nat.min_r by lia. rewrite (skipn_all2 (n := (length d + length b)%nat)) by lia. rewrite firstn_nil, app_nil_r. reflexivity.
    + rewrite firstn_app. replace (64 - length d)%nat with 0%nat by lia. rewrite firstn_O, app_nil_r. rewrite <- G.
      rewrite !firstn_all2 by (try rewrite app_length; lia). reflexivity.
Qed.
Lemma follows_all : forall ps d a, follows d a -> follows (d ++ concat ps) (fold_left (fun a b => a_append b a) ps a).
Proof.
  induction ps as [|b ps IH]; intros d a F; cbn [concat fold_left]; [rewrite app_nil_r; exact F|].
  rewrite app_assoc. apply IH, follows_append, F.
Qed.
Lemma follows_reset a : length (a_sig a) = 64%nat -> follows [] (a_reset a).
Proof. intros L. unfold follows, a_reset. cbn [a_fed a_size a_sig]. rewrite !firstn_nil. repeat split. exact L. Qed.

Lemma hash_ok md5 a ps : length (a_sig a) = 64%nat -> a_hash md5 (attempt a ps) = md5 (firstn (Z.to_nat 16384) (concat ps)).
Proof. intros L. unfold attempt, a_hash. destruct (follows_all ps [] _ (follows_reset a L)) as (-> & _). reflexivity. Qed.

Lemma hex_up_of l : Forall (fun b => 0 <= b < 256) l -> hex_up l = hex_of l.
Proof.
  intros F. unfold hex_up, hex_of. apply Forall_rev in F. induction F as [|b r B F IH]; [reflexivity|]. cbn [flat_map]. rewrite IH. f_equal.
  assert (T : forallb (fun k => hexup (Z.of_nat k) =? hex_digit (Z.of_nat k)) (seq 0 16) = true) by (vm_compute; reflexivity).
  assert (K : forall v, 0 <= v < 16 -> hexup v = hex_digit v).
  { intros v V. rewrite forallb_forall in T. specialize (T (Z.to_nat v)). rewrite Z2Nat.id in T by lia. apply Z.eqb_eq, T. apply in_seq. lia. }
  f_equal; [apply K; split; [apply Z.div_pos|apply Z.div_lt_upper_bound]; lia|]. f_equal. apply K, Z.mod_pos_bound. lia.
Qed.

(** The flag and the set. *)
Definition late (d : list Z) (ps : list (list Z)) : Prop := exists x b r, ps = x ++ b :: r /\ (64 <= length (d ++ concat x))%nat.
Lemma late_cons d b ps : late d (b :: ps) <-> (64 <= length d)%nat \/ late (d ++ b) ps.
Proof.
  split.
  - intros (x & c & r & E & L). destruct x as [|y x].
    + injection E as -> ->. cbn [concat] in L. rewrite app_nil_r in L. left. exact L.
    + injection E as <- ->. right. exists x, c, r. split; [reflexivity|]. cbn [concat] in L. rewrite app_assoc in L. exact L.
  - intros [L|(x & c & r & -> & L)].
    + exists [], b, ps. split; [reflexivity|]. cbn [concat]. rewrite app_nil_r. exact L.
    + exists (b :: x), c, r. split; [reflexivity|]. cbn [concat]. rewrite app_assoc. exact L.
Qed.
Lemma flag_ok : forall ps d a, follows d a -> let a' := fold_left (fun a b => a_append b a) ps a in
  let hit := late d ps /\ firstn 8 (d ++ concat ps) = packet_magic in
  (a_par a' = true <-> a_par a = true \/ hit) /\
  (hit -> a_set a' = hex_up (firstn 16 (skipn 32 (d ++ concat ps)))) /\ (~ hit -> a_set a' = a_set a).
Proof.
  induction ps as [|b ps IH]; intros d a F.
  - cbn [fold_left concat]. cbv zeta. assert (N : ~ late d []) by (intros (x & c & r & E & _); destruct x; discriminate E). tauto.
  - cbv zeta. cbn [fold_left concat]. rewrite late_cons. specialize (IH _ _ (follows_append d a b F)). cbv zeta in IH. rewrite app_assoc.
    destruct IH as (I1 & I2 & I3). destruct F as (_ & N & L & G).
    set (h := (64 <=? a_size a) && beqb (firstn 8 (a_sig a)) packet_magic).
    assert (Ep : a_par (a_append b a) = a_par a || h /\ a_set (a_append b a) = if h then hex_up (firstn 16 (skipn 32 (a_sig a))) else a_set a).
    { unfold a_append, h. cbn [a_par a_set]. destruct (Z.leb_spec 64 (a_size a)) as [Q|Q].
      - destruct (Z.ltb_spec (a_size a) 64); [lia|]. split; reflexivity.
      - split; reflexivity. }
    destruct Ep as (Ep & Es). rewrite Ep in I1. rewrite Es in I3.
    assert (Cut : (64 <= length d)%nat -> forall i j, (i + j <= 64)%nat -> firstn i (skipn j (a_sig a)) = firstn i (skipn j ((d ++ b) ++ concat ps))).
    { intros Ld i j Hij. rewrite firstn_all2 in G by lia. rewrite G. rewrite <- app_assoc. rewrite skipn_app. replace (j - length d)%nat with 0%nat by lia.
      rewrite firstn_app, skipn_length. replace (i - (length d - j))%nat with 0%nat by lia. rewrite firstn_O, app_nil_r.
      rewrite !firstn_skipn_comm, firstn_firstn. rewrite Nat.min_l by lia. reflexivity. }
    assert (Hh : h = true <-> (64 <= length d)%nat /\ firstn 8 ((d ++ b) ++ concat ps) = packet_magic).
    { unfold h. rewrite andb_true_iff, Z.leb_le, N. unfold zlen. split.
      - intros (Q & E). apply beqb_eq in E. split; [lia|]. pose proof (Cut ltac:(lia) 8%nat 0%nat ltac:(lia)) as K. rewrite !skipn_O in K. congruence.
      - intros (Q & E). split; [lia|]. apply beqb_eq. pose proof (Cut ltac:(lia) 8%nat 0%nat ltac:(lia)) as K. rewrite !skipn_O in K. congruence. }
    split; [|split].
    + rewrite I1, orb_true_iff, Hh. tauto.
    + intros ([Q|Q] & E); [|apply I2; split; assumption].
      destruct h eqn:Eh; [|exfalso; assert (false = true) by (apply Hh; split; assumption); discriminate].
      assert (D : late (d ++ b) ps \/ ~ late (d ++ b) ps).
      { destruct ps as [|c ps']; [right; intros (x & y & r & E' & _); destruct x; discriminate E'|]. left. exists [], c, ps'. split; [reflexivity|].
        cbn [concat]. rewrite app_nil_r, app_length. lia. }
      destruct D as [D|D]; [apply I2; split; assumption|]. rewrite I3 by tauto. f_equal. exact (Cut Q 16%nat 32%nat ltac:(lia)).
    + intros Nh. rewrite I3 by tauto. destruct h eqn:Eh; [|reflexivity]. exfalso. apply Nh. pose proof (proj1 Hh eq_refl) as (Q & E). tauto.
Qed.

Lemma packet_magic_iff c : (64 <= length c)%nat -> (firstn 8 c = packet_magic <-> exists set, packet_of c set).
Proof.
  intros L. split.
  - intros E. exists (firstn 16 (skipn 32 c)). exists (firstn 8 (skipn 8 c)), (firstn 16 (skipn 16 c)), (skipn 48 c).
    rewrite !firstn_length, !skipn_length. split; [|lia].
    change [80; 65; 82; 50; 0; 80; 75; 84] with packet_magic. rewrite <- E.
    rewrite <- (firstn_skipn 8 c) at 1. f_equal. rewrite <- (firstn_skipn 8 (skipn 8 c)) at 1. f_equal. rewrite RarProofs4.skipn_skipn. cbn [Nat.add].
    rewrite <- (firstn_skipn 16 (skipn 16 c)) at 1. f_equal. rewrite RarProofs4.skipn_skipn. cbn [Nat.add].
    rewrite <- (firstn_skipn 16 (skipn 32 c)) at 1. f_equal. rewrite RarProofs4.skipn_skipn. reflexivity.
  - intros (set & l & m & t & -> & _). reflexivity.
Qed.
Lemma packet_set c set : packet_of c set -> firstn 16 (skipn 32 c) = set /\ (64 <= length c)%nat.
Proof.
  intros (l & m & t & -> & L1 & L2 & L3 & L4). rewrite !app_length, L1, L2, L3. cbn [length]. split; [|lia].
  rewrite app_assoc, app_assoc. rewrite skipn_app. rewrite skipn_all2 by (rewrite !app_length, L1, L2; cbn [length]; lia).
  rewrite !app_length, L1, L2. cbn [length Nat.add Nat.sub app]. change (skipn 0 (set ++ t)) with (set ++ t).
  rewrite firstn_app, L3. rewrite firstn_all2 by lia. rewrite Nat.sub_diag, firstn_O, app_nil_r. reflexivity.
Qed.
Lemma late_len ps : late [] ps -> (64 <= length (concat ps))%nat.
Proof. intros (x & b & r & -> & L). rewrite concat_app, app_length. cbn [app] in L. lia. Qed.

(** A new analyzer and one attempt. *)
Lemma par_seen junk ps : length junk = 64%nat ->
  (a_par (attempt (new_ana junk) ps) = true <-> late_piece ps /\ exists set, packet_of (concat ps) set) /\
  (forall set, Forall (fun b => 0 <= b < 256) set -> packet_of (concat ps) set -> late_piece ps -> a_set (attempt (new_ana junk) ps) = hex_of set).
Proof.
  intros J. assert (F : follows [] (a_reset (new_ana junk))) by (apply follows_reset; exact J).
  pose proof (flag_ok ps [] _ F) as (A & B & _). cbn [app] in A, B. change (a_par (a_reset (new_ana junk))) with false in A.
  change (late [] ps) with (late_piece ps) in *.
  assert (M : late_piece ps -> (firstn 8 (concat ps) = packet_magic <-> exists set, packet_of (concat ps) set)).
  { intros Q. apply packet_magic_iff, late_len, Q. }
  unfold attempt. split.
  - rewrite A. split; [intros [Q|(Q & E)]; [discriminate|] | intros (Q & E); right]; (split; [exact Q|]; apply (M Q); exact E).
  - intros set Fs P Q. rewrite B by (split; [exact Q|]; apply (M Q); eauto). destruct (packet_set _ _ P) as (-> & _). apply hex_up_of, Fs.
Qed.
