(** Lemmas about the reading of nzb-files: names, hashes, password. *)
From Coq Require Import String.
From Coq Require Import Permutation Sorted.
From Verif Require Import Base NumFmt WildModel WildSpec WildProofs TextProofs CodecModel CodecProofs2 NameModel NameSpec NameProofs
  MoveModel MoveSpec SortProofs WebSpec WebProofs LineProofs NzbModel NzbSpec NzbProofs NzbProofs2 NzbProofs3.
Open Scope list_scope. Open Scope Z_scope.

(** ** Names *)

Lemma all_some_ok {A} (l : list (option A)) r : all_some l = Some r <-> l = map Some r.
Proof.
  revert r. induction l as [|[x|] l IH]; intros r; cbn [all_some].
  - split; [intros E; injection E as <-; reflexivity|]. destruct r; [reflexivity|discriminate].
  - destruct (all_some l) as [r'|] eqn:E.
    + split.
      * intros H. injection H as <-. cbn [map]. f_equal. apply IH. reflexivity.
      * destruct r as [|y r]; [discriminate|]. cbn [map]. intros H. injection H as -> H. apply IH in H. congruence.
    + split; [discriminate|]. destruct r as [|y r]; [discriminate|]. cbn [map]. intros H. injection H as -> H. apply IH in H. discriminate.
  - split; [discriminate|]. destruct r; discriminate.
Qed.
Lemma map_some_forall2 {A B} (f : A -> option B) l r : map f l = map Some r -> Forall2 (fun n s => f s = Some n) r l.
Proof.
  revert r. induction l as [|x l IH]; intros [|y r] E; try discriminate; [constructor|]. cbn [map] in E. injection E as E1 E2.
  constructor; [exact E1|exact (IH r E2)].
Qed.

Lemma dupes_go two l : dupe_names_go two l = false -> forall a x b, l = a ++ x :: b -> (twins x b <= 1)%nat /\ (two = true -> twins x b = 0%nat).
Proof.
  intros E a. revert l E. induction a as [|y a IH]; intros l E x b ->; cbn [app dupe_names_go] in E.
  - apply orb_false_iff in E as [E _]. apply orb_false_iff in E as [E1 E2]. apply Nat.ltb_ge in E1. split; [lia|]. intros ->.
    rewrite andb_true_r in E2. apply Nat.eqb_neq in E2. lia.
  - apply orb_false_iff in E as [_ E]. apply (IH _ E x b eq_refl).
Qed.
Lemma twins_two x l j k y z : (j < k)%nat -> nth_error l j = Some y -> nth_error l k = Some z ->
  fst y = fst x -> fst z = fst x -> snd y <> snd x -> snd z <> snd x -> (2 <= twins x l)%nat.
Proof.
  unfold twins. set (p := fun y : named => _). intros L EY EZ F1 F2 S1 S2.
  assert (PY : p y = true).
  { unfold p. rewrite F1, beqb_refl. cbn [andb]. destruct (beqb (snd x) (snd y)) eqn:E; [apply beqb_eq in E; congruence|reflexivity]. }
  assert (PZ : p z = true).
  { unfold p. rewrite F2, beqb_refl. cbn [andb]. destruct (beqb (snd x) (snd z)) eqn:E; [apply beqb_eq in E; congruence|reflexivity]. }
  clearbody p. revert j k L EY EZ. induction l as [|w l IH]; intros j k L EY EZ; [destruct j; discriminate|].
  destruct k as [|k]; [lia|]. cbn [nth_error] in EZ. destruct j as [|j].
  - injection EY as ->. cbn [filter]. rewrite PY. cbn [length].
    assert (I : In z (filter p l)) by (apply filter_In; split; [exact (nth_error_In _ _ EZ)|exact PZ]).
    destruct (filter p l); [contradiction|cbn [length]; lia].
  - cbn [nth_error] in EY. cbn [filter]. specialize (IH j k ltac:(lia) EY EZ). destruct (p w); cbn [length]; lia.
Qed.
Lemma nth_combine {A B} (l : list A) (r : list B) i a b : nth_error l i = Some a -> nth_error r i = Some b -> nth_error (combine l r) i = Some (a, b).
Proof.
  revert r i. induction l as [|x l IH]; intros [|y r] [|i] E1 E2; try discriminate; cbn [nth_error combine] in *.
  - congruence.
  - exact (IH r i E1 E2).
Qed.
Lemma nth_split_list {A} (l : list A) i x : nth_error l i = Some x -> exists a b, l = a ++ x :: b /\ length a = i.
Proof.
  intros E. destruct (nth_error_split l i E) as (a & b & -> & L). eauto.
Qed.
Lemma told_apart names subjects : length names = length subjects -> dupe_names (combine names subjects) = false -> names_told_apart names subjects.
Proof.
  intros LE E. unfold dupe_names in E. split.
  - intros i j k n s1 s2 s3 L N1 N2 N3 S1 S2 S3.
    destruct (list_eq_dec Z.eq_dec s2 s1) as [->|NE2]; [left; reflexivity|].
    destruct (list_eq_dec Z.eq_dec s3 s1) as [->|NE3]; [right; reflexivity|]. exfalso.
    assert (C1 := nth_combine _ _ _ _ _ N1 S1). assert (C2 := nth_combine _ _ _ _ _ N2 S2). assert (C3 := nth_combine _ _ _ _ _ N3 S3).
    destruct (nth_split_list _ _ _ C1) as (a & b & EC & LA).
    destruct (dupes_go _ _ E a (n, s1) b EC) as [T _].
    rewrite EC in C2, C3. rewrite nth_error_app2 in C2, C3 by lia.
    destruct (j - length a)%nat as [|j'] eqn:EJ; [lia|]. destruct (k - length a)%nat as [|k'] eqn:EK; [lia|]. cbn [nth_error] in C2, C3.
    assert (X := twins_two (n, s1) b j' k' (n, s2) (n, s3) ltac:(lia) C2 C3 eq_refl eq_refl NE2 NE3). lia.
  - intros n1 n2 s1 s2 -> -> EN. subst n2. destruct (list_eq_dec Z.eq_dec s1 s2) as [|NE]; [assumption|]. exfalso.
    cbn [combine length Nat.eqb] in E. destruct (dupes_go _ _ E [] (n1, s1) [(n1, s2)] eq_refl) as [_ T]. specialize (T eq_refl).
    unfold twins in T. cbn [filter fst snd] in T. rewrite beqb_refl in T. cbn [andb] in T.
    destruct (beqb s1 s2) eqn:B; [apply beqb_eq in B; contradiction|discriminate].
Qed.
Lemma subjects_apart l : names_told_apart l l.
Proof.
  split; [|intros; congruence]. intros i j k n s1 s2 s3 _ N1 N2 _ S1 S2 _. left. congruence.
Qed.
Lemma forall2_len {A B} (R : A -> B -> Prop) l r : Forall2 R l r -> length l = length r.
Proof. induction 1; cbn [length]; congruence. Qed.
Lemma build_names_ok subjects names many : build_names subjects = Some (names, many) ->
  length names = length subjects /\ names_told_apart names subjects /\ names_from names subjects many.
Proof.
  unfold build_names. intros E.
  destruct (all_some (map (parse_subject true) subjects)) as [n1|] eqn:E1; [|discriminate].
  destruct (if dupe_names (combine n1 subjects) then _ else _) as [n2|] eqn:E2; [|discriminate].
  assert (F : exists quotes, Forall2 (fun n s => parse_subject quotes s = Some n) n2 subjects).
  { destruct (dupe_names (combine n1 subjects)).
    - exists false. apply map_some_forall2, all_some_ok, E2.
    - injection E2 as <-. exists true. apply map_some_forall2, all_some_ok, E1. }
  destruct (dupe_names (combine n2 subjects)) eqn:D; injection E as <- <-.
  - split; [reflexivity|]. split; [apply subjects_apart|]. left. auto.
  - assert (L : length n2 = length subjects) by (destruct F as (q & F); exact (forall2_len _ _ _ F)).
    split; [exact L|]. split; [exact (told_apart _ _ L D)|]. right. auto.
Qed.
Lemma all_some_exists {A B} (f : A -> option B) l : (forall x, In x l -> exists y, f x = Some y) -> exists r, all_some (map f l) = Some r.
Proof.
  induction l as [|x l IH]; intros H; [exists []; reflexivity|]. destruct (H x (or_introl eq_refl)) as (y & E).
  destruct IH as (r & R); [intros z I; apply H; right; exact I|]. exists (y :: r). cbn [map all_some]. rewrite E, R. reflexivity.
Qed.
Lemma build_names_defined subjects : Forall subject_fine subjects ->
  exists names many, build_names subjects = Some (names, many) /\ Forall (fun n => n <> [] /\ nonul n) names.
Proof.
  intros F. rewrite Forall_forall in F.
  assert (P : forall q s, In s subjects -> exists n, parse_subject q s = Some n /\ n <> [] /\ nonul n).
  { intros q s I. destruct (F s I) as (N & L & O). exact (subject_defined q s N L O). }
  assert (A : forall q, exists r, all_some (map (parse_subject q) subjects) = Some r /\ Forall (fun n => n <> [] /\ nonul n) r).
  { intros q. destruct (all_some_exists (parse_subject q) subjects) as (r & R).
    - intros s I. destruct (P q s I) as (n & E & _). eauto.
    - exists r. split; [exact R|]. apply all_some_ok, map_some_forall2 in R.
      apply Forall_forall. intros n I. clear -P R I. induction R as [|n' s' r l E R IH]; [contradiction|].
      destruct I as [<- | I].
      + destruct (P q s' (or_introl eq_refl)) as (m & E2 & G). rewrite E in E2. injection E2 as <-. exact G.
      + apply IH; [|exact I]. intros q' s J. apply P. right. exact J. }
  unfold build_names. destruct (A true) as (r1 & -> & G1). destruct (A false) as (r2 & -> & G2).
  assert (GS : Forall (fun n => n <> [] /\ nonul n) subjects).
  { apply Forall_forall. intros s I. destruct (F s I) as (N & _ & O). split; [intros ->; apply O; left; reflexivity|exact N]. }
  destruct (dupe_names (combine r1 subjects)).
  - destruct (dupe_names (combine r2 subjects)); eauto.
  - destruct (dupe_names (combine r1 subjects)); eauto.
Qed.

(** ** The hash function *)

Lemma mix_right k r x y z : 0 < k -> mixing (- k :: r) x y z = mixing r y z (Z.lxor (u32 (x - y - z)) (Z.shiftr z k)).
Proof.
  intros H. cbn [mixing]. replace (- k <? 0) with true by lia. rewrite Z.opp_involutive, Z.shiftr_div_pow2 by lia. reflexivity.
Qed.
Lemma mix_left k r x y z : 0 <= k -> mixing (k :: r) x y z = mixing r y z (Z.lxor (u32 (x - y - z)) (u32 (Z.shiftl z k))).
Proof.
  intros H. cbn [mixing]. replace (k <? 0) with false by lia. rewrite Z.shiftl_mul_pow2 by lia. reflexivity.
Qed.
Lemma mix_eq a b c : mix a b c = stir (a, b, c).
Proof.
  unfold stir. 
  change [-13; 8; -13; -12; 16; -5; -3; 10; -15] with [- (13); 8; - (13); - (12); 16; - (5); - (3); 10; - (15)].
  rewrite mix_right, mix_left, mix_right, mix_right, mix_left, mix_right, mix_right, mix_left, mix_right by lia.
  reflexivity.
Qed.
Lemma word_le4 k : word k 0 = little_endian (firstn 4 k).
Proof. unfold word, little_endian. destruct k as [|a [|b [|c [|d k]]]]; cbn [Nat.add nth firstn fold_right]; try lia; rewrite ?firstn_nil; cbn [fold_right]; lia. Qed.
Lemma nth_skip i j (k : list Z) d : nth (i + j) k d = nth j (skipn i k) d.
Proof. revert k. induction i as [|i IH]; intros k; [reflexivity|]. destruct k; [destruct j; reflexivity|]. apply IH. Qed.
Lemma word_skip k i : word k i = word (skipn i k) 0.
Proof.
  unfold word. cbn [Nat.add]. rewrite <- (Nat.add_0_r i) at 1. rewrite !nth_skip. reflexivity.
Qed.
Lemma block_step block r a b c : length block = 12%nat ->
  mix (u32 (a + word (block ++ r) 0)) (u32 (b + word (block ++ r) 4)) (u32 (c + word (block ++ r) 8)) = absorb (a, b, c) block.
Proof.
  intros L. rewrite (word_skip _ 4), (word_skip _ 8), !word_le4, mix_eq. unfold absorb, take_in, u32.
  do 12 (destruct block as [|? block]; [discriminate|]). destruct block; [|discriminate]. reflexivity.
Qed.
Lemma hash_go_S f k a b c : hash_go (S f) k a b c =
  if (length k <? 12)%nat then (k, a, b, c)
  else let '(a, b, c) := mix (u32 (a + word k 0)) (u32 (b + word k 4)) (u32 (c + word k 8)) in hash_go f (skipn 12 k) a b c.
Proof. reflexivity. Qed.
Lemma hash_go_ok bs r : Forall (fun b : list Z => length b = 12%nat) bs -> (length r < 12)%nat -> forall fuel a b c,
  (length (concat bs ++ r) <= fuel)%nat ->
  hash_go fuel (concat bs ++ r) a b c = (let '(x, y, z) := fold_left absorb bs (a, b, c) in (r, x, y, z)).
Proof.
  intros F L. induction F as [|k bs LK F IH]; intros fuel a b c H.
  - cbn [concat app fold_left] in *. destruct fuel as [|fuel]; [destruct r; [reflexivity|cbn [length] in H; lia]|].
    rewrite hash_go_S. replace (length r <? 12)%nat with true by (symmetry; apply Nat.ltb_lt, L). reflexivity.
  - assert (FL : forall t, fold_left absorb (k :: bs) t = fold_left absorb bs (absorb t k)) by reflexivity.
    rewrite FL. change (concat (k :: bs)) with (k ++ concat bs) in *.
    rewrite <- app_assoc in *. rewrite app_length in H. destruct fuel as [|fuel]; [lia|]. rewrite hash_go_S.
    replace (length (k ++ concat bs ++ r) <? 12)%nat with false by (symmetry; apply Nat.ltb_ge; rewrite app_length; lia).
    rewrite block_step by exact LK. destruct (absorb (a, b, c) k) as [[x y] z].
    assert (S12 : skipn 12 (k ++ concat bs ++ r) = concat bs ++ r).
    { rewrite skipn_app, LK, Nat.sub_diag, skipn_all2 by lia. reflexivity. }
    rewrite S12. apply IH. lia.
Qed.
Lemma hash_ok bs r init : Forall (fun b : list Z => length b = 12%nat) bs -> (length r < 12)%nat ->
  hash_bj96 (concat bs ++ r) init = jenkins bs r init.
Proof.
  intros F L. unfold hash_bj96, jenkins. rewrite (hash_go_ok bs r F L) by lia.
  change 2654435769 with 0x9e3779b9. destruct (fold_left absorb bs (0x9e3779b9, 0x9e3779b9, init)) as [[x y] z].
  assert (LEN : Z.of_nat (length (concat bs ++ r)) = 12 * Z.of_nat (length bs) + Z.of_nat (length r)).
  { rewrite app_length, Nat2Z.inj_add. f_equal. clear -F. induction F as [|b bs L F IH]; [reflexivity|]. cbn [concat length]. rewrite app_length. lia. }
  rewrite LEN, (word_skip _ 4), !word_le4, mix_eq. cbn [take_in]. unfold u32.
  assert (T : nth 8 r 0 + 256 * nth 9 r 0 + 65536 * nth 10 r 0 = little_endian (skipn 8 r)).
  { unfold little_endian. do 12 (destruct r as [|? r]; [cbn [nth skipn fold_right]; lia|]). cbn [length] in L. lia. }
  rewrite T. set (n := 12 * Z.of_nat (length bs) + Z.of_nat (length r)). set (e := little_endian (skipn 8 r)).
  replace (z + (n + 256 * e)) with (z + n + 256 * e) by lia.
  set (q := stir _). destruct q as [[? ?] ?]. reflexivity.
Qed.
Lemma jenkins_range bs r init : 0 <= jenkins bs r init < 2 ^ 32.
Proof.
  unfold jenkins. destruct (take_in _ _ _ _) as [[a b] c] eqn:E. cbn [snd].
  unfold take_in in E. destruct (fold_left _ _ _) as [[x y] z]. unfold stir in E.
  assert (R : forall sh x y z, sh <> [] -> 0 <= z < 2 ^ 32 -> let '(_, _, c) := mixing sh x y z in 0 <= c < 2 ^ 32).
  { clear. induction sh as [|s sh IH]; intros x y z N Z0; [contradiction|]. cbn [mixing].
    set (w := Z.lxor _ _). assert (W : 0 <= w < 2 ^ 32).
    { unfold w. assert (A : 0 <= (x - y - z) mod 2 ^ 32 < 2 ^ 32) by (apply Z.mod_pos_bound; lia).
      assert (B : 0 <= (if s <? 0 then z / 2 ^ (- s) else z * 2 ^ s mod 2 ^ 32) < 2 ^ 32).
      { destruct (Z.ltb_spec s 0) as [H|H]; [|apply Z.mod_pos_bound; lia]. split; [apply Z.div_pos; [lia|apply Z.pow_pos_nonneg; lia]|].
        apply Z.le_lt_trans with z; [|lia]. apply Z.div_le_upper_bound; [apply Z.pow_pos_nonneg; lia|].
        assert (1 <= 2 ^ (- s)) by (apply (Z.pow_le_mono_r 2 0); lia). nia. }
      set (u := (x - y - z) mod 2 ^ 32) in *. set (v := if s <? 0 then _ else _) in *. clearbody u v.
      split; [apply Z.lxor_nonneg; lia|].
      destruct (Z.eq_dec (Z.lxor u v) 0) as [->|NZ]; [lia|].
      assert (0 < Z.lxor u v) by (assert (0 <= Z.lxor u v) by (apply Z.lxor_nonneg; lia); lia).
      apply Z.log2_lt_pow2; [lia|]. eapply Z.le_lt_trans; [apply Z.log2_lxor; lia|].
      apply Z.max_lub_lt; (destruct (Z.eq_dec u 0) as [->|]; [|idtac]); (destruct (Z.eq_dec v 0) as [->|]; [|idtac]);
        try (change (Z.log2 0) with 0; lia); apply Z.log2_lt_pow2; lia. }
    destruct sh as [|s' sh]; [exact W|]. apply IH; [discriminate|exact W]. }
  specialize (R [-13; 8; -13; -12; 16; -5; -3; 10; -15] ((x + little_endian (firstn 4 r)) mod 2 ^ 32)
    ((y + little_endian (firstn 4 (skipn 4 r))) mod 2 ^ 32) ((z + (12 * Z.of_nat (length bs) + Z.of_nat (length r) + 256 * little_endian (skipn 8 r))) mod 2 ^ 32)
    ltac:(discriminate) ltac:(apply Z.mod_pos_bound; lia)).
  rewrite E in R. exact R.
Qed.
