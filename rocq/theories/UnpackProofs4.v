(** Joining of split files. *)
From Coq Require Import String FinFun.
From Verif Require Import Base NumFmt LineModel UnpackModel UnpackSpec.
Open Scope list_scope. Open Scope Z_scope.

(** ** Names of parts *)

Definition digits3 (n : Z) : list Z := [48 + n / 100; 48 + (n / 10) mod 10; 48 + n mod 10].
Lemma pad3_digits n : 0 <= n <= 999 -> pad3 n = digits3 n.
Proof.
  assert (H : forallb (fun k => beqb (pad3 (Z.of_nat k)) (digits3 (Z.of_nat k))) (seq 0 (Z.to_nat 1000)) = true) by (vm_compute; reflexivity).
  intros B. rewrite forallb_forall in H. specialize (H (Z.to_nat n)). rewrite Z2Nat.id in H by lia. apply beqb_eq, H.
  apply in_seq. lia.
Qed.

Lemma split_part s b n : split_name s = Some (b, n) -> 0 <= n <= 999 /\ s = part_name b n /\ good_base b.
Proof.
  unfold split_name. destruct (rev s) as [|d3 [|d2 [|d1 [|p2 [|c3 [|c2 [|c1 [|p1 r]]]]]]]] eqn:E; try discriminate.
  destruct (digit d1 && digit d2 && digit d3 && (p2 =? 46) && alnum_comma c1 && alnum_comma c2 && alnum_comma c3 && (p1 =? 46)) eqn:C; [|discriminate].
  intros H. assert (Hb : b = rev r ++ [p1; c1; c2; c3]) by congruence.
  assert (Hn : n = 100 * (d1 - 48) + 10 * (d2 - 48) + (d3 - 48)) by congruence. clear H. subst b. rewrite !andb_true_iff in C. destruct C as (((((((D1 & D2) & D3) & P2) & A1) & A2) & A3) & P1).
  unfold digit in *. rewrite andb_true_iff, !Z.leb_le in D1, D2, D3. apply Z.eqb_eq in P1, P2. subst p1 p2. split; [lia|]. split.
  - apply (f_equal (@rev Z)) in E. rewrite rev_involutive in E. rewrite E. unfold part_name. cbn [rev]. rewrite pad3_digits by lia.
    unfold digits3. rewrite <- !app_assoc. cbn [app]. repeat f_equal; lia.
  - exists (rev r), c1, c2, c3. auto.
Qed.
Lemma split_of_part b n : good_base b -> 0 <= n <= 999 -> split_name (part_name b n) = Some (b, n).
Proof.
  intros (r & c1 & c2 & c3 & -> & A1 & A2 & A3) B. unfold part_name. rewrite pad3_digits by exact B. unfold split_name, digits3.
  rewrite !rev_app_distr. cbn [rev app]. unfold digit. rewrite A1, A2, A3. cbn [andb].
  replace ((48 <=? 48 + n / 100) && (48 + n / 100 <=? 57) && ((48 <=? 48 + (n / 10) mod 10) && (48 + (n / 10) mod 10 <=? 57)) &&
    ((48 <=? 48 + n mod 10) && (48 + n mod 10 <=? 57)) && (46 =? 46) && true && true && true && (46 =? 46)) with true by lia.
  rewrite rev_involutive. f_equal. f_equal. lia.
Qed.
Lemma part_len b n : 0 <= n <= 999 -> length (part_name b n) = (length b + 4)%nat.
Proof. intros B. unfold part_name. rewrite pad3_digits by exact B. rewrite !app_length. reflexivity. Qed.
Lemma part_base b n : 0 <= n <= 999 -> firstn (length (part_name b n) - 4) (part_name b n) = b.
Proof.
  intros B. rewrite part_len by exact B. replace (length b + 4 - 4)%nat with (length b) by lia. unfold part_name.
  rewrite firstn_app, firstn_all, Nat.sub_diag. apply app_nil_r.
Qed.

(** ** The scan of the directory *)

Definition num (p : list Z * Z * list Z) : Z := snd (fst p).
Definition dif (first : Z) (p : list Z * Z * list Z) : Prop := Z.of_nat (length (snd p)) <> first.

Definition scanned (first : Z) (P : list (list Z * Z * list Z)) (s : jst) : Prop :=
  j_count s = Z.of_nat (length P) /\
  (P = [] -> j_min s = -1 /\ j_max s = -1) /\
  (P <> [] -> In (j_min s) (map num P) /\ In (j_max s) (map num P)) /\
  (forall p, In p P -> j_min s <= num p <= j_max s) /\
  (forall p, In p P -> dif first p -> j_difmin s <= num p) /\
  (j_difmin s = 999999 \/ exists p, In p P /\ dif first p /\ num p = j_difmin s) /\
  ((j_difsize s = 0 /\ forall p, In p P -> ~ dif first p) \/ exists p, In p P /\ dif first p /\ j_difsize s = Z.of_nat (length (snd p))).

Lemma scan_step first P s e b n : scanned first P s -> split_name (fst e) = Some (b, n) -> (forall p, In p P -> 0 <= num p <= 999) ->
  scanned first (P ++ [(b, n, snd e)]) (j_step first s e).
Proof.
  intros (A & B & C & D & E & F & G) X R. pose proof (split_part _ _ _ X) as (N & _). unfold j_step. rewrite X. cbv zeta.
  remember (Z.of_nat (length (snd e))) as size eqn:Sz. unfold scanned. cbn [j_count j_min j_max j_difmin j_difsize].
  assert (Dif : negb (size =? first) = true <-> dif first (b, n, snd e)) by (unfold dif; cbn; lia).
  assert (IN : forall p, In p (P ++ [(b, n, snd e)]) <-> In p P \/ p = (b, n, snd e)).
  { intros p. rewrite in_app_iff. cbn. intuition. }
  assert (Min : P <> [] -> 0 <= j_min s).
  { intros NE. destruct (C NE) as [K _]. apply in_map_iff in K as (p & <- & I). apply R in I. lia. }
  split; [rewrite app_length, A; cbn; lia|]. split; [intros K; destruct P; discriminate K|].
  split.
  { intros _. rewrite map_app. cbn [map num fst snd]. rewrite !in_app_iff. cbn [In].
    destruct P as [|p0 P0]; [destruct (B eq_refl) as [-> ->]|].
    - change ((n <? -1) || (-1 =? -1)) with ((n <? -1) || true). rewrite orb_true_r. replace (-1 <? n) with true by lia. auto.
    - destruct (C ltac:(discriminate)) as [K1 K2]. specialize (Min ltac:(discriminate)).
      split; [destruct ((n <? j_min s) || (j_min s =? -1)); auto | destruct (j_max s <? n); auto]. }
  split.
  { intros p. rewrite IN. intros [I| ->]; cbn [num fst snd].
    - assert (P <> []) by (destruct P; [destruct I|discriminate]). specialize (Min H). specialize (D p I).
      destruct ((n <? j_min s) || (j_min s =? -1)) eqn:M, (j_max s <? n) eqn:MM; lia.
    - destruct P as [|p0 P0]; [destruct (B eq_refl) as [-> ->]|].
      + change ((n <? -1) || (-1 =? -1)) with ((n <? -1) || true). rewrite orb_true_r. replace (-1 <? n) with true by lia. lia.
      + specialize (Min ltac:(discriminate)). destruct ((n <? j_min s) || (j_min s =? -1)) eqn:M, (j_max s <? n) eqn:MM; lia. }
  split.
  { intros p. rewrite IN. intros [I| ->] K; cbn [num fst snd].
    - specialize (E p I K). destruct (negb (size =? first)), (n <? j_difmin s) eqn:Q; lia.
    - rewrite (proj2 Dif K). destruct (n <? j_difmin s) eqn:Q; lia. }
  split.
  { destruct (negb (size =? first)) eqn:DD.
    - destruct (n <? j_difmin s).
      + right. exists (b, n, snd e). split; [apply IN; now right|]. split; [now apply Dif|reflexivity].
      + destruct F as [F|(p & I & K & Q)]; [left; exact F|right; exists p; split; [apply IN; now left|auto]].
    - destruct F as [F|(p & I & K & Q)]; [left; exact F|right; exists p; split; [apply IN; now left|auto]]. }
  destruct (negb (size =? first)) eqn:DD.
  - right. exists (b, n, snd e). split; [apply IN; now right|]. split; [now apply Dif|exact Sz].
  - destruct G as [[G1 G2]|(p & I & K & Q)].
    + left. split; [exact G1|]. intros p. rewrite IN. intros [I| ->]; [auto|]. intros K. apply Dif in K. discriminate.
    + right. exists p. split; [apply IN; now left|auto].
Qed.

Lemma parts_range d p : In p (parts_of d) -> 0 <= num p <= 999 /\ In (part_name (fst (fst p)) (num p), snd p) d /\ good_base (fst (fst p)).
Proof.
  unfold parts_of. intros H. apply in_flat_map in H as ((name, c) & I & H). cbn [fst snd] in H.
  destruct (split_name name) as [[b n]|] eqn:S1; [|destruct H]. destruct H as [<-|[]]. destruct (split_part _ _ _ S1) as (R & E & G).
  cbn [num fst snd]. rewrite <- E. auto.
Qed.

Lemma scan_ok first : forall d, scanned first (parts_of d) (fold_left (j_step first) d jst0).
Proof.
  intros d. induction d as [|e d IH] using rev_ind.
  - unfold scanned. cbn. repeat split; auto; try contradiction; try tauto.
  - rewrite fold_left_app. cbn [fold_left]. unfold parts_of. rewrite flat_map_app. fold (parts_of d). cbn [flat_map]. rewrite app_nil_r.
    destruct (split_name (fst e)) as [[b n]|] eqn:S1.
    + apply scan_step; [exact IH|exact S1|]. intros p I. now apply parts_range in I.
    + rewrite app_nil_r. unfold j_step. rewrite S1. exact IH.
Qed.

(** ** One set of parts *)

Lemma one_nums base d : one_set base d -> NoDup (map num (parts_of d)).
Proof.
  intros (ND & O). induction d as [|(name, c) d IH]; [constructor|]. cbn [map fst] in ND. inversion ND; subst. inversion O; subst.
  specialize (IH H2 H4). unfold parts_of. cbn [flat_map fst snd]. destruct (split_name name) as [[b n]|] eqn:S1; [|exact IH].
  cbn [app map num fst snd]. constructor; [|exact IH]. intros I. apply in_map_iff in I as (p & E & I).
  pose proof (parts_range _ _ I) as (_ & J & _).
  cbn [fst] in H3. specialize (H3 _ _ S1). subst b. destruct (split_part _ _ _ S1) as (_ & -> & _).
  assert (fst (fst p) = base).
  { rewrite Forall_forall in H4. unfold parts_of in I. apply in_flat_map in I as (e & I1 & I2). specialize (H4 e I1).
    destruct (split_name (fst e)) as [[b' n']|]; [|destruct I2]. destruct I2 as [<-|[]]. cbn. eauto. }
  rewrite H in J. apply H1. apply in_map_iff. exists (part_name base (num p), snd p). split; [cbn; congruence|exact J].
Qed.
Lemma one_part base d p : one_set base d -> In p (parts_of d) -> In (part_name base (num p), snd p) d.
Proof.
  intros (ND & O) I. pose proof (parts_range _ _ I) as (_ & J & _). replace base with (fst (fst p)); [exact J|].
  rewrite Forall_forall in O. unfold parts_of in I. apply in_flat_map in I as (e & I1 & I2). specialize (O e I1).
  destruct (split_name (fst e)) as [[b' n']|]; [|destruct I2]. destruct I2 as [<-|[]]. cbn. eauto.
Qed.
Lemma part_in base d n c : good_base base -> 0 <= n <= 999 -> In (part_name base n, c) d -> In (base, n, c) (parts_of d).
Proof.
  intros G B I. unfold parts_of. apply in_flat_map. exists (part_name base n, c). split; [exact I|]. cbn [fst snd].
  rewrite split_of_part by assumption. now left.
Qed.

Lemma find_in name : forall (d : dirl) c, find_file name d = Some c -> In (name, c) d.
Proof.
  induction d as [|(n, x) d IH]; intros c H; [discriminate|]. cbn [find_file] in H. destruct (beqb n name) eqn:E.
  - injection H as ->. apply beqb_eq in E. subst. now left.
  - right. auto.
Qed.
Lemma in_find name : forall (d : dirl) c, NoDup (map fst d) -> In (name, c) d -> find_file name d = Some c.
Proof.
  induction d as [|(n, x) d IH]; intros c ND I; [destruct I|]. cbn [map fst] in ND. inversion ND; subst. cbn [find_file].
  destruct I as [I|I].
  - injection I as -> ->. now rewrite beqb_refl.
  - destruct (beqb n name) eqn:E; [|auto]. apply beqb_eq in E. subst. exfalso. apply H1. apply in_map_iff. exists (name, c). auto.
Qed.

Lemma loop_ok d base total : forall k i cs, NoDup (map fst d) -> total <> 0 -> parts_from base d i cs -> length cs = k ->
  join_loop k d base i total = Some (concat cs).
Proof.
  induction k as [|k IH]; intros i cs ND T P L; (destruct cs as [|c cs]; [|]); try discriminate L; [reflexivity|].
  cbn [parts_from] in P. destruct P as [P1 P2]. cbn [join_loop]. rewrite (in_find _ _ _ ND P1). replace (total =? 0) with false by lia.
  rewrite (IH (i + 1) cs ND T P2) by (cbn in L; lia). reflexivity.
Qed.
Lemma loop_zero d base : forall k i, (exists c, find_file (part_name base i) d = Some c) -> (0 < k)%nat -> join_loop k d base i 0 = None.
Proof. intros k i [c C] K. destruct k; [lia|]. cbn [join_loop]. now rewrite C. Qed.

Lemma parts_exist base d : forall k i, (forall j, i <= j < i + Z.of_nat k -> exists c, In (part_name base j, c) d) ->
  exists cs, length cs = k /\ parts_from base d i cs.
Proof.
  induction k as [|k IH]; intros i H; [exists []; split; [reflexivity|exact I]|].
  destruct (H i) as [c C]; [lia|]. destruct (IH (i + 1)) as (cs & L & P); [intros j J; apply H; lia|].
  exists (c :: cs). split; [cbn; lia|]. split; assumption.
Qed.

Lemma covered (l : list Z) lo hi : NoDup l -> (forall x, In x l -> lo <= x <= hi) -> Z.of_nat (length l) = hi - lo + 1 ->
  forall x, lo <= x <= hi -> In x l.
Proof.
  intros ND B L x X. pose (r := map (fun k => lo + Z.of_nat k) (seq 0 (length l))).
  assert (I : incl r l).
  { apply NoDup_length_incl; [exact ND|unfold r; rewrite map_length, seq_length; lia|].
    intros y Y. apply B in Y. unfold r. apply in_map_iff. exists (Z.to_nat (y - lo)). split; [lia|]. apply in_seq. lia. }
  apply I. unfold r. apply in_map_iff. exists (Z.to_nat (x - lo)). split; [lia|]. apply in_seq. lia.
Qed.

Lemma parts_nth base d : forall cs lo k c, parts_from base d lo cs -> nth_error cs k = Some c -> In (part_name base (lo + Z.of_nat k), c) d.
Proof.
  induction cs as [|x cs IH]; intros lo k c P N; [destruct k; discriminate|]. destruct P as [P1 P2]. destruct k as [|k].
  - injection N as <-. now rewrite Z.add_0_r.
  - cbn [nth_error] in N. specialize (IH _ _ _ P2 N). replace (lo + Z.of_nat (S k)) with (lo + 1 + Z.of_nat k) by lia. exact IH.
Qed.

(** ** The theorems *)

Lemma join_sound parok d base c1 c : one_set base d -> good_base base -> In (part_name base 1, c1) d ->
  join_file parok d (part_name base 1) = Some (Some c) ->
  exists lo cs, complete_set base d lo cs /\ c = concat cs /\ (parok = false -> same_but_last c1 cs).
Proof.
  intros O G I1 J. pose proof O as (ND & _). unfold join_file in J. rewrite part_base in J by lia.
  rewrite (in_find _ _ _ ND I1) in J. remember (Z.of_nat (length c1)) as first eqn:Fi.
  pose proof (scan_ok first d) as (A & B & C & D & E & F & Gd).
  remember (fold_left (j_step first) d jst0) as s eqn:Es. clear Es. cbv zeta in J.
  pose proof (part_in base d 1 c1 G ltac:(lia) I1) as P1.
  assert (NE : parts_of d <> []) by (intros K; rewrite K in P1; destruct P1).
  destruct (C NE) as [Cm CM]. pose proof (D _ P1) as D1. cbn in D1.
  assert (M0 : 0 <= j_min s). { apply in_map_iff in Cm as (p & <- & K). now apply parts_range in K. }
  assert (MM : j_max s <= 999). { apply in_map_iff in CM as (p & <- & K). now apply parts_range in K. }
  destruct ((1 <? j_min s) || _ || _) eqn:Co; [discriminate|].
  apply orb_false_iff in Co as [Co Cz]. apply orb_false_iff in Co as [_ Cc]. apply negb_false_iff, Z.eqb_eq in Cc.
  assert (Len : Z.of_nat (length (map num (parts_of d))) = j_max s - j_min s + 1).
  { rewrite map_length. rewrite A in Cc. destruct (j_min s =? 0) eqn:Z0; lia. }
  assert (Cov : forall x, j_min s <= x <= j_max s -> exists p, In p (parts_of d) /\ num p = x).
  { intros x X. assert (In x (map num (parts_of d))).
    { apply (covered _ (j_min s) (j_max s)); auto; [apply (one_nums base), O|]. intros y Y. apply in_map_iff in Y as (p & <- & K). auto. }
    apply in_map_iff in H as (p & E1 & E2). eauto. }
  destruct (parts_exist base d (Z.to_nat (j_max s - j_min s + 1)) (j_min s)) as (cs & L & P).
  { intros j Hj. destruct (Cov j) as (p & K1 & K2); [lia|]. exists (snd p). rewrite <- K2. apply one_part; assumption. }
  assert (T0 : first * (j_count s - 1) + j_difsize s <> 0).
  { intros T0. rewrite T0 in J. rewrite loop_zero in J; [discriminate| |lia].
    destruct (Cov (j_min s)) as (p & K1 & K2); [lia|]. exists (snd p). apply in_find; [exact ND|]. rewrite <- K2. now apply one_part. }
  rewrite (loop_ok d base _ _ _ cs ND T0 P L) in J. injection J as <-. exists (j_min s), cs. split; [|split; [reflexivity|]].
  - split; [lia|]. split; [exact P|]. rewrite map_length in Len. split; [lia|]. destruct cs; [cbn in L; lia|discriminate].
  - intros ->. rewrite andb_true_r in Cz. apply orb_false_iff in Cz as [Cz Cy]. apply negb_false_iff, Z.eqb_eq in Cz.
    assert (DM : j_difmin s = j_max s) by lia.
    destruct F as [F|(p & K1 & K2 & K3)]; [lia|].
    destruct (exists_last (l := cs)) as (front & last & ->); [destruct cs; [cbn in L; lia|discriminate]|].
    rewrite app_length in L. cbn [length] in L.
    exists front, last. split; [reflexivity|].
    assert (Nth : forall k x, nth_error (front ++ [last]) k = Some x -> In (base, j_min s + Z.of_nat k, x) (parts_of d)).
    { intros k x N. assert (K : (k < length (front ++ [last]))%nat) by (apply nth_error_Some; congruence). rewrite app_length in K. cbn [length] in K.
      apply part_in; [exact G|lia|]. eapply parts_nth; eassumption. }
    split.
    + apply Forall_forall. intros x X. apply In_nth_error in X as [k X].
      assert (K : (k < length front)%nat) by (apply nth_error_Some; congruence).
      assert (X' : nth_error (front ++ [last]) k = Some x) by (rewrite nth_error_app1; assumption).
      specialize (Nth _ _ X'). destruct (Z.eq_dec (Z.of_nat (length x)) first) as [Q|Q]; [lia|].
      specialize (E _ Nth Q). cbn in E. lia.
    + assert (X' : nth_error (front ++ [last]) (length front) = Some last).
      { rewrite nth_error_app2, Nat.sub_diag by lia. reflexivity. }
      specialize (Nth _ _ X'). replace (j_min s + Z.of_nat (length front)) with (j_max s) in Nth by lia.
      assert (Ep : snd p = last).
      { pose proof (one_part base d p O K1) as U1. pose proof (one_part base d _ O Nth) as U2. cbn [num fst snd] in U2. rewrite K3, DM in U1.
        apply (in_find _ _ _ ND) in U1. apply (in_find _ _ _ ND) in U2. congruence. }
      unfold dif in K2. rewrite Ep in K2. lia.
Qed.

Lemma join_complete parok d base c1 lo cs : one_set base d -> good_base base -> In (part_name base 1, c1) d ->
  complete_set base d lo cs ->
  (same_but_last c1 cs \/ (parok = true /\ (2 <= length cs)%nat /\ c1 <> [])) -> lo + Z.of_nat (length cs) <= 1000 ->
  join_file parok d (part_name base 1) = Some (Some (concat cs)).
Proof.
  intros O G I1 (Lo & P & L & NE) Sz Mx. pose proof O as (ND & _). unfold join_file. rewrite part_base by lia.
  rewrite (in_find _ _ _ ND I1). remember (Z.of_nat (length c1)) as first eqn:Fi.
  pose proof (scan_ok first d) as (A & B & C & D & E & F & Gd).
  remember (fold_left (j_step first) d jst0) as s eqn:Es. clear Es. cbv zeta.
  assert (Nth : forall k x, nth_error cs k = Some x -> In (base, lo + Z.of_nat k, x) (parts_of d)).
  { intros k x N. assert (K : (k < length cs)%nat) by (apply nth_error_Some; congruence).
    apply part_in; [exact G|lia|]. eapply parts_nth; eassumption. }
  assert (PN : parts_of d <> []) by (intros K; rewrite K in L; destruct cs; [contradiction|discriminate L]).
  destruct (C PN) as [Cm CM].
  assert (LC : (0 < length cs)%nat) by (destruct cs; [contradiction|cbn; lia]).
  (* all numbers are those of cs *)
  assert (Inc : forall p, In p (parts_of d) -> lo <= num p < lo + Z.of_nat (length cs)).
  { pose (r := map (fun k => lo + Z.of_nat k) (seq 0 (length cs))).
    assert (Ir : incl (map num (parts_of d)) r).
    { apply NoDup_length_incl.
      - unfold r. apply FinFun.Injective_map_NoDup; [intros x y; lia|apply seq_NoDup].
      - unfold r. rewrite !map_length, seq_length. lia.
      - intros x X. unfold r in X. apply in_map_iff in X as (k & <- & K). apply in_seq in K.
        destruct (nth_error cs k) as [y|] eqn:Y; [|apply nth_error_None in Y; lia]. apply in_map_iff. exists (base, lo + Z.of_nat k, y). auto. }
    intros p I. assert (K : In (num p) r) by (apply Ir, in_map, I). unfold r in K. apply in_map_iff in K as (k & <- & K). apply in_seq in K. lia. }
  assert (Mi : j_min s = lo).
  { apply in_map_iff in Cm as (p & Ep & K). apply Inc in K. destruct cs as [|x xs] eqn:Ecs; [contradiction|].
    pose proof (D _ (Nth 0%nat x eq_refl)) as K2. cbn [num fst snd] in K2. lia. }
  assert (Ma : j_max s = lo + Z.of_nat (length cs) - 1).
  { apply in_map_iff in CM as (p & Ep & K). apply Inc in K.
    destruct (nth_error cs (length cs - 1)) as [y|] eqn:Y; [|apply nth_error_None in Y; lia].
    pose proof (D _ (Nth _ _ Y)) as K2. cbn [num fst snd] in K2. lia. }
  rewrite L in A.
  assert (Sz' : (j_difmin s = j_max s /\ parok = false -> True) /\ (parok = true \/ j_difmin s = j_max s) /\ first * (j_count s - 1) + j_difsize s <> 0).
  { split; [auto|]. destruct Sz as [(front & last & -> & Fr & La) | (-> & L2 & C1)].
    - rewrite app_length in *. cbn [length] in *.
      assert (X' : nth_error (front ++ [last]) (length front) = Some last) by (rewrite nth_error_app2, Nat.sub_diag by lia; reflexivity).
      specialize (Nth _ _ X') as NL.
      assert (DL : dif first (base, lo + Z.of_nat (length front), last)) by (unfold dif; cbn [snd]; lia).
      assert (Only : forall p, In p (parts_of d) -> dif first p -> num p = j_max s).
      { intros p I Dp. pose proof (Inc p I) as K. destruct (Z.eq_dec (num p) (j_max s)) as [Q|Q]; [exact Q|exfalso].
        remember (Z.to_nat (num p - lo)) as k eqn:Ek. assert (Kk : (k < length front)%nat) by lia.
        destruct (nth_error front k) as [y|] eqn:Y; [|apply nth_error_None in Y; lia].
        assert (Y' : nth_error (front ++ [last]) k = Some y) by (rewrite nth_error_app1; assumption).
        pose proof (one_part base d _ O (Nth _ _ Y')) as U1. pose proof (one_part base d p O I) as U2. cbn [num fst snd] in U1.
        replace (lo + Z.of_nat k) with (num p) in U1 by lia.
        apply (in_find _ _ _ ND) in U1. apply (in_find _ _ _ ND) in U2. rewrite U1 in U2. injection U2 as U2.
        rewrite Forall_forall in Fr. apply nth_error_In in Y. specialize (Fr _ Y). unfold dif in Dp. rewrite <- U2 in Dp. lia. }
      split.
      + right. destruct F as [F|(p & K1 & K2 & K3)]; [|rewrite <- K3; auto]. pose proof (E _ NL DL) as K. cbn [num fst snd] in K. lia.
      + destruct Gd as [[_ Gd]|(p & K1 & K2 & K3)]; [exfalso; exact (Gd _ NL DL)|].
        assert (0 <= first * (j_count s - 1)) by (apply Z.mul_nonneg_nonneg; lia).
        assert (H0 : j_difsize s = Z.of_nat (length (snd p))) by exact K3. unfold dif in K2.
        intros T0. assert (j_difsize s = 0) by lia. assert (first * (j_count s - 1) = 0) by lia. 
        apply Z.mul_eq_0 in H2. destruct H2 as [H2|H2]; [lia|].
        (* a single part: it is the first one *)
        assert (length front = 0%nat) by lia. destruct front; [|discriminate].
        assert (I1' : In (base, 1, c1) (parts_of d)) by (apply part_in; [exact G|lia|exact I1]).
        pose proof (Inc _ I1') as Q. cbn [num fst snd length] in Q.
        pose proof (one_part base d _ O NL) as U1. cbn [num fst snd length] in U1. replace (lo + Z.of_nat 0) with 1 in U1 by lia.
        apply (in_find _ _ _ ND) in U1. rewrite (in_find _ _ _ ND I1) in U1. injection U1 as U1. subst last. lia.
    - split; [auto|]. assert (0 < first) by (destruct c1; [contradiction|cbn in Fi; lia]).
      assert (0 < first * (j_count s - 1)) by (apply Z.mul_pos_pos; lia).
      assert (0 <= j_difsize s) by (destruct Gd as [[-> _]|(p & _ & _ & ->)]; lia). lia. }
  destruct Sz' as (_ & Sz1 & Sz2).
  assert (Cor : j_count s - (if j_min s =? 0 then 1 else 0) = j_max s) by (destruct (j_min s =? 0) eqn:Z0; lia).
  rewrite Cor. replace ((1 <? j_min s) || negb (j_max s =? j_max s) || ((negb (j_difmin s =? j_max s) || (j_max s <? j_difmin s)) && negb parok)) with false.
  2:{ symmetry. rewrite Z.eqb_refl. cbn [negb]. rewrite orb_false_r. apply orb_false_iff. split; [lia|].
      destruct Sz1 as [->|Q]; [apply andb_false_r|]. rewrite Q, Z.eqb_refl, Z.ltb_irrefl. reflexivity. }
  rewrite Mi, Ma. replace (Z.to_nat (lo + Z.of_nat (length cs) - 1 - lo + 1)) with (length cs) by lia.
  rewrite (loop_ok d base _ _ lo cs ND); [reflexivity|exact Sz2|exact P|reflexivity].
Qed.
