(** Renaming all sets: nothing is lost, everything is named. *)
From Coq Require Import String Permutation.
From Verif Require Import Base NumFmt InfoModel NameModel NameProofs WildModel RarModel RarSetModel RarSetSpec RarProofs4 RarSetProofs RarSetProofs2 RarSetProofs3.
Open Scope list_scope. Open Scope Z_scope.

Lemma set_fine vols s : volumes_ok vols -> is_set s -> incl s vols -> NoDup (map v_no s) /\ Forall fine s /\ Forall (fun v => v_no v < 2 ^ 32 - 1) s.
Proof.
  intros [Sm L] (C & (h & r & f & fs & E & E0 & _) & _) I. pose proof (chain_short _ _ _ _ C E I) as K.
  assert (A : forall v, In v s -> 0 <= v_no v <= 14200).
  { intros v V. apply In_nth_error in V as [n V]. rewrite (chain_no _ C _ _ _ _ E V), E0. assert (Q : nth_error s n <> None) by congruence. apply nth_error_Some in Q. unfold zlen in L. lia. }
  repeat apply conj; [exact (chain_nos _ _ _ C E)| |]; apply Forall_forall; intros v V; specialize (A v V); [split; [lia|intros _; lia]|lia].
Qed.
Lemma not_blocked fs dir base set : existsb (blocked fs dir base) set = false -> forall v, In v set -> v_name v = dest dir base v \/ ~ In (dest dir base v) (paths fs).
Proof.
  intros H v V. destruct (beqb (v_name v) (dest dir base v)) eqn:E; [left; apply beqb_eq, E|right]. intros I. apply is_there_iff in I.
  assert (X : existsb (blocked fs dir base) set = true) by (apply existsb_exists; exists v; split; [exact V|unfold blocked; rewrite E, I; reflexivity]). congruence.
Qed.

(** What holds from one disk to the next, for renamings within [dir] of files of the volumes [vols]. *)
Definition moved (dir : list Z) (vols : list vol) (fs fs' : disk) : Prop :=
  Permutation (contents fs) (contents fs') /\
  (forall p, In p (paths fs') -> In p (paths fs) \/ exists n, name_in dir p n) /\
  (forall p, (forall v, In v vols -> v_name v <> p) -> In p (paths fs) -> look fs' p = look fs p).
Lemma moved_refl dir vols fs : moved dir vols fs fs. Proof. repeat apply conj; auto. Qed.
Lemma look_paths fs fs' p : look fs' p = look fs p -> In p (paths fs) -> In p (paths fs').
Proof. intros L I. destruct (look fs' p) as [c|] eqn:Q; [apply look_in in Q; apply (in_map fst) in Q; exact Q|]. symmetry in L. apply look_none in L. contradiction. Qed.
Lemma moved_trans dir vols a b c : moved dir vols a b -> moved dir vols b c -> moved dir vols a c.
Proof.
  intros (P1 & N1 & L1) (P2 & N2 & L2). repeat apply conj.
  - rewrite P1. exact P2.
  - intros p I. destruct (N2 p I) as [I2|?]; auto.
  - intros p V I. specialize (L1 p V I). rewrite L2; [exact L1|exact V|]. exact (look_paths _ _ _ L1 I).
Qed.

Lemma rename_set_safe can dir vols fs s : refuses_long can -> NoDup (map v_no s) -> Forall fine s -> incl s vols -> NoDup (paths fs) -> short_names fs ->
  exists fs', rename_set can dir fs s = Some fs' /\ NoDup (paths fs') /\ short_names fs' /\ moved dir vols fs fs'.
Proof.
  intros R Nn Fi Iv N Sh. unfold rename_set. destruct (proper s); [exists fs; auto using moved_refl|].
  destruct (free_base (S (length fs)) fs dir (main_base s) s 1) as [base|] eqn:E; [|exfalso; exact (free_base_ends fs dir s s Fi Sh E)].
  destruct (free_base_some _ _ _ _ _ _ _ E) as (k & K & Eb & B & _). eexists. split; [reflexivity|].
  destruct (renames_ok can dir base s fs N (dests_nodup dir base s Nn Fi) (not_blocked _ _ _ _ B)) as (G1 & G2 & G3 & G4).
  set (fs' := fold_left _ _ _) in *. split; [exact G1|]. unfold short_names in *. rewrite Forall_forall in Sh, Fi. split; [|repeat apply conj; auto].
  - apply Forall_forall. intros p I. destruct (G3 p I) as [I0|(v & V & _ & C)]; [exact (Sh p I0)|exact (R _ _ C)].
  - intros p I. destruct (G3 p I) as [I0|(v & V & -> & C)]; [left; exact I0|right]. exists (base ++ [46] ++ ext_of v).
    rewrite Eb. destruct (dest_part s k dir v ltac:(lia) (Fi v V)) as (A1 & A2 & _). split; [reflexivity|]. split; assumption.
Qed.
Lemma rename_sets_safe can dir vols : refuses_long can -> forall sets fs, (forall s, In s sets -> NoDup (map v_no s) /\ Forall fine s /\ incl s vols) -> NoDup (paths fs) -> short_names fs ->
  exists fs', rename_sets can dir fs sets = Some fs' /\ NoDup (paths fs') /\ short_names fs' /\ moved dir vols fs fs'.
Proof.
  intros R. induction sets as [|s sets IH]; intros fs H N Sh; [exists fs; cbn; auto using moved_refl|]. cbn [rename_sets].
  destruct (H s (or_introl eq_refl)) as (H1 & H2 & H3). destruct (rename_set_safe can dir vols fs s R H1 H2 H3 N Sh) as (f1 & E1 & N1 & S1 & M1). rewrite E1.
  destruct (IH f1 (fun x X => H x (or_intror X)) N1 S1) as (f2 & E2 & N2 & S2 & M2). exists f2. repeat apply conj; auto; try (eapply moved_trans; eassumption); try (destruct M1, M2; eauto).
  all: pose proof (moved_trans _ _ _ _ _ M1 M2) as (Q1 & Q2 & Q3); auto.
Qed.
Lemma rename_files_some can dir vols fs : refuses_long can -> volumes_ok vols -> NoDup (paths fs) -> short_names fs ->
  exists fs', rename_files can dir vols fs = Some fs' /\ NoDup (paths fs') /\ short_names fs' /\ moved dir vols fs fs'.
Proof.
  intros R [Sm L] N Sh. unfold rename_files. destruct (sets_total vols Sm ltac:(lia)) as [sets E]. rewrite E. apply rename_sets_safe; auto.
  intros s I. destruct (sets_sound vols sets Sm ltac:(lia) E s I) as [Hs Hi]. destruct (set_fine vols s (conj Sm L) Hs Hi) as (A & B & _). auto.
Qed.
Theorem rename_files_safe can dir vols fs : refuses_long can -> volumes_ok vols -> NoDup (paths fs) -> short_names fs ->
  exists fs', rename_files can dir vols fs = Some fs' /\ NoDup (paths fs') /\ Permutation (contents fs) (contents fs') /\
    (forall p, In p (paths fs') -> In p (paths fs) \/ exists n, name_in dir p n) /\
    (forall p c, (forall v, In v vols -> v_name v <> p) -> In (p, c) fs -> In (p, c) fs').
Proof.
  intros R V N Sh. destruct (rename_files_some can dir vols fs R V N Sh) as (fs' & E & N' & _ & M1 & M2 & M3). exists fs'. repeat apply conj; auto.
  intros p c H I. apply look_in. rewrite M3; [apply in_look; assumption|exact H|]. apply (in_map fst) in I. exact I.
Qed.

(** ** All directories *)
Lemma check_all_len ign : forall l vols vs, check_all ign vols l = Some vs -> (length vs <= length vols + length l)%nat.
Proof.
  induction l as [|e l IH]; intros vols vs H; cbn [check_all] in H; [injection H as ->; lia|]. destruct (check_one ign vols e) as [v1|] eqn:E; [|discriminate].
  apply IH in H. assert (K : (length v1 <= length vols + 1)%nat).
  { unfold check_one in E. destruct (ign _); [injection E as <-; lia|]. destruct (read_volume _ _) as [[ver i]| | |]; try discriminate; injection E as <-; rewrite ?app_length; cbn; lia. }
  cbn [length]. lia.
Qed.
Lemma bytes_le l : bytes_ok l -> 0 <= le l < 256 ^ Z.of_nat (length l).
Proof.
  induction 1 as [|b l B F IH]; [cbn; lia|]. cbn [le length]. unfold is_byte in B. rewrite Nat2Z.inj_succ, Z.pow_succ_r by lia. lia.
Qed.
Definition no_ok (v : vinfo) : Prop := 0 <= vi_no v < 2 ^ 32.
Lemma num4_ok c s x s' : bytes_ok c -> read_num 4 c s = Ok (x, s') -> 0 <= x < 2 ^ 32.
Proof.
  intros B H. destruct s as [p t]. unfold read_num in H. apply bind_inv in H as (a & [q u] & E & H). apply read_inv in E as (E & _). change (Ok (le a, (q, u)) = Ok (x, s')) in H.
  assert (Ex : x = le a) by congruence. rewrite Ex, E. clear H Ex E a.
  set (l := firstn (Z.to_nat 4) (skipn (Z.to_nat p) c)).
  assert (Bl : bytes_ok l). { apply Forall_forall. intros z Hz. unfold bytes_ok in B. rewrite Forall_forall in B. apply B. rewrite <- (firstn_skipn (Z.to_nat p) c). apply in_or_app. right. rewrite <- (firstn_skipn (Z.to_nat 4)). apply in_or_app. left. exact Hz. }
  pose proof (bytes_le l Bl) as Q. assert (L : (length l <= 4)%nat) by (unfold l; rewrite firstn_length; lia).
  assert (K : 256 ^ Z.of_nat (length l) <= 256 ^ 4) by (apply Z.pow_le_mono_r; lia). change (256 ^ 4) with (2 ^ 32) in K. lia.
Qed.
Lemma step3_no c v s v' e s' : bytes_ok c -> no_ok v -> step3 v c s = Ok ((v', e), s') -> no_ok v'.
Proof.
  intros B V H. unfold step3 in H. apply bind_inv in H as (b & s1 & _ & H). cbv zeta in H.
  destruct (b_type b =? 0); [discriminate|]. destruct (b_type b =? 115).
  { destruct (has _ 128); [discriminate|]. unfold ret in H. injection H as <- _ _. exact V. }
  destruct (b_type b =? 116). { apply bind_inv in H as (f & s2 & _ & H). unfold ret in H. injection H as <- _ _. exact V. }
  destruct (b_type b =? 123).
  { apply bind_inv in H as (x & s2 & _ & H). destruct (has _ 8); [|unfold ret in H; injection H as <- _ _; exact V].
    apply bind_inv in H as (no & s3 & Hn & H). unfold ret in H. injection H as <- _ _. exact (num4_ok _ _ _ _ B Hn). }
  destruct (_ || _); [discriminate|]. unfold ret in H. injection H as <- _ _. exact V.
Qed.
Lemma ret_fst {A B} (a : A * B) c s v e s' : ret a c s = Ok ((v, e), s') -> v = fst a.
Proof. unfold ret. intros H. injection H as -> _. reflexivity. Qed.
Lemma step5_no c v s v' e s' : no_ok v -> step5 v c s = Ok ((v', e), s') -> no_ok v'.
Proof.
  intros V H. unfold step5 in H. apply bind_inv in H as (b & s1 & _ & H). cbv zeta in H.
  destruct (b_type b =? 0); [discriminate|]. destruct (b_type b =? 1).
  { apply bind_inv in H as (a & s2 & _ & H). apply bind_inv in H as (no & s3 & Hn & H).
    assert (K : 0 <= no < 2 ^ 32).
    { destruct (has a 2).
      - apply bind_inv in Hn as (n & s4 & _ & Hn). change (Ok (n mod 2 ^ 32, s4) = Ok (no, s3)) in Hn. assert (E : no = n mod 2 ^ 32) by congruence. rewrite E. apply Z.mod_pos_bound. reflexivity.
      - change (Ok (vi_no v, s2) = Ok (no, s3)) in Hn. assert (E : no = vi_no v) by congruence. rewrite E. exact V. }
    apply ret_fst in H. rewrite H. exact K. }
  destruct (b_type b =? 4). { apply bind_inv in H as (x & s2 & _ & H). destruct (negb _); [discriminate|]. apply bind_inv in H as (y & s3 & _ & H). discriminate. }
  destruct (b_type b =? 2). { apply bind_inv in H as (f & s2 & _ & H). apply ret_fst in H. rewrite H. exact V. }
  destruct (b_type b =? 5). { apply bind_inv in H as (x & s2 & _ & H). apply ret_fst in H. rewrite H. exact V. }
  destruct (_ <? _); [discriminate|]. apply ret_fst in H. rewrite H. exact V.
Qed.
Lemma blocks_no step c : (forall v s v' e s', no_ok v -> step v c s = Ok ((v', e), s') -> no_ok v') -> forall f v p r, no_ok v -> blocks step f v c p = Ok r -> no_ok r.
Proof.
  intros St. induction f as [|f IH]; intros v p r V H; [discriminate|]. cbn [blocks] in H. destruct (step v c (p, 0)) as [[[v' e] [q t]]| | |] eqn:E; try discriminate.
  apply St in E; [|exact V]. destruct e; [injection H as <-; exact E|]. destruct (seek q t); [|discriminate]. exact (IH _ _ _ E H).
Qed.
Lemma read_no f c ver i : bytes_ok c -> read_volume f c = Ok (ver, i) -> no_ok i.
Proof.
  intros B H. unfold read_volume in H. assert (V : no_ok v_empty) by (unfold no_ok; cbn; lia).
  destruct (detect c =? 3).
  - destruct (blocks step3 f v_empty c 0) eqn:E; try discriminate. injection H as _ <-. refine (blocks_no _ _ _ _ _ _ _ V E). intros v s v' e s' Hv Hs. exact (step3_no _ _ _ _ _ _ B Hv Hs).
  - destruct (detect c =? 5); [|discriminate]. destruct (blocks step5 f v_empty c 8) eqn:E; try discriminate. injection H as _ <-. refine (blocks_no _ _ _ _ _ _ _ V E). intros v s v' e s' Hv Hs. exact (step5_no _ _ _ _ _ _ Hv Hs).
Qed.
Lemma check_all_no ign : forall l vols vs, Forall (fun e => bytes_ok (snd e)) l -> Forall (fun v => 0 <= v_no v < 2 ^ 32) vols -> check_all ign vols l = Some vs -> Forall (fun v => 0 <= v_no v < 2 ^ 32) vs.
Proof.
  induction l as [|e l IH]; intros vols vs B V H; cbn [check_all] in H; [injection H as <-; exact V|]. inversion B as [|? ? Be B']; subst. destruct (check_one ign vols e) as [v1|] eqn:E; [|discriminate].
  apply (IH v1 vs B'); [|exact H]. unfold check_one in E. destruct (ign _); [injection E as <-; exact V|]. destruct (read_volume _ _) as [[ver i]| | |] eqn:R; try discriminate; injection E as <-; [|exact V].
  apply Forall_app. split; [exact V|]. constructor; [|constructor]. exact (read_no _ _ _ _ Be R).
Qed.
Lemma contents_bytes fs fs' : Permutation (contents fs) (contents fs') -> Forall (fun e => bytes_ok (snd e)) fs -> Forall (fun e => bytes_ok (snd e)) fs'.
Proof.
  intros P F. rewrite Forall_forall in *. intros e I. apply (in_map snd) in I. apply (Permutation_in _ (Permutation_sym P)) in I. apply in_map_iff in I as (d & E & D). rewrite <- E. exact (F d D).
Qed.

Theorem execute_safe can ign : refuses_long can -> forall dirs vols fs fs',
  Forall (fun v => 0 <= v_no v < 2 ^ 32) vols -> zlen vols + zlen dirs * zlen fs <= 14200 -> NoDup (paths fs) -> short_names fs -> Forall (fun e => bytes_ok (snd e)) fs ->
  execute can ign dirs vols fs = Some fs' ->
  NoDup (paths fs') /\ Permutation (contents fs) (contents fs') /\ (forall p, In p (paths fs') -> In p (paths fs) \/ exists dir n, In dir dirs /\ name_in dir p n).
Proof.
  intros R. induction dirs as [|d dirs IH]; intros vols fs fs' V L N Sh B H; cbn [execute] in H; [injection H as <-; auto|].
  destruct (check_files can ign d vols fs) as [[vs f1]|] eqn:E; [|discriminate]. unfold check_files in E.
  destruct (check_all ign vols (filter (fun e => in_dir d (fst e)) fs)) as [vs'|] eqn:C; [|discriminate].
  assert (Bf : Forall (fun e => bytes_ok (snd e)) (filter (fun e => in_dir d (fst e)) fs)). { apply Forall_forall. intros x X. apply filter_In in X as [X _]. rewrite Forall_forall in B. exact (B x X). }
  pose proof (check_all_no _ _ _ _ Bf V C) as V'. pose proof (check_all_len _ _ _ _ C) as L'.
  assert (Lf : (length (filter (fun e => in_dir d (fst e)) fs) <= length fs)%nat). { clear. induction fs as [|e fs IH]; [reflexivity|]. cbn [filter]. destruct (in_dir _ _); cbn [length]; lia. }
  assert (Lv : zlen vs' + zlen dirs * zlen fs <= 14200). { unfold zlen in *. cbn [length] in L. rewrite Nat2Z.inj_succ in L. assert (0 <= Z.of_nat (length fs)) by lia. assert (0 <= Z.of_nat (length dirs)) by lia. nia. }
  assert (G : NoDup (paths f1) /\ short_names f1 /\ moved d vs' fs f1 /\ vs = vs').
  { destruct vs' as [|v0 vr]; [injection E as <- <-; auto using moved_refl|].
    assert (Q : volumes_ok (v0 :: vr)). { split; [exact V'|]. assert (0 <= zlen dirs * zlen fs) by (unfold zlen; lia). lia. }
    destruct (rename_files_some can d (v0 :: vr) fs R Q N Sh) as (f' & E' & A1 & A2 & A3). rewrite E' in E. injection E as <- <-. auto. }
  destruct G as (N1 & S1 & (P1 & M2 & _) & ->).
  assert (Lc : zlen f1 = zlen fs). { apply Permutation_length in P1. unfold contents in P1. rewrite !map_length in P1. unfold zlen. lia. }
  assert (Lv1 : zlen vs' + zlen dirs * zlen f1 <= 14200) by (rewrite Lc; exact Lv).
  destruct (IH vs' f1 fs' V' Lv1 N1 S1 (contents_bytes _ _ P1 B) H) as (I1 & I2 & I3). repeat apply conj; [exact I1|rewrite P1; exact I2|].
  intros p I. destruct (I3 p I) as [I0|(dir & n & D & Nm)]; [|right; exists dir, n; auto using in_cons]. destruct (M2 p I0) as [?|[n Nm]]; [left; assumption|right; exists d, n; auto using in_eq].
Qed.
