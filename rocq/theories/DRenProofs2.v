(** Proofs: new names and the disk (C150). *)
From Coq Require Import String Permutation.
From Verif Require Import Base NumFmt NameModel NameProofs WildModel RarModel RarSetModel RarSetSpec RarSetProofs3 ParModel ParRenModel ParRenSpec ParRenProofs ParRenProofs3 ParRenProofs4 DRenModel DRenSpec.
Open Scope list_scope. Open Scope Z_scope.

(** ** Names *)

Lemma first_with_says h : forall hs m, first_with h hs = Some m <-> DRenSpec.says hs h m.
Proof.
  induction hs as [|[n g] hs IH]; intros m.
  - split; [discriminate|]. intros (i & r & E & _). destruct i; discriminate E.
  - cbn [first_with]. destruct (beqb g h) eqn:B.
    + apply beqb_eq in B as ->. split.
      * intros H. injection H as ->. exists [], hs. split; [reflexivity|intros []].
      * intros (i & r & E & N). destruct i as [|x i]; [injection E as -> _; reflexivity|]. injection E as <- _. exfalso. apply N. left. reflexivity.
    + rewrite IH. split.
      * intros (i & r & -> & N). exists ((n, g) :: i), r. split; [reflexivity|]. cbn [map snd]. intros [Q|Q]; [|exact (N Q)]. subst g. rewrite beqb_refl in B. discriminate B.
      * intros (i & r & E & N). destruct i as [|x i]; [injection E as _ -> _; rewrite beqb_refl in B; discriminate B|]. injection E as <- ->.
        exists i, r. split; [reflexivity|]. intros Q. apply N. right. exact Q.
Qed.
Lemma nil_iff {A} (l : list A) : is_nil l = true <-> l = [].
Proof. destruct l; split; try discriminate; auto. Qed.
Lemma regular_wants hs f m : f_par f = false -> regular_name hs (f_name f) (f_hash f) = Some m <-> wants hs f m.
Proof.
  intros P. unfold regular_name, wants, caseless. destruct (is_nil (f_hash f)) eqn:E.
  - apply nil_iff in E. split; [discriminate|]. intros (_ & H & _). contradiction.
  - assert (Ne : f_hash f <> []) by (intros H; apply nil_iff in H; congruence).
    destruct (first_with (f_hash f) hs) as [n|] eqn:F.
    + destruct (beqb (map lower (f_name f)) (map lower n)) eqn:B.
      * apply beqb_eq in B. split; [discriminate|]. intros (_ & _ & Q & N). apply first_with_says in Q. rewrite F in Q. injection Q as ->. contradiction.
      * split.
        -- intros H. injection H as ->. apply first_with_says in F. split; [exact P|]. split; [exact Ne|]. split; [exact F|]. intros K. rewrite K, beqb_refl in B. discriminate B.
        -- intros (_ & _ & Q & _). apply first_with_says in Q. congruence.
    + split; [discriminate|]. intros (_ & _ & Q & _). apply first_with_says in Q. congruence.
Qed.
Lemma regular_none hs f : f_par f = false -> regular_name hs (f_name f) (f_hash f) = None -> forall m, ~ wants hs f m.
Proof. intros P E m W. apply (regular_wants hs f m P) in W. congruence. Qed.

Lemma numbered_free f fs dir set : forall k p, free_vol f fs dir set k = Some p -> exists j, numbered f fs dir set k = Some (vol_name set j, j + 1) /\ p = at_dir dir (vol_name set j).
Proof.
  induction f as [|f IH]; intros k p H; [discriminate|]. cbn [free_vol numbered] in *. destruct (is_there fs (at_dir dir (vol_name set k))); [exact (IH _ _ H)|].
  injection H as <-. exists k. split; reflexivity.
Qed.
Lemma numbered_ok fs dir set k : 0 <= k -> exists j, numbered (S (length fs)) fs dir set k = Some (vol_name set j, j + 1) /\ k <= j /\ ~ In (at_dir dir (vol_name set j)) (paths fs).
Proof.
  intros K. destruct (free_vol (S (length fs)) fs dir set k) as [p|] eqn:E.
  - destruct (numbered_free _ _ _ _ _ _ E) as (j & N & ->). destruct (free_vol_some _ _ _ _ _ _ E) as (i & Hi & Ei & Fr & _).
    exists j. split; [exact N|]. split; [|exact Fr]. 
    assert (M : forall g k0 n v, numbered g fs dir set k0 = Some (n, v) -> k0 + 1 <= v).
    { induction g as [|g IH]; intros k0 n v Q; [discriminate|]. cbn [numbered] in Q. destruct (is_there fs _); [apply IH in Q; lia|]. injection Q as _ <-. lia. }
    apply M in N. lia.
  - exfalso. pose proof (free_vol_none _ _ _ _ _ E) as B.
    assert (Q : (S (length fs) <= length (paths fs))%nat).
    { apply (pigeon (paths fs) (fun j p => p = at_dir dir (vol_name set (k + j - 1)))).
      - intros i j p Hi Hj -> E2. apply at_dir_inj in E2. apply vol_name_inj in E2; lia.
      - intros j J. exists (at_dir dir (vol_name set (k + j - 1))). split; [apply B; lia|reflexivity]. }
    unfold paths in Q. rewrite map_length in Q. lia.
Qed.

Lemma strstr_first p : forall s x, strstr s p = Some x -> exists a y, s = a ++ p ++ y /\ x = p ++ y /\ forall u v, s = u ++ p ++ v -> (length a <= length u)%nat.
Proof.
  induction s as [|c s IH]; intros x H.
  - cbn [strstr] in H. destruct p; cbn in H; [|discriminate]. injection H as <-. exists [], []. repeat split. intros. apply Nat.le_0_l.
  - cbn [strstr] in H. destruct (prefixb p (c :: s)) eqn:E.
    + injection H as <-. apply prefixb_iff in E as (y & ->). exists [], y. repeat split. intros. apply Nat.le_0_l.
    + destruct (IH _ H) as (a & y & -> & -> & M). exists (c :: a), y. split; [reflexivity|]. split; [reflexivity|]. intros [|d u] v Q.
      * exfalso. cbn [app] in Q. rewrite Q in E. assert (prefixb p (p ++ v) = true) by (apply prefixb_iff; exists v; reflexivity). congruence.
      * injection Q as _ Q. apply M in Q. cbn [length]. lia.
Qed.

Lemma reused_ok f n : reused (f_set f) (f_name f) = Some n -> par_new f n.
Proof.
  unfold reused. destruct (strstr (f_name f) (str ".vol")) as [suf|] eqn:E; [|discriminate]. destruct (strrchr dot suf) as [[q e]|] eqn:R; [|discriminate].
  destruct (beqb (map lower e) (str ".par2")) eqn:B; [|discriminate]. apply beqb_eq in B. intros H. injection H as <-.
  destruct (strstr_first _ _ _ E) as (a & y & Ea & Es & M). apply strrchr_some in R as (Er & r & Eb & Nd).
  assert (K : exists b, suf = str ".vol" ++ b ++ e /\ y = b ++ e).
  { rewrite Es in *. clear Es. change (str ".vol") with [46; 118; 111; 108] in *. destruct q as [|q1 [|q2 [|q3 [|q4 q]]]]; cbn [app] in Er.
    - exfalso. rewrite <- Er in B. cbn [map] in B. apply (f_equal (fun l => nth 1 l 0)) in B. cbn [nth] in B. vm_compute in B. discriminate B.
    - exfalso. rewrite Eb in Er. injection Er as _ Q _. discriminate Q.
    - exfalso. rewrite Eb in Er. injection Er as _ _ Q _. discriminate Q.
    - exfalso. rewrite Eb in Er. injection Er as _ _ _ Q _. discriminate Q.
    - injection Er as <- <- <- <- ->. exists q. split; reflexivity. }
  destruct K as (b & Eq & Ey). left. exists a, b, e. subst y. rewrite Ea in *. split; [reflexivity|]. split; [exact M|]. split; [exact B|]. rewrite Eq. reflexivity.
Qed.
Lemma par_name_ok fs dir f k : 1 <= k -> exists n v, par_name fs dir (f_set f) (f_name f) k = Some (n, v) /\ k <= v /\ ~ In (at_dir dir n) (paths fs) /\ par_new f n.
Proof.
  intros K. unfold par_name. assert (N : exists n v, numbered (S (length fs)) fs dir (f_set f) k = Some (n, v) /\ k <= v /\ ~ In (at_dir dir n) (paths fs) /\ par_new f n).
  { destruct (numbered_ok fs dir (f_set f) k ltac:(lia)) as (j & E & J & Fr). eexists _, _. split; [exact E|]. split; [lia|]. split; [exact Fr|].
    right. exists j, (pad 3 j). split; [lia|]. split; [apply three_pad; lia|reflexivity]. }
  destruct (reused (f_set f) (f_name f)) as [n|] eqn:R; [|exact N]. destruct (is_there fs (at_dir dir n)) eqn:E; [exact N|].
  exists n, k. split; [reflexivity|]. split; [lia|]. split; [intros Q; apply is_there_iff in Q; congruence|]. apply reused_ok, R.
Qed.
Lemma par_new_ends f n : par_new f n -> ends_par2 n.
Proof.
  intros [(a & b & e & _ & _ & C & ->)|(k & d & _ & _ & ->)].
  - exists (f_set f ++ str ".vol" ++ b), e. split; [rewrite <- !app_assoc; reflexivity|exact C].
  - exists (f_set f ++ str ".vol" ++ d ++ str "+01"), (str ".PAR2"). split; [rewrite <- !app_assoc; reflexivity|reflexivity].
Qed.

(** ** One file *)

Lemma named_ok f n : has_name f n (named f n) /\ same_else f (named f n).
Proof. unfold has_name, same_else, named. cbn. split; [|repeat split]. split; [reflexivity|]. split; [destruct (f_orig f); reflexivity|]. intros ->. reflexivity. Qed.
Lemma same_else_refl f : same_else f f. Proof. repeat split. Qed.

Lemma one_ok can dir pars hs f s : 1 <= s_vol s -> exists f' s', rename_dfile can dir pars hs f s = Some (f', s') /\ s_vol s <= s_vol s' /\ same_else f f' /\
  ((f' = f /\ s_fs s' = s_fs s /\ s_count s' = s_count s /\ (forall n, new_of pars hs f n -> on_disk f = true /\
       (~ In (at_dir dir (f_name f)) (paths (s_fs s)) \/ exists b, can (at_dir dir (f_name f)) b = false))) \/
   (exists n, new_of pars hs f n /\ has_name f n f' /\ (f_par f = true -> ~ In (at_dir dir n) (paths (s_fs s))) /\ s_count s' = s_count s + 1 /\
      ((on_disk f = false /\ s_fs s' = s_fs s) \/
       (on_disk f = true /\ In (at_dir dir (f_name f)) (paths (s_fs s)) /\ can (at_dir dir (f_name f)) (at_dir dir n) = true /\
        s_fs s' = rename_file can (s_fs s) (at_dir dir (f_name f)) (at_dir dir n))))).
Proof.
  intros V.
  assert (Go : forall n vol, s_vol s <= vol -> new_of pars hs f n -> (f_par f = true -> ~ In (at_dir dir n) (paths (s_fs s))) ->
    exists f' s', (if on_disk f then
      let a := at_dir dir (f_name f) in
      let b := at_dir dir n in
      if is_there (s_fs s) a && can a b then Some (named f n, Rst (rename_file can (s_fs s) a b) vol (s_count s + 1))
      else Some (f, Rst (s_fs s) vol (s_count s))
    else Some (named f n, Rst (s_fs s) vol (s_count s + 1))) = Some (f', s') /\ s_vol s <= s_vol s' /\ same_else f f' /\
    ((f' = f /\ s_fs s' = s_fs s /\ s_count s' = s_count s /\ (forall m, new_of pars hs f m -> on_disk f = true /\
       (~ In (at_dir dir (f_name f)) (paths (s_fs s)) \/ exists b, can (at_dir dir (f_name f)) b = false))) \/
     (exists n, new_of pars hs f n /\ has_name f n f' /\ (f_par f = true -> ~ In (at_dir dir n) (paths (s_fs s))) /\ s_count s' = s_count s + 1 /\
      ((on_disk f = false /\ s_fs s' = s_fs s) \/
       (on_disk f = true /\ In (at_dir dir (f_name f)) (paths (s_fs s)) /\ can (at_dir dir (f_name f)) (at_dir dir n) = true /\
        s_fs s' = rename_file can (s_fs s) (at_dir dir (f_name f)) (at_dir dir n)))))).
  { intros n vol Vv Nw Fr. destruct (named_ok f n) as (Hn & He). destruct (on_disk f) eqn:D; cbv zeta.
    - destruct (is_there (s_fs s) (at_dir dir (f_name f))) eqn:T; cbn [andb].
      + destruct (can (at_dir dir (f_name f)) (at_dir dir n)) eqn:C.
        * eexists _, _. split; [reflexivity|]. cbn [s_vol s_fs s_count]. split; [exact Vv|]. split; [exact He|]. right. exists n.
          split; [exact Nw|]. split; [exact Hn|]. split; [exact Fr|]. split; [reflexivity|]. right. apply is_there_iff in T. auto.
        * eexists _, _. split; [reflexivity|]. cbn [s_vol s_fs s_count]. split; [exact Vv|]. split; [apply same_else_refl|]. left.
          split; [reflexivity|]. split; [reflexivity|]. split; [reflexivity|]. intros m _. split; [reflexivity|]. right. eauto.
      + eexists _, _. split; [reflexivity|]. cbn [s_vol s_fs s_count]. split; [exact Vv|]. split; [apply same_else_refl|]. left.
        split; [reflexivity|]. split; [reflexivity|]. split; [reflexivity|]. intros m _. split; [reflexivity|]. left. intros Q. apply is_there_iff in Q. congruence.
    - eexists _, _. split; [reflexivity|]. cbn [s_vol s_fs s_count]. split; [exact Vv|]. split; [exact He|]. right. exists n. auto 8. }
  unfold rename_dfile. unfold new_of in *. destruct (f_par f) eqn:P.
  - destruct pars.
    + destruct (par_name_ok (s_fs s) dir f (s_vol s) V) as (n & v & -> & Vv & Fr & Pn). apply (Go n v Vv); auto.
    + eexists _, _. split; [reflexivity|]. split; [lia|]. split; [apply same_else_refl|]. left. repeat (split; [reflexivity|]). intros n (Q & _). discriminate Q.
  - destruct (regular_name hs (f_name f) (f_hash f)) as [n|] eqn:R.
    + apply (regular_wants _ _ _ P) in R. apply (Go n (s_vol s)); [lia|exact R|discriminate].
    + eexists _, _. split; [reflexivity|]. split; [lia|]. split; [apply same_else_refl|]. left. repeat (split; [reflexivity|]). intros n W. exfalso. exact (regular_none _ _ P R _ W).
Qed.
