(** Passwords of a whole document; names which are told apart at once. *)
From Coq Require Import String.
From Verif Require Import Base WildModel NzbModel NzbSpec NzbProofs NzbProofs2 NzbProofs4 NzbProofs5.
Open Scope list_scope. Open Scope Z_scope.

Lemma step_nopw p e q : ev_step p e = Some q -> ~ password_start e -> p_haspw p = false /\ p_pw p = None -> p_haspw q = false /\ p_pw q = None.
Proof.
  intros E N [H1 H2]. destruct e as [n a|n|s]; cbn [ev_step] in E.
  - injection E as <-. unfold start_element. cbv zeta. cbn [p_files p_cur p_art p_text p_pw p_haspw p_next].
    destruct (beqb n (str "file")); [auto|]. destruct (beqb n (str "segment")).
    + destruct (p_cur p); [|auto]. destruct a; [|auto]. destruct (0 <? _); auto.
    + destruct (beqb n (str "meta")) eqn:M; [|auto]. destruct a as [a|]; [|auto]. cbn [p_haspw p_pw]. split; [|exact H2].
      destruct a as [|[k v] a]; [reflexivity|]. destruct (beqb k (str "type") && beqb v (str "password")) eqn:B; [|reflexivity]. exfalso. apply N.
      apply andb_true_iff in B as [B1 B2]. apply beqb_eq in B1. apply beqb_eq in B2. apply beqb_eq in M. subst. exists a. reflexivity.
  - unfold end_element in E. rewrite H1, andb_false_r in E. destruct (beqb n (str "file")).
    + destruct (p_cur p); [|discriminate]. injection E as <-. auto.
    + destruct (beqb n (str "group")); [destruct (p_cur p); injection E as <-; auto|]. destruct (beqb n (str "segment")); [|injection E as <-; auto].
      destruct (p_cur p); [|injection E as <-; auto]. destruct (p_art p); try (injection E as <-; auto); [|discriminate].
      destruct (p_text p); [|discriminate]. injection E as <-. auto.
  - injection E as <-. unfold characters. destruct (WildModel.trim s); auto.
Qed.
Lemma run_nopw es : forall p q, ev_run p es = Some q -> (forall e, In e es -> ~ password_start e) -> p_haspw p = false /\ p_pw p = None -> p_pw q = None.
Proof.
  induction es as [|e r IH]; intros p q E N H; cbn [ev_run] in E; [injection E as <-; exact (proj2 H)|].
  destruct (ev_step p e) as [p'|] eqn:S1; [|discriminate]. apply (IH p' q E); [intros x I; apply N; right; exact I|].
  exact (step_nopw p e p' S1 (N e (or_introl eq_refl)) H).
Qed.

Lemma step_pw p e q : ev_step p e = Some q -> p_pw p <> None -> p_pw q <> None.
Proof.
  intros E H2. destruct e as [n a|n|s]; cbn [ev_step] in E.
  - injection E as <-. unfold start_element. cbv zeta. cbn [p_files p_cur p_art p_text p_pw p_haspw p_next].
    destruct (beqb n (str "file")); [exact H2|]. destruct (beqb n (str "segment")).
    + destruct (p_cur p); [|exact H2]. destruct a; [|exact H2]. destruct (0 <? _); exact H2.
    + destruct (beqb n (str "meta")); [|exact H2]. destruct a as [a|]; exact H2.
  - unfold end_element in E. destruct (beqb n (str "file")).
    + destruct (p_cur p); [|discriminate]. injection E as <-. exact H2.
    + destruct (beqb n (str "group")); [destruct (p_cur p); injection E as <-; exact H2|]. destruct (beqb n (str "segment")).
      * destruct (p_cur p); [|injection E as <-; exact H2]. destruct (p_art p); try (injection E as <-; exact H2); [|discriminate].
        destruct (p_text p); [|discriminate]. injection E as <-. exact H2.
      * destruct (beqb n (str "meta") && p_haspw p); injection E as <-; [discriminate|exact H2].
  - injection E as <-. unfold characters. destruct (WildModel.trim s); exact H2.
Qed.
Lemma run_pw es : forall p q, ev_run p es = Some q -> p_pw p <> None -> p_pw q <> None.
Proof.
  induction es as [|e r IH]; intros p q E H; cbn [ev_run] in E; [injection E as <-; exact H|].
  destruct (ev_step p e) as [p'|] eqn:S1; [|discriminate]. apply (IH p' q E). exact (step_pw p e p' S1 H).
Qed.
Lemma texts_haspw ts : forall p, exists q, ev_run p (map EText ts) = Some q /\ p_haspw q = p_haspw p.
Proof.
  induction ts as [|t ts IH]; intros p; [exists p; auto|]. cbn [map ev_run ev_step]. destruct (IH (characters t p)) as (q & E & H). exists q. split; [exact E|].
  rewrite H. unfold characters. destruct (WildModel.trim t); reflexivity.
Qed.
Lemma run_app a b : forall p, ev_run p (a ++ b) = match ev_run p a with Some q => ev_run q b | None => None end.
Proof. induction a as [|e a IH]; intros p; [reflexivity|]. cbn [app ev_run]. destruct (ev_step p e); [apply IH|reflexivity]. Qed.

Lemma element_pw e texts : password_start e -> forall p, exists q, ev_run p (e :: map EText texts ++ [EEnd (str "meta")]) = Some q /\ p_pw q <> None.
Proof.
  intros (r & ->) p. cbn [ev_run ev_step]. remember (start_element (str "meta") (Some ((str "type", str "password") :: r)) p) as p1 eqn:E1.
  assert (H1 : p_haspw p1 = true) by (subst p1; reflexivity). clear E1. rewrite run_app. destruct (texts_haspw texts p1) as (q & -> & H).
  cbn [ev_run ev_step]. unfold end_element. change (beqb (str "meta") (str "file")) with false. change (beqb (str "meta") (str "group")) with false.
  change (beqb (str "meta") (str "segment")) with false. change (beqb (str "meta") (str "meta")) with true. rewrite H, H1. cbn [andb].
  eexists. split; [reflexivity|]. discriminate.
Qed.

Theorem no_password ignore id file es ok d : parse_nzb ignore id file es ok = Some (Some d) -> (forall e, In e es -> ~ password_start e) -> dl_pw d = None.
Proof.
  intros H N. unfold parse_nzb in H. destruct (ev_run (np0 id) es) as [p|] eqn:R; [|discriminate].
  assert (P : p_pw p = None) by (apply (run_nopw es (np0 id) p R N); split; reflexivity). rewrite P in H.
  destruct (p_files p); [discriminate|]. destruct ok; [|discriminate]. cbn [negb] in H. destruct (build_names _) as [[names many]|]; [|discriminate].
  cbv zeta in H. destruct (calc_hashes _ _) as [[h1 h2]|]; [|discriminate]. injection H as <-. reflexivity.
Qed.

Theorem password_taken ignore id file es ok d e texts before after w : parse_nzb ignore id file es ok = Some (Some d) ->
  password_start e -> es = before ++ (e :: map EText texts ++ [EEnd (str "meta")]) ++ after -> read_password file = Some (Some w) -> dl_pw d = Some w.
Proof.
  intros H Pe -> Rw. unfold parse_nzb in H. destruct (ev_run (np0 id) _) as [p|] eqn:R; [|discriminate].
  assert (P : p_pw p <> None).
  { rewrite run_app in R. destruct (ev_run (np0 id) before) as [p1|]; [|discriminate]. rewrite run_app in R. destruct (element_pw e texts Pe p1) as (q & E & Q).
    rewrite E in R. exact (run_pw _ _ _ R Q). }
  rewrite Rw in H. destruct (p_pw p) as [v|]; [|contradiction].
  destruct (p_files p); [discriminate|]. destruct ok; [|discriminate]. cbn [negb] in H. destruct (build_names _) as [[names many]|]; [|discriminate].
  cbv zeta in H. destruct (calc_hashes _ _) as [[h1 h2]|]; [|discriminate]. injection H as <-. reflexivity.
Qed.

Theorem names_at_once subjects names : Forall2 (fun n s => parse_subject true s = Some n) names subjects ->
  (forall i j n s1 s2, nth_error names i = Some n -> nth_error names j = Some n -> nth_error subjects i = Some s1 -> nth_error subjects j = Some s2 -> s1 = s2) ->
  build_names subjects = Some (names, false).
Proof.
  intros F D. unfold build_names.
  assert (E : all_some (map (parse_subject true) subjects) = Some names) by (apply all_some_ok; induction F as [|n s names subjects E F IH]; [reflexivity|]; cbn [map]; rewrite E; f_equal; apply IH;
    intros i j m s1 s2 N1 N2 S1 S2; exact (D (S i) (S j) m s1 s2 N1 N2 S1 S2)).
  rewrite E. assert (Q : dupe_names (combine names subjects) = false).
  { unfold dupe_names. generalize (length (combine names subjects) =? 2)%nat. intros two. clear E. revert D. induction F as [|n s names subjects E F IH]; intros D; [reflexivity|].
    cbn [combine dupe_names_go]. rewrite IH by (intros i j m s1 s2 N1 N2 S1 S2; exact (D (S i) (S j) m s1 s2 N1 N2 S1 S2)).
    assert (T : twins (n, s) (combine names subjects) = 0%nat).
    { unfold twins. cbn [fst snd]. replace (filter _ (combine names subjects)) with (@nil named); [reflexivity|]. symmetry.
      assert (L := forall2_len _ _ _ F). clear - D L.
      assert (G : forall y, In y (combine names subjects) -> beqb n (fst y) && negb (beqb s (snd y)) = false).
      { intros [m u] I. cbn [fst snd]. destruct (beqb n m) eqn:B; [|reflexivity]. apply beqb_eq in B. subst m. apply In_nth_error in I as (j & I).
        assert (J : nth_error names j = Some n /\ nth_error subjects j = Some u).
        { clear - I. revert subjects j I. induction names as [|a l IH]; intros [|b r] [|j] I; cbn [combine nth_error] in *; try discriminate; [injection I as -> ->; auto|exact (IH _ _ I)]. }
        destruct J as [J1 J2]. rewrite (D 0%nat (S j) n s u eq_refl J1 eq_refl J2). rewrite beqb_refl. reflexivity. }
      clear - G. induction (combine names subjects) as [|y l IH]; [reflexivity|]. cbn [filter]. rewrite (G y (or_introl eq_refl)). apply IH. intros z I. apply G. right. exact I. }
    rewrite T. reflexivity. }
  rewrite Q, Q. reflexivity.
Qed.
