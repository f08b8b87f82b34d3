(** Proofs about old options, scripts and categories. *)
From Coq Require Import String.
From Verif Require Import Base NumFmt LineModel WildSpec WildModel WildProofs TextProofs WebModel WebSpec WebProofs OptModel OptSpec OptProofs OptProofs2 OptProofs3.
Open Scope list_scope. Open Scope Z_scope.

(** ** Names *)

Lemma renamed_no a b n v : nocase_eq n (str a) = false -> renamed a b (n, v) = (n, v).
Proof. unfold renamed. cbn [fst snd]. intros ->. reflexivity. Qed.
Lemma renamed_yes a b n v : nocase_eq n (str a) = true -> renamed a b (n, v) = (str b, v).
Proof. unfold renamed. cbn [fst snd]. intros ->. reflexivity. Qed.
Lemma revalued_no a b c n v : nocase_eq n (str a) && nocase_eq v (str b) = false -> revalued a b c (n, v) = (n, v).
Proof. unfold revalued. cbn [fst snd]. intros ->. reflexivity. Qed.
Lemma revalued_yes a b c n v : nocase_eq n (str a) = true -> nocase_eq v (str b) = true -> revalued a b c (n, v) = (n, str c).
Proof. unfold revalued. cbn [fst snd]. intros -> ->. reflexivity. Qed.
Lemma category_no n v : nocase_prefix (str "Category") n && (nocase_end n (str ".DefScript") || nocase_end n (str ".PostScript")) = false -> old_category (n, v) = (n, v).
Proof. unfold old_category. cbn [fst snd]. intros ->. reflexivity. Qed.
Lemma feed_no n v : nocase_prefix (str "Feed") n && nocase_end n (str ".FeedScript") = false -> old_feed (n, v) = (n, v).
Proof. unfold old_feed. cbn [fst snd]. intros ->. reflexivity. Qed.
Lemma buffer_no n v : nocase_eq n (str "WriteBufferSize") = false -> old_buffer (n, v) = (n, v).
Proof. unfold old_buffer. cbn [fst snd]. intros ->. reflexivity. Qed.
Lemma decode_no n v : nocase_eq n (str "Decode") = false -> old_decode (n, v) = (n, v).
Proof. unfold old_decode. cbn [fst snd]. intros ->. reflexivity. Qed.
Lemma convert_steps o : convert_old o = renamed "LogBufferSize" "LogBuffer" (old_decode (renamed "DumpCore" "CrashDump" (renamed "RetryInterval" "ArticleInterval"
  (renamed "Retries" "ArticleRetries" (renamed "ConnectionTimeout" "ArticleTimeout" (old_buffer (old_feed (old_category (renamed "PostScript" "Extensions"
  (renamed "DefScript" "Extensions" (revalued "ParScan" "auto" "extended" (revalued "ParCheck" "no" "auto" (revalued "ParCheck" "yes" "always"
  (renamed "PostPauseQueue" "ScriptPauseQueue" (renamed "ServerPassword" "ControlPassword" (renamed "ServerPort" "ControlPort" (renamed "ServerIP" "ControlIP"
  (renamed "$MAINDIR" "MainDir" o)))))))))))))))))).
Proof. unfold convert_old. cbv zeta. reflexivity. Qed.

Ltac no_steps n v side := repeat first [rewrite (renamed_no _ _ n v) by side | rewrite (revalued_no _ _ _ n v) by side | rewrite (category_no n v) by side |
  rewrite (feed_no n v) by side | rewrite (buffer_no n v) by side | rewrite (decode_no n v) by side].

Lemma end_cong n m e : same n m -> nocase_end n e = nocase_end m e.
Proof.
  intros H. unfold nocase_end, nocase_eq. rewrite (same_length n m H). f_equal. f_equal. change lower with lc. rewrite <- !skipn_map. rewrite H. reflexivity.
Qed.
Lemma prefix_cong n m p : same n m -> nocase_prefix p n = nocase_prefix p m.
Proof. intros H. unfold nocase_prefix. change lower with lc. rewrite H. reflexivity. Qed.

Lemma rename_one o w n v : In (o, w) old_names -> same n (str o) -> convert_old (n, v) = (str w, v).
Proof.
  intros H E. rewrite convert_steps.
  assert (NC : forall x, nocase_eq n x = nocase_eq (str o) x) by (intros x; apply nocase_cong; [exact E|reflexivity]).
  assert (NP : forall x, nocase_prefix x n = nocase_prefix x (str o)) by (intros x; apply prefix_cong, E).
  assert (NE : forall x, nocase_end n x = nocase_end (str o) x) by (intros x; apply end_cong, E).
  unfold old_names in H. cbn [In] in H.
  repeat (destruct H as [H|H]; [injection H as <- <-; no_steps n v ltac:(rewrite ?NC, ?NP, ?NE; reflexivity);
    rewrite (renamed_yes _ _ n v) by (rewrite NC; reflexivity); reflexivity|]). destruct H.
Qed.
Lemma revalue_one m o w n v : In (m, o, w) old_values -> same n (str m) -> same v (str o) -> convert_old (n, v) = (n, str w).
Proof.
  intros H E F. rewrite convert_steps.
  assert (NC : forall x, nocase_eq n x = nocase_eq (str m) x) by (intros x; apply nocase_cong; [exact E|reflexivity]).
  assert (VC : forall x, nocase_eq v x = nocase_eq (str o) x) by (intros x; apply nocase_cong; [exact F|reflexivity]).
  assert (NP : forall x, nocase_prefix x n = nocase_prefix x (str m)) by (intros x; apply prefix_cong, E).
  assert (NE : forall x, nocase_end n x = nocase_end (str m) x) by (intros x; apply end_cong, E).
  unfold old_values in H. cbn [In] in H.
  repeat (destruct H as [H|H]; [injection H as <- <- <-; no_steps n v ltac:(rewrite ?NC, ?VC, ?NP, ?NE; reflexivity);
    rewrite (revalued_yes _ _ _ n v) by (rewrite ?NC, ?VC; reflexivity);
    match goal with |- context [(n, str ?x)] => no_steps n (str x) ltac:(rewrite ?NC, ?NP, ?NE; reflexivity) end; reflexivity|]). destruct H.
Qed.
Lemma decode_one n v : same n (str "Decode") -> convert_old (n, v) = (str "RawArticle", if sameb v (str "no") then str "yes" else str "no").
Proof.
  intros E. rewrite convert_steps.
  assert (NC : forall x, nocase_eq n x = nocase_eq (str "Decode") x) by (intros x; apply nocase_cong; [exact E|reflexivity]).
  assert (NP : forall x, nocase_prefix x n = nocase_prefix x (str "Decode")) by (intros x; apply prefix_cong, E).
  assert (NE : forall x, nocase_end n x = nocase_end (str "Decode") x) by (intros x; apply end_cong, E).
  no_steps n v ltac:(rewrite ?NC, ?NP, ?NE; reflexivity). unfold old_decode. cbn [fst snd]. rewrite NC.
  change (nocase_eq (str "Decode") (str "Decode")) with true. cbv iota. reflexivity.
Qed.
Lemma buffer_one n v x : same n (str "WriteBufferSize") -> numeral 10 v x -> int32 x ->
  convert_old (n, v) = (str "WriteBuffer", zdec (if x =? -1 then 1024 else Z.quot x 1024)).
Proof.
  intros E N I32. rewrite convert_steps.
  assert (NC : forall x, nocase_eq n x = nocase_eq (str "WriteBufferSize") x) by (intros y; apply nocase_cong; [exact E|reflexivity]).
  assert (NP : forall x, nocase_prefix x n = nocase_prefix x (str "WriteBufferSize")) by (intros y; apply prefix_cong, E).
  assert (NE : forall x, nocase_end n x = nocase_end (str "WriteBufferSize") x) by (intros y; apply end_cong, E).
  no_steps n v ltac:(rewrite ?NC, ?NP, ?NE; reflexivity). unfold old_buffer. cbn [fst snd]. rewrite NC.
  change (nocase_eq (str "WriteBufferSize") (str "WriteBufferSize")) with true. cbv iota zeta.
  rewrite (strtol_numeral 10 v x ltac:(lia) N). cbn [fst]. rewrite clamp_i32 by exact I32. reflexivity.
Qed.
Lemma modern_same n v : modern n v -> convert_old (n, v) = (n, v).
Proof.
  intros (H1 & H2 & H3 & H4). rewrite convert_steps.
  assert (A : forall o w, In (o, w) old_names -> nocase_eq n (str o) = false) by (intros o w H; apply nocase_diff; apply (H1 o w H)).
  assert (B : forall m o w, In (m, o, w) old_values -> nocase_eq n (str m) && nocase_eq v (str o) = false).
  { intros m o w H. specialize (H2 m o w H). destruct (nocase_eq n (str m)) eqn:Q1; [|reflexivity]. destruct (nocase_eq v (str o)) eqn:Q2; [|reflexivity].
    exfalso. apply H2. split; apply nocase_same; assumption. }
  assert (C : forall p e w, In (p, e, w) old_ends -> nocase_prefix (str p) n && nocase_end n (str e) = false).
  { intros p e w H. specialize (H3 p e w H). destruct (nocase_prefix (str p) n) eqn:Q1; [|reflexivity]. destruct (nocase_end n (str e)) eqn:Q2; [|reflexivity].
    exfalso. apply H3. split; [apply prefix_same, Q1|]. unfold nocase_end in Q2. apply andb_true_iff in Q2 as (_ & Q2). apply nocase_same in Q2.
    exists (firstn (length n - length (str e)) n), (skipn (length n - length (str e)) n). split; [symmetry; apply firstn_skipn|exact Q2]. }
  assert (D : forall x, In x old_others -> nocase_eq n (str x) = false) by (intros x H; apply nocase_diff; apply (H4 x H)).
  repeat rewrite (renamed_no _ _ n v) by (eapply A; unfold old_names; cbn [In]; tauto).
  repeat rewrite (revalued_no _ _ _ n v) by (eapply B; unfold old_values; cbn [In]; tauto).
  repeat rewrite (renamed_no _ _ n v) by (eapply A; unfold old_names; cbn [In]; tauto).
  rewrite (category_no n v).
  2: { rewrite andb_orb_distrib_r. apply orb_false_iff. split; eapply C; unfold old_ends; cbn [In]; tauto. }
  rewrite (feed_no n v) by (eapply C; unfold old_ends; cbn [In]; tauto).
  rewrite (buffer_no n v) by (eapply D; unfold old_others; cbn [In]; tauto).
  repeat rewrite (renamed_no _ _ n v) by (eapply A; unfold old_names; cbn [In]; tauto).
  rewrite (decode_no n v) by (eapply D; unfold old_others; cbn [In]; tauto).
  apply renamed_no. eapply A; unfold old_names; cbn [In]; tauto.
Qed.

(** Ends of names within definitions. *)
Lemma strstr_here p r : strstr (p ++ r) p = Some (p ++ r).
Proof. destruct (p ++ r) eqn:E; [destruct p; [reflexivity|discriminate]|]. cbn [strstr]. rewrite <- E, prefixb_app. reflexivity. Qed.
Lemma strstr_dot a p r : ~ In 46 a -> (exists q, p = 46 :: q) -> strstr (a ++ p ++ r) p = Some (p ++ r).
Proof.
  intros Ha (q & ->). induction a as [|c a IH]; [exact (strstr_here (46 :: q) r)|]. cbn [app]. cbn [strstr prefixb]. destruct (Z.eqb_spec 46 c) as [<-|N].
  - exfalso. apply Ha. left. reflexivity.
  - cbn [andb]. apply IH. intros X. apply Ha. right. exact X.
Qed.
Lemma strstr_no a p r : ~ In 46 a -> (exists q, p = 46 :: q) -> strstr r p = None -> strstr (a ++ r) p = None.
Proof.
  intros Ha (q & ->) Hr. induction a as [|c a IH]; [exact Hr|]. cbn [app strstr prefixb]. destruct (Z.eqb_spec 46 c) as [<-|N].
  - exfalso. apply Ha. left. reflexivity.
  - cbn [andb]. apply IH. intros X. apply Ha. right. exact X.
Qed.
Lemma digits_nodot ds : Forall digit ds -> ~ In 46 ds.
Proof. intros H X. rewrite Forall_forall in H. apply H in X. unfold digit in X. lia. Qed.
Lemma replace_dot k a from to : ~ In 46 a -> (exists q, from = 46 :: q) ->
  replace_all (S k) from to (a ++ from) = a ++ to ++ replace_all k from to [].
Proof.
  intros Ha Hf. cbn [replace_all]. pose proof (strstr_dot a from [] Ha Hf) as E. rewrite !app_nil_r in E. rewrite E.
  rewrite app_length. replace (length a + length from - length from)%nat with (length a) by lia.
  rewrite firstn_app, Nat.sub_diag, firstn_all. cbn [firstn]. rewrite app_nil_r. rewrite skipn_all. reflexivity.
Qed.
Lemma replace_nil k from to : from <> [] -> replace_all k from to [] = [].
Proof. destruct k; [reflexivity|]. intros H. cbn [replace_all]. destruct from; [contradiction|reflexivity]. Qed.
Lemma replace_no k a from to : strstr a from = None -> replace_all k from to a = a.
Proof. destruct k; [reflexivity|]. intros H. cbn [replace_all]. rewrite H. reflexivity. Qed.
Lemma replaced_end from to a : ~ In 46 a -> (exists q, str from = 46 :: q) -> replaced from to (a ++ str from) = a ++ str to.
Proof.
  intros Ha Hf. unfold replaced. destruct (length (a ++ str from)) as [|k] eqn:L.
  { destruct Hf as (q & E). rewrite E, app_length in L. cbn [length] in L. lia. }
  rewrite replace_dot by assumption. rewrite replace_nil by (destruct Hf as (q & ->); discriminate). rewrite app_nil_r. reflexivity.
Qed.
Lemma nocase_end_app a e : a <> [] -> nocase_end (a ++ e) e = true.
Proof.
  intros H. unfold nocase_end. rewrite app_length. replace (length a + length e - length e)%nat with (length a) by lia.
  rewrite skipn_app, skipn_all, Nat.sub_diag. cbn [skipn app]. rewrite (proj2 (nocase_same e e) (same_refl e)).
  destruct a; [contradiction|]. cbn [length]. rewrite andb_true_r. apply Nat.ltb_lt. lia.
Qed.
