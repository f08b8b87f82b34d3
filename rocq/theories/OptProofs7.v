(** Proofs about the configuration file in the web interface and about restricted users. *)
From Coq Require Import String.
From Verif Require Import Base NumFmt LineModel WildSpec WildModel WildProofs TextProofs WebModel WebSpec WebProofs OptModel OptSpec OptProofs OptProofs2 OptProofs3 OptProofs5 OptProofs6.
Open Scope list_scope. Open Scope Z_scope.

Lemma blank_is c : is_blank c = true <-> blank c.
Proof. unfold is_blank, blank. rewrite !orb_true_iff, !Z.eqb_eq. tauto. Qed.
Lemma trim_right_keep s b : (forall a c, s = a ++ [c] -> ~ blank c) -> Forall blank b -> trim_right (s ++ b) = s.
Proof.
  intros H Hb. unfold trim_right. rewrite rev_app_distr.
  assert (D : forall x y, Forall blank x -> drop_blank (x ++ y) = drop_blank y).
  { intros x y Hx. induction Hx as [|c x Hc Hx IH]; [reflexivity|]. cbn [app drop_blank]. rewrite (proj2 (blank_is c) Hc). exact IH. }
  rewrite D by (apply Forall_rev, Hb). destruct (rev s) as [|c r] eqn:E.
  - cbn [drop_blank rev]. symmetry. rewrite <- (rev_involutive s), E. reflexivity.
  - cbn [drop_blank]. assert (N : is_blank c = false). { destruct (is_blank c) eqn:Q; [|reflexivity]. apply blank_is in Q. exfalso. apply (H (rev r) c); [|exact Q]. rewrite <- (rev_involutive s), E. reflexivity. }
    rewrite N. rewrite <- E. apply rev_involutive.
Qed.
Lemma trim_right_prefix s : exists b, s = trim_right s ++ b /\ Forall blank b.
Proof.
  unfold trim_right. assert (D : forall x, exists b, x = b ++ drop_blank x /\ Forall blank b).
  { induction x as [|c x (b & E & H)]; [exists []; auto|]. cbn [drop_blank]. destruct (is_blank c) eqn:Q; [|exists []; auto].
    exists (c :: b). split; [cbn [app]; f_equal; exact E|constructor; [apply blank_is, Q|exact H]]. }
  destruct (D (rev s)) as (b & E & H). exists (rev b). split; [|apply Forall_rev, H]. rewrite <- rev_app_distr, <- E. symmetry. apply rev_involutive.
Qed.
Lemma eol_blank b : Forall blank (eol b).
Proof. destruct b; cbn [eol]; repeat constructor; unfold blank; lia. Qed.

Definition raw (p : list Z * bool) : list Z := fst p ++ eol (snd p).
Definition entry_of (s : list Z) : list (list Z * list Z) :=
  if skipped (trim_right s) then [] else match split_option (trim_right s) with Some o => [o] | None => [] end.
Lemma ui_entries_ok lines : ui_entries lines = flat_map entry_of lines.
Proof.
  unfold ui_entries, ui_strings. induction lines as [|s l IH]; [reflexivity|]. cbn [map filter flat_map]. unfold entry_of at 1.
  destruct (skipped (trim_right s)); cbn [negb app]; [exact IH|]. cbn [flat_map]. rewrite IH. reflexivity.
Qed.
Lemma setting_text n v : setting_ok (n, v) -> forall a c, (n ++ 61 :: v) = a ++ [c] -> ~ blank c.
Proof.
  intros (_ & _ & _ & _ & H & _) a c E. destruct v as [|x v] using rev_ind.
  - apply app_inj_tail in E as (_ & <-). unfold blank. lia.
  - rewrite app_comm_cons, app_assoc in E. apply app_inj_tail in E as (_ & <-). apply (H v x eq_refl).
Qed.
Lemma index_here n v : ~ In 61 n -> index 61 (n ++ 61 :: v) = Some (length n).
Proof.
  induction n as [|c n IH]; intros H; [reflexivity|]. cbn [app index length]. destruct (Z.eqb_spec c 61) as [->|]; [exfalso; apply H; left; reflexivity|].
  rewrite IH; [reflexivity|]. intros X. apply H. right. exact X.
Qed.
Lemma split_setting n v : setting_ok (n, v) -> split_option (n ++ 61 :: v) = Some (n, v).
Proof.
  intros (Hn & H61 & _ & _ & _ & M). unfold split_option. rewrite index_here by exact H61. destruct (length n) as [|k] eqn:E; [destruct n; [contradiction|discriminate]|].
  rewrite <- E. rewrite firstn_app, firstn_all, Nat.sub_diag. cbn [firstn]. rewrite app_nil_r. change (n ++ 61 :: v) with (n ++ [61] ++ v). rewrite app_assoc.
  replace (S (length n)) with (length (n ++ [61])) by (rewrite app_length; cbn [length]; lia). rewrite skipn_app, skipn_all, Nat.sub_diag. cbn [skipn app].
  rewrite modern_same by exact M. reflexivity.
Qed.
Lemma entry_setting n v b : setting_ok (n, v) -> entry_of (raw (n ++ 61 :: v, b)) = [(n, v)].
Proof.
  intros H. unfold entry_of, raw. cbn [fst snd]. rewrite trim_right_keep by (try apply eol_blank; apply setting_text, H). rewrite split_setting by exact H.
  assert (Q : skipped (n ++ 61 :: v) = false); [|rewrite Q; reflexivity].
  destruct H as (Hn & H61 & H35 & _). destruct n as [|c n]; [contradiction|]. cbn [app skipped]. apply orb_false_iff. split.
  - apply Z.eqb_neq. intros ->. apply (H35 n eq_refl).
  - apply not_true_is_false. intros F. rewrite forallb_forall in F. specialize (F 61 ltac:(right; apply in_or_app; right; left; reflexivity)). discriminate.
Qed.
Lemma has_eq_in s : has_eq s = true <-> In 61 s.
Proof.
  unfold has_eq. destruct (index 61 s) as [i|] eqn:E.
  - split; [intros _|reflexivity]. apply index_some in E as (E & _). rewrite E. apply in_or_app. right. left. reflexivity.
  - apply index_none in E. split; [discriminate|contradiction].
Qed.
Lemma option_line_remark p : is_option_line (raw p) = negb (remark p).
Proof.
  destruct p as (s & b). unfold is_option_line, remark, raw. cbn [fst snd].
  assert (E : has_eq (s ++ eol b) = existsb (Z.eqb 61) s).
  { destruct (existsb (Z.eqb 61) s) eqn:X.
    - apply has_eq_in, in_or_app. left. apply existsb_exists in X as (c & Hc & Q). apply Z.eqb_eq in Q. subst c. exact Hc.
    - destruct (has_eq (s ++ eol b)) eqn:Y; [|reflexivity]. apply has_eq_in, in_app_or in Y as [Y|Y].
      + assert (T : existsb (Z.eqb 61) s = true) by (apply existsb_exists; exists 61; split; [exact Y|reflexivity]). congruence.
      + destruct b; cbn [eol In] in Y; lia. }
  rewrite E. destruct s as [|c s]; [destruct b; reflexivity|]. cbn [app]. destruct (c =? 35), (existsb (Z.eqb 61) (c :: s)); reflexivity.
Qed.
Lemma entry_remark p : remark p = true -> entry_of (raw p) = [].
Proof.
  intros R. assert (O1 := option_line_remark p). rewrite R in O1. unfold is_option_line in O1. cbn [negb] in O1. apply andb_false_iff in O1. unfold entry_of.
  destruct (trim_right_prefix (raw p)) as (b & E & Hb). destruct O1 as [O1|O1].
  - destruct (skipped (trim_right (raw p))); [reflexivity|]. unfold split_option. destruct (index 61 (trim_right (raw p))) as [i|] eqn:F; [|reflexivity].
    exfalso. assert (T : has_eq (raw p) = true); [|congruence]. apply has_eq_in. rewrite E. apply in_or_app. left. apply has_eq_in. unfold has_eq. rewrite F. reflexivity.
  - destruct (raw p) as [|c r] eqn:Q; [discriminate|]. destruct (c =? 35) eqn:C; [|discriminate]. apply Z.eqb_eq in C. subst c.
    destruct (trim_right (35 :: r)) as [|d t] eqn:T; [reflexivity|]. cbn [app] in E. injection E as <- _. reflexivity.
Qed.

(** The lines written. *)
Definition line_of (o : list Z * list Z) : list Z * bool := (fst o ++ 61 :: snd o, false).
Lemma setting_raw o : setting_line o = raw (line_of o).
Proof. unfold setting_line, raw, line_of. cbn [fst snd eol]. rewrite <- app_assoc. reflexivity. Qed.
Definition new_lines (l : list (list Z * list Z)) (p : list Z * bool) : list (list Z * bool) :=
  if remark p then [p] else match snd (save_line l (raw p)) with Some i => match nth_error l i with Some o => [line_of o] | None => [] end | None => [] end.
Lemma save_line_new l p : fst (save_line l (raw p)) = flat_map raw (new_lines l p).
Proof.
  unfold new_lines, save_line. rewrite option_line_remark. destruct (remark p); cbn [negb fst flat_map]; [symmetry; apply app_nil_r|].
  destruct (split_option (trim_right (raw p))) as [(n & v)|]; [|reflexivity].
  destruct (find_setting n l) as [i|]; [|reflexivity]. destruct (nth_error l i) as [o|] eqn:E; cbn [fst snd]; [|reflexivity].
  rewrite E. cbn [flat_map]. rewrite app_nil_r. apply setting_raw.
Qed.
Definition more_lines (l : list (list Z * list Z)) (lines : list (list Z)) : list (list Z * bool) :=
  flat_map (fun '(i, o) => if written l lines i then [] else [line_of o]) (combine (seq 0 (length l)) l).
Lemma flat_flat {A B C} (f : A -> list B) (g : B -> list C) l : flat_map g (flat_map f l) = flat_map (fun x => flat_map g (f x)) l.
Proof. induction l as [|x l IH]; [reflexivity|]. cbn [flat_map]. rewrite flat_map_app, IH. reflexivity. Qed.
Lemma combine_in {A} (l : list A) : forall k i o, In (i, o) (combine (seq k (length l)) l) <-> (k <= i)%nat /\ nth_error l (i - k) = Some o.
Proof.
  induction l as [|x l IH]; intros k i o; cbn [length seq combine In].
  - split; [intros []|]. intros (_ & H). destruct (i - k)%nat; discriminate.
  - rewrite IH. split.
    + intros [H|(H1 & H2)]; [injection H as <- <-; rewrite Nat.sub_diag; split; [lia|reflexivity]|].
      split; [lia|]. replace (i - k)%nat with (S (i - S k)) by lia. exact H2.
    + intros (H1 & H2). destruct (Nat.eq_dec i k) as [->|N]; [left; rewrite Nat.sub_diag in H2; injection H2 as ->; reflexivity|].
      right. split; [lia|]. replace (i - k)%nat with (S (i - S k)) in H2 by lia. exact H2.
Qed.
Lemma flat_map_eq {A B} (f g : A -> list B) l : (forall x, In x l -> f x = g x) -> flat_map f l = flat_map g l.
Proof. intros H. induction l as [|x l IH]; [reflexivity|]. cbn [flat_map]. rewrite H by (left; reflexivity). rewrite IH; [reflexivity|]. intros y Hy. apply H. right. exact Hy. Qed.
Lemma file_raw ls : file_of ls [] = flat_map raw ls.
Proof. unfold file_of. apply app_nil_r. Qed.
Lemma lines_all ls size f : Forall (fun p => line_ok (fst p)) ls -> (length (file_of ls []) < size)%nat -> (length (file_of ls []) < f)%nat ->
  file_lines f size (file_of ls []) = Some (map raw ls).
Proof.
  intros H Hs Hf. rewrite lines_go; [rewrite app_nil_r; reflexivity| | |cbn [length]; lia|exact Hf].
  - apply Forall_forall. intros p Hp. split; [rewrite Forall_forall in H; apply H, Hp|]. rewrite file_len in Hs. cbn [length] in Hs.
    pose proof (sum_in _ _ (in_map (fun p => length (fst p ++ eol (snd p))) ls p Hp)) as Q. cbv beta in Q. lia.
  - unfold line_ok. split; [intros []|]. split; [intros []|]. intros a X. destruct a; discriminate.
Qed.
Lemma line_of_ok o : setting_ok o -> line_ok (fst (line_of o)).
Proof.
  destruct o as (n & v). intros H. assert (T := setting_text n v H). destruct H as (_ & _ & _ & F & _). unfold line_of. cbn [fst snd].
  apply Forall_app in F as (F1 & F2). rewrite Forall_forall in F1, F2. repeat split.
  - rewrite in_app_iff. cbn [In]. intros [X|[X|X]]; [apply F1 in X; lia|lia|apply F2 in X; lia].
  - rewrite in_app_iff. cbn [In]. intros [X|[X|X]]; [apply F1 in X; lia|lia|apply F2 in X; lia].
  - intros a X. apply (T a 13 X). unfold blank. lia.
Qed.
Lemma line_of_remark o : setting_ok o -> remark (line_of o) = false.
Proof.
  destruct o as (n & v). intros (Hn & _ & H35 & _). unfold remark, line_of. cbn [fst snd]. apply orb_false_iff. split.
  - destruct n as [|c n]; [contradiction|]. cbn [app]. apply Z.eqb_neq. intros ->. apply (H35 n eq_refl).
  - apply negb_false_iff, existsb_exists. exists 61. split; [apply in_or_app; right; left; reflexivity|reflexivity].
Qed.
Theorem save_ok : forall l ls f, Forall setting_ok l -> Forall (fun p => line_ok (fst p)) ls -> (length (file_of ls []) < f)%nat ->
  exists ls', save_config l (file_of ls []) f = Some (file_of ls' []) /\ Forall (fun p => line_ok (fst p)) ls' /\ filter remark ls' = filter remark ls /\
  forall g, (length (file_of ls' []) < g)%nat -> exists l', ui_load g (file_of ls' []) = Some l' /\ forall o, In o l' <-> In o l.
Proof.
  intros l ls f Hl H Hf. rewrite Forall_forall in Hl.
  exists (flat_map (new_lines l) ls ++ more_lines l (map raw ls)). unfold save_config. rewrite lines_all by (assumption || lia). cbn [option_map].
  assert (New : forall p q, In q (new_lines l p) -> (q = p /\ remark p = true) \/ (exists i o, nth_error l i = Some o /\ q = line_of o)).
  { intros p q. unfold new_lines. destruct (remark p); [intros [<-|[]]; auto|]. destruct (snd (save_line l (raw p))) as [i|]; [|intros []].
    destruct (nth_error l i) as [o|] eqn:E; [|intros []]. intros [<-|[]]. right. exists i, o. auto. }
  assert (More : forall q, In q (more_lines l (map raw ls)) <-> exists i o, nth_error l i = Some o /\ written l (map raw ls) i = false /\ q = line_of o).
  { intros q. unfold more_lines. rewrite in_flat_map. split.
    - intros ((i & o) & Hi & Hq). apply combine_in in Hi as (_ & Hi). rewrite Nat.sub_0_r in Hi. destruct (written l (map raw ls) i) eqn:W; [destruct Hq|].
      destruct Hq as [<-|[]]. exists i, o. auto.
    - intros (i & o & Hi & W & ->). exists (i, o). split; [apply combine_in; rewrite Nat.sub_0_r; split; [lia|exact Hi]|]. rewrite W. left. reflexivity. }
  assert (Lok : Forall (fun p => line_ok (fst p)) (flat_map (new_lines l) ls ++ more_lines l (map raw ls))).
  { apply Forall_forall. intros q Hq. apply in_app_or in Hq as [Hq|Hq].
    - apply in_flat_map in Hq as (p & Hp & Hq). apply New in Hq as [(-> & _)|(i & o & Hi & ->)]; [rewrite Forall_forall in H; apply H, Hp|].
      apply line_of_ok, Hl, (nth_error_In _ _ Hi).
    - apply More in Hq as (i & o & Hi & _ & ->). apply line_of_ok, Hl, (nth_error_In _ _ Hi). }
  split; [|split; [exact Lok|split]].
  - f_equal. rewrite file_raw, flat_map_app. f_equal.
    + rewrite flat_flat. rewrite flat_map_concat_map, map_map, <- flat_map_concat_map. apply flat_map_ext. intros p. apply save_line_new.
    + unfold more_lines. rewrite flat_flat. apply flat_map_ext. intros (i & o). destruct (written l (map raw ls) i); [reflexivity|]. cbn [flat_map]. rewrite app_nil_r. apply setting_raw.
  - rewrite filter_app. replace (filter remark (more_lines l (map raw ls))) with (@nil (list Z * bool)).
    + rewrite app_nil_r. clear - New Hl. induction ls as [|p ls IH]; [reflexivity|]. cbn [flat_map filter]. rewrite filter_app, IH.
      destruct (remark p) eqn:R.
      * unfold new_lines. rewrite R. cbn [filter]. rewrite R. reflexivity.
      * replace (filter remark (new_lines l p)) with (@nil (list Z * bool)); [reflexivity|].
        destruct (filter remark (new_lines l p)) as [|q r] eqn:E; [reflexivity|]. exfalso. assert (Q : In q (filter remark (new_lines l p))) by (rewrite E; left; reflexivity).
        apply filter_In in Q as (Q & T). apply New in Q as [(-> & _)|(i & o & Hi & ->)]; [congruence|]. rewrite line_of_remark in T by (apply Hl, (nth_error_In _ _ Hi)). discriminate.
    + destruct (filter remark (more_lines l (map raw ls))) as [|q r] eqn:E; [reflexivity|]. exfalso. assert (Q : In q (filter remark (more_lines l (map raw ls)))) by (rewrite E; left; reflexivity).
      apply filter_In in Q as (Q & T). apply More in Q as (i & o & Hi & _ & ->). rewrite line_of_remark in T by (apply Hl, (nth_error_In _ _ Hi)). discriminate.
  - intros g Hg. unfold ui_load. rewrite lines_all by (assumption || lia). cbn [option_map]. eexists. split; [reflexivity|]. rewrite ui_entries_ok.
    intros o. rewrite flat_map_concat_map, map_map, <- flat_map_concat_map, in_flat_map.
    assert (Entry : forall x, setting_ok x -> entry_of (raw (line_of x)) = [x]). { intros (n & v) Hx. apply entry_setting, Hx. }
    split.
    + intros (q & Hq & Ho). apply in_app_or in Hq as [Hq|Hq].
      * apply in_flat_map in Hq as (p & Hp & Hq). apply New in Hq as [(-> & R)|(i & x & Hi & ->)]; [rewrite entry_remark in Ho by exact R; destruct Ho|].
        assert (X := nth_error_In _ _ Hi). rewrite Entry in Ho by (apply Hl, X). destruct Ho as [<-|[]]. exact X.
      * apply More in Hq as (i & x & Hi & _ & ->). assert (X := nth_error_In _ _ Hi). rewrite Entry in Ho by (apply Hl, X). destruct Ho as [<-|[]]. exact X.
    + intros Ho. exists (line_of o). split; [|rewrite Entry by (apply Hl, Ho); left; reflexivity]. apply In_nth_error in Ho as (i & Hi). apply in_or_app.
      destruct (written l (map raw ls) i) eqn:W; [left|right; apply More; eauto].
      unfold written in W. apply existsb_exists in W as (s & Hs & W). apply in_map_iff in Hs as (p & <- & Hp). apply in_flat_map. exists p. split; [exact Hp|].
      destruct (snd (save_line l (raw p))) as [j|] eqn:E; [|discriminate]. apply Nat.eqb_eq in W. subst j. unfold new_lines.
      assert (R : remark p = false). { unfold save_line in E. rewrite option_line_remark in E. destruct (remark p); [discriminate|reflexivity]. }
      rewrite R, E, Hi. left. reflexivity.
Qed.

(** ** Restricted users *)

Lemma contains_ok w n : contains_ (str w) (map lower n) = true <-> exists a m b, n = a ++ m ++ b /\ map lc m = str w.
Proof.
  unfold contains_. change lower with lc. split.
  - destruct (strstr (map lc n) (str w)) as [r|] eqn:E; [|discriminate]. intros _.
    assert (Q : exists a b, map lc n = a ++ str w ++ b).
    { clear - E. revert E. generalize (map lc n). intros x. induction x as [|c x IH]; cbn [strstr]; intros H.
      - destruct (prefixb (str w) []) eqn:P; [|discriminate]. apply prefixb_iff in P as (t & ->). exists [], t. reflexivity.
      - destruct (prefixb (str w) (c :: x)) eqn:P; [apply prefixb_iff in P as (t & ->); exists [], t; reflexivity|].
        destruct (IH H) as (a & b & ->). exists (c :: a), b. reflexivity. }
    destruct Q as (a & b & Q). apply map_eq_app in Q as (a' & r' & -> & <- & Q). apply map_eq_app in Q as (m & b' & -> & Q & <-).
    exists a', m, b'. auto.
  - intros (a & m & b & -> & H). rewrite !map_app, H. generalize (map lc a). intros x. induction x as [|c x IH].
    + cbn [app]. rewrite (strstr_here (str w) (map lc b)). reflexivity.
    + cbn [app strstr]. destruct (prefixb (str w) (c :: x ++ str w ++ map lc b)); [reflexivity|exact IH].
Qed.
Theorem restricted_ok : forall n, Z.of_nat (length n) <= 1023 -> restricted n = true <-> secret n.
Proof.
  intros n L. unfold restricted, secret. rewrite firstn_all2 by lia. rewrite !orb_true_iff.
  assert (A : one_of restricted_names n = true <-> listed secret_names n).
  { unfold restricted_names. rewrite (one_of_lc _ (map str secret_names)) by reflexivity. apply one_of_listed. }
  assert (B : match index 58 n with Some _ => true | None => false end = true <-> In 58 n).
  { destruct (index 58 n) eqn:E.
    - split; [intros _|reflexivity]. apply index_some in E as (E & _). rewrite E. apply in_or_app. right. left. reflexivity.
    - apply index_none in E. split; [discriminate|contradiction]. }
  cbv zeta. rewrite A, B, !contains_ok. unfold mentions, same. tauto.
Qed.
