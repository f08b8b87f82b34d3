(** Proofs about the output of scripts and their commands. *)
From Coq Require Import String.
From Verif Require Import Base NumFmt WildModel WildSpec CodecModel NameModel InfoModel WebModel OptModel QScrModel QScrSpec ScrModel ScrSpec.
Open Scope list_scope. Open Scope Z_scope.

(** ** Output *)

Lemma take_whole l r : forall n, ~ In 10 l -> (length l < n)%nat -> take_line n (l ++ 10 :: r) = l ++ [10].
Proof.
  induction l as [|c l IH]; intros n N L; (destruct n as [|n]; [cbn in L; lia|]); cbn [app take_line]; [reflexivity|].
  replace (c =? 10) with false by (symmetry; apply Z.eqb_neq; intros ->; apply N; left; reflexivity). f_equal. apply IH; [intros I; apply N; right; exact I|cbn [length] in L; lia].
Qed.
Lemma c_string_id l : ~ In 0 l -> c_string l = l.
Proof.
  induction l as [|c l IH]; intros N; [reflexivity|]. cbn [c_string]. replace (c =? 0) with false by (symmetry; apply Z.eqb_neq; intros ->; apply N; left; reflexivity).
  f_equal. apply IH. intros I. apply N. right. exact I.
Qed.
Lemma out_lines_ok : forall ls fuel, Forall (fun l => ~ In 10 l /\ ~ In 0 l /\ (length l < out_room)%nat) ls -> (length (written ls) <= fuel)%nat ->
  out_lines fuel (written ls) = map (fun l => l ++ [10]) ls.
Proof.
  induction ls as [|l ls IH]; intros fuel F L; [destruct fuel; reflexivity|]. inversion F as [|? ? (N1 & N2 & Ll) Fr]; subst.
  unfold written in *. cbn [map concat] in *. rewrite <- app_assoc in *. cbn [app] in *. rewrite app_length in L. cbn [length] in L.
  destruct fuel as [|f]; [lia|]. cbn [out_lines]. rewrite (take_whole l _ out_room N1 Ll).
  assert (E : l ++ 10 :: concat (map (fun l0 => l0 ++ [10]) ls) = (l ++ [10]) ++ concat (map (fun l0 => l0 ++ [10]) ls)) by (rewrite <- app_assoc; reflexivity).
  rewrite E. rewrite skipn_app, skipn_all, Nat.sub_diag. cbn [app skipn]. rewrite IH; [|exact Fr|lia].
  rewrite c_string_id; [|intros I; apply in_app_or in I as [I|[I|[]]]; [auto|discriminate I]].
  destruct l; reflexivity.
Qed.

Lemma strip_spec : forall r, exists b, r = b ++ strip r /\ Forall blank b /\ (strip r = [] \/ exists c u, strip r = c :: u /\ ~ blank c).
Proof.
  induction r as [|c r IH]; [exists []; auto|]. cbn [strip]. destruct ((c =? 10) || (c =? 13) || (c =? 32)) eqn:E.
  - destruct IH as (b & Q & F & H). exists (c :: b). split; [cbn; f_equal; exact Q|]. split; [|exact H]. constructor; [|exact F].
    rewrite !orb_true_iff, !Z.eqb_eq in E. unfold blank. tauto.
  - exists []. split; [reflexivity|]. split; [constructor|]. right. exists c, r. split; [reflexivity|]. unfold blank. rewrite !orb_false_iff, !Z.eqb_neq in E. tauto.
Qed.
Lemma strip_text l : text_of l (strip_end l).
Proof.
  destruct (strip_spec (rev l)) as (b & Q & F & H). exists (rev b). split.
  - rewrite <- (rev_involutive l) at 1. rewrite Q, rev_app_distr. reflexivity.
  - split; [apply Forall_rev, F|]. unfold strip_end. destruct H as [->|(c & u & -> & N)]; [left; reflexivity|]. right. exists (rev u), c. auto.
Qed.
Lemma text_unique l t u : text_of l t -> text_of l u -> t = u.
Proof.
  assert (P : forall t u b1 b2, t ++ b1 = u ++ b2 -> Forall blank b1 -> (u = [] \/ exists v c, u = v ++ [c] /\ ~ blank c) -> (length u <= length t)%nat).
  { intros t0 u0 b1 b2 E F [->|(v & c & -> & N)]; [cbn; lia|]. destruct (Nat.le_gt_cases (length (v ++ [c])) (length t0)) as [L|L]; [exact L|]. exfalso. apply N.
    rewrite app_length in L. cbn [length] in L. rewrite <- app_assoc in E. cbn [app] in E.
    assert (X : nth_error (t0 ++ b1) (length v) = Some c) by (rewrite E, nth_error_app2, Nat.sub_diag by lia; reflexivity).
    rewrite nth_error_app2 in X by lia. apply nth_error_In in X. exact (proj1 (Forall_forall _ _) F _ X). }
  intros (b1 & E1 & F1 & H1) (b2 & E2 & F2 & H2). assert (E : t ++ b1 = u ++ b2) by congruence.
  pose proof (P _ _ _ _ E F1 H2). pose proof (P _ _ _ _ (eq_sym E) F2 H1). apply (f_equal (firstn (length t))) in E.
  rewrite firstn_app, Nat.sub_diag, firstn_all in E. cbn in E. rewrite app_nil_r in E. rewrite E. replace (length t) with (length u) by lia.
  rewrite firstn_app, Nat.sub_diag, firstn_all. cbn. apply app_nil_r.
Qed.

Lemma skip_pre (p t : list Z) n : n = length p -> skipn n (p ++ t) = t.
Proof. intros ->. rewrite skipn_app, skipn_all, Nat.sub_diag. reflexivity. Qed.
Lemma no_pre p s : prefixb p s = false -> forall r, s <> p ++ r.
Proof. intros E r ->. rewrite prefixb_app in E. discriminate E. Qed.
Lemma process_ok l : match process_output l with None => text_of l [] | Some (k, m) => speaks l k m end.
Proof.
  pose proof (strip_text l) as T. unfold process_output. cbv zeta. destruct (strip_end l) as [|c r] eqn:E; [exact T|]. rewrite <- E in *. assert (N : strip_end l <> []) by congruence. clear E c r.
  assert (W : forall k w, In (k, w) words -> prefixb w (strip_end l) = true -> speaks l k (skipn (length w) (strip_end l))).
  { intros k w I P. exists (strip_end l). split; [exact T|]. split; [exact N|]. left. exists w. split; [exact I|]. apply prefixb_iff in P as (t & Q). rewrite Q, (skip_pre w t _ eq_refl). reflexivity. }
  destruct (prefixb (str "[INFO] ") (strip_end l)) eqn:P1; [exact (W KInfo (str "[INFO] ") (or_introl eq_refl) P1)|].
  destruct (prefixb (str "[WARNING] ") (strip_end l)) eqn:P2; [exact (W KWarning (str "[WARNING] ") (or_intror (or_introl eq_refl)) P2)|].
  destruct (prefixb (str "[ERROR] ") (strip_end l)) eqn:P3; [exact (W KError (str "[ERROR] ") (or_intror (or_intror (or_introl eq_refl))) P3)|].
  destruct (prefixb (str "[DETAIL] ") (strip_end l)) eqn:P4; [exact (W KDetail (str "[DETAIL] ") (or_intror (or_intror (or_intror (or_introl eq_refl)))) P4)|].
  destruct (prefixb (str "[DEBUG] ") (strip_end l)) eqn:P5; [exact (W KDebug (str "[DEBUG] ") (or_intror (or_intror (or_intror (or_intror (or_introl eq_refl))))) P5)|].
  exists (strip_end l). split; [exact T|]. split; [exact N|]. right. split; [reflexivity|]. split; [reflexivity|]. intros k1 w r [I|[I|[I|[I|[I|[]]]]]]; injection I as _ <-; apply no_pre; assumption.
Qed.
Lemma speaks_length l k m : speaks l k m -> (length m <= length l)%nat.
Proof.
  intros (t & (b & -> & _) & _ & [(w & _ & ->)|(_ & -> & _)]); rewrite !app_length; lia.
Qed.
(** A line end changes nothing. *)
Lemma text_lf l t : text_of (l ++ [10]) t <-> text_of l t.
Proof.
  assert (A : text_of l t -> text_of (l ++ [10]) t).
  { intros (b & -> & F & H). exists (b ++ [10]). split; [rewrite app_assoc; reflexivity|]. split; [apply Forall_app; split; [exact F|repeat constructor; auto]|exact H]. }
  split; [|exact A]. intros T. pose proof (strip_text l) as S1. assert (E : t = strip_end l); [|rewrite E; exact S1].
  apply (text_unique (l ++ [10])); [exact T|]. destruct S1 as (b & Q & F & H). exists (b ++ [10]). split; [rewrite app_assoc, <- Q; reflexivity|].
  split; [apply Forall_app; split; [exact F|repeat constructor; unfold blank; auto]|exact H].
Qed.
Lemma speaks_lf l k m : speaks (l ++ [10]) k m <-> speaks l k m.
Proof. unfold speaks. split; intros (t & T & R); exists t; (split; [apply text_lf; exact T|exact R]). Qed.

(** ** Commands of post-processing scripts *)

Lemma cut_id s : (length s <= Z.to_nat 1023)%nat -> cut s = s.
Proof. intros L. unfold cut. apply firstn_all2, L. Qed.
Lemma split_some : forall s a b, split_eq s = Some (a, b) -> s = a ++ 61 :: b /\ ~ In 61 a.
Proof.
  induction s as [|c s IH]; intros a b E; cbn [split_eq] in E; [discriminate E|]. destruct (c =? 61) eqn:C.
  - injection E as <- <-. apply Z.eqb_eq in C as ->. split; [reflexivity|intros []].
  - destruct (split_eq s) as [(a1, b1)|]; [|discriminate E]. injection E as <- <-. destruct (IH a1 b1 eq_refl) as (-> & N). split; [reflexivity|].
    intros [Q|I]; [apply Z.eqb_neq in C; congruence|exact (N I)].
Qed.
Lemma split_none : forall s, split_eq s = None -> ~ In 61 s.
Proof.
  induction s as [|c s IH]; intros E; cbn [split_eq] in E; [intros []|]. destruct (c =? 61) eqn:C; [discriminate E|]. destruct (split_eq s) as [(a, b)|]; [discriminate E|].
  intros [Q|I]; [apply Z.eqb_neq in C; congruence|exact (IH eq_refl I)].
Qed.
Lemma mark_said name skip k x f : (length (mark_message name) <= Z.to_nat 1023)%nat -> (skip <= length (mark_message name))%nat -> ~ within (mark_message name) (str "[NZB] ") ->
  post_message (S f) name skip k (message None (mark_message name)) x = Fine (PState (p_final x) (p_dest x) (p_params x) (p_bad x) (p_log x ++ [Said k (mark_message name)])).
Proof.
  intros L S1 N. unfold message. rewrite (cut_id _ L). cbn [post_message]. replace (length (mark_message name) <? skip)%nat with false by (symmetry; apply Nat.ltb_ge; exact S1).
  destruct (prefixb (str "[NZB] ") (skipn skip (mark_message name))) eqn:P; [|reflexivity]. exfalso. apply N. apply prefixb_iff in P as (t & Q). exists (firstn skip (mark_message name)), t.
  rewrite <- Q. symmetry. apply firstn_skipn.
Qed.

Ltac pre H := let t := fresh "t" in let Q := fresh "Q" in apply prefixb_iff in H as (t & Q).

Lemma post_ok f name disp k m x : quiet name disp -> (length disp + 2 + length m <= Z.to_nat 1023)%nat ->
  exists y, post_message (S (S f)) name (length disp + 2) k (message (Some disp) m) x = Fine y /\ post_effect name disp k m x y.
Proof.
  intros (Lm & Ld & Nm) L. assert (E : message (Some disp) m = (disp ++ str ": ") ++ m).
  { unfold message. rewrite (cut_id m) by lia. rewrite cut_id; [rewrite <- app_assoc; reflexivity|]. rewrite !app_length. cbn. lia. }
  rewrite E. remember (S f) as f1 eqn:Ef. cbn [post_message].
  replace (length ((disp ++ str ": ") ++ m) <? length disp + 2)%nat with false by (symmetry; apply Nat.ltb_ge; rewrite !app_length; cbn; lia).
  rewrite (skip_pre (disp ++ str ": ") m) by (rewrite app_length; cbn; lia). destruct (prefixb (str "[NZB] ") m) eqn:P0.
  2:{ eexists. split; [reflexivity|]. rewrite <- app_assoc. apply pe_text, no_pre, P0. }
  apply prefixb_iff in P0 as (c & ->). rewrite (skip_pre (str "[NZB] ") c 6 eq_refl).
  destruct (prefixb (str "FINALDIR=") c) eqn:P1; [apply prefixb_iff in P1 as (d & ->); eexists; split; [reflexivity|]; rewrite (skip_pre (str "FINALDIR=") d 9 eq_refl); apply pe_final; reflexivity|].
  destruct (prefixb (str "DIRECTORY=") c) eqn:P2; [apply prefixb_iff in P2 as (d & ->); eexists; split; [reflexivity|]; rewrite (skip_pre (str "DIRECTORY=") d 10 eq_refl); apply pe_dest; reflexivity|].
  destruct (prefixb (str "NZBPR_") c) eqn:P3.
  { apply prefixb_iff in P3 as (d & ->). rewrite (skip_pre (str "NZBPR_") d 6 eq_refl). destruct (split_eq d) as [(n, v)|] eqn:Sd; eexists; (split; [reflexivity|]).
    - apply split_some in Sd as (-> & N). apply pe_param; [reflexivity|exact N].
    - apply split_none in Sd. apply (pe_wrong _ _ _ _ _ (str "NZBPR_" ++ d)); [reflexivity|]. intros [(q & Q)|[(q & Q)|[(n & v & Q)|(q & Q)]]]; try (cbn in Q; discriminate Q).
      apply Sd. assert (Q2 : d = n ++ 61 :: v) by (cbn in Q; injection Q; auto). rewrite Q2. apply in_elt. }
  destruct (prefixb (str "MARK=BAD") c) eqn:P4.
  { apply prefixb_iff in P4 as (d & ->). subst f1. change (str "Marking " ++ name ++ str " as bad") with (mark_message name). rewrite (mark_said name _ KWarning x f Lm Ld Nm).
    eexists. split; [reflexivity|]. cbn [p_final p_dest p_params p_log]. apply (pe_bad _ _ _ _ _ d). reflexivity. }
  eexists. split; [reflexivity|]. apply (pe_wrong _ _ _ _ _ c); [reflexivity|].
  intros [(q & Q)|[(q & Q)|[(n & v & Q)|(q & Q)]]]; cbn in Q; injection Q as Q; [apply (no_pre _ _ P1 q)|apply (no_pre _ _ P2 q)|apply (no_pre _ _ P3 (n ++ 61 :: v))|apply (no_pre _ _ P4 q)]; exact Q.
Qed.

Lemma post_lines_ok f name disp : forall ls x, quiet name disp -> Forall (fun l => (length disp + 2 + length l <= Z.to_nat 1023)%nat) ls ->
  exists y, post_lines (S (S f)) name disp (map (fun l => l ++ [10]) ls) x = Fine y /\ heard (post_effect name disp) ls x y.
Proof.
  induction ls as [|l ls IH]; intros x Q F; [exists x; split; [reflexivity|constructor]|]. inversion F as [|? ? L Fr]; subst. cbn [map post_lines].
  pose proof (process_ok (l ++ [10])) as P. destruct (process_output (l ++ [10])) as [(k, m)|].
  - rewrite speaks_lf in P. destruct (post_ok f name disp k m x Q) as (y & E & H); [apply speaks_length in P; lia|]. rewrite E.
    destruct (IH y Q Fr) as (z & Ez & Hz). exists z. split; [exact Ez|]. exact (h_line _ _ _ _ _ _ _ _ P H Hz).
  - rewrite text_lf in P. destruct (IH x Q Fr) as (z & Ez & Hz). exists z. split; [exact Ez|]. apply h_silent; assumption.
Qed.
Lemma fit_lines disp ls : fitting disp ls -> Forall (fun l => ~ In 10 l /\ ~ In 0 l /\ (length l < out_room)%nat) ls /\ Forall (fun l => (length disp + 2 + length l <= Z.to_nat 1023)%nat) ls.
Proof. intros F. split; (eapply Forall_impl; [|exact F]); intros l (A & B & C); [split; [exact A|]; split; [exact B|]; unfold out_room; lia|exact C]. Qed.
Lemma run_post_ok f name disp ls x : quiet name disp -> fitting disp ls -> exists y, run_post (S (S f)) name disp (written ls) x = Fine y /\ heard (post_effect name disp) ls x y.
Proof.
  intros Q F. apply fit_lines in F as (F1 & F2). unfold run_post, output. rewrite (out_lines_ok ls _ F1 (le_n _)). apply post_lines_ok; assumption.
Qed.
(** The effect of a message is unique. *)
Lemma str_pre_eq a p (r : list Z) q : str a ++ r = str p ++ q -> prefixb (str p) (str a ++ r) = true.
Proof. intros ->. apply prefixb_app. Qed.
Lemma eq_split (a b c d : list Z) : a ++ 61 :: b = c ++ 61 :: d -> ~ In 61 a -> ~ In 61 c -> a = c /\ b = d.
Proof.
  revert c. induction a as [|x a IH]; intros c E N M; destruct c as [|y c]; cbn in E.
  - injection E as ->. auto.
  - injection E as <- _. destruct M. left. reflexivity.
  - injection E as -> _. destruct N. left. reflexivity.
  - injection E as -> E. destruct (IH c E) as (-> & ->); [intros I; apply N; right; exact I|intros I; apply M; right; exact I|auto].
Qed.
