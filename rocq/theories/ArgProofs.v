(** Proofs about the command line. *)
From Coq Require Import String.
From Verif Require Import Base NumFmt WildModel WebModel RpProofs LineProofs ArgModel ArgSpec.
Open Scope list_scope. Open Scope Z_scope.

(** ** Words *)
Lemma is_like w x y : like w (str x) -> is w y = is (str x) y.
Proof. intros H. unfold is, nocase_eq. rewrite H. reflexivity. Qed.
Lemma is_true w x : is w x = true <-> like w (str x).
Proof. unfold is, nocase_eq, like. apply beqb_eq. Qed.
Lemma is_false w x : ~ like w (str x) -> is w x = false.
Proof. intros H. destruct (is w x) eqn:Q; [|reflexivity]. destruct (H (proj1 (is_true _ _) Q)). Qed.

(** ** Ids *)
Lemma id_sep_true c : sep c -> id_sep c = true.
Proof. intros [-> | ->]; reflexivity. Qed.
Lemma id_sep_false c : ~ sep c -> id_sep c = false.
Proof. intros H. unfold id_sep. destruct (c =? 44) eqn:A; [apply Z.eqb_eq in A; destruct H; left; exact A|]. destruct (c =? 32) eqn:B; [apply Z.eqb_eq in B; destruct H; right; exact B|reflexivity]. Qed.
Lemma toks_seps w t : Forall sep w -> id_toks (w ++ t) [] = id_toks t [].
Proof. induction 1 as [|c w H _ IH]; [reflexivity|]. cbn [app id_toks]. rewrite (id_sep_true _ H). cbn [put]. exact IH. Qed.
Lemma toks_word t r cur : Forall (fun c => ~ sep c) t -> id_toks (t ++ r) cur = id_toks r (cur ++ t).
Proof. intros H. revert cur. induction H as [|c t H _ IH]; intros cur; [now rewrite app_nil_r|]. cbn [app id_toks]. rewrite (id_sep_false _ H), IH, <- app_assoc. reflexivity. Qed.
Lemma digits_nosep t : Forall (fun c => is_digit c = true \/ c = 45) t -> Forall (fun c => ~ sep c) t.
Proof. apply Forall_impl. intros c [H | ->]; [|intros [Q | Q]; discriminate]. intros [-> | ->]; discriminate H. Qed.
Lemma udec_nodash n : 0 <= n -> Forall (fun c => is_digit c = true) (zdec n).
Proof. intros H. unfold zdec. destruct (n <? 0) eqn:Q; [apply Z.ltb_lt in Q; lia|]. apply udec_digits. exact H. Qed.
Lemma ids_nosep p : Forall (fun c => ~ sep c) (ids_text p).
Proof.
  apply digits_nosep. destruct p as [n|a b]; [apply zdec_chars|]. cbn [ids_text]. apply Forall_app. split; [apply zdec_chars|]. constructor; [right; reflexivity|]. apply zdec_chars.
Qed.
Lemma zdec_ne n : zdec n <> [].
Proof. destruct (proj2 (zdec_chars n)) as (c & r & -> & _). discriminate. Qed.
Lemma ids_ne p : ids_text p <> [].
Proof. destruct p as [n|a b]; cbn [ids_text]; [apply zdec_ne|]. destruct (proj2 (zdec_chars a)) as (c & r & -> & _). discriminate. Qed.
Lemma put_ne t l : t <> [] -> put t l = t :: l.
Proof. destruct t; [congruence|reflexivity]. Qed.
Lemma toks_listed ps w : listed ps w -> id_toks w [] = map ids_text ps.
Proof.
  induction 1 as [w H|w p H|w p c ps t H C _ IH].
  - rewrite <- (app_nil_r w), (toks_seps w [] H). reflexivity.
  - rewrite (toks_seps w _ H), <- (app_nil_r (ids_text p)), (toks_word _ [] [] (ids_nosep p)). cbn [app id_toks]. rewrite put_ne by apply ids_ne. reflexivity.
  - rewrite (toks_seps w _ H), (toks_word _ _ [] (ids_nosep p)). cbn [app id_toks]. rewrite (id_sep_true _ C), put_ne by apply ids_ne. cbn [map]. rewrite IH. reflexivity.
Qed.
Lemma index_digits t r : Forall (fun c => is_digit c = true) t -> WebModel.index 45 (t ++ 45 :: r) = Some (length t).
Proof. induction 1 as [|c t H _ IH]; [reflexivity|]. cbn [app WebModel.index length]. destruct (c =? 45) eqn:Q; [apply Z.eqb_eq in Q; subst c; discriminate H|]. rewrite IH. reflexivity. Qed.
Lemma index_none t : Forall (fun c => is_digit c = true) t -> WebModel.index 45 t = None.
Proof. induction 1 as [|c t H _ IH]; [reflexivity|]. cbn [WebModel.index]. destruct (c =? 45) eqn:Q; [apply Z.eqb_eq in Q; subst c; discriminate H|]. rewrite IH. reflexivity. Qed.
Lemma atoi_id n : id n -> atoi (zdec n) = n.
Proof. intros H. rewrite <- (app_nil_r (zdec n)). apply atoi_zdec; [unfold id in H; lia|exact Logic.I]. Qed.
Lemma range_one n : range n n = [n].
Proof. unfold range. rewrite Z.ltb_irrefl. replace (n - n + 1) with 1 by lia. change (map (fun i => n - Z.of_nat i) [0%nat] = [n]). cbn [map]. f_equal. lia. Qed.
Lemma range_ok a b : ids_mean (Range a b) (range a b).
Proof.
  cbn [ids_mean]. unfold range. destruct (a <? b) eqn:Q; [apply Z.ltb_lt in Q|apply Z.ltb_ge in Q]; rewrite map_length, seq_length; (split; [lia|]); intros i L.
  - rewrite nth_indep with (d' := a + Z.of_nat 0) by (rewrite map_length, seq_length; exact L). rewrite (map_nth (fun i => a + Z.of_nat i)), seq_nth by exact L.
    destruct (a <=? b) eqn:R; [|apply Z.leb_gt in R; lia]. reflexivity.
  - rewrite nth_indep with (d' := a - Z.of_nat 0) by (rewrite map_length, seq_length; exact L). rewrite (map_nth (fun i => a - Z.of_nat i)), seq_nth by exact L.
    destruct (a <=? b) eqn:R; [apply Z.leb_le in R; lia|reflexivity].
Qed.
Lemma piece_ok p : ids_ok p -> exists l, piece (ids_text p) = Some l /\ ids_mean p l.
Proof.
  destruct p as [n|a b]; cbn [ids_ok ids_text].
  - intros H. exists [n]. split; [|reflexivity]. unfold piece. rewrite index_none by (apply udec_nodash; unfold id in H; lia). cbv zeta. rewrite (atoi_id n H).
    destruct (n <=? 0) eqn:Q; [apply Z.leb_le in Q; unfold id in H; lia|]. rewrite range_one. reflexivity.
  - intros [Ha Hb]. exists (range a b). split; [|apply range_ok]. unfold piece. change (str "-") with [45]. cbn [app]. rewrite index_digits by (apply udec_nodash; unfold id in Ha; lia). cbv zeta.
    rewrite (firstn_app (length (zdec a)) (zdec a)), firstn_all, Nat.sub_diag, firstn_O, app_nil_r.
    rewrite firstn_all2 by (pose proof (zdec_len a ltac:(unfold id in Ha; lia)); lia).
    replace (skipn (S (length (zdec a))) (zdec a ++ 45 :: zdec b)) with (zdec b).
    2:{ replace (S (length (zdec a))) with (length (zdec a ++ [45])) by (rewrite app_length; cbn [length]; lia). change (zdec a ++ 45 :: zdec b) with (zdec a ++ [45] ++ zdec b). rewrite app_assoc, skipn_app, skipn_all, Nat.sub_diag. reflexivity. }
    rewrite (atoi_id a Ha), (atoi_id b Hb). destruct (a <=? 0) eqn:Q; [apply Z.leb_le in Q; unfold id in Ha; lia|]. destruct (b <=? 0) eqn:R; [apply Z.leb_le in R; unfold id in Hb; lia|]. reflexivity.
Qed.
Lemma pieces_ok ps : Forall ids_ok ps -> exists ls, pieces (map ids_text ps) = Some (concat ls) /\ Forall2 ids_mean ps ls.
Proof.
  induction 1 as [|p ps H _ IH]; [exists []; split; [reflexivity|constructor]|]. destruct (piece_ok p H) as (l & Q & M). destruct IH as (ls & Q2 & M2). exists (l :: ls). split; [|constructor; assumption].
  cbn [map pieces concat]. rewrite Q, Q2. reflexivity.
Qed.
Lemma id_list_ok pss ws : Forall2 listed pss ws -> Forall ids_ok (concat pss) -> exists ls, id_list ws = Some (concat ls) /\ Forall2 ids_mean (concat pss) ls.
Proof.
  intros H K. destruct (pieces_ok _ K) as (ls & Q & M). exists ls. split; [|exact M]. unfold id_list. rewrite <- Q. f_equal. clear K Q M ls.
  induction H as [|ps w pss ws H _ IH]; [reflexivity|]. cbn [flat_map concat]. rewrite map_app, (toks_listed _ _ H), IH. reflexivity.
Qed.
(** Refused. *)
Lemma toks_app a c b cur : sep c -> id_toks (a ++ c :: b) cur = id_toks a cur ++ id_toks b [].
Proof.
  intros C. revert cur. induction a as [|x a IH]; intros cur.
  - cbn [app id_toks]. rewrite (id_sep_true _ C). destruct cur; reflexivity.
  - cbn [app id_toks]. destruct (id_sep x); [|apply IH]. rewrite IH. destruct cur; reflexivity.
Qed.
Lemma pieces_none l t : In t l -> piece t = None -> pieces l = None.
Proof. intros H P. induction l as [|x l IH]; [destruct H|]. cbn [pieces]. destruct H as [-> | H]; [rewrite P; reflexivity|]. destruct (piece x); [|reflexivity]. rewrite (IH H). reflexivity. Qed.
Lemma atoi_bad c r : is_digit c = false -> is_space c = false -> c <> 43 -> c <> 45 -> atoi (c :: r) = 0.
Proof.
  intros D W P M. unfold atoi, atoll. cbn [skip_space]. rewrite W. destruct (c =? 45) eqn:Q; [apply Z.eqb_eq in Q; congruence|]. destruct (c =? 43) eqn:R; [apply Z.eqb_eq in R; congruence|]. cbn [pdigits]. rewrite D. reflexivity.
Qed.
Lemma piece_bad t : no_id t -> piece t = None.
Proof.
  intros [-> | [(n & H & K) | (c & r & -> & D & W & P)]]; [reflexivity| |].
  { assert (G : forall e, atoi e = 0 -> piece (zdec n ++ 45 :: e) = None).
    { intros e E0. unfold piece. rewrite index_digits by (apply udec_nodash; unfold id in H; lia). cbv zeta.
      replace (skipn (S (length (zdec n))) (zdec n ++ 45 :: e)) with e.
      2:{ replace (S (length (zdec n))) with (length (zdec n ++ [45])) by (rewrite app_length; cbn [length]; lia). change (zdec n ++ 45 :: e) with (zdec n ++ [45] ++ e). rewrite app_assoc, skipn_app, skipn_all, Nat.sub_diag. reflexivity. }
      rewrite E0. change (0 <=? 0) with true. rewrite orb_true_r. reflexivity. }
    destruct K as [-> | [-> | ->]]; [apply G; reflexivity|apply G; reflexivity|]. reflexivity. }
  unfold piece. cbn [WebModel.index]. destruct (c =? 45) eqn:M.
  - apply Z.eqb_eq in M. subst c. cbv zeta. cbn [firstn]. reflexivity.
  - apply Z.eqb_neq in M. destruct (WebModel.index 45 r) as [i|]; cbn [option_map]; cbv zeta.
    + change (firstn (S i) (c :: r)) with (c :: firstn i r). change (firstn 99 (c :: firstn i r)) with (c :: firstn 98 (firstn i r)). rewrite (atoi_bad _ _ D W P M). reflexivity.
    + rewrite (atoi_bad _ _ D W P M). reflexivity.
Qed.
Lemma toks_has w : has_no_id w -> exists t, In t (id_toks w []) /\ piece t = None.
Proof.
  intros (a & t & b & -> & B & N & Ha & Hb). exists t. split; [|apply piece_bad; exact B].
  assert (T : t <> []). { destruct B as [-> | [(n & _ & [-> | [-> | ->]]) | (c & r & -> & _)]]; try discriminate; intros Q; apply app_eq_nil in Q as [_ Q]; discriminate Q. }
  assert (K : In t (id_toks (t ++ b) [])).
  { rewrite (toks_word _ _ [] N). cbn [app]. destruct Hb as [-> | (c & b' & -> & C)]; cbn [id_toks]; [|rewrite (id_sep_true _ C)]; rewrite (put_ne _ _ T); left; reflexivity. }
  destruct Ha as [-> | (a' & c & -> & C)]; [exact K|]. rewrite <- app_assoc. cbn [app]. rewrite (toks_app _ _ _ _ C). apply in_or_app. right. exact K.
Qed.
Lemma id_list_refused ws : Exists has_no_id ws -> id_list ws = None.
Proof.
  intros H. apply Exists_exists in H as (w & I0 & H). destruct (toks_has w H) as (t & I1 & P). apply (pieces_none _ t); [|exact P]. apply in_flat_map. exists w. split; assumption.
Qed.
