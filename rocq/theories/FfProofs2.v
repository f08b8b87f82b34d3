(** Proofs about the reading of RSS-feeds: titles, descriptions, addresses, and what an item gets. *)
From Coq Require Import String.
From Verif Require Import Base NumFmt WildModel WildSpec TextProofs CodecModel CodecProofs CodecProofs2 WebModel WebProofs NzbModel NzbSpec NzbProofs Rfc822Model FfModel FfSpec FfProofs.
Open Scope list_scope. Open Scope Z_scope.

(** ** Titles *)
Lemma last_index_some c s k : last_index c s = Some k -> s = firstn k s ++ c :: skipn (S k) s /\ ~ In c (skipn (S k) s).
Proof.
  revert k. induction s as [|x r IH]; intros k; [discriminate|]. cbn [last_index]. destruct (last_index c r) as [j|] eqn:Q.
  - intros H. injection H as <-. destruct (IH j eq_refl) as (A & B). cbn [firstn app]. split; [f_equal; exact A|exact B].
  - destruct (x =? c) eqn:X; [|discriminate]. intros H. injection H as <-. cbn [firstn skipn app]. split; [f_equal; lia|].
    clear - Q. induction r as [|y r IH]; [intros []|]. cbn [last_index] in Q. destruct (last_index c r); [discriminate|]. destruct (y =? c) eqn:Y; [discriminate|]. intros [H|H]; [lia|exact (IH eq_refl H)].
Qed.
Lemma last_index_none c s : last_index c s = None -> ~ In c s.
Proof.
  induction s as [|y r IH]; [intros _ []|]. cbn [last_index]. destruct (last_index c r); [discriminate|]. destruct (y =? c) eqn:Y; [discriminate|]. intros _ [H|H]; [lia|exact (IH eq_refl H)].
Qed.
Lemma lower_dot c : WildModel.lower c = 46 -> c = 46.
Proof. unfold WildModel.lower. destruct (_ && _) eqn:Q; lia. Qed.
Lemma like_par2 e : like e (str ".par2") -> exists r, e = 46 :: r /\ ~ In 46 r.
Proof.
  unfold like. change (map WildModel.lower (str ".par2")) with [46; 112; 97; 114; 50]. destruct e as [|a [|b [|c [|d [|f [|g e]]]]]]; cbn [map]; intros H; try discriminate.
  injection H as H1 H2 H3 H4 H5. apply lower_dot in H1. subst a. eexists. split; [reflexivity|]. intros [Q|[Q|[Q|[Q|[]]]]]; subst; vm_compute in H2, H3, H4, H5; discriminate.
Qed.
Lemma last_dot_unique (f r g h : list Z) : f ++ 46 :: r = g ++ 46 :: h -> ~ In 46 r -> ~ In 46 h -> f = g /\ r = h.
Proof.
  revert g. induction f as [|x f IH]; intros [|y g] Q N1 N2; cbn [app] in Q.
  - injection Q as Q. split; [reflexivity|exact Q].
  - injection Q as Q1 Q2. exfalso. apply N1. rewrite Q2. apply in_or_app. right. left. reflexivity.
  - injection Q as Q1 Q2. exfalso. apply N2. rewrite <- Q2. apply in_or_app. right. left. reflexivity.
  - injection Q as Q1 Q2. destruct (IH g Q2 N1 N2) as (-> & ->). subst. split; reflexivity.
Qed.
Lemma without_ok b : par2_off b (without_par2 b).
Proof.
  unfold without_par2. destruct (last_index 46 b) as [k|] eqn:Q.
  - destruct (last_index_some _ _ _ Q) as (D & N). unfold nocase_eq. destruct (beqb _ _) eqn:X.
    + left. exists (skipn k b). split; [rewrite firstn_skipn; reflexivity|]. apply beqb_eq in X. exact X.
    + right. split; [reflexivity|]. intros x e H L. destruct (like_par2 e L) as (r & -> & R).
      assert (H' := H). rewrite D in H'. apply last_dot_unique in H'; [|assumption|assumption]. destruct H' as (H1 & H2).
      assert (S1 : skipn k b = 46 :: r).
      { assert (D' := D). rewrite <- (firstn_skipn k b) in D' at 1. apply app_inv_head in D'. rewrite D', H2. reflexivity. }
      rewrite S1 in X. unfold like in L. rewrite L in X. rewrite beqb_refl in X. discriminate.
  - right. split; [reflexivity|]. intros x e -> L. destruct (like_par2 e L) as (r & -> & R). apply (last_index_none _ _ Q). apply in_or_app. right. left. reflexivity.
Qed.
Lemma subject_ok t : title_ok t -> exists f, parse_subject t = Some f /\ subject t f.
Proof.
  intros T. unfold parse_subject. destruct (WebModel.index 34 t) as [i|] eqn:Q.
  - destruct (index_some _ _ _ Q) as (D & N). remember (firstn i t) as a eqn:EA. remember (skipn (S i) t) as r eqn:ER. clear EA ER Q.
    destruct (T a r D N) as (R1 & R2). destruct r as [|c s]; [congruence|]. assert (C : c <> 34) by (intros ->; exact (R2 s eq_refl)).
    destruct (WebModel.index 34 s) as [j|] eqn:J.
    + destruct (index_some _ _ _ J) as (D2 & N2).
      assert (B : ~ In 34 (c :: firstn j s)) by (intros [H|H]; [lia|exact (N2 H)]).
      assert (LJ : (j < length s)%nat).
      { assert (L := f_equal (@length Z) D2). rewrite app_length in L. cbn [length] in L. rewrite firstn_length, skipn_length in L. lia. }
      assert (DT : t = a ++ 34 :: (c :: firstn j s) ++ 34 :: skipn (S j) s).
      { rewrite D. cbn [app]. rewrite <- D2. reflexivity. }
      assert (ND : (forall k, WebModel.index 46 s = Some k -> (j <= k)%nat) -> ~ dotted (c :: firstn j s)).
      { intros K (x & y & E1 & E2). destruct x as [|c' x]; [congruence|]. injection E1 as _ E1.
        destruct (WebModel.index 46 s) as [k|] eqn:P.
        - specialize (K k eq_refl). destruct (index_some _ _ _ P) as (D3 & N3). apply N3. rewrite <- (firstn_skipn j (firstn k s)). apply in_or_app. left.
          rewrite firstn_firstn, Nat.min_l by lia. rewrite E1. apply in_or_app. right. left. reflexivity.
        - apply (index_none _ _ P). rewrite <- (firstn_skipn j s), E1. apply in_or_app. left. apply in_or_app. right. left. reflexivity. }
      destruct (WebModel.index 46 s) as [k|] eqn:P.
      * destruct (k <? j)%nat eqn:KJ.
        -- eexists. split; [reflexivity|]. rewrite DT at 1. change (firstn (S j) (c :: s)) with (c :: firstn j s). apply sj_name; [exact N|exact B| |apply without_ok].
           destruct (index_some _ _ _ P) as (D3 & N3). exists (c :: firstn k s), (firstn (j - S k) (skipn (S k) s)). split; [|discriminate].
           cbn [app]. f_equal. apply Nat.ltb_lt in KJ. rewrite D3 at 1.
           assert (LK : length (firstn k s) = k) by (rewrite firstn_length; lia).
           rewrite firstn_app, LK. rewrite firstn_all2 by lia. replace (j - k)%nat with (S (j - S k)) by lia. reflexivity.
        -- eexists. split; [reflexivity|]. rewrite DT at 1 2. apply sj_plain; [exact N|exact B|discriminate|]. apply ND. intros k' H. injection H as <-. apply Nat.ltb_ge in KJ. exact KJ.
      * eexists. split; [reflexivity|]. rewrite DT at 1 2. apply sj_plain; [exact N|exact B|discriminate|]. apply ND. discriminate.
    + eexists. split; [reflexivity|]. rewrite D. apply sj_open; [exact N| |discriminate]. intros [H|H]; [lia|exact (index_none _ _ J H)].
  - eexists. split; [reflexivity|]. apply sj_none. apply index_none, Q.
Qed.

(** ** Descriptions and addresses *)
Lemma decode_plain step s : (forall c t, c <> 38 -> step (c :: t) = SOut [c] 1) -> step [] = SStop -> ~ In 38 s -> forall n, (length s < n)%nat -> decode step n s = Some s.
Proof.
  intros S1 S0. induction s as [|c s IH]; intros N n L; (destruct n as [|n]; [cbn [length] in L; lia|]); cbn [decode].
  - rewrite S0. reflexivity.
  - rewrite S1 by (intros ->; apply N; left; reflexivity). change (skipn 1 (c :: s)) with s. rewrite IH; [reflexivity|intros H; apply N; right; exact H|cbn [length] in L; lia].
Qed.
Lemma xml_plain s : ~ In 38 s -> xml_decode s = Some s.
Proof.
  intros N. unfold xml_decode. apply decode_plain; [|reflexivity|exact N|lia]. intros c t C. unfold xml_step. destruct (c =? 38) eqn:Q; [lia|reflexivity].
Qed.
Lemma ent_plain s : ~ In 38 s -> remove_entities s = Some s.
Proof.
  intros N. unfold remove_entities. apply decode_plain; [|reflexivity|exact N|lia]. intros c t C. unfold ent_step. destruct (c =? 38) eqn:Q; [lia|reflexivity].
Qed.
Lemma strip_ok n : forall s, (length s < n)%nat -> stripped s (strip_go n s).
Proof.
  induction n as [|n IH]; intros s L; [lia|]. cbn [strip_go]. destruct (WebModel.index 60 s) as [i|] eqn:Q.
  - destruct (index_some _ _ _ Q) as (D & N). destruct (WebModel.index 62 (skipn i s)) as [j|] eqn:J.
    + destruct (index_some _ _ _ J) as (D2 & N2).
      assert (SK : skipn i s = 60 :: skipn (S i) s).
      { assert (D' := D). rewrite <- (firstn_skipn i s) in D' at 1. apply app_inv_head in D'. exact D'. }
      assert (J0 : j <> O) by (intros ->; rewrite SK in J; cbn [WebModel.index] in J; change (60 =? 62) with false in J; cbv iota in J; destruct (WebModel.index 62 (skipn (S i) s)); discriminate).
      destruct j as [|j]; [congruence|].
      remember (skipn (S (S j)) (skipn i s)) as rest eqn:ER. rewrite SK in D2. change (skipn (S (S j)) (60 :: skipn (S i) s)) with (skipn (S j) (skipn (S i) s)) in D2.
      change (firstn (S j) (60 :: skipn (S i) s)) with (60 :: firstn j (skipn (S i) s)) in D2. rewrite <- app_comm_cons in D2.
      assert (ER' : rest = skipn (S j) (skipn (S i) s)) by (rewrite ER, SK; reflexivity).
      assert (LR : (length rest < n)%nat).
      { rewrite ER, !skipn_length. assert (LS : (i < length s)%nat) by (assert (LL := f_equal (@length Z) SK); rewrite skipn_length in LL; cbn [length] in LL; lia). lia. }
      destruct (IH rest LR) as (ps & l & P1 & P2 & P3 & P4). assert (D2' := f_equal (@tl Z) D2). change (skipn (S i) s = firstn j (skipn (S i) s) ++ 62 :: rest) in D2'. clear D2. rename D2' into D2.
      exists ((firstn i s, firstn j (skipn (S i) s)) :: ps), l. split; [|split; [exact P2|split]].
      * constructor; [|exact P1]. cbn [fst snd]. split; [exact N|]. intros H. apply N2. rewrite SK. cbn [firstn]. right. exact H.
      * cbn [map concat fst snd]. rewrite D at 1. rewrite <- !app_assoc. cbn [app]. f_equal. f_equal. rewrite D2 at 1. rewrite <- app_assoc. cbn [app]. f_equal. f_equal. exact P3.
      * cbn [map concat fst snd]. rewrite <- !app_assoc. f_equal. rewrite P4.
        assert (LJ : length (firstn j (skipn (S i) s)) = j).
        { assert (LL := f_equal (@length Z) D2). rewrite app_length in LL. cbn [length] in LL. rewrite !firstn_length in *. lia. }
        rewrite LJ. reflexivity.
    + exists [], s. split; [constructor|]. split; [|split; reflexivity]. right.
      assert (SK : skipn i s = 60 :: skipn (S i) s).
      { assert (D' := D). rewrite <- (firstn_skipn i s) in D' at 1. apply app_inv_head in D'. exact D'. }
      exists (firstn i s), (skipn (S i) s). split; [exact D|]. split; [exact N|]. intros H. apply (index_none _ _ J). rewrite SK. right. exact H.
  - exists [], s. split; [constructor|]. split; [left; apply index_none, Q|]. split; reflexivity.
Qed.
Lemma stripped_amp t d : stripped t d -> ~ In 38 t -> ~ In 38 d.
Proof.
  intros (ps & l & _ & _ & -> & ->) N H. apply in_app_or in H. destruct H as [H|H]; [|apply N, in_or_app; right; exact H].
  apply in_concat in H. destruct H as (x & X & H). apply in_map_iff in X. destruct X as (p & <- & P). apply in_app_or in H. destruct H as [H|H].
  - apply N, in_or_app. left. apply in_concat. eexists. split; [apply in_map_iff; exists p; split; [reflexivity|exact P]|]. apply in_or_app. left. exact H.
  - apply repeat_spec in H. lia.
Qed.
Lemma description_ok t : t <> [] -> ~ In 38 t -> exists d, description (opt_text None t) = Some d /\ stripped t d.
Proof.
  intros T N. rewrite opt_text_content. destruct t as [|x t]; [congruence|]. cbn [description]. unfold strip_tags.
  pose proof (strip_ok (S (length (x :: t))) (x :: t) (Nat.lt_succ_diag_r _)) as H. pose proof (stripped_amp _ _ H N) as A.
  rewrite xml_plain by exact A. rewrite ent_plain by exact A. eexists. split; [reflexivity|exact H].
Qed.
Lemma prefixb_app p s : prefixb p s = true -> exists r, s = p ++ r.
Proof.
  revert s. induction p as [|x p IH]; intros s H; [exists s; reflexivity|]. destruct s as [|y s]; [discriminate|]. cbn [prefixb] in H. apply andb_prop in H as [H1 H2].
  destruct (IH s H2) as (r & ->). exists r. cbn [app]. f_equal. lia.
Qed.
Lemma url_ok n : forall s, (forall a b, s = a ++ 38 :: b -> b <> [] /\ forall e r, In e ["lt;"; "gt;"; "amp;"; "apos;"; "quot;"; "#"]%string -> b <> str e ++ r) ->
  (length s < n)%nat -> decode xml_step n s = Some s.
Proof.
  induction n as [|n IH]; intros s H L; [lia|]. cbn [decode]. destruct s as [|c t]; [reflexivity|]. unfold xml_step at 1. destruct (c =? 38) eqn:C.
  - apply Z.eqb_eq in C. subst c. destruct (H [] t eq_refl) as (T & F).
    assert (G : forall e, In e ["lt;"; "gt;"; "amp;"; "apos;"; "quot;"]%string -> prefixb (str e) t = false).
    { intros e I. destruct (prefixb (str e) t) eqn:P; [|reflexivity]. destruct (prefixb_app _ _ P) as (r & R). exfalso. apply (F e r); [|exact R]. cbn [In] in *. tauto. }
    rewrite !G by (cbn [In]; tauto). destruct t as [|d u]; [congruence|].
    destruct (d =? 35) eqn:D; [exfalso; apply Z.eqb_eq in D; subst d; apply (F "#"%string u); [cbn [In]; tauto|reflexivity]|].
    change (skipn 2 (38 :: d :: u)) with u. rewrite IH; [reflexivity| |cbn [length] in L; lia].
    intros a b ->. apply (H (38 :: d :: a) b). reflexivity.
  - change (skipn 1 (c :: t)) with t. rewrite IH; [reflexivity| |cbn [length] in L; lia]. intros a b ->. apply (H (c :: a) b). reflexivity.
Qed.
