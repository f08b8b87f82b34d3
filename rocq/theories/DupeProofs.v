(** Proofs about duplicates. *)
From Verif Require Import Base WildModel InfoModel StatusModel DupeModel DupeSpec.
Open Scope list_scope. Open Scope Z_scope.

Lemma nocase_iff a b : same_nocase a b = true <-> ieq a b.
Proof. unfold same_nocase, ieq. apply beqb_eq. Qed.
Lemma title_iff n1 k1 n2 k2 : same_name_or_key n1 k1 n2 k2 = true <-> same_title n1 k1 n2 k2.
Proof.
  unfold same_name_or_key, same_title. destruct k1 as [|a1 k1], k2 as [|a2 k2]; cbn [empty negb andb orb]; rewrite ?nocase_iff, ?orb_false_r, ?nocase_iff.
  - split; [intros H; right; auto|]. intros [(H & _)|[_ H]]; [contradiction|exact H].
  - split; [intros H; right; auto|]. intros [(H & _)|[_ H]]; [contradiction|exact H].
  - split; [intros H; right; auto|]. intros [(_ & H & _)|[_ H]]; [contradiction|exact H].
  - split; [intros H; left; split; [discriminate|]; split; [discriminate|exact H]|]. intros [(_ & _ & H)|[[H|H] _]]; [exact H|discriminate|discriminate].
Qed.
Lemma hash_iff a b c d : same_hash a b c d = true <-> same_content a b c d.
Proof. unfold same_hash, same_content. lia. Qed.
Lemma force_iff m : is_force m = false <-> m <> dmForce.
Proof. destruct m; split; intros H; try reflexivity; try discriminate; contradiction. Qed.
Lemma score_iff m : is_score m = true <-> m = dmScore.
Proof. destruct m; split; intros H; try reflexivity; discriminate. Qed.
Lemma good_iff m : is_good m = true <-> m = ksGood.
Proof. destruct m; split; intros H; try reflexivity; discriminate. Qed.
Lemma du_good_iff m : du_good m = true <-> m = duGood.
Proof. destruct m; split; intros H; try reflexivity; discriminate. Qed.
Lemma du_success_iff m : du_success m = true <-> m = duSuccess.
Proof. destruct m; split; intros H; try reflexivity; discriminate. Qed.
Lemma success_iff it : success it = true <-> is_dupe_success (it_out it) = Some true.
Proof. unfold success. destruct (is_dupe_success _) as [[]|]; split; intros H; try reflexivity; discriminate. Qed.
Lemma marks_iff k s : has_marks k s = true <-> marks k s.
Proof.
  unfold has_marks, marks. destruct k as [|a k]; cbn [empty negb orb]; [|split; [intros _; left; discriminate|reflexivity]].
  split; [intros H; right; lia|]. intros [H|H]; [contradiction|lia].
Qed.
Lemma queue_dupe_iff x key y : queue_dupe x key y = true <-> rival x key y.
Proof.
  unfold queue_dupe, rival. rewrite !andb_true_iff, title_iff, negb_true_iff, (negb_true_iff (is_force _)), force_iff, Z.eqb_neq.
  assert (D : not_deleted (o_delete (it_out y)) = true <-> o_delete (it_out y) = dsNone) by (destruct (o_delete (it_out y)); split; intros H; try reflexivity; discriminate).
  assert (K : is_nzb (o_kind (it_out y)) || (is_url (o_kind (it_out y)) && is_url (o_kind (it_out x))) = true <-> (o_kind (it_out y) = nkNzb \/ o_kind (it_out x) = nkUrl)).
  { destruct (o_kind (it_out y)), (o_kind (it_out x)); cbn; split; intros H; auto; try discriminate. destruct H; discriminate. }
  rewrite D, K. tauto.
Qed.
Lemma queued_copy_iff q x : queued_copy q x = true <-> exists y, In y q /\ it_id y <> it_id x /\ o_kind (it_out x) = nkNzb /\ copy_of_item x y.
Proof.
  unfold queued_copy. rewrite existsb_exists. split.
  - intros (y & I & H). apply andb_true_iff in H as [H K]. apply andb_true_iff in H as [H1 H2]. exists y. split; [exact I|].
    split; [apply negb_true_iff, Z.eqb_neq in H1; exact H1|]. split; [destruct (o_kind (it_out x)); [reflexivity|discriminate]|]. apply hash_iff, H2.
  - intros (y & I & H1 & H2 & H3). exists y. split; [exact I|]. apply hash_iff in H3. rewrite H3, H2. apply Z.eqb_neq in H1. rewrite H1. reflexivity.
Qed.

(** The first loop over the history. *)
Lemma look_skip h x key score : fst (fst (look_history h x key score)) = true <->
  exists y, In y h /\ (copy_of_hist x y \/ good_dupe y (it_name x) key \/
    (it_mode x = dmScore /\ exists d, y = HDup d /\ dp_status d = duSuccess /\ success_dupe y (it_name x) key (dp_score d) /\ score <= dp_score d)).
Proof.
  induction h as [|y h IH]; cbn [look_history].
  - split; [discriminate|]. intros (y & [] & _).
  - assert (SKIP : (exists z, In z (y :: h) /\ (copy_of_hist x z \/ good_dupe z (it_name x) key \/
      (it_mode x = dmScore /\ exists d, z = HDup d /\ dp_status d = duSuccess /\ success_dupe z (it_name x) key (dp_score d) /\ score <= dp_score d))) <->
      (copy_of_hist x y \/ good_dupe y (it_name x) key \/
      (it_mode x = dmScore /\ exists d, y = HDup d /\ dp_status d = duSuccess /\ success_dupe y (it_name x) key (dp_score d) /\ score <= dp_score d)) \/
      fst (fst (look_history h x key score)) = true).
    { rewrite IH. split.
      - intros (z & [-> |I] & H); [left; exact H|right; exists z; split; assumption].
      - intros [H|(z & I & H)]; [exists y; split; [left; reflexivity|exact H]|exists z; split; [right; exact I|exact H]]. }
    rewrite SKIP. clear SKIP IH. destruct y as [it|it|d]; cbn [copy_of_hist good_dupe success_dupe].
    + destruct (same_hash _ _ _ _) eqn:SH; [apply hash_iff in SH; split; [intros _; left; left; exact SH|reflexivity]|].
      destruct (negb (is_force (it_mode it)) && _ && _) eqn:G.
      * split; [|reflexivity]. intros _. left. right. left. apply andb_true_iff in G as [G G3]. apply andb_true_iff in G as [G1 G2].
        apply negb_true_iff, force_iff in G1. apply good_iff in G2. apply title_iff in G3. auto.
      * split; [intros H; right; exact H|]. intros [[H|[(H1 & H2 & H3)|(_ & d & E & _)]]|H]; [|exfalso|discriminate|exact H].
        -- exfalso. assert (Q := proj2 (hash_iff (it_full x) (it_filtered x) (it_full it) (it_filtered it)) H). congruence.
        -- apply force_iff in H1. apply good_iff in H2. apply title_iff in H3. rewrite H1, H2, H3 in G. discriminate.
    + split; [intros H; right; exact H|]. intros [[[]|[[]|(_ & d & E & _)]]|H]; [discriminate|exact H].
    + destruct (same_hash _ _ _ _) eqn:SH; [apply hash_iff in SH; split; [intros _; left; left; exact SH|reflexivity]|].
      destruct (negb (is_force (dp_mode d)) && _ && _) eqn:G.
      * split; [|reflexivity]. intros _. left. right. apply andb_true_iff in G as [G G3]. apply andb_true_iff in G as [G1 G2].
        apply negb_true_iff, force_iff in G1. apply title_iff in G3. apply orb_true_iff in G2 as [G2|G2].
        -- left. apply du_good_iff in G2. auto.
        -- right. apply andb_true_iff in G2 as [G2 G4]. apply andb_true_iff in G2 as [G2 G5]. apply score_iff in G2. apply du_success_iff in G5.
           split; [exact G2|]. exists d. split; [reflexivity|]. split; [exact G5|]. split; [|lia]. split; [exact G1|]. split; [left; exact G5|]. split; [exact G3|reflexivity].
      * split; [intros H; right; exact H|]. intros [[H|[(H1 & H2 & H3)|(M & d' & E & S & (H1 & _ & H3 & _) & L)]]|H]; [exfalso|exfalso|exfalso|exact H].
        -- assert (Q := proj2 (hash_iff (it_full x) (it_filtered x) (dp_full d) (dp_filtered d)) H). congruence.
        -- apply force_iff in H1. apply du_good_iff in H2. apply title_iff in H3. rewrite H1, H2, H3 in G. discriminate.
        -- injection E as <-. apply force_iff in H1. apply title_iff in H3. apply score_iff in M. apply du_success_iff in S.
           rewrite H1, H3, M, S in G. replace (score <=? dp_score d) with true in G by lia. rewrite orb_true_r in G. discriminate.
Qed.
(** Content implies skip. *)
Lemma look_content h x key score : snd (look_history h x key score) = true -> exists y, In y h /\ copy_of_hist x y.
Proof.
  induction h as [|y h IH]; cbn [look_history]; [discriminate|]. destruct y as [it|it|d].
  - destruct (same_hash _ _ _ _) eqn:SH; [intros _; exists (HNzb it); split; [left; reflexivity|apply hash_iff, SH]|].
    destruct (_ && _ && _); [discriminate|]. intros H. destruct (IH H) as (z & I & C). exists z. split; [right; exact I|exact C].
  - intros H. destruct (IH H) as (z & I & C). exists z. split; [right; exact I|exact C].
  - destruct (same_hash _ _ _ _) eqn:SH; [intros _; exists (HDup d); split; [left; reflexivity|apply hash_iff, SH]|].
    destruct (_ && _ && _); [discriminate|]. intros H. destruct (IH H) as (z & I & C). exists z. split; [right; exact I|exact C].
Qed.
Lemma look_parts h x key score : let '(skip, good, content) := look_history h x key score in (good = true -> skip = true) /\ (content = true -> skip = true).
Proof.
  induction h as [|y h IH]; cbn [look_history]; [split; discriminate|]. destruct y as [it|it|d].
  - destruct (same_hash _ _ _ _); [split; reflexivity|]. destruct (_ && _ && _); [split; reflexivity|]. exact IH.
  - exact IH.
  - destruct (same_hash _ _ _ _); [split; reflexivity|]. destruct (_ && _ && _); [split; reflexivity|]. exact IH.
Qed.
Lemma recent_iff h x key score : recent_success h x key score = true <->
  exists y s, In y h /\ (forall d, y <> HDup d) /\ success_dupe y (it_name x) key s /\ score <= s.
Proof.
  unfold recent_success. rewrite existsb_exists. split.
  - intros (y & I & H). destruct y as [it|it|d]; [| |discriminate];
      (apply andb_true_iff in H as [H H4]; apply andb_true_iff in H as [H H3]; apply andb_true_iff in H as [H1 H2];
       apply negb_true_iff, force_iff in H1; apply title_iff in H2; apply success_iff in H4; eexists _, (it_score it); (split; [exact I|]); split; [discriminate|];
       split; [cbn; auto|lia]).
  - intros (y & s & I & ND & S & L). exists y. split; [exact I|]. destruct y as [it|it|d]; [| |destruct (ND d); reflexivity];
      (destruct S as (S1 & S2 & S3 & ->); apply force_iff in S1; apply title_iff in S3; apply success_iff in S2; rewrite S1, S2, S3; cbn; lia).
Qed.

(** ** The loop over the queue *)
Definition settle (x : item) (key : list Z) (y : item) : list item :=
  if queue_dupe x key y && negb (it_post y) then if it_active y then [set_delete y dsDupe] else [] else [y].
Definition leaves (x : item) (key : list Z) (y : item) : bool := queue_dupe x key y && negb (it_post y) && negb (it_active y).
Lemma nth_mid {A} (a : list A) y b : nth_error (a ++ y :: b) (length a) = Some y.
Proof. rewrite nth_error_app2 by lia. rewrite Nat.sub_diag. reflexivity. Qed.
Lemma replace_mid a y y' b : replace_at (length a) y' (a ++ y :: b) = a ++ y' :: b.
Proof. induction a as [|z a IH]; [reflexivity|]. cbn [app length replace_at]. rewrite IH. reflexivity. Qed.
Lemma remove_mid a y b : remove_at (length a) (a ++ y :: b) = a ++ b.
Proof. induction a as [|z a IH]; [reflexivity|]. cbn [app length remove_at]. rewrite IH. reflexivity. Qed.
Lemma queue_loop_ok x key score : forall b fuel a moved, (length b < fuel)%nat ->
  exists res q1 m1, queue_loop fuel x key score (a ++ b) moved (length a) = Some (res, q1, m1) /\
    (res = true <-> exists y, In y b /\ queue_dupe x key y = true /\ score <= it_score y) /\
    (res = false -> q1 = a ++ concat (map (settle x key) b) /\ m1 = rev (map (fun y => set_delete y dsDupe) (filter (leaves x key) b)) ++ moved).
Proof.
  induction b as [|y b IH]; intros fuel a moved L; (destruct fuel as [|fuel]; [inversion L|]); cbn [queue_loop].
  - rewrite app_nil_r. replace (nth_error a (length a)) with (@None item) by (symmetry; apply nth_error_None; lia).
    eexists _, _, _. split; [reflexivity|]. split; [split; [discriminate|intros (y & [] & _)]|]. intros _. cbn. rewrite app_nil_r. split; reflexivity.
  - rewrite nth_mid. cbn [length] in L. destruct (queue_dupe x key y) eqn:D.
    + destruct (score <=? it_score y) eqn:SC.
      { eexists _, _, _. split; [reflexivity|]. split; [|discriminate]. split; [|reflexivity]. intros _. exists y. split; [left; reflexivity|]. split; [exact D|lia]. }
      assert (EX : forall P, (P <-> exists z, In z b /\ queue_dupe x key z = true /\ score <= it_score z) -> (P <-> exists z, In z (y :: b) /\ queue_dupe x key z = true /\ score <= it_score z)).
      { intros P H. rewrite H. split; intros (z & I & HZ); exists z; [split; [right; exact I|exact HZ]|]. destruct I as [<-|I]; [lia|]. split; assumption. }
      cbn [map concat filter]. unfold settle at 1, leaves at 1. rewrite D. destruct (it_post y) eqn:PO; cbn [negb andb].
      * replace (a ++ y :: b) with ((a ++ [y]) ++ b) by (rewrite <- app_assoc; reflexivity). replace (S (length a)) with (length (a ++ [y])) by (rewrite app_length; cbn; lia).
        destruct (IH fuel (a ++ [y]) moved) as (res & q1 & m1 & E & H1 & H2); [lia|]. exists res, q1, m1. split; [exact E|]. split; [apply EX, H1|].
        intros R. destruct (H2 R) as [-> ->]. rewrite <- app_assoc. split; reflexivity.
      * destruct (it_active y) eqn:AC; cbn [negb].
        -- rewrite replace_mid. replace (length (a ++ y :: b)) with (length (a ++ set_delete y dsDupe :: b)) by (rewrite !app_length; reflexivity). rewrite Nat.eqb_refl.
           replace (a ++ set_delete y dsDupe :: b) with ((a ++ [set_delete y dsDupe]) ++ b) by (rewrite <- app_assoc; reflexivity).
           replace (S (length a)) with (length (a ++ [set_delete y dsDupe])) by (rewrite app_length; cbn; lia).
           destruct (IH fuel (a ++ [set_delete y dsDupe]) moved) as (res & q1 & m1 & E & H1 & H2); [lia|]. exists res, q1, m1. split; [exact E|]. split; [apply EX, H1|].
           intros R. destruct (H2 R) as [-> ->]. rewrite <- app_assoc. split; reflexivity.
        -- rewrite remove_mid. replace (Nat.eqb (length (a ++ y :: b)) (length (a ++ b))) with false by (symmetry; apply Nat.eqb_neq; rewrite !app_length; cbn; lia).
           destruct (IH fuel a (set_delete y dsDupe :: moved)) as (res & q1 & m1 & E & H1 & H2); [lia|]. exists res, q1, m1. split; [exact E|]. split; [apply EX, H1|].
           intros R. destruct (H2 R) as [-> ->]. split; [reflexivity|]. cbn [map rev]. rewrite <- app_assoc. reflexivity.
    + cbn [map concat filter]. unfold settle at 1, leaves at 1. rewrite D. cbn [andb].
      replace (a ++ y :: b) with ((a ++ [y]) ++ b) by (rewrite <- app_assoc; reflexivity). replace (S (length a)) with (length (a ++ [y])) by (rewrite app_length; cbn; lia).
      destruct (IH fuel (a ++ [y]) moved) as (res & q1 & m1 & E & H1 & H2); [lia|]. exists res, q1, m1. split; [exact E|]. split.
      * rewrite H1. split; intros (z & I & HZ); exists z; [split; [right; exact I|exact HZ]|]. destruct I as [<-|I]; [destruct HZ; congruence|]. split; assumption.
      * intros R. destruct (H2 R) as [-> ->]. rewrite <- app_assoc. split; reflexivity.
Qed.

(** ** The decision *)
Theorem found_decision : forall q h x, it_hint x = false -> o_delete (it_out x) = dsNone ->
  exists r, nzb_found q h x = Some r /\ (r_delete r <> dsNone <-> refused q h x (r_key r) (r_score r)).
Proof.
  intros q h x HN DN. unfold nzb_found. destruct (queued_copy q x) eqn:QC.
  { eexists. split; [reflexivity|]. cbn [r_delete r_key r_score]. split; [|destruct (it_feed x); discriminate].
    intros _. apply queued_copy_iff in QC as (y & H1 & H2 & H3 & H4). exact (ref_queue_copy _ _ _ _ _ y H1 H2 H3 H4). }
  assert (QN : forall y, In y q -> it_id y <> it_id x -> o_kind (it_out x) = nkNzb -> copy_of_item x y -> False).
  { intros y H1 H2 H3 H4. assert (Q := proj2 (queued_copy_iff q x)). rewrite QC in Q. specialize (Q (ex_intro _ y (conj H1 (conj H2 (conj H3 H4))))). discriminate. }
  destruct (adopt q h x) as [key score]. assert (LS := look_skip h x key score). assert (LC := look_content h x key score). assert (LP := look_parts h x key score).
  assert (RI := recent_iff h x key score).
  destruct (look_history h x key score) as [[skip good] content]. cbn [fst snd] in *. rewrite HN, andb_false_r, andb_true_r. cbn [negb].
  destruct (negb content && negb good && is_score (it_mode x) && recent_success h x key score) eqn:RC.
  { eexists. split; [reflexivity|]. cbn [r_delete r_key r_score]. split; [|discriminate]. intros _.
    apply andb_true_iff in RC as [RC R]. apply andb_true_iff in RC as [_ M]. apply score_iff in M. apply RI in R as (y & s & I & _ & S & L).
    exact (ref_success _ _ _ _ _ y s M I S L). }
  destruct skip.
  { eexists. split; [reflexivity|]. cbn [r_delete r_key r_score]. split; [|destruct (it_feed x), content; discriminate]. intros _.
    destruct (proj1 LS eq_refl) as (y & I & [C|[G|(M & d & E & _ & S & L)]]).
    - exact (ref_history_copy _ _ _ _ _ y I C).
    - exact (ref_good _ _ _ _ _ y I G).
    - exact (ref_success _ _ _ _ _ y _ M I S L). }
  assert (good = false) as -> by (destruct good; [symmetry; exact (proj1 LP eq_refl)|reflexivity]).
  assert (content = false) as -> by (destruct content; [symmetry; exact (proj2 LP eq_refl)|reflexivity]). cbn [negb andb] in RC.
  assert (NR : refused q h x key score -> it_mode x = dmScore /\ exists y, In y q /\ rival x key y /\ score <= it_score y).
  { intros [y H1 H2 H3 H4|y I C|y I G|y s M I S L|y M I R L].
    - destruct (QN y H1 H2 H3 H4).
    - exfalso. assert (false = true); [|discriminate]. apply LS. exists y. split; [exact I|left; exact C].
    - exfalso. assert (false = true); [|discriminate]. apply LS. exists y. split; [exact I|right; left; exact G].
    - exfalso. destruct y as [it|it|d].
      + apply score_iff in M. rewrite M in RC. cbn in RC. assert (recent_success h x key score = true); [|congruence]. apply RI. exists (HNzb it), s. split; [exact I|]. split; [discriminate|]. split; assumption.
      + apply score_iff in M. rewrite M in RC. cbn in RC. assert (recent_success h x key score = true); [|congruence]. apply RI. exists (HUrl it), s. split; [exact I|]. split; [discriminate|]. split; assumption.
      + assert (false = true); [|discriminate]. apply LS. exists (HDup d). split; [exact I|]. destruct S as (S1 & [S2|S2] & S3 & ->).
        * right. right. split; [exact M|]. exists d. split; [reflexivity|]. split; [exact S2|]. split; [|exact L]. split; [exact S1|]. split; [left; exact S2|]. split; [exact S3|reflexivity].
        * right. left. split; [exact S1|]. split; [exact S2|exact S3].
    - split; [exact M|]. exists y. auto. }
  destruct (is_score (it_mode x)) eqn:M.
  - destruct (queue_loop_ok x key score q (S (length q)) [] [] ltac:(lia)) as (res & q1 & m1 & E & H1 & _). cbn [app length] in E. rewrite E.
    destruct res; (eexists; split; [reflexivity|]); cbn [r_delete r_key r_score].
    + split; [|discriminate]. intros _. destruct (proj1 H1 eq_refl) as (y & I & D & L). apply queue_dupe_iff in D. apply score_iff in M.
      exact (ref_queued _ _ _ _ _ y M I D L).
    + rewrite DN. split; [intros H; contradiction|]. intros R. apply NR in R as (_ & y & I & D & L). apply queue_dupe_iff in D.
      assert (false = true); [|discriminate]. apply H1. exists y. auto.
  - eexists. split; [reflexivity|]. cbn [r_delete r_key r_score]. rewrite DN. split; [intros H; contradiction|].
    intros R. apply NR in R as (M' & _). apply score_iff in M'. congruence.
Qed.

(** What the queue looks like afterwards. *)
Theorem found_queue : forall q h x r, it_hint x = false -> o_delete (it_out x) = dsNone -> nzb_found q h x = Some r -> r_delete r = dsNone ->
  (it_mode x = dmScore ->
    r_queue r = concat (map (settle x (r_key r)) q) /\
    r_moved r = rev (map (fun y => set_delete y dsDupe) (filter (leaves x (r_key r)) q)) /\
    forall y, In y q -> rival x (r_key r) y -> it_score y < r_score r) /\
  (it_mode x <> dmScore -> r_queue r = q /\ r_moved r = []).
Proof.
  intros q h x r HN DN E RD. unfold nzb_found in E. destruct (queued_copy q x); [injection E as <-; cbn in RD; destruct (it_feed x); discriminate|].
  destruct (adopt q h x) as [key score]. destruct (look_history h x key score) as [[skip good] content]. rewrite HN, andb_false_r, andb_true_r in E. cbn [negb] in E.
  destruct (negb content && _ && _ && _); [injection E as <-; discriminate|].
  destruct skip; [injection E as <-; cbn in RD; destruct (it_feed x), content; discriminate|].
  destruct (is_score (it_mode x)) eqn:M.
  - split; [|intros N; apply score_iff in M; contradiction]. intros _.
    destruct (queue_loop_ok x key score q (S (length q)) [] [] ltac:(lia)) as (res & q1 & m1 & E1 & H1 & H2). cbn [app length] in E1. rewrite E1 in E.
    destruct res; [injection E as <-; discriminate|]. injection E as <-. cbn [r_queue r_moved r_key r_score]. destruct (H2 eq_refl) as [-> ->]. rewrite app_nil_r.
    split; [reflexivity|]. split; [reflexivity|]. intros y I R. apply queue_dupe_iff in R. destruct (Z_lt_le_dec (it_score y) score) as [L|L]; [exact L|].
    assert (false = true); [|discriminate]. apply H1. exists y. auto.
  - injection E as <-. split; [intros N; apply score_iff in N; congruence|]. intros _. split; reflexivity.
Qed.

Lemma settle_settled x key q : settled x key q (concat (map (settle x key) q)) (rev (map (fun y => set_delete y dsDupe) (filter (leaves x key) q))).
Proof.
  induction q as [|y q IH]; [constructor|]. cbn [map concat filter]. unfold settle at 1, leaves at 1. destruct (queue_dupe x key y) eqn:D; cbn [andb].
  - assert (R := proj1 (queue_dupe_iff _ _ _) D). destruct (it_post y) eqn:P; cbn [negb andb]; [apply st_keep; [right; exact P|exact IH]|].
    destruct (it_active y) eqn:A; cbn [negb]; [apply st_mark; assumption|]. cbn [map rev app]. apply st_move; assumption.
  - apply st_keep; [|exact IH]. left. intros R. apply queue_dupe_iff in R. congruence.
Qed.
Theorem found_settled : forall q h x r, it_hint x = false -> o_delete (it_out x) = dsNone -> nzb_found q h x = Some r -> r_delete r = dsNone ->
  (it_mode x = dmScore -> settled x (r_key r) q (r_queue r) (r_moved r) /\ forall y, In y q -> rival x (r_key r) y -> it_score y < r_score r) /\ (it_mode x <> dmScore -> r_queue r = q /\ r_moved r = []).
Proof.
  intros q h x r HN DN E RD. destruct (found_queue q h x r HN DN E RD) as [F1 F2]. split; [|exact F2]. intros M. destruct (F1 M) as (-> & -> & L). split; [apply settle_settled|exact L].
Qed.

(** ** Key and score *)
Lemma adopt_queue_ok q name : match adopt_queue q name with
  | Some (k, s) => exists a y b, q = a ++ y :: b /\ donor (inl y) name k s /\ Forall (fun z => forall k s, ~ donor (inl z) name k s) a
  | None => Forall (fun z => forall k s, ~ donor (inl z) name k s) q end.
Proof.
  induction q as [|y q IH]; cbn [adopt_queue]; [constructor|]. destruct (beqb (it_name y) name && has_marks (it_key y) (it_score y)) eqn:H.
  - apply andb_true_iff in H as [H1 H2]. apply beqb_eq in H1. apply marks_iff in H2. exists [], y, q. split; [reflexivity|]. split; [cbn; auto|constructor].
  - assert (N : forall k s, ~ donor (inl y) name k s).
    { intros k s (H1 & <- & <- & H4). apply beqb_eq in H1. apply marks_iff in H4. rewrite H1, H4 in H. discriminate. }
    destruct (adopt_queue q name) as [[k s]|]; [|constructor; assumption]. destruct IH as (a & z & b & -> & D & F). exists (y :: a), z, b. split; [reflexivity|]. split; [exact D|constructor; assumption].
Qed.
Lemma adopt_history_ok h name : match adopt_history h name with
  | Some (k, s) => exists a y b, h = a ++ y :: b /\ donor (inr y) name k s /\ Forall (fun z => forall k s, ~ donor (inr z) name k s) a
  | None => Forall (fun z => forall k s, ~ donor (inr z) name k s) h end.
Proof.
  induction h as [|y h IH]; cbn [adopt_history]; [constructor|].
  assert (STEP : (forall k s, ~ donor (inr y) name k s) -> match adopt_history h name with
    | Some (k, s) => exists a z b, y :: h = a ++ z :: b /\ donor (inr z) name k s /\ Forall (fun z => forall k s, ~ donor (inr z) name k s) a
    | None => Forall (fun z => forall k s, ~ donor (inr z) name k s) (y :: h) end).
  { intros N. destruct (adopt_history h name) as [[k s]|]; [|constructor; assumption]. destruct IH as (a & z & b & -> & D & F). exists (y :: a), z, b. split; [reflexivity|]. split; [exact D|constructor; assumption]. }
  destruct y as [it|it|d].
  - destruct (beqb _ _ && _) eqn:H.
    + apply andb_true_iff in H as [H1 H2]. apply beqb_eq in H1. apply marks_iff in H2. exists [], (HNzb it), h. split; [reflexivity|]. split; [cbn; auto|constructor].
    + apply STEP. intros k s (H1 & <- & <- & H4). apply beqb_eq in H1. apply marks_iff in H4. rewrite H1, H4 in H. discriminate.
  - apply STEP. intros k s [].
  - destruct (beqb _ _ && _) eqn:H.
    + apply andb_true_iff in H as [H1 H2]. apply beqb_eq in H1. apply marks_iff in H2. exists [], (HDup d), h. split; [reflexivity|]. split; [cbn; auto|constructor].
    + apply STEP. intros k s (H1 & <- & <- & H4). apply beqb_eq in H1. apply marks_iff in H4. rewrite H1, H4 in H. discriminate.
Qed.
Lemma no_marks k s : has_marks k s = false -> k = [] /\ s = 0.
Proof. unfold has_marks. destruct k; cbn; [|discriminate]. intros H. split; [reflexivity|lia]. Qed.
Theorem adopt_ok q h x : adopted q h x (fst (adopt q h x)) (snd (adopt q h x)).
Proof.
  unfold adopt, adopted. cbn [fst snd]. destruct (has_marks (it_key x) (it_score x)) eqn:M; cbn [negb fst snd].
  { rewrite M. cbn [negb fst snd]. left. apply marks_iff in M. auto. }
  right. assert (M' := no_marks _ _ M). destruct M' as [K S]. split; [exact K|]. split; [exact S|].
  assert (AQ := adopt_queue_ok q (it_name x)). assert (AH := adopt_history_ok h (it_name x)). destruct (adopt_queue q (it_name x)) as [[k s]|].
  - cbn [fst snd]. destruct AQ as (a & y & b & -> & D & F). assert (MM : has_marks k s = true) by (apply marks_iff, D). rewrite MM. cbn [negb fst snd].
    left. exists (map inl a), (inl y), (map inl b ++ map inr h). split; [rewrite map_app, <- app_assoc; reflexivity|]. split; [exact D|].
    apply Forall_map. exact F.
  - cbn [fst snd]. rewrite M. cbn [negb]. assert (FQ : Forall (fun z => forall k s, ~ donor z (it_name x) k s) (map (@inl item hist) q)) by (apply Forall_map; exact AQ).
    destruct (adopt_history h (it_name x)) as [[k s]|]; cbn [fst snd].
    + destruct AH as (a & y & b & -> & D & F). left. exists (map inl q ++ map inr a), (inr y), (map inr b). split; [rewrite map_app, <- app_assoc; reflexivity|].
      split; [exact D|]. apply Forall_app. split; [exact FQ|]. apply Forall_map. exact F.
    + right. split; [|split; assumption]. apply Forall_app. split; [exact FQ|]. apply Forall_map. exact AH.
Qed.
Theorem found_key : forall q h x r, nzb_found q h x = Some r -> queued_copy q x = false -> (r_key r, r_score r) = adopt q h x.
Proof.
  intros q h x r E QC. unfold nzb_found in E. rewrite QC in E. destruct (adopt q h x) as [key score]. destruct (look_history h x key score) as [[skip good] content].
  destruct (negb content && it_hint x); [injection E as <-; reflexivity|].
  destruct (negb content && _ && _ && _); [injection E as <-; reflexivity|]. destruct skip; [injection E as <-; reflexivity|].
  destruct (is_score (it_mode x)); [|injection E as <-; reflexivity]. destruct (queue_loop _ _ _ _ _ _ _) as [[[[] q1] m1]|]; [| |discriminate]; injection E as <-; reflexivity.
Qed.
(** A copy in the queue is refused whatever the hint. *)
Theorem found_queue_copy : forall q h x y, In y q -> it_id y <> it_id x -> o_kind (it_out x) = nkNzb -> copy_of_item x y ->
  exists r, nzb_found q h x = Some r /\ r_delete r <> dsNone /\ r_queue r = q /\ r_moved r = [].
Proof.
  intros q h x y H1 H2 H3 H4. unfold nzb_found. assert (Q : queued_copy q x = true) by (apply queued_copy_iff; exists y; auto). rewrite Q.
  eexists. split; [reflexivity|]. cbn. destruct (it_feed x); repeat split; discriminate.
Qed.
Theorem found_defined : forall q h x, nzb_found q h x <> None.
Proof.
  intros q h x. unfold nzb_found. destruct (queued_copy q x); [discriminate|]. destruct (adopt q h x) as [key score]. destruct (look_history h x key score) as [[skip good] content].
  destruct (negb content && it_hint x); [discriminate|]. destruct (negb content && _ && _ && _); [discriminate|]. destruct skip; [discriminate|].
  destruct (is_score (it_mode x)); [|discriminate].
  destruct (queue_loop_ok x key score q (S (length q)) [] [] ltac:(lia)) as (res & q1 & m1 & E1 & _). cbn [app length] in E1. rewrite E1. destruct res; discriminate.
Qed.

(** ** Backups *)
Lemma good_success o : is_dupe_success o <> None -> o_mark o = ksGood -> is_dupe_success o = Some true.
Proof. unfold is_dupe_success. intros D M. rewrite M in *. destruct (calc_health (o_sizes o)), (calc_critical true (o_sizes o)); try reflexivity; contradiction. Qed.
Definition covers (b : option Z) (s : Z) : Prop := exists t, b = Some t /\ s <= t.
Lemma history_score_ok h name key : known h -> forall best,
  match history_score h name key best with
  | None => exists y, In y h /\ good_dupe y name key
  | Some hs => no_good h name key /\
      (forall s, above s hs = true <-> above s best = true /\ forall y t, In y h -> (forall i, y <> HUrl i) -> success_dupe y name key t -> t < s)
  end.
Proof.
  induction h as [|y h IH]; intros KN best; cbn [history_score].
  - split; [intros z []|]. intros s. split; [intros A; split; [exact A|intros z t []]|tauto].
  - assert (KN' : known h) by (intros it [I|I]; apply KN; [left|right]; right; exact I).
    assert (HS : match h_success y name key with
      | Some (s, good) => (forall i, y <> HUrl i) /\ success_dupe y name key s /\ (good = true <-> good_dupe y name key)
      | None => (forall s, (forall i, y <> HUrl i) -> ~ success_dupe y name key s) /\ ~ good_dupe y name key end).
    { destruct y as [it|it|d]; cbn [h_success].
      - destruct (negb (is_force (it_mode it)) && success it && same_name_or_key (it_name it) (it_key it) name key) eqn:H.
        + apply andb_true_iff in H as [H H3]. apply andb_true_iff in H as [H1 H2]. apply negb_true_iff, force_iff in H1. apply success_iff in H2. apply title_iff in H3.
          split; [discriminate|]. split; [cbn; auto|]. rewrite good_iff. cbn. tauto.
        + split.
          * intros s _ (H1 & H2 & H3 & _). apply force_iff in H1. apply success_iff in H2. apply title_iff in H3. rewrite H1, H2, H3 in H. discriminate.
          * intros (H1 & H2 & H3). apply good_success in H2; [|apply KN; left; left; reflexivity]. apply force_iff in H1. apply success_iff in H2. apply title_iff in H3. rewrite H1, H2, H3 in H. discriminate.
      - split; [intros s N; destruct (N it); reflexivity|intros []].
      - destruct (negb (is_force (dp_mode d)) && _ && same_name_or_key (dp_name d) (dp_key d) name key) eqn:H.
        + apply andb_true_iff in H as [H H3]. apply andb_true_iff in H as [H1 H2]. apply negb_true_iff, force_iff in H1. apply orb_true_iff in H2. rewrite du_good_iff, du_success_iff in H2. apply title_iff in H3.
          split; [discriminate|]. split; [cbn; auto|]. rewrite du_good_iff. cbn. tauto.
        + assert (N : dp_mode d <> dmForce -> dp_status d = duSuccess \/ dp_status d = duGood -> same_title (dp_name d) (dp_key d) name key -> False).
          { intros H1 H2 H3. apply force_iff in H1. apply title_iff in H3. rewrite <- du_good_iff, <- du_success_iff in H2. apply orb_true_iff in H2. rewrite H1, H2, H3 in H. discriminate. }
          split; [intros s _ (H1 & H2 & H3 & _); apply N; assumption|]. intros (H1 & H2 & H3). apply N; auto. }
    destruct (h_success y name key) as [[s good]|].
    + destruct HS as (NU & SD & G). destruct good.
      * exists y. split; [left; reflexivity|apply G; reflexivity].
      * assert (IH' := IH KN' (Some match best with Some b => if b <? s then s else b | None => s end)). destruct (history_score h name key _) as [hs|].
        -- destruct IH' as [NG A]. split.
           ++ intros z [<-|I] GD; [apply G in GD; discriminate|]. exact (NG z I GD).
           ++ intros t. rewrite A. split.
              ** intros [A1 A2]. split; [destruct best as [b|]; [cbn in *; destruct (b <? s) eqn:Q; lia|reflexivity]|].
                 intros z u [<-|I] NU' SD'; [|exact (A2 z u I NU' SD')].
                 assert (u = s) as -> by (destruct y as [it|it|d]; cbn in SD, SD'; destruct SD as (_ & _ & _ & ->), SD' as (_ & _ & _ & ->); reflexivity).
                 destruct best as [b|]; cbn in A1; [destruct (b <? s) eqn:Q|]; lia.
              ** intros [A1 A2]. assert (s < t) by (apply (A2 y s); [left; reflexivity|exact NU|exact SD]). split; [destruct best as [b|]; cbn in *; [destruct (b <? s) eqn:Q|]; lia|].
                 intros z u I. apply A2. right. exact I.
        -- destruct IH' as (z & I & GD). exists z. split; [right; exact I|exact GD].
    + destruct HS as [NS NG0]. assert (IH' := IH KN' best). destruct (history_score h name key best) as [hs|].
      * destruct IH' as [NG A]. split; [intros z [<-|I] GD; [contradiction|exact (NG z I GD)]|]. intros t. rewrite A. split; intros [A1 A2]; (split; [exact A1|]).
        -- intros z u [<-|I] NU SD; [destruct (NS u NU SD)|exact (A2 z u I NU SD)].
        -- intros z u I. apply A2. right. exact I.
      * destruct IH' as (z & I & GD). exists z. split; [right; exact I|exact GD].
Qed.
Lemma queue_score_ok q self name key : forall best s,
  above s (queue_score q self name key best) = true <-> above s best = true /\ forall y, In y q -> queued_dupe y self name key -> it_score y < s.
Proof.
  induction q as [|y q IH]; intros best s; cbn [queue_score].
  - split; [intros A; split; [exact A|intros z []]|tauto].
  - rewrite IH. clear IH.
    assert (QD : match self with Some i => negb (it_id y =? i) | None => true end && is_nzb (o_kind (it_out y)) && negb (is_force (it_mode y)) && same_name_or_key (it_name y) (it_key y) name key = true <-> queued_dupe y self name key).
    { unfold queued_dupe. rewrite !andb_true_iff, title_iff, (negb_true_iff (is_force _)), force_iff.
      assert (K : is_nzb (o_kind (it_out y)) = true <-> o_kind (it_out y) = nkNzb) by (destruct (o_kind (it_out y)); split; intros H; try reflexivity; discriminate). rewrite K.
      assert (I : match self with Some i => negb (it_id y =? i) | None => true end = true <-> self <> Some (it_id y)).
      { destruct self as [i|]; [|split; [discriminate|reflexivity]]. rewrite negb_true_iff, Z.eqb_neq. split; [intros H E; injection E; congruence|intros H E; apply H; rewrite E; reflexivity]. }
      rewrite I. tauto. }
    destruct (match self with Some i => negb (it_id y =? i) | None => true end && is_nzb (o_kind (it_out y)) && negb (is_force (it_mode y)) && same_name_or_key (it_name y) (it_key y) name key) eqn:D.
    + assert (QY := proj1 QD eq_refl). cbn [andb].
      split.
      * intros [A1 A2]. destruct best as [b|]; cbn in *.
        -- destruct (b <? it_score y) eqn:Q; cbn in A1; (split; [lia|]); intros z [<-|I] QZ; try (apply A2; assumption); lia.
        -- split; [reflexivity|]. intros z [<-|I] QZ; [lia|apply A2; assumption].
      * intros [A1 A2]. assert (it_score y < s) by (apply A2; [left; reflexivity|exact QY]). split; [|intros z I; apply A2; right; exact I].
        destruct best as [b|]; cbn in *; [destruct (b <? it_score y) eqn:Q|]; cbn; lia.
    + cbn [andb]. split; intros [A1 A2]; (split; [exact A1|]).
      * intros z [<-|I] QZ; [apply QD in QZ; discriminate|apply A2; assumption].
      * intros z I. apply A2. right. exact I.
Qed.
Lemma backup_iff y name key it : backup y name key = Some it <-> is_backup y it name key.
Proof.
  unfold backup, is_backup.
  assert (B : forall jt, (if negb (is_force (it_mode jt)) && is_dupe (o_delete (it_out jt)) && healthy jt && negb (is_bad (o_mark (it_out jt))) && same_name_or_key (it_name jt) (it_key jt) name key then Some jt else None) = Some it
    <-> jt = it /\ it_mode it <> dmForce /\ o_delete (it_out it) = dsDupe /\ o_mark (it_out it) <> ksBad /\ same_title (it_name it) (it_key it) name key /\
      exists hl c, calc_health (o_sizes (it_out it)) = Some hl /\ calc_critical true (o_sizes (it_out it)) = Some c /\ c <= hl).
  { intros jt. split.
    - destruct (negb _ && _ && _ && _ && _) eqn:H; [|discriminate]. intros E. injection E as ->. split; [reflexivity|].
      apply andb_true_iff in H as [H H5]. apply andb_true_iff in H as [H H4]. apply andb_true_iff in H as [H H3]. apply andb_true_iff in H as [H1 H2].
      apply negb_true_iff, force_iff in H1. apply title_iff in H5. split; [exact H1|]. split; [destruct (o_delete (it_out it)); try discriminate; reflexivity|].
      split; [intros B; rewrite B in H4; discriminate|]. split; [exact H5|]. unfold healthy in H3. destruct (calc_health (o_sizes (it_out it))) as [hl|], (calc_critical true (o_sizes (it_out it))) as [c|]; try discriminate. exists hl, c. split; [reflexivity|]. split; [reflexivity|lia].
    - intros (-> & H1 & H2 & H4 & H5 & hl & c & E1 & E2 & L). apply force_iff in H1. apply title_iff in H5. rewrite H1, H2, H5. unfold healthy. rewrite E1, E2.
      replace (c <=? hl) with true by lia. destruct (o_mark (it_out it)); try contradiction; reflexivity. }
  destruct y as [jt|jt|d].
  - rewrite B. split; intros (H & R); (split; [|exact R]); [left; congruence|destruct H as [H|H]; congruence].
  - rewrite B. split; intros (H & R); (split; [|exact R]); [right; congruence|destruct H as [H|H]; congruence].
  - split; [discriminate|]. intros ([H|H] & _); discriminate.
Qed.
(** [it] is the first backup of the highest score in the rest, above what was found before. *)
Lemma best_backup_ok name key hs qs : forall h cur, 
  let ok := fun it => above (it_score it) hs = true /\ above (it_score it) qs = true in
  match best_backup h name key hs qs cur with
  | None => cur = None /\ forall y it, In y h -> is_backup y it name key -> ~ ok it
  | Some it =>
      (cur = Some it /\ forall y jt, In y h -> is_backup y jt name key -> ok jt -> it_score jt <= it_score it) \/
      (exists a y b, h = a ++ y :: b /\ is_backup y it name key /\ ok it /\ above (it_score it) (option_map it_score cur) = true /\
         (forall z jt, In z a -> is_backup z jt name key -> ok jt -> it_score jt < it_score it) /\
         (forall z jt, In z b -> is_backup z jt name key -> ok jt -> it_score jt <= it_score it))
  end.
Proof.
  induction h as [|y h IH]; intros cur ok; cbn [best_backup].
  - destruct cur as [it|]; [left; split; [reflexivity|intros y jt []]|]. split; [reflexivity|intros y it []].
  - destruct (backup y name key) as [it|] eqn:B.
    + assert (B' := proj1 (backup_iff _ _ _ _) B).
      assert (U : forall jt, is_backup y jt name key -> jt = it) by (intros jt J; apply backup_iff in J; congruence).
      destruct (above (it_score it) hs && above (it_score it) qs && above (it_score it) (option_map it_score cur)) eqn:T.
      * apply andb_true_iff in T as [T T3]. apply andb_true_iff in T as [T1 T2]. assert (IH' := IH (Some it)). destruct (best_backup h name key hs qs (Some it)) as [bt|].
        -- right. destruct IH' as [(E & LE)|(a & z & b & -> & Z1 & Z2 & Z3 & Z4 & Z5)].
           ++ injection E as ->. exists [], y, h. split; [reflexivity|]. split; [exact B'|]. split; [split; assumption|]. split; [exact T3|]. split; [intros z jt []|exact LE].
           ++ cbn in Z3. exists (y :: a), z, b. split; [reflexivity|]. split; [exact Z1|]. split; [exact Z2|]. split; [destruct cur; cbn in *; lia|].
              split; [|exact Z5]. intros w jt [<-|I] W O; [apply U in W as ->; lia|exact (Z4 w jt I W O)].
        -- destruct IH' as [E _]. discriminate.
      * assert (NB : forall jt, is_backup y jt name key -> ok jt -> match cur with Some c => it_score jt <= it_score c | None => False end).
        { intros jt J [O1 O2]. apply U in J as ->. rewrite O1, O2 in T. cbn in T. destruct cur as [c|]; cbn in T; [lia|discriminate]. }
        assert (IH' := IH cur). destruct (best_backup h name key hs qs cur) as [bt|].
        -- destruct IH' as [(E & LE)|(a & z & b & -> & Z1 & Z2 & Z3 & Z4 & Z5)].
           ++ left. split; [exact E|]. intros w jt [<-|I] W O; [|exact (LE w jt I W O)]. assert (Q := NB jt W O). rewrite E in Q. exact Q.
           ++ right. exists (y :: a), z, b. split; [reflexivity|]. split; [exact Z1|]. split; [exact Z2|]. split; [exact Z3|]. split; [|exact Z5].
              intros w jt [<-|I] W O; [|exact (Z4 w jt I W O)]. assert (Q := NB jt W O). destruct cur as [c|]; [cbn in Z3; lia|contradiction].
        -- destruct IH' as [E NO]. split; [exact E|]. intros w jt [<-|I] W O; [|exact (NO w jt I W O)]. assert (Q := NB jt W O). rewrite E in Q. exact Q.
    + assert (NB : forall jt, ~ is_backup y jt name key) by (intros jt J; apply backup_iff in J; congruence).
      assert (IH' := IH cur). destruct (best_backup h name key hs qs cur) as [bt|].
      * destruct IH' as [(E & LE)|(a & z & b & -> & Z1 & Z2 & Z3 & Z4 & Z5)].
        -- left. split; [exact E|]. intros w jt [<-|I] W O; [destruct (NB jt W)|exact (LE w jt I W O)].
        -- right. exists (y :: a), z, b. split; [reflexivity|]. split; [exact Z1|]. split; [exact Z2|]. split; [exact Z3|]. split; [|exact Z5].
           intros w jt [<-|I] W O; [destruct (NB jt W)|exact (Z4 w jt I W O)].
      * destruct IH' as [E NO]. split; [exact E|]. intros w jt [<-|I] W O; [destruct (NB jt W)|exact (NO w jt I W O)].
Qed.
Theorem return_best_ok : forall q h self name key, known h ->
  match return_best q h self name key with
  | Some it => no_good h name key /\ improves q h self name key (it_score it) /\
      exists a y b, h = a ++ y :: b /\ is_backup y it name key /\
        (forall z jt, In z a -> is_backup z jt name key -> it_score jt < it_score it) /\
        (forall z jt, In z b -> is_backup z jt name key -> it_score jt <= it_score it)
  | None => (exists y, In y h /\ good_dupe y name key) \/ forall y it, In y h -> is_backup y it name key -> ~ improves q h self name key (it_score it)
  end.
Proof.
  intros q h self name key KN. unfold return_best. assert (H := history_score_ok h name key KN None). destruct (history_score h name key None) as [hs|]; [|left; exact H].
  destruct H as [NG A]. assert (Q := queue_score_ok q self name key None). set (qs := queue_score q self name key None) in *. clearbody qs.
  assert (IMP : forall s, above s hs = true /\ above s qs = true <-> improves q h self name key s).
  { intros s. rewrite A, Q. unfold improves. cbn. tauto. }
  assert (B := best_backup_ok name key hs qs h None). cbn zeta in B. destruct (best_backup h name key hs qs None) as [it|].
  - destruct B as [(E & _)|(a & y & b & EQ & Z1 & Z2 & _ & Z4 & Z5)]; [discriminate|]. split; [exact NG|].
    apply IMP in Z2. split; [exact Z2|]. exists a, y, b. split; [exact EQ|]. split; [exact Z1|]. destruct Z2 as [I1 I2].
    assert (UP : forall z jt, is_backup z jt name key -> it_score it <= it_score jt -> above (it_score jt) hs = true /\ above (it_score jt) qs = true).
    { intros z jt J L. apply IMP. split; [intros w s W NU SD; assert (R := I1 w s W NU SD); lia|]. intros w W QD. assert (R := I2 w W QD). lia. }
    split; intros z jt I J.
    + destruct (Z_lt_le_dec (it_score jt) (it_score it)) as [L|L]; [exact L|]. exact (Z4 z jt I J (UP z jt J L)).
    + destruct (Z_le_gt_dec (it_score jt) (it_score it)) as [L|L]; [exact L|]. apply (Z5 z jt I J). apply (UP z jt J). lia.
  - right. destruct B as [_ B]. intros y it I J IM. apply IMP in IM. exact (B y it I J IM).
Qed.

(** ** Hiding *)
Lemma hide_content x it : copy_of_hist x (HDup (hide it)) <-> copy_of_hist x (HNzb it).
Proof. reflexivity. Qed.
Lemma hide_good it name key : good_dupe (HDup (hide it)) name key <-> good_dupe (HNzb it) name key.
Proof.
  cbn. assert (S : match o_mark (it_out it) with ksGood => duGood | ksBad => duBad | ksSuccess => duSuccess
     | ksNone => match o_delete (it_out it) with dsDupe => duDupe | dsManual | dsGood | dsCopy => duDeleted | _ => if success it then duSuccess else duFailed end end = duGood <-> o_mark (it_out it) = ksGood).
  { destruct (o_mark (it_out it)); try (split; intros H; try reflexivity; discriminate).
    destruct (o_delete (it_out it)); try (split; intros H; discriminate); destruct (success it); split; intros H; discriminate. }
  rewrite S. reflexivity.
Qed.
Lemma hide_success it name key s : is_dupe_success (it_out it) <> None -> (success_dupe (HDup (hide it)) name key s <-> success_dupe (HNzb it) name key s).
Proof.
  intros KN. cbn. assert (S : match o_mark (it_out it) with ksGood => duGood | ksBad => duBad | ksSuccess => duSuccess
     | ksNone => match o_delete (it_out it) with dsDupe => duDupe | dsManual | dsGood | dsCopy => duDeleted | _ => if success it then duSuccess else duFailed end end = duSuccess \/
     match o_mark (it_out it) with ksGood => duGood | ksBad => duBad | ksSuccess => duSuccess
     | ksNone => match o_delete (it_out it) with dsDupe => duDupe | dsManual | dsGood | dsCopy => duDeleted | _ => if success it then duSuccess else duFailed end end = duGood <-> is_dupe_success (it_out it) = Some true).
  { rewrite <- success_iff. assert (U : forall b, success it = b <-> is_dupe_success (it_out it) = Some b).
    { intros b. unfold success. destruct (is_dupe_success (it_out it)) as [c|]; [|contradiction]. split; [intros ->; reflexivity|]. intros H. injection H as ->. reflexivity. }
    assert (D : is_dupe_success (it_out it) = Some (success it)) by (apply U; reflexivity). unfold is_dupe_success in D.
    destruct (calc_health (o_sizes (it_out it))); [|discriminate]. destruct (calc_critical true (o_sizes (it_out it))); [|discriminate]. injection D as D.
    destruct (o_mark (it_out it)).
    - destruct (o_delete (it_out it)) eqn:DS; try rewrite <- D; try (split; [intros [H|H]; discriminate|discriminate]).
      rewrite D. destruct (success it); (split; [intros [H|H]; try discriminate; reflexivity|intros H; try discriminate; left; reflexivity]).
    - rewrite <- D. split; [intros [H|H]; discriminate|discriminate].
    - rewrite <- D. split; [reflexivity|right; reflexivity].
    - rewrite <- D. split; [reflexivity|left; reflexivity]. }
  rewrite S. reflexivity.
Qed.
Lemma in_swap {A} (y z : A) a b w : In w (a ++ y :: b) -> w = y \/ (In w (a ++ z :: b)).
Proof. rewrite !in_app_iff. cbn. intros [I|[I|I]]; auto. Qed.
Lemma hide_refused q a it b x key score : is_dupe_success (it_out it) <> None ->
  refused q (a ++ HNzb it :: b) x key score <-> refused q (a ++ HDup (hide it) :: b) x key score.
Proof.
  intros KN. assert (I1 : In (HNzb it) (a ++ HNzb it :: b)) by (apply in_or_app; right; left; reflexivity).
  assert (I2 : In (HDup (hide it)) (a ++ HDup (hide it) :: b)) by (apply in_or_app; right; left; reflexivity).
  split; intros [y H1 H2 H3 H4|y I C|y I G|y s M I S L|y M I R L];
    try (exact (ref_queue_copy _ _ _ _ _ y H1 H2 H3 H4)); try (exact (ref_queued _ _ _ _ _ y M I R L)).
  - apply in_swap with (z := HDup (hide it)) in I as [->|I]; [|exact (ref_history_copy _ _ _ _ _ y I C)]. exact (ref_history_copy _ _ _ _ _ _ I2 (proj2 (hide_content x it) C)).
  - apply in_swap with (z := HDup (hide it)) in I as [->|I]; [|exact (ref_good _ _ _ _ _ y I G)]. exact (ref_good _ _ _ _ _ _ I2 (proj2 (hide_good it _ _) G)).
  - apply in_swap with (z := HDup (hide it)) in I as [->|I]; [|exact (ref_success _ _ _ _ _ y s M I S L)]. exact (ref_success _ _ _ _ _ _ s M I2 (proj2 (hide_success it _ _ _ KN) S) L).
  - apply in_swap with (z := HNzb it) in I as [->|I]; [|exact (ref_history_copy _ _ _ _ _ y I C)]. exact (ref_history_copy _ _ _ _ _ _ I1 (proj1 (hide_content x it) C)).
  - apply in_swap with (z := HNzb it) in I as [->|I]; [|exact (ref_good _ _ _ _ _ y I G)]. exact (ref_good _ _ _ _ _ _ I1 (proj1 (hide_good it _ _) G)).
  - apply in_swap with (z := HNzb it) in I as [->|I]; [|exact (ref_success _ _ _ _ _ y s M I S L)]. exact (ref_success _ _ _ _ _ _ s M I1 (proj1 (hide_success it _ _ _ KN) S) L).
Qed.
Lemma adopt_history_hide a it b name : adopt_history (a ++ HNzb it :: b) name = adopt_history (a ++ HDup (hide it) :: b) name.
Proof.
  induction a as [|y a IH]; [reflexivity|]. destruct y as [jt|jt|d].
  - change ((HNzb jt :: a) ++ HNzb it :: b) with (HNzb jt :: (a ++ HNzb it :: b)). change ((HNzb jt :: a) ++ HDup (hide it) :: b) with (HNzb jt :: (a ++ HDup (hide it) :: b)).
    cbn [adopt_history]. rewrite IH. reflexivity.
  - exact IH.
  - change ((HDup d :: a) ++ HNzb it :: b) with (HDup d :: (a ++ HNzb it :: b)). change ((HDup d :: a) ++ HDup (hide it) :: b) with (HDup d :: (a ++ HDup (hide it) :: b)).
    cbn [adopt_history]. rewrite IH. reflexivity.
Qed.
Lemma adopt_hide q a it b x : adopt q (a ++ HNzb it :: b) x = adopt q (a ++ HDup (hide it) :: b) x.
Proof. unfold adopt. rewrite adopt_history_hide. reflexivity. Qed.
Theorem hide_found : forall q a it b x, it_hint x = false -> o_delete (it_out x) = dsNone -> is_dupe_success (it_out it) <> None ->
  exists r r', nzb_found q (a ++ HNzb it :: b) x = Some r /\ nzb_found q (a ++ HDup (hide it) :: b) x = Some r' /\
    r_key r = r_key r' /\ r_score r = r_score r' /\ (r_delete r = dsNone <-> r_delete r' = dsNone) /\
    (r_delete r = dsNone -> r_queue r = r_queue r' /\ r_moved r = r_moved r').
Proof.
  intros q a it b x HN DN KN. destruct (found_decision q (a ++ HNzb it :: b) x HN DN) as (r & E & D). destruct (found_decision q (a ++ HDup (hide it) :: b) x HN DN) as (r' & E' & D').
  exists r, r'. split; [exact E|]. split; [exact E'|].
  assert (KS : r_key r = r_key r' /\ r_score r = r_score r').
  { destruct (queued_copy q x) eqn:QC.
    - unfold nzb_found in E, E'. rewrite QC in E, E'. injection E as <-. injection E' as <-. split; reflexivity.
    - assert (K := found_key _ _ _ _ E QC). assert (K' := found_key _ _ _ _ E' QC). rewrite adopt_hide, <- K' in K. injection K as K1 K2. split; assumption. }
  destruct KS as [K S]. split; [exact K|]. split; [exact S|].
  assert (DD : r_delete r <> dsNone <-> r_delete r' <> dsNone) by (rewrite D, D', K, S; apply hide_refused, KN).
  assert (DEC : forall d : delete_status, d = dsNone \/ d <> dsNone) by (intros d; destruct d; [left; reflexivity|..]; right; discriminate).
  assert (NN : r_delete r = dsNone <-> r_delete r' = dsNone).
  { destruct (DEC (r_delete r)) as [H|H], (DEC (r_delete r')) as [H'|H']; tauto. }
  split; [exact NN|]. intros Z0. destruct (found_queue _ _ _ _ HN DN E Z0) as [F1 F2]. destruct (found_queue _ _ _ _ HN DN E' (proj1 NN Z0)) as [F1' F2'].
  destruct (is_score (it_mode x)) eqn:M.
  - apply score_iff in M. destruct (F1 M) as (-> & -> & _). destruct (F1' M) as (-> & -> & _). rewrite K. split; reflexivity.
  - assert (N : it_mode x <> dmScore) by (intros H; apply score_iff in H; congruence). destruct (F2 N) as (-> & ->). destruct (F2' N) as (-> & ->). split; reflexivity.
Qed.
(** Marking as good hides all backups of the title, and only these. *)
Theorem cleanup_ok : forall h mark name key, length (cleanup h mark name key) = length h /\
  forall i y, nth_error h i = Some y -> exists z, nth_error (cleanup h mark name key) i = Some z /\
    match y with
    | HNzb it | HUrl it => (it_mode it <> dmForce /\ o_delete (it_out it) = dsDupe /\ it_id it <> mark /\ same_title (it_name it) (it_key it) name key -> z = HDup (hide it)) /\
        (~ (it_mode it <> dmForce /\ o_delete (it_out it) = dsDupe /\ it_id it <> mark /\ same_title (it_name it) (it_key it) name key) -> z = y)
    | HDup _ => z = y
    end.
Proof.
  intros h mark name key. unfold cleanup. split; [apply map_length|]. intros i y E. rewrite nth_error_map, E. cbn [option_map]. eexists. split; [reflexivity|].
  destruct y as [it|it|d]; [| |reflexivity].
  all: assert (C : negb (is_force (it_mode it)) && is_dupe (o_delete (it_out it)) && negb (it_id it =? mark) && same_name_or_key (it_name it) (it_key it) name key = true <->
    (it_mode it <> dmForce /\ o_delete (it_out it) = dsDupe /\ it_id it <> mark /\ same_title (it_name it) (it_key it) name key))
    by (rewrite !andb_true_iff, title_iff, (negb_true_iff (is_force _)), force_iff, negb_true_iff, Z.eqb_neq;
        assert (K : is_dupe (o_delete (it_out it)) = true <-> o_delete (it_out it) = dsDupe) by (destruct (o_delete (it_out it)); split; intros H; try reflexivity; discriminate); rewrite K; tauto).
  all: destruct (negb (is_force (it_mode it)) && _ && _ && _); (split; intros H; [try reflexivity; apply C in H; discriminate|try reflexivity; destruct H; apply C; reflexivity]).
Qed.
