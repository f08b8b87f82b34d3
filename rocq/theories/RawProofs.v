From Verif Require Import Base DecoderModel DecoderProofs.

(** ** Raw mode: end of article detection *)

Definition term : list Z := [13; 10; 46; 13; 10].
Definition has_term (l : list Z) : Prop := exists u v, l = u ++ term ++ v.

(** daemon/nntp/ArticleDownloader.cpp:340: the loop ends at EOF. *)
Fixpoint raw_run (st : Z * bool) (chunks : list (list Z)) : Z * bool :=
  if snd st then st else
  match chunks with [] => st | c :: cs => raw_run (process_raw st c) cs end.

Lemma prefixb_ex p l : prefixb p l = true <-> exists t, l = p ++ t.
Proof.
  revert l; induction p as [|a p IH]; intros l; simpl.
  - split; eauto.
  - destruct l as [|b l]; [split; [discriminate|intros (t & ?); discriminate]|].
    rewrite andb_true_iff, Z.eqb_eq, IH. split.
    + intros [-> (t & ->)]. eauto.
    + intros (t & E). inversion E; subst. eauto.
Qed.

Lemma strstr_has l p : is_some (strstr l p) = true <-> exists u v, l = u ++ p ++ v.
Proof.
  induction l as [|a l IH].
  - simpl. destruct p; simpl.
    + split; [intros _; exists [], []; reflexivity|reflexivity].
    + split; [discriminate|]. intros (u & v & E). destruct u; discriminate.
  - cbn [strstr]. destruct (prefixb p (a :: l)) eqn:E.
    + split; [intros _|reflexivity]. apply prefixb_ex in E as (t & E). exists [], t. exact E.
    + rewrite IH. split.
      * intros (u & v & ->). exists (a :: u), v. reflexivity.
      * intros (u & v & E2). destruct u as [|x u].
        -- assert (prefixb p (a :: l) = true) by (apply prefixb_ex; exists v; exact E2). congruence.
        -- inversion E2; subst. eauto.
Qed.

Lemma cstr_infix l : exists t, l = cstr l ++ t.
Proof.
  induction l as [|a l (t & IH)]; [exists []; reflexivity|]. simpl. destruct (a =? 0).
  - eexists; reflexivity.
  - exists t. simpl. congruence.
Qed.

Lemma beqb_iff a b : beqb a b = true <-> a = b.
Proof. split; [apply beqb_eq|intros ->; apply beqb_refl]. Qed.

Definition endsw (p l : list Z) : Prop := exists u, l = u ++ p.
Definition startsw (p l : list Z) : Prop := exists v, l = p ++ v.

Lemma tl_test p b : (Z.of_nat (length p) <=? Z.of_nat (length b))
    && beqb (skipn (length b - length p) b) p = true <-> endsw p b.
Proof.
  rewrite andb_true_iff, beqb_iff. split.
  - intros [H E]. exists (firstn (length b - length p) b).
    rewrite <- E at 2. symmetry. apply firstn_skipn.
  - intros (u & ->). rewrite app_length. split; [lia|].
    replace (length u + length p - length p)%nat with (length u + 0)%nat by lia.
    rewrite skipn_app, skipn_all2 by lia. replace (length u + 0 - length u)%nat with 0%nat by lia. reflexivity.
Qed.

Lemma hd_test p b : (Z.of_nat (length p) <=? Z.of_nat (length b))
    && beqb (firstn (length p) b) p = true <-> startsw p b.
Proof.
  rewrite andb_true_iff, beqb_iff. split.
  - intros [H E]. exists (skipn (length p) b). rewrite <- E at 1. symmetry. apply firstn_skipn.
  - intros (v & ->). rewrite app_length. split; [lia|].
    rewrite firstn_app, firstn_all, Nat.sub_diag. simpl. apply app_nil_r.
Qed.

Definition raw_state (b : list Z) : Z := fst (process_raw (0, false) b).

Lemma process_raw_state s e b : fst (process_raw (s, e) b) = raw_state b.
Proof. reflexivity. Qed.

Lemma raw_state_spec b : exists k, raw_state b = Z.of_nat k /\ (k <= 4)%nat /\
  endsw (firstn k term) b /\ forall j, (k < j <= 4)%nat -> ~ endsw (firstn j term) b.
Proof.
  unfold raw_state, process_raw. cbn [fst].
  assert (T4 := tl_test [13;10;46;13] b). assert (T3 := tl_test [13;10;46] b).
  assert (T2 := tl_test [13;10] b). assert (T1 := tl_test [13] b). cbn [length] in *.
  change (Z.of_nat 4) with 4 in T4. change (Z.of_nat 3) with 3 in T3.
  change (Z.of_nat 2) with 2 in T2. change (Z.of_nat 1) with 1 in T1.
  destruct ((4 <=? Z.of_nat (length b)) && beqb (skipn (length b - 4) b) [13; 10; 46; 13]).
  { exists 4%nat. split; [reflexivity|]. split; [lia|]. split; [apply T4; reflexivity|]. lia. }
  assert (N4 : ~ endsw [13;10;46;13] b) by (intros H; apply T4 in H; discriminate).
  destruct ((3 <=? Z.of_nat (length b)) && beqb (skipn (length b - 3) b) [13; 10; 46]).
  { exists 3%nat. split; [reflexivity|]. split; [lia|]. split; [apply T3; reflexivity|].
    intros j Hj. assert (j = 4%nat) as -> by lia. exact N4. }
  assert (N3 : ~ endsw [13;10;46] b) by (intros H; apply T3 in H; discriminate).
  destruct ((2 <=? Z.of_nat (length b)) && beqb (skipn (length b - 2) b) [13; 10]).
  { exists 2%nat. split; [reflexivity|]. split; [lia|]. split; [apply T2; reflexivity|].
    intros j Hj. assert (j = 4 \/ j = 3)%nat as [-> | ->] by lia; assumption. }
  assert (N2 : ~ endsw [13;10] b) by (intros H; apply T2 in H; discriminate).
  destruct ((1 <=? Z.of_nat (length b)) && beqb (skipn (length b - 1) b) [13]).
  { exists 1%nat. split; [reflexivity|]. split; [lia|]. split; [apply T1; reflexivity|].
    intros j Hj. assert (j = 4 \/ j = 3 \/ j = 2)%nat as [-> | [-> | ->]] by lia; assumption. }
  assert (N1 : ~ endsw [13] b) by (intros H; apply T1 in H; discriminate).
  exists 0%nat. split; [reflexivity|]. split; [lia|]. split; [exists b; symmetry; apply app_nil_r|].
  intros j Hj. assert (j = 4 \/ j = 3 \/ j = 2 \/ j = 1)%nat as [-> | [-> | [-> | ->]]] by lia; assumption.
Qed.

Lemma raw_eof_spec k b : (k <= 4)%nat -> nonul b ->
  (snd (process_raw (Z.of_nat k, false) b) = true <->
   (1 <= k)%nat /\ startsw (skipn k term) b \/ has_term b).
Proof.
  intros Hk Hn. unfold process_raw. cbn [snd]. rewrite orb_true_iff, (cstr_id b Hn).
  assert (S : (5 <=? Z.of_nat (length b)) && is_some (strstr b [13; 10; 46; 13; 10]) = true <-> has_term b).
  { rewrite andb_true_iff, strstr_has. split; [intros [_ H]; exact H|].
    intros H. split; [|exact H]. destruct H as (u & v & ->). rewrite !app_length. simpl length. lia. }
  rewrite S.
  assert (T4 := hd_test [10;46;13;10] b). assert (T3 := hd_test [46;13;10] b).
  assert (T2 := hd_test [13;10] b). assert (T1 := hd_test [10] b).
  cbn [length] in *.
  assert (k = 0 \/ k = 1 \/ k = 2 \/ k = 3 \/ k = 4)%nat as [-> | [-> | [-> | [-> | ->]]]] by lia; simpl Z.eqb; cbv iota.
  - split; [intros [H|H]; [discriminate|tauto]|intros [[H _]|H]; [lia|tauto]].
  - change (skipn 1 term) with [10;46;13;10]. rewrite <- T4. change (Z.of_nat 4) with 4. intuition lia.
  - change (skipn 2 term) with [46;13;10]. rewrite <- T3. change (Z.of_nat 3) with 3. intuition lia.
  - change (skipn 3 term) with [13;10]. rewrite <- T2. change (Z.of_nat 2) with 2. intuition lia.
  - change (skipn 4 term) with [10]. rewrite <- T1. change (Z.of_nat 1) with 1. intuition lia.
Qed.

Lemma app_split (a b c d : list Z) : a ++ b = c ++ d ->
  (exists x, a = c ++ x /\ d = x ++ b) \/ (exists x, c = a ++ x /\ b = x ++ d).
Proof.
  revert c; induction a as [|y a IH]; intros c E.
  - right. exists c. auto.
  - destruct c as [|z c].
    + left. exists (y :: a). auto.
    + simpl in E. inversion E as [[E1 E2]]. destruct (IH c E2) as [(x & -> & ->)|(x & -> & ->)].
      * left. exists x. split; reflexivity.
      * right. exists x. split; reflexivity.
Qed.

Lemma has_term_app a b : has_term (a ++ b) <->
  has_term a \/ has_term b \/
  exists k, (1 <= k <= 4)%nat /\ endsw (firstn k term) a /\ startsw (skipn k term) b.
Proof.
  split.
  - intros (u & v & E). destruct (app_split _ _ _ _ E) as [(x & -> & E2)|(x & -> & ->)].
    2:{ right; left. exists x, v. reflexivity. }
    destruct (app_split _ _ _ _ E2) as [(y & Ey & ->)|(y & -> & ->)].
    2:{ left. exists u, y. reflexivity. }
    (* term = x ++ y, b = y ++ v *)
    destruct x as [|x1 x].
    { right; left. exists [], v. simpl in Ey. rewrite Ey. reflexivity. }
    destruct y as [|y1 y].
    { left. exists u, []. rewrite app_nil_r in Ey. rewrite <- Ey, app_nil_r. reflexivity. }
    right; right. exists (length (x1 :: x)).
    assert (L : length term = (length (x1 :: x) + length (y1 :: y))%nat) by (rewrite <- app_length; congruence).
    simpl in L. split; [simpl; lia|].
    rewrite Ey. split.
    + exists u. rewrite firstn_app, firstn_all, Nat.sub_diag. simpl. rewrite app_nil_r. reflexivity.
    + exists v. rewrite skipn_app, skipn_all, Nat.sub_diag. reflexivity.
  - intros [(u & v & ->)|[(u & v & ->)|(k & Hk & (u & ->) & (v & ->))]].
    + exists u, (v ++ b). rewrite <- !app_assoc. reflexivity.
    + exists (a ++ u), v. rewrite <- !app_assoc. reflexivity.
    + exists u, v. rewrite <- !app_assoc. f_equal. rewrite app_assoc, firstn_skipn. reflexivity.
Qed.

(** A long enough last buffer determines the end of the stream. *)
Lemma endsw_last p a c : (length p <= length c)%nat -> (endsw p (a ++ c) <-> endsw p c).
Proof.
  intros L. split.
  - intros (u & E). destruct (app_split _ _ _ _ E) as [(x & -> & E2)|(x & -> & ->)].
    + assert (length p = length x + length c)%nat by (rewrite E2; apply app_length).
      destruct x; [|simpl in *; lia]. simpl in E2. exists []. simpl. congruence.
    + exists x. reflexivity.
  - intros (u & ->). exists (a ++ u). rewrite app_assoc. reflexivity.
Qed.

Definition ends_ok (k : nat) (l : list Z) : Prop := (k <= 4)%nat /\
  endsw (firstn k term) l /\ forall j, (k < j <= 4)%nat -> ~ endsw (firstn j term) l.

Lemma ends_smaller k j l : ends_ok k l -> (1 <= j <= 4)%nat -> endsw (firstn j term) l ->
  j = k \/ (j = 1 /\ k = 4)%nat.
Proof.
  intros (Hk & (u & ->) & Hmax) Hj Hend.
  assert (j <= k)%nat by (destruct (Nat.le_gt_cases j k); [assumption|exfalso; eapply Hmax; [|exact Hend]; lia]).
  destruct Hend as (w & E).
  assert (j = 1 \/ j = 2 \/ j = 3 \/ j = 4)%nat as Hj4 by lia.
  assert (k = 1 \/ k = 2 \/ k = 3 \/ k = 4)%nat as Hk4 by lia.
  apply (f_equal (@rev Z)) in E. rewrite !rev_app_distr in E.
  destruct Hj4 as [-> | [-> | [-> | ->]]]; destruct Hk4 as [-> | [-> | [-> | ->]]]; try lia; simpl in E; discriminate.
Qed.

Lemma raw_run_ok chunks last : forall pre k,
  Forall (fun c => (4 <= length c)%nat) chunks -> nonul (concat chunks ++ last) ->
  ~ has_term pre -> ends_ok k pre ->
  (snd (raw_run (Z.of_nat k, false) (chunks ++ [last])) = true <->
   has_term (pre ++ concat chunks ++ last)).
Proof.
  assert (Step : forall pre k c, nonul c -> ~ has_term pre -> ends_ok k pre ->
    (snd (process_raw (Z.of_nat k, false) c) = true <-> has_term (pre ++ c))).
  { intros pre k c Hn Hp He. destruct He as (Hk & He1 & He2).
    rewrite raw_eof_spec by assumption. rewrite has_term_app. split.
    - intros [[H1 H2]|H]; [|tauto]. right; right. exists k. auto.
    - intros [H|[H|(j & Hj & H1 & H2)]]; [tauto|tauto|].
      destruct (ends_smaller k j pre (conj Hk (conj He1 He2)) Hj H1) as [<- |[-> ->]].
      + left. split; [lia|assumption].
      + left. split; [lia|]. destruct H2 as (v & ->). exists ([46; 13; 10] ++ v). reflexivity. }
  induction chunks as [|c cs IH]; intros pre k Hl Hn Hp He.
  - cbn [app raw_run snd concat]. simpl in Hn.
    rewrite <- (Step pre k last Hn Hp He).
    destruct (snd (process_raw (Z.of_nat k, false) last)) eqn:E; rewrite ?E; reflexivity.
  - cbn [concat] in *. rewrite <- app_assoc in Hn. apply nonul_app in Hn as [Hnc Hn].
    inversion Hl as [|? ? Hc Hcs]; subst. cbn [app raw_run snd].
    specialize (Step pre k c Hnc Hp He). rewrite <- app_assoc, app_assoc.
    destruct (process_raw (Z.of_nat k, false) c) as [s' e'] eqn:E.
    assert (Es : s' = raw_state c) by (rewrite <- (process_raw_state (Z.of_nat k) false), E; reflexivity).
    cbn [snd] in Step. destruct e'.
    + assert (R : forall l, snd (raw_run (s', true) l) = true) by (intros [|? ?]; reflexivity).
      rewrite R. split; [intros _|reflexivity]. apply has_term_app. left. apply Step. reflexivity.
    + destruct (raw_state_spec c) as (k' & Ek & Hk' & He1 & He2). rewrite Es, Ek.
      apply IH; auto.
      * intros H. apply Step in H. discriminate.
      * split; [exact Hk'|]. split.
        -- destruct He1 as (u & ->). exists (pre ++ u). rewrite app_assoc. reflexivity.
        -- intros j Hj H. apply (He2 j Hj). eapply endsw_last; [|exact H].
           rewrite firstn_length. lia.
Qed.

Lemma raw_eof_ok chunks last :
  Forall (fun c => (4 <= length c)%nat) chunks -> ~ In 0 (concat chunks ++ last) ->
  (snd (raw_run (0, false) (chunks ++ [last])) = true <-> has_term (concat chunks ++ last)).
Proof.
  intros Hl Hn. apply (raw_run_ok chunks last [] 0); auto.
  - apply Forall_forall. intros x Hx ->. contradiction.
  - intros (u & v & E). destruct u; discriminate.
  - split; [lia|]. split; [exists []; reflexivity|].
    intros j Hj (u & E). assert (j = 1 \/ j = 2 \/ j = 3 \/ j = 4)%nat as [-> | [-> | [-> | ->]]] by lia;
      destruct u; discriminate.
Qed.

(** Soundness without any condition on the buffers. *)
Lemma raw_sound chunks : forall pre k, (k <= 4)%nat -> endsw (firstn k term) pre ->
  snd (raw_run (Z.of_nat k, false) chunks) = true -> has_term (pre ++ concat chunks).
Proof.
  induction chunks as [|c cs IH]; intros pre k Hk He H; [discriminate|].
  cbn [raw_run snd concat] in *.
  destruct (process_raw (Z.of_nat k, false) c) as [s' e'] eqn:E.
  assert (Es : s' = raw_state c) by (rewrite <- (process_raw_state (Z.of_nat k) false), E; reflexivity).
  destruct e'.
  - rewrite app_assoc. apply has_term_app. left.
    assert (Hs : snd (process_raw (Z.of_nat k, false) c) = true) by (rewrite E; reflexivity).
    unfold process_raw in Hs. cbn [snd] in Hs. apply orb_true_iff in Hs as [Hs|Hs].
    + apply has_term_app. right; right. exists k.
      assert (k = 0 \/ k = 1 \/ k = 2 \/ k = 3 \/ k = 4)%nat as [-> | [-> | [-> | [-> | ->]]]] by lia;
        simpl Z.eqb in Hs; cbv iota in Hs; [discriminate|..]; (split; [lia|]; split; [exact He|]).
      * apply (hd_test [10;46;13;10] c); exact Hs.
      * apply (hd_test [46;13;10] c); exact Hs.
      * apply (hd_test [13;10] c); exact Hs.
      * apply (hd_test [10] c); exact Hs.
    + apply andb_true_iff in Hs as [_ Hs]. apply strstr_has in Hs as (u & v & Ec).
      destruct (cstr_infix c) as (t & Et). apply has_term_app. right; left.
      rewrite Et, Ec. exists u, (v ++ t). rewrite <- !app_assoc. reflexivity.
  - destruct (raw_state_spec c) as (k' & Ek & Hk' & (u & Eu) & _). rewrite Es, Ek in H.
    rewrite app_assoc. apply (IH (pre ++ c) k' Hk'); [|exact H].
    exists (pre ++ u). rewrite <- app_assoc, <- Eu. reflexivity.
Qed.

Lemma raw_eof_sound chunks : snd (raw_run (0, false) chunks) = true -> has_term (concat chunks).
Proof. intros H. apply (raw_sound chunks [] 0); [lia|exists []; reflexivity|exact H]. Qed.
