(** Proofs about the choice of the next article. *)
From Verif Require Import Base FeedModel NextModel NextSpec.
Open Scope list_scope. Open Scope Z_scope.

Definition xb (f : file) : Z := if f_extra f then 1 else 0.
Lemma outranks_iff n f n' f' : outranks n f n' f' <-> xb f' < xb f \/ (xb f = xb f' /\ n_priority n' < n_priority n).
Proof. unfold outranks, xb. destruct (f_extra f), (f_extra f'); split; intros H; intuition (try discriminate; try lia). Qed.
Lemma xb_range f : 0 <= xb f <= 1.
Proof. unfold xb. destruct (f_extra f); lia. Qed.
Lemma file_higher_iff n f c : file_higher n f c = true <-> outranks n f (p_nzb c) (p_file c).
Proof.
  rewrite outranks_iff. unfold file_higher, xb. destruct (f_extra f), (f_extra (p_file c)); cbn; split; intros H; lia.
Qed.

Definition file_ok (e : env) (f : file) : Prop :=
  f_paused f = false /\ f_deleted f = false /\ (e_delay e <= 0 \/ f_time f + e_delay e < e_now e).
Lemma waiting_iff e f : waiting e f = false <-> (e_delay e <= 0 \/ f_time f + e_delay e < e_now e).
Proof. unfold waiting. lia. Qed.
Lemma cond_iff e ck i j f b : negb (was_checked ck i j) && negb (waiting e f) && negb (f_paused f) && negb (f_deleted f) && b = true <->
  was_checked ck i j = false /\ file_ok e f /\ b = true.
Proof.
  unfold file_ok. rewrite <- waiting_iff. destruct (was_checked ck i j), (waiting e f), (f_paused f), (f_deleted f), b; cbn; split; intros H; intuition discriminate.
Qed.

Lemma pick_file_spec e ck i n : forall fs j0 cur,
  (forall c, cur = Some c -> p_i c = i -> (p_j c < j0)%nat) ->
  let r := pick_file e ck i n j0 fs cur in
  (r = cur \/ exists m f, nth_error fs m = Some f /\ r = Some (mkPick i (j0 + m) n f) /\ was_checked ck i (j0 + m) = false /\ file_ok e f) /\
  (forall m f, nth_error fs m = Some f -> was_checked ck i (j0 + m) = false -> file_ok e f ->
     exists p, r = Some p /\ ~ outranks n f (p_nzb p) (p_file p) /\
       (p_i p = i -> (j0 + m < p_j p)%nat -> outranks (p_nzb p) (p_file p) n f)) /\
  (forall c, cur = Some c -> exists p, r = Some p /\ (p = c \/ outranks (p_nzb p) (p_file p) (p_nzb c) (p_file c))).
Proof.
  induction fs as [|f fs IH]; intros j0 cur B r.
  - subst r. cbn [pick_file]. split; [left; reflexivity|]. split.
    + intros [|m] f H; discriminate.
    + intros c ->. exists c. split; [reflexivity|left; reflexivity].
  - subst r. cbn [pick_file]. set (cond := negb _ && negb _ && negb _ && negb _ && _).
    set (cur' := if cond then Some (mkPick i j0 n f) else cur).
    assert (B' : forall c, cur' = Some c -> p_i c = i -> (p_j c < S j0)%nat).
    { intros c H P. unfold cur' in H. destruct cond; [injection H as <-; cbn; lia|]. specialize (B c H P). lia. }
    destruct (IH (S j0) cur' B') as (R1 & R2 & R3). set (r := pick_file e ck i n (S j0) fs cur') in *. clearbody r.
    split; [|split].
    + destruct R1 as [R1|(m & g & N & R1 & U & O)].
      * unfold cur' in R1. destruct cond eqn:C; [|left; exact R1]. right. exists 0%nat, f. unfold cond in C. apply cond_iff in C as (U & O & _).
        rewrite Nat.add_0_r. split; [reflexivity|]. split; [exact R1|]. split; assumption.
      * right. exists (S m), g. replace (j0 + S m)%nat with (S j0 + m)%nat by lia. split; [exact N|]. split; [exact R1|]. split; assumption.
    + intros [|m] g N U O.
      * injection N as <-. rewrite Nat.add_0_r in *. assert (X : exists c1, cur' = Some c1 /\ ~ outranks n f (p_nzb c1) (p_file c1) /\ (p_i c1 = i -> (p_j c1 <= j0)%nat)).
        { unfold cur'. destruct cond eqn:C.
          - eexists. split; [reflexivity|]. cbn. split; [rewrite outranks_iff; lia|lia].
          - destruct cur as [c|]; [|exfalso; unfold cond in C; assert (Q := proj2 (cond_iff e ck i j0 f true) (conj U (conj O eq_refl))); congruence].
            exists c. split; [reflexivity|]. split; [|intros P; specialize (B c eq_refl P); lia]. intros H. apply file_higher_iff in H.
            unfold cond in C. assert (Q := proj2 (cond_iff e ck i j0 f true) (conj U (conj O eq_refl))). rewrite H in C. congruence. }
        destruct X as (c1 & E1 & N1 & P1). destruct (R3 _ E1) as (p & -> & [-> |G]).
        -- exists c1. split; [reflexivity|]. split; [exact N1|]. intros P Q. specialize (P1 P). lia.
        -- exists p. split; [reflexivity|]. rewrite !outranks_iff in *. split; [lia|]. intros _ _. lia.
      * replace (j0 + S m)%nat with (S j0 + m)%nat in * by lia. exact (R2 m g N U O).
    + intros c ->. assert (X : exists c1, cur' = Some c1 /\ (c1 = c \/ outranks (p_nzb c1) (p_file c1) (p_nzb c) (p_file c))).
      { unfold cur'. destruct cond eqn:C; [|exists c; split; [reflexivity|left; reflexivity]]. eexists. split; [reflexivity|]. right. cbn.
        unfold cond in C. apply cond_iff in C as (_ & _ & H). apply file_higher_iff, H. }
      destruct X as (c1 & E1 & L1). destruct (R3 _ E1) as (p & -> & L2). exists p. split; [reflexivity|].
      destruct L1 as [-> |L1], L2 as [-> |L2]; [left; reflexivity|right; exact L2|right; exact L1|]. right. rewrite !outranks_iff in *. lia.
Qed.

Lemma allowed_ready e q n f : counted q -> In n q -> In f (n_files n) ->
  (nzb_allowed e n = true /\ file_ok e f <-> ready e n f).
Proof.
  intros C I F. destruct (C n I) as [P L]. unfold nzb_allowed, nzb_paused, ready, file_ok, forced.
  assert (Q : f_paused f = false -> (Z.of_nat (length (n_files n)) - n_paused n) mod 2 ^ 64 <=? 0 = false).
  { intros FP. rewrite P. unfold count_paused.
    assert (X : (length (filter f_paused (n_files n)) < length (n_files n))%nat).
    { clear - F FP. assert (S : forall l : list file, (length (filter f_paused l) <= length l)%nat).
      { induction l as [|x l IH]; [apply le_n|]. cbn [filter]. destruct (f_paused x); cbn [length]; lia. }
      induction (n_files n) as [|x l IH]; [destruct F|]. cbn [filter]. destruct F as [-> |F].
      - rewrite FP. specialize (S l). cbn [length]. lia.
      - specialize (IH F). destruct (f_paused x); cbn [length]; lia. }
    rewrite Z.mod_small by lia. lia. }
  split.
  - intros (A & H1 & H2 & H3). split; [exact H1|]. split; [exact H2|]. split; [exact H3|].
    destruct (e_pause e), (e_quota e); cbn in A; try (right; lia); left; split; reflexivity.
  - intros (H1 & H2 & H3 & H4). split; [|split; [exact H1|split; assumption]]. rewrite (Q H1). cbn [negb andb].
    destruct H4 as [[-> ->]|H4]; [reflexivity|]. replace (900 <=? n_priority n) with true by lia. apply orb_true_r.
Qed.

Definition position_of (c : pick) (i j : nat) : Prop := earlier i j (p_i c) (p_j c).
Definition goodpick (e : env) (q : list nzb) (ck : list (nat * nat)) (c : pick) : Prop :=
  file_at q (p_i c) (p_j c) (p_nzb c) (p_file c) /\ ready e (p_nzb c) (p_file c) /\ was_checked ck (p_i c) (p_j c) = false.

(** What is picked is ready; nothing is picked only if nothing is ready. *)
Lemma pick_nzb_sound e ck q0 : counted q0 -> forall q pre cur, q0 = pre ++ q ->
  (forall c, cur = Some c -> goodpick e q0 ck c /\ (p_i c < length pre)%nat) ->
  let r := pick_nzb e ck (length pre) q cur in
  (forall c, r = Some c -> goodpick e q0 ck c) /\
  (cur <> None -> r <> None) /\
  (forall m n f j, nth_error q m = Some n -> nth_error (n_files n) j = Some f -> ready e n f ->
     was_checked ck (length pre + m) j = false -> r <> None).
Proof.
  intros C. induction q as [|n q IH]; intros pre cur E G r.
  - subst r. cbn [pick_nzb]. split; [intros c H; apply (G c H)|]. split; [auto|]. intros [|m]; discriminate.
  - subst r. cbn [pick_nzb]. set (gate := _ && nzb_allowed e n).
    set (cur' := if gate then _ else cur).
    assert (IN : In n q0) by (rewrite E; apply in_or_app; right; left; reflexivity).
    assert (AT : nth_error q0 (length pre) = Some n) by (rewrite E, nth_error_app2 by lia; rewrite Nat.sub_diag; reflexivity).
    assert (B : forall c, cur = Some c -> p_i c = length pre -> (p_j c < 0)%nat) by (intros c H P; destruct (G c H); lia).
    destruct (pick_file_spec e ck (length pre) n (n_files n) 0 cur B) as (R1 & R2 & R3).
    assert (G' : forall c, cur' = Some c -> goodpick e q0 ck c /\ (p_i c < S (length pre))%nat).
    { intros c H. unfold cur' in H. destruct gate eqn:GT; [|destruct (G c H); split; [assumption|lia]].
      destruct R1 as [R1|(m & f & N & R1 & U & O)]; rewrite R1 in H; [destruct (G c H); split; [assumption|lia]|].
      injection H as <-. cbn. split; [|lia]. split; [split; assumption|]. cbn. split; [|exact U].
      apply (allowed_ready e q0); [exact C|exact IN|exact (nth_error_In _ _ N)|]. split; [|exact O]. unfold gate in GT. apply andb_true_iff in GT. tauto. }
    replace (S (length pre)) with (length (pre ++ [n])) in G' by (rewrite app_length; cbn; lia).
    destruct (IH (pre ++ [n]) cur') as (I1 & I2 & I3); [rewrite <- app_assoc; exact E|exact G'|].
    replace (length (pre ++ [n])) with (S (length pre)) in * by (rewrite app_length; cbn; lia).
    split; [exact I1|].
    assert (K : cur <> None -> cur' <> None).
    { intros H. unfold cur'. destruct gate; [|exact H]. destruct cur as [c|]; [|contradiction]. destruct (R3 c eq_refl) as (p & -> & _). discriminate. }
    split; [intros H; apply I2, K, H|]. intros [|m] n1 f j N F R U.
    + injection N as <-. rewrite Nat.add_0_r in U. apply I2. unfold cur'.
      destruct (proj2 (allowed_ready e q0 n f C IN (nth_error_In _ _ F)) R) as [A O]. unfold gate. rewrite A. destruct cur as [c|].
      * destruct (nzb_higher n c); cbn [andb]; [|discriminate]. destruct (R3 c eq_refl) as (p & -> & _). discriminate.
      * cbn [andb]. destruct (R2 j f F U O) as (p & -> & _). discriminate.
    + apply (I3 m n1 f j N F R). replace (S (length pre) + m)%nat with (length pre + S m)%nat by lia. exact U.
Qed.

(** What is picked is the best. *)
Lemma pick_nzb_best e ck q0 : counted q0 -> extra_ready e q0 ->
  (forall i j n f, file_at q0 i j n f -> available e n f -> was_checked ck i j = false) ->
  forall q pre cur, q0 = pre ++ q ->
  (forall c, cur = Some c -> goodpick e q0 ck c /\ (p_i c < length pre)%nat /\ (0 < n_extra (p_nzb c) -> f_extra (p_file c) = true)) ->
  (forall i j n f, (i < length pre)%nat -> file_at q0 i j n f -> available e n f ->
     exists c, cur = Some c /\ ~ outranks n f (p_nzb c) (p_file c) /\ (position_of c i j -> outranks (p_nzb c) (p_file c) n f)) ->
  let r := pick_nzb e ck (length pre) q cur in
  forall i j n f, file_at q0 i j n f -> available e n f ->
     exists c, r = Some c /\ ~ outranks n f (p_nzb c) (p_file c) /\ (position_of c i j -> outranks (p_nzb c) (p_file c) n f).
Proof.
  intros C X CK. induction q as [|n q IH]; intros pre cur E G INV r.
  - subst r. cbn [pick_nzb]. rewrite app_nil_r in E. subst pre. intros i j n f F A. apply (INV i j n f); [|exact F|exact A].
    apply nth_error_Some. destruct F as [-> _]. discriminate.
  - subst r. cbn [pick_nzb]. set (gate := _ && nzb_allowed e n).
    set (cur' := if gate then _ else cur).
    assert (IN : In n q0) by (rewrite E; apply in_or_app; right; left; reflexivity).
    assert (AT : nth_error q0 (length pre) = Some n) by (rewrite E, nth_error_app2 by lia; rewrite Nat.sub_diag; reflexivity).
    assert (B : forall c, cur = Some c -> p_i c = length pre -> (p_j c < 0)%nat) by (intros c H P; destruct (G c H) as (_ & ? & _); lia).
    destruct (pick_file_spec e ck (length pre) n (n_files n) 0 cur B) as (R1 & R2 & R3).
    assert (L : length (pre ++ [n]) = S (length pre)) by (rewrite app_length; cbn; lia).
    assert (INV' : forall i j n1 f, (i < S (length pre))%nat -> file_at q0 i j n1 f -> available e n1 f ->
       exists c, cur' = Some c /\ ~ outranks n1 f (p_nzb c) (p_file c) /\ (position_of c i j -> outranks (p_nzb c) (p_file c) n1 f)).
    { intros i j n1 f LT F A. destruct (Nat.eq_dec i (length pre)) as [-> |NE].
      - assert (n1 = n) by (destruct F as [F _]; congruence). subst n1. destruct F as [_ F].
        destruct (proj2 (allowed_ready e q0 n f C IN (nth_error_In _ _ F)) (proj1 A)) as [AL O].
        assert (U : was_checked ck (length pre) j = false) by exact (CK _ _ _ _ (conj AT F) A).
        unfold cur', gate. rewrite AL, andb_true_r. destruct (match cur with None => true | Some c => nzb_higher n c end) eqn:H.
        + destruct (R2 j f F U O) as (p & RE & N1 & N2). exists p. split; [exact RE|]. split; [exact N1|].
          intros P. unfold position_of, earlier in P. destruct R1 as [R1|(m & g & N & R1 & _)].
          * assert (Q : cur = Some p) by congruence. destruct (G p Q) as (_ & Q1 & _). lia.
          * destruct P as [P|[P1 P2]]; [|apply N2; [congruence|exact P2]].
            exfalso. assert (p_i p = length pre) by (rewrite RE in R1; injection R1 as R1; rewrite R1; reflexivity). lia.
        + destruct cur as [c|]; [|discriminate]. exists c. split; [reflexivity|].
          destruct (G c eq_refl) as (_ & PI & EX). split; [|intros P; unfold position_of, earlier in P; lia].
          intros O2. rewrite outranks_iff in O2. assert (XF : xb f = 1 -> 0 < n_extra n).
          { intros Q. apply (X n IN). exists f. split; [exact (nth_error_In _ _ F)|]. split; [|exact A]. unfold xb in Q. destruct (f_extra f); [reflexivity|discriminate]. }
          assert (XC : 0 < n_extra (p_nzb c) -> xb (p_file c) = 1) by (intros Q; unfold xb; rewrite (EX Q); reflexivity).
          assert (R := xb_range f). assert (R' := xb_range (p_file c)).
          unfold nzb_higher, has_extra in H. destruct (0 <? n_extra n) eqn:E1, (0 <? n_extra (p_nzb c)) eqn:E2; cbn in H; try discriminate; lia.
      - assert (LT' : (i < length pre)%nat) by lia. destruct (INV i j n1 f LT' F A) as (c & -> & N1 & N2). unfold cur'. destruct gate; [|exists c; split; [reflexivity|]; split; assumption].
        destruct (R3 c eq_refl) as (p & -> & [-> |HI]); [exists c; split; [reflexivity|]; split; assumption|].
        exists p. split; [reflexivity|]. rewrite !outranks_iff in *. split; [lia|]. intros _. lia. }
    rewrite <- L. apply (IH (pre ++ [n]) cur'); [rewrite <- app_assoc; exact E| |rewrite L; exact INV'].
    intros c H. rewrite L. unfold cur' in H. destruct gate eqn:GT; [|destruct (G c H) as (? & ? & ?); split; [assumption|]; split; [lia|assumption]].
    destruct R1 as [R1|(m & f & N & R1 & U & O)]; rewrite R1 in H; [destruct (G c H) as (? & ? & ?); split; [assumption|]; split; [lia|assumption]|].
    injection H as <-. cbn. split; [|split; [lia|]].
    + split; [split; assumption|]. cbn. split; [|exact U].
      apply (allowed_ready e q0); [exact C|exact IN|exact (nth_error_In _ _ N)|]. split; [|exact O]. unfold gate in GT. apply andb_true_iff in GT. tauto.
    + intros Q. apply (X n IN) in Q as (g & IG & EG & AG). destruct (In_nth_error _ _ IG) as [j NG].
      destruct (proj2 (allowed_ready e q0 n g C IN IG) (proj1 AG)) as [_ OG].
      assert (UG : was_checked ck (length pre) j = false) by exact (CK _ _ _ _ (conj AT NG) AG).
      destruct (R2 j g NG UG OG) as (p & Rp & N1 & _). rewrite R1 in Rp. injection Rp as <-. cbn in N1. rewrite outranks_iff in N1.
      assert (R := xb_range f). unfold xb in *. rewrite EG in N1. destruct (f_extra f); [reflexivity|]. lia.
Qed.

(** ** The loop *)
Lemma rel_refl q : rel q q.
Proof. unfold rel. induction q; constructor; auto. Qed.
Lemma rel_trans q1 q2 q3 : rel q1 q2 -> rel q2 q3 -> rel q1 q3.
Proof.
  unfold rel. intros H. revert q3. induction H; intros q3 H2; inversion H2; subst; constructor; [congruence|]. apply IHForall2. assumption.
Qed.
Lemma rel_sym q q' : rel q q' -> rel q' q.
Proof. unfold rel. induction 1; constructor; auto. Qed.
Lemma rel_set q i n a b : nth_error q i = Some n -> rel q (set_nth i (set_rename n a b) q).
Proof.
  unfold rel. revert i. induction q as [|x q IH]; intros [|i] H; try discriminate.
  - injection H as ->. cbn [set_nth]. constructor; [reflexivity|]. apply rel_refl.
  - cbn [set_nth]. constructor; [reflexivity|]. apply IH, H.
Qed.
Lemma rel_at q q' i n : rel q q' -> nth_error q i = Some n -> exists n', nth_error q' i = Some n' /\ bare n = bare n'.
Proof.
  intros H. revert i. induction H; intros [|i] N; try discriminate.
  - injection N as <-. eexists. split; [reflexivity|assumption].
  - apply IHForall2, N.
Qed.
Lemma rel_in q q' n : rel q q' -> In n q -> exists n', In n' q' /\ bare n = bare n'.
Proof.
  intros H I. destruct (In_nth_error _ _ I) as [i N]. destruct (rel_at _ _ _ _ H N) as (n' & N' & E). exists n'. split; [exact (nth_error_In _ _ N')|exact E].
Qed.
Lemma bare_inv n n' : bare n = bare n' -> n_files n = n_files n' /\ n_paused n = n_paused n' /\ n_priority n = n_priority n' /\ n_extra n = n_extra n' /\ n_direct n = n_direct n'.
Proof. intros H. injection H as H1 H2 H3 H4 H5. auto. Qed.
Lemma rel_file q q' i j n f : rel q q' -> file_at q i j n f -> exists n', file_at q' i j n' f /\ bare n = bare n'.
Proof.
  intros R [H1 H2]. destruct (rel_at _ _ _ _ R H1) as (n' & H & E). exists n'. split; [|exact E]. split; [exact H|].
  apply bare_inv in E as (<- & _). exact H2.
Qed.
Lemma bare_ready e n n' f : bare n = bare n' -> ready e n f -> ready e n' f.
Proof. intros E. apply bare_inv in E as (_ & _ & E & _). unfold ready. rewrite E. auto. Qed.
Lemma bare_available e n n' f : bare n = bare n' -> available e n f -> available e n' f.
Proof. intros E [H1 H2]. split; [exact (bare_ready _ _ _ _ E H1)|exact H2]. Qed.
Lemma bare_outranks n n' m m' f g : bare n = bare n' -> bare m = bare m' -> outranks n f m g -> outranks n' f m' g.
Proof. intros E F. apply bare_inv in E as (_ & _ & E & _). apply bare_inv in F as (_ & _ & F & _). unfold outranks. rewrite E, F. auto. Qed.
Lemma rel_counted q q' : rel q q' -> counted q -> counted q'.
Proof.
  intros R C n I. destruct (rel_in _ _ _ (rel_sym _ _ R) I) as (n' & I' & E). apply bare_inv in E as (-> & -> & _). exact (C n' I').
Qed.
Lemma rel_extra e q q' : rel q q' -> extra_ready e q -> extra_ready e q'.
Proof.
  intros R C n I. destruct (rel_in _ _ _ (rel_sym _ _ R) I) as (n' & I' & E). assert (E' := E). apply bare_inv in E' as (F & _ & _ & X & _).
  rewrite X, F, (C n' I'). split; intros (f & H1 & H2 & H3); exists f; (split; [exact H1|]; split; [exact H2|]).
  - exact (bare_available _ _ _ _ (eq_sym E) H3).
  - exact (bare_available _ _ _ _ E H3).
Qed.
Lemma rel_best e q q' i j n n' f : rel q q' -> bare n = bare n' -> best e q i j n f -> best e q' i j n' f.
Proof.
  intros R E H i1 j1 n1 f1 F A. destruct (rel_file _ _ _ _ _ _ (rel_sym _ _ R) F) as (n2 & F2 & E2).
  destruct (H _ _ _ _ F2 (bare_available _ _ _ _ E2 A)) as [H1 H2]. split.
  - intros O. apply H1. exact (bare_outranks _ _ _ _ _ _ E2 (eq_sym E) O).
  - intros X. exact (bare_outranks _ _ _ _ _ _ E (eq_sym E2) (H2 X)).
Qed.

Lemma first_undefined_spec l : forall k0,
  match first_undefined k0 l with
  | Some k => exists l1 a r, l = l1 ++ a :: r /\ (k = k0 + length l1)%nat /\ a_status a = aiUndefined /\ Forall (fun b => a_status b <> aiUndefined) l1
  | None => Forall (fun b => a_status b <> aiUndefined) l
  end.
Proof.
  induction l as [|a l IH]; intros k0; cbn [first_undefined]; [constructor|]. destruct (undefined (a_status a)) eqn:U.
  - exists [], a, l. split; [reflexivity|]. split; [cbn; lia|]. split; [destruct (a_status a); [reflexivity|discriminate..]|constructor].
  - assert (N : a_status a <> aiUndefined) by (destruct (a_status a); discriminate). specialize (IH (S k0)). destruct (first_undefined (S k0) l) as [k|].
    + destruct IH as (l1 & b & r & -> & -> & H1 & H2). exists (a :: l1), b, r. split; [reflexivity|]. split; [cbn; lia|]. split; [exact H1|]. constructor; assumption.
    + constructor; assumption.
Qed.
Lemma first_article_spec fs : forall j0 j, first_article j0 fs = Some j ->
  exists m f, (j = j0 + m)%nat /\ nth_error fs m = Some f /\ f_confirmed f = false /\ first_left f 0.
Proof.
  induction fs as [|f fs IH]; intros j0 j; cbn [first_article]; [discriminate|]. destruct (_ && _) eqn:C.
  - injection 1 as <-. exists 0%nat, f. rewrite Nat.add_0_r. split; [reflexivity|]. split; [reflexivity|].
    apply andb_true_iff in C as [C1 C2]. split; [destruct (f_confirmed f); [discriminate|reflexivity]|].
    destruct (f_arts f) as [|a r] eqn:E; [discriminate|]. exists [], a, r. split; [exact E|]. split; [reflexivity|]. split; [destruct (a_status a); [reflexivity|discriminate..]|constructor].
  - intros H. destruct (IH _ _ H) as (m & g & -> & H1 & H2). exists (S m), g. split; [lia|]. split; [exact H1|exact H2].
Qed.

Fixpoint places (i : nat) (q : list nzb) : list (nat * nat) :=
  match q with [] => [] | n :: r => map (pair i) (seq 0 (length (n_files n))) ++ places (S i) r end.
Lemma places_count q : forall i, length (places i q) = file_count q.
Proof.
  unfold file_count. induction q as [|n q IH]; intros i; [reflexivity|]. cbn [places map concat]. rewrite !app_length, map_length, seq_length, IH. reflexivity.
Qed.
Lemma places_in q : forall i0 m j n f, nth_error q m = Some n -> nth_error (n_files n) j = Some f -> In ((i0 + m)%nat, j) (places i0 q).
Proof.
  induction q as [|x q IH]; intros i0 m j n f H1 H2; [destruct m; discriminate|]. cbn [places]. apply in_or_app. destruct m as [|m].
  - injection H1 as ->. left. rewrite Nat.add_0_r. apply in_map, in_seq. assert (j < length (n_files n))%nat by (apply nth_error_Some; congruence). lia.
  - right. replace (i0 + S m)%nat with (S i0 + m)%nat by lia. exact (IH _ _ _ _ _ H1 H2).
Qed.
Lemma rel_places q q' : rel q q' -> forall i, places i q = places i q'.
Proof.
  induction 1; intros i; [reflexivity|]. cbn [places]. apply bare_inv in H as (-> & _). rewrite IHForall2. reflexivity.
Qed.
Lemma was_checked_iff ck i j : was_checked ck i j = true <-> In (i, j) ck.
Proof.
  unfold was_checked. rewrite existsb_exists. split.
  - intros ([a b] & I & H). cbn in H. apply andb_true_iff in H as [H1 H2]. apply Nat.eqb_eq in H1, H2. subst. exact I.
  - intros I. exists (i, j). split; [exact I|]. cbn. rewrite !Nat.eqb_refl. reflexivity.
Qed.

(** What the choice promises. *)
Lemma loop_ok e q0 : counted q0 -> forall fuel ck q, rel q0 q -> NoDup ck -> incl ck (places 0 q0) ->
  (forall i j n f, In (i, j) ck -> file_at q0 i j n f -> ~ available e n f) ->
  (file_count q0 < fuel + length ck)%nat ->
  exists res q', next_loop fuel e ck q = Some (res, q') /\ rel q0 q' /\
    match res with
    | None => forall i j n f, file_at q0 i j n f -> ~ available e n f
    | Some (i, j, k) => chosen e q0 i j k
    end.
Proof.
  intros C. induction fuel as [|fuel IH]; intros ck q R ND INC CK LT.
  { exfalso. assert (L := NoDup_incl_length ND INC). rewrite places_count in L. lia. }
  cbn [next_loop]. assert (CQ := rel_counted _ _ R C).
  destruct (pick_nzb_sound e ck q CQ q [] None eq_refl ltac:(discriminate)) as (S1 & _ & S3). cbn [length] in *.
  assert (CK' : forall i j n f, file_at q i j n f -> available e n f -> was_checked ck i j = false).
  { intros i j n f F A. destruct (was_checked ck i j) eqn:W; [|reflexivity]. apply was_checked_iff in W.
    destruct (rel_file _ _ _ _ _ _ (rel_sym _ _ R) F) as (n' & F' & E). destruct (CK _ _ _ _ W F' (bare_available _ _ _ _ E A)). }
  destruct (pick_nzb e ck 0 q None) as [p|] eqn:P.
  - destruct (S1 p eq_refl) as (F & RD & U).
    assert (BEST : extra_ready e q -> best e q (p_i p) (p_j p) (p_nzb p) (p_file p)).
    { intros X i' j' n' f' F' A'. assert (B := pick_nzb_best e ck q CQ X CK' q [] None eq_refl ltac:(discriminate)).
      cbn [length] in B. rewrite P in B. destruct (B ltac:(intros ? ? ? ? H; inversion H) i' j' n' f' F' A') as (c & EC & N1 & N2). injection EC as <-.
      split; [exact N1|exact N2]. }
    destruct (rel_file _ _ _ _ _ _ (rel_sym _ _ R) F) as (n0 & F0 & E0).
    assert (RD0 := bare_ready _ _ _ _ E0 RD).
    assert (BEST0 : extra_ready e q0 -> best e q0 (p_i p) (p_j p) n0 (p_file p)).
    { intros X. exact (rel_best _ _ _ _ _ _ _ _ (rel_sym _ _ R) E0 (BEST (rel_extra _ _ _ R X))). }
    set (try_first := e_rename e && n_direct (p_nzb p) && negb (n_allfirst (p_nzb p))).
    destruct (if try_first then first_article 0 (n_files (p_nzb p)) else None) as [j|] eqn:FA.
    + eexists _, _. split; [reflexivity|]. split; [apply (rel_trans _ _ _ R), rel_set, (proj1 F)|].
      right. destruct try_first eqn:T; [|discriminate]. unfold try_first in T. apply andb_true_iff in T as [T _]. apply andb_true_iff in T as [T1 T2].
      split; [exact T1|]. split; [reflexivity|]. destruct (first_article_spec _ _ _ FA) as (m & f & -> & N & CF & FL).
      exists n0, f, (p_j p), (p_file p). apply bare_inv in E0 as (EF & _ & _ & _ & ED). split; [split; [exact (proj1 F0)|rewrite <- EF; exact N]|].
      split; [congruence|]. split; [exact CF|]. split; [exact FL|]. split; [exact F0|]. split; [exact RD0|exact BEST0].
    + set (q1 := if try_first then _ else q). assert (R1 : rel q0 q1).
      { unfold q1. destruct try_first; [|exact R]. apply (rel_trans _ _ _ R), rel_set, (proj1 F). }
      assert (FU := first_undefined_spec (f_arts (p_file p)) 0). destruct (first_undefined 0 (f_arts (p_file p))) as [k|].
      * eexists _, _. split; [reflexivity|]. split; [exact R1|]. left. exists n0, (p_file p). split; [exact F0|]. split; [exact RD0|].
        split; [|exact BEST0]. destruct FU as (l1 & a & r & H1 & -> & H2 & H3). exists l1, a, r. split; [exact H1|]. split; [reflexivity|]. split; assumption.
      * assert (IN : In (p_i p, p_j p) (places 0 q0)) by exact (places_in q0 0 _ _ _ _ (proj1 F0) (proj2 F0)).
        apply IH; [exact R1| | | |cbn [length]; lia].
        -- constructor; [|exact ND]. intros I. apply was_checked_iff in I. congruence.
        -- intros x [<-|I]; [exact IN|apply INC, I].
        -- intros i j n f [I|I] F' A; [|exact (CK _ _ _ _ I F' A)]. injection I as <- <-.
           assert (n = n0) by (destruct F0, F'; congruence). subst n. assert (f = p_file p) by (destruct F0, F'; congruence). subst f.
           destruct A as [_ (a & IA & SA)]. rewrite Forall_forall in FU. exact (FU a IA SA).
  - eexists _, _. split; [reflexivity|]. split; [exact R|]. intros i j n f F A. destruct (rel_file _ _ _ _ _ _ R F) as (n' & F' & E).
    apply (S3 i n' f j (proj1 F') (proj2 F') (bare_ready _ _ _ _ E (proj1 A))); [|reflexivity].
    exact (CK' _ _ _ _ F' (bare_available _ _ _ _ E A)).
Qed.
Theorem next_ok : forall e q, counted q -> exists res q', next_article e q = Some (res, q') /\ rel q q' /\
    match res with
    | None => forall i j n f, file_at q i j n f -> ~ available e n f
    | Some (i, j, k) => chosen e q i j k
    end.
Proof.
  intros e q C. apply (loop_ok e q C); [apply rel_refl|constructor|intros ? []|intros ? ? ? ? []|cbn; lia].
Qed.

Lemma waits_iff u : url_waits u = true <-> waits u.
Proof. unfold url_waits, waits. rewrite !andb_true_iff. tauto. Qed.
Lemma next_url_ok : forall q i cur,
  match next_url i q cur with
  | None => cur = None /\ Forall (fun u => ~ waits u) q
  | Some (p, u) =>
      (cur = Some (p, u) /\ Forall (fun w => waits w -> u_priority w <= u_priority u) q) \/
      exists a b, q = a ++ u :: b /\ (p = i + length a)%nat /\ waits u /\
        match cur with Some (_, c) => u_priority c < u_priority u | None => True end /\
        Forall (fun w => waits w -> u_priority w < u_priority u) a /\ Forall (fun w => waits w -> u_priority w <= u_priority u) b
  end.
Proof.
  induction q as [|v q IH]; intros i cur; cbn [next_url].
  - destruct cur as [[p u]|]; [left; split; [reflexivity|constructor]|]. split; [reflexivity|constructor].
  - destruct (url_waits v && _) eqn:T.
    + apply andb_true_iff in T as [T1 T2]. apply waits_iff in T1. assert (H := IH (S i) (Some (i, v))). destruct (next_url (S i) q (Some (i, v))) as [[p u]|]; [|destruct H; discriminate].
      right. destruct H as [(E & F)|(a & b & -> & -> & W & L & F1 & F2)].
      * injection E as <- <-. exists [], q. split; [reflexivity|]. split; [cbn; lia|]. split; [exact T1|]. split; [destruct cur as [[? c]|]; [lia|exact I]|]. split; [constructor|exact F].
      * exists (v :: a), b. split; [reflexivity|]. split; [cbn; lia|]. split; [exact W|]. split; [destruct cur as [[? c]|]; [lia|exact I]|].
        split; [constructor; [intros _; exact L|exact F1]|exact F2].
    + assert (NV : waits v -> match cur with Some (_, c) => u_priority v <= u_priority c | None => False end).
      { intros W. apply waits_iff in W. rewrite W in T. cbn in T. destruct cur as [[? c]|]; [lia|discriminate]. }
      assert (H := IH (S i) cur). destruct (next_url (S i) q cur) as [[p u]|].
      * destruct H as [(E & F)|(a & b & -> & -> & W & L & F1 & F2)].
        -- left. split; [exact E|]. constructor; [|exact F]. intros W. apply NV in W. rewrite E in W. exact W.
        -- right. exists (v :: a), b. split; [reflexivity|]. split; [cbn; lia|]. split; [exact W|]. split; [exact L|]. split; [constructor; [|exact F1]|exact F2].
           intros W'. apply NV in W'. destruct cur as [[? c]|]; [lia|contradiction].
      * destruct H as [E F]. split; [exact E|]. constructor; [|exact F]. intros W. apply NV in W. rewrite E in W. exact W.
Qed.
