(** Proofs about the incoming directory. *)
From Verif Require Import Base ScanModel ScanSpec.
Open Scope list_scope. Open Scope Z_scope.

Definition entry_ok (h : list scanop) (d : fdata) : Prop :=
  (exists t, last_look h (fd_name d) (fd_size d) t) /\ (exists s, In (SLook (fd_name d) s (fd_change d)) h).
Definition scan_inv (h : list scanop) (l : list fdata) : Prop := NoDup (map fd_name l) /\ Forall (entry_ok h) l.

Lemma look_now h f s t : last_look (h ++ [SLook f s t]) f s t.
Proof. exists h, []. split; [reflexivity|intros ? ? []]. Qed.
Lemma look_later h f s t o : last_look h f s t -> (forall s' t', o <> SLook f s' t') -> last_look (h ++ [o]) f s t.
Proof.
  intros (a & b & -> & N) O. exists a, (b ++ [o]). split; [rewrite <- app_assoc; reflexivity|]. intros s' t' I.
  apply in_app_or in I as [I|[I|[]]]; [exact (N _ _ I)|exact (O _ _ I)].
Qed.
Lemma entry_later h d o : entry_ok h d -> (forall s' t', o <> SLook (fd_name d) s' t') -> entry_ok (h ++ [o]) d.
Proof.
  intros [[t L] [s I]] O. split; [exists t; apply look_later; assumption|]. exists s. apply in_or_app. left. exact I.
Qed.
Lemma find_change_ok h f size now age : forall l x, find_change l f size now age = Some x -> scan_inv h l ->
  scan_inv (h ++ [SLook f size now]) (snd x) /\ (forall y, In y (map fd_name (snd x)) -> In y (map fd_name l)) /\
  (fst x = true -> exists d, entry_ok h d /\ fd_name d = f /\ fd_size d = size /\ age <= now - fd_change d).
Proof.
  induction l as [|d l IH]; intros x H [ND F]; [discriminate|]. cbn [find_change] in H. inversion ND as [|? ? NI ND']; subst.
  inversion F as [|? ? E F']; subst. destruct (beqb (fd_name d) f) eqn:B.
  - apply beqb_eq in B. subst f.
    assert (R : Forall (entry_ok (h ++ [SLook (fd_name d) size now])) l).
    { apply Forall_forall. intros y I. apply entry_later; [rewrite Forall_forall in F'; exact (F' y I)|].
      intros s' t' Q. injection Q as Q _ _. apply NI. rewrite Q. apply in_map, I. }
    destruct ((fd_size d =? size) && (age <=? now - fd_change d)) eqn:C.
    + injection H as <-. cbn [fst snd]. split; [split; assumption|]. split; [intros y I; right; exact I|]. intros _. exists d. split; [exact E|]. split; [reflexivity|]. split; lia.
    + cbn [fd_size] in H. rewrite Z.eqb_refl in H. cbn [negb] in H. injection H as <-. cbn [fst snd]. split; [|split; [intros y I; exact I|discriminate]].
      split; [exact ND|]. constructor; [|exact R]. split; cbn [fd_name fd_size fd_change].
      * exists now. apply look_now.
      * destruct E as [_ [s I]]. exists s. apply in_or_app. left. exact I.
  - destruct (find_change l f size now age) as [[b r]|] eqn:Q; [|discriminate]. injection H as <-. cbn [fst snd].
    destruct (IH _ eq_refl (conj ND' F')) as ([ND2 F2] & SUB & T). cbn [fst snd] in *. split; [split|split].
    + cbn [map]. constructor; [|exact ND2]. intros I. apply NI, SUB, I.
    + constructor; [|exact F2]. apply entry_later; [exact E|]. intros s' t' X. injection X as X _ _. apply beqb_neq in B. congruence.
    + intros y [<-|I]; [left; reflexivity|]. right. apply SUB, I.
    + exact T.
Qed.
Lemma find_change_none f size now age : forall l, find_change l f size now age = None -> ~ In f (map fd_name l).
Proof.
  induction l as [|d l IH]; intros H; [intros []|]. cbn [find_change] in H. destruct (beqb (fd_name d) f) eqn:B.
  - destruct (_ && _); discriminate.
  - destruct (find_change l f size now age) as [[? ?]|]; [discriminate|]. intros [I|I]; [apply beqb_neq in B; contradiction|]. exact (IH eq_refl I).
Qed.
Lemma NoDup_snoc {A} (l : list A) x : NoDup l -> ~ In x l -> NoDup (l ++ [x]).
Proof.
  intros ND N. induction l as [|y l IH]; [constructor; [intros []|constructor]|]. inversion ND; subst. cbn [app]. constructor.
  - intros I. apply in_app_or in I as [I|[I|[]]]; [contradiction|]. apply N. left. symmetry. exact I.
  - apply IH; [assumption|]. intros I. apply N. right. exact I.
Qed.
Lemma scan_step_inv age h l o : (forall f s t, o = SLook f s t -> wanted_name f = true) -> scan_inv h l -> scan_inv (h ++ [o]) (snd (scan_step age l o)).
Proof.
  intros W I. destruct o as [f size now|now interval]; cbn [scan_step].
  - unfold can_process. rewrite (W _ _ _ eq_refl). cbn [negb]. destruct (find_change l f size now age) as [x|] eqn:E.
    + exact (proj1 (find_change_ok _ _ _ _ _ _ _ E I)).
    + apply find_change_none in E. destruct I as [ND F]. cbn [snd]. split.
      * rewrite map_app. cbn [map]. apply NoDup_snoc; assumption.
      * apply Forall_app. split.
        -- apply Forall_forall. intros d ID. apply entry_later; [rewrite Forall_forall in F; exact (F d ID)|].
           intros s' t' Q. injection Q as Q _ _. apply E. rewrite Q. apply in_map, ID.
        -- constructor; [|constructor]. split; cbn [fd_name fd_size fd_change]; [exists now; apply look_now|].
           exists size. apply in_or_app. right. left. reflexivity.
  - destruct I as [ND F]. cbn [snd]. unfold drop_old. split.
    + clear F. induction l as [|d l IH]; [constructor|]. inversion ND; subst. cbn [filter]. destruct (negb _); [|apply IH; assumption].
      cbn [map]. constructor; [|apply IH; assumption]. intros X. apply in_map_iff in X as (y & E & X). apply filter_In in X as [X _].
      match goal with H : ~ In _ _ |- _ => apply H end. rewrite <- E. apply in_map, X.
    + apply Forall_forall. intros d X. apply filter_In in X as [X _]. apply entry_later; [rewrite Forall_forall in F; exact (F d X)|]. discriminate.
Qed.
Lemma scan_run_inv age : forall ops h l, (forall f s t, In (SLook f s t) ops -> wanted_name f = true) -> scan_inv h l ->
  scan_inv (h ++ ops) (scan_run age l ops).
Proof.
  induction ops as [|o ops IH]; intros h l W I; [rewrite app_nil_r; exact I|]. cbn [scan_run].
  change (o :: ops) with ([o] ++ ops). rewrite app_assoc. apply IH; [intros f s t X; apply (W f s t); right; exact X|].
  apply scan_step_inv; [|exact I]. intros f s t ->. apply (W f s t). left. reflexivity.
Qed.
(** A file is taken when its size did not change between the last two looks, and it was first seen
    long enough ago. *)
Theorem taken_when : forall age ops f size now, (forall g s t, In (SLook g s t) ops -> wanted_name g = true) ->
  fst (can_process (scan_run age [] ops) f true size now age) = true ->
  wanted_name f = true /\ (exists t, last_look ops f size t) /\ (exists s t0, In (SLook f s t0) ops /\ age <= now - t0).
Proof.
  intros age ops f size now W H. assert (I := scan_run_inv age ops [] [] W (conj (NoDup_nil _) (Forall_nil _))). cbn [app] in I.
  unfold can_process in H. destruct (wanted_name f); [|discriminate]. cbn [negb] in H. split; [reflexivity|].
  destruct (find_change _ f size now age) as [x|] eqn:E; [|discriminate].
  destruct (find_change_ok _ _ _ _ _ _ _ E I) as (_ & _ & T). destruct (T H) as (d & [L [s IN]] & <- & <- & A).
  split; [exact L|]. exists s, (fd_change d). split; assumption.
Qed.
(** Every file is taken at some look: when the size is unchanged and the time has passed. *)
Theorem taken_finally : forall age l f size now d, In d l -> NoDup (map fd_name l) -> wanted_name f = true ->
  fd_name d = f -> fd_size d = size -> age <= now - fd_change d -> fst (can_process l f true size now age) = true.
Proof.
  intros age l f size now d I ND W N S A. unfold can_process. rewrite W. cbn [negb].
  assert (X : exists r, find_change l f size now age = Some (true, r)).
  { induction l as [|e l IH]; [destruct I|]. inversion ND as [|? ? NI ND']; subst. cbn [find_change]. destruct I as [->|I].
    - rewrite beqb_refl, Z.eqb_refl. replace (age <=? _) with true by lia. eexists. reflexivity.
    - destruct (beqb (fd_name e) (fd_name d)) eqn:B; [|destruct (IH I ND') as [r ->]; eexists; reflexivity].
      apply beqb_eq in B. exfalso. apply NI. rewrite B. apply in_map, I. }
  destruct X as [r ->]. reflexivity.
Qed.

(** An entry stays while the file is not taken and not too old. *)
Lemma find_change_other f size now age d : forall l x, find_change l f size now age = Some x -> In d l -> fd_name d <> f -> In d (snd x).
Proof.
  induction l as [|e l IH]; intros x H I N; [discriminate|]. cbn [find_change] in H. destruct (beqb (fd_name e) f) eqn:B.
  - apply beqb_eq in B. destruct I as [->|I]; [congruence|]. destruct (_ && _); injection H as <-; cbn [snd]; [exact I|right; exact I].
  - destruct (find_change l f size now age) as [[b r]|] eqn:Q; [|discriminate]. injection H as <-. cbn [snd].
    destruct I as [->|I]; [left; reflexivity|right]. exact (IH _ eq_refl I N).
Qed.
Lemma find_change_same size now age d : forall l x, find_change l (fd_name d) size now age = Some x -> In d l -> NoDup (map fd_name l) ->
  size = fd_size d -> now - fd_change d < age -> In d (snd x).
Proof.
  induction l as [|e l IH]; intros x H I ND E A; [discriminate|]. inversion ND as [|? ? NI ND']; subst. cbn [find_change] in H. destruct (beqb (fd_name e) (fd_name d)) eqn:B.
  - apply beqb_eq in B. destruct I as [->|I]; [|exfalso; apply NI; rewrite B; apply in_map, I]. rewrite Z.eqb_refl in H. replace (age <=? now - fd_change d) with false in H by lia.
    cbn [andb fd_size] in H. rewrite Z.eqb_refl in H. cbn [negb] in H. injection H as <-. left. destruct d; reflexivity.
  - destruct (find_change l (fd_name d) (fd_size d) now age) as [[b r]|] eqn:Q; [|discriminate]. injection H as <-. cbn [snd].
    destruct I as [->|I]; [rewrite beqb_refl in B; discriminate|right]. exact (IH _ eq_refl I ND' eq_refl A).
Qed.
Lemma entry_stays age d : forall ops h l, scan_inv h l -> In d l ->
  (forall g s t, In (SLook g s t) ops -> wanted_name g = true) ->
  (forall s t, In (SLook (fd_name d) s t) ops -> s = fd_size d /\ t < fd_change d + age) ->
  (forall s i, In (SDrop s i) ops -> fd_change d <= s < fd_change d + 2 * (i + age)) -> In d (scan_run age l ops).
Proof.
  induction ops as [|o ops IH]; intros h l I ID W L D; [exact ID|]. cbn [scan_run].
  assert (I' : scan_inv (h ++ [o]) (snd (scan_step age l o))) by (apply scan_step_inv; [intros g s t ->; apply (W g s t); left; reflexivity|exact I]).
  apply (IH (h ++ [o])); [exact I'| |intros; eapply W; right; eassumption|intros; apply L; right; assumption|intros; apply D; right; assumption].
  destruct o as [g s t|s i]; cbn [scan_step].
  - unfold can_process. rewrite (W g s t (or_introl eq_refl)). cbn [negb]. destruct (find_change l g s t age) as [x|] eqn:E.
    + destruct (beqb (fd_name d) g) eqn:B.
      * apply beqb_eq in B. subst g. destruct (L s t (or_introl eq_refl)) as [S1 S2]. eapply find_change_same; [exact E|exact ID|apply I|exact S1|lia].
      * apply beqb_neq in B. eapply find_change_other; eassumption.
    + cbn [snd]. apply in_or_app. left. exact ID.
  - cbn [snd]. unfold drop_old. apply filter_In. split; [exact ID|]. destruct (D s i (or_introl eq_refl)) as [D1 D2].
    replace (s <? fd_change d) with false by lia. rewrite orb_false_r. replace ((i + age) * 2 <=? s - fd_change d) with false by lia. reflexivity.
Qed.
Theorem taken_in_time : forall age before f size t0 after now, 0 < age ->
  (forall g s t, In (SLook g s t) (before ++ SLook f size t0 :: after) -> wanted_name g = true) ->
  (forall s t, ~ In (SLook f s t) before) ->
  (forall s t, In (SLook f s t) after -> s = size /\ t < t0 + age) ->
  (forall s i, In (SDrop s i) after -> t0 <= s < t0 + 2 * (i + age)) -> t0 + age <= now ->
  fst (can_process (scan_run age [] (before ++ SLook f size t0 :: after)) f true size now age) = true.
Proof.
  intros age before f size t0 after now PA W NB L D A. assert (Wf : wanted_name f = true) by (apply (W f size t0), in_or_app; right; left; reflexivity).
  assert (R : forall a b l, scan_run age l (a ++ b) = scan_run age (scan_run age l a) b) by (induction a as [|o a IH]; intros b l; [reflexivity|]; cbn [app scan_run]; apply IH).
  rewrite R. cbn [scan_run scan_step]. assert (I := scan_run_inv age before [] [] (fun g s t X => W g s t (in_or_app _ _ _ (or_introl X))) (conj (NoDup_nil _) (Forall_nil _))). cbn [app] in I.
  set (l := scan_run age [] before) in *. clearbody l.
  assert (I2 := scan_step_inv age before l (SLook f size t0)). cbn [scan_step] in I2. specialize (I2 (fun g s t E => ltac:(injection E as <- _ _; exact Wf)) I).
  assert (E : snd (can_process l f true size t0 age) = l ++ [mkFd f size t0]).
  { unfold can_process. rewrite Wf. cbn [negb]. destruct (find_change l f size t0 age) as [x|] eqn:E; [|reflexivity]. exfalso.
    assert (IF : In f (map fd_name l)).
    { clear -E. revert x E. induction l as [|d l IH]; intros x E; [discriminate|]. cbn [find_change] in E. destruct (beqb (fd_name d) f) eqn:B; [left; apply beqb_eq; exact B|].
      destruct (find_change l f size t0 age); [|discriminate]. right. eapply IH; reflexivity. }
    apply in_map_iff in IF as (d & <- & ID). destruct I as [_ F]. rewrite Forall_forall in F. destruct (F d ID) as [_ [s X]]. exact (NB _ _ X). }
  rewrite E in I2 |- *.
  assert (ST : In (mkFd f size t0) (scan_run age (l ++ [mkFd f size t0]) after)).
  { eapply entry_stays; [exact I2|apply in_or_app; right; left; reflexivity| | |]; cbn [fd_name fd_size fd_change]; auto. intros g s t X. apply (W g s t), in_or_app. right. right. exact X. }
  assert (I3 : scan_inv ((before ++ [SLook f size t0]) ++ after) (scan_run age (l ++ [mkFd f size t0]) after)).
  { apply scan_run_inv; [|exact I2]. intros g s t X. apply (W g s t), in_or_app. right. right. exact X. }
  eapply taken_finally; [exact ST|apply I3|exact Wf|reflexivity|reflexivity|cbn; lia].
Qed.
