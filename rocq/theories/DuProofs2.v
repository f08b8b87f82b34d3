From Coq Require Import String.
From Verif Require Import Base WildModel DuModel DuSpec DuProofs.
Open Scope list_scope. Open Scope Z_scope.

Ltac ds s := destruct s as [at0 arch wait comp stp proc unp term allok ok asked open que thr stat disk found late runs ans failed bad].
Ltac go := un; brk; un; brk; subst; ifs; un.

Definition T1 (ls : list label) (s : st) : Prop :=
  (stops ls -> s_stopped s = true) /\ (In (TAsk true) ls -> s_stopped s = true \/ s_queued s = false) /\
  (In (TRead MFail) ls -> s_stopped s = true \/ s_queued s = false \/ s_at s = Line MFail) /\ (s_completed s = true -> In QCompleted ls).
Lemma stops_snoc ls l : stops (ls ++ [l]) -> stops ls \/ match l with QFile _ true | QShutdown | QDeleted => True | _ => False end.
Proof.
  unfold stops. intros [(f & H)|[H|H]]; apply in_app_iff in H; destruct H as [H|[H|[]]]; try subst l; try (right; exact Logic.I); left; eauto.
Qed.
Lemma in_snoc (l x : label) ls : In x (ls ++ [l]) -> In x ls \/ l = x.
Proof. intros H. apply in_app_iff in H. destruct H as [H|[H|[]]]; auto. Qed.
Lemma t1 main cmd d ls s : run main cmd ls (start d) = Some s -> T1 ls s.
Proof.
  apply trace_ind; clear ls s.
  - unfold T1, stops. cbn. repeat split; try (intros H; tauto); try congruence. intros [(f & [])|[[]|[]]].
  - intros ls l s s' _ (A & B & C & D) G. ds s.
    assert (X1 : In QCompleted ls -> In QCompleted (ls ++ [l])) by (intros; apply in_or_app; auto).
    assert (X2 : l = QCompleted -> In QCompleted (ls ++ [l])) by (intros ->; apply in_or_app; right; left; reflexivity).
    unfold T1.
    destruct l; go.
    all: split; [intros H; apply stops_snoc in H | split; [intros H; apply in_snoc in H | split; [intros H; apply in_snoc in H | intros H]]].
    all: try solve [destruct H as [H|H]; try discriminate; try contradiction; try (apply A in H); try (apply B in H); try (apply C in H); intuition congruence].
    all: try solve [auto | tauto | intuition congruence].
    destruct H as [H|H]; [auto|]. injection H as ->. right. exact Heqb.
Qed.

(** What unrar printed and how it ended. *)
Definition said (ls : list label) : Prop := exists a1 a2, ls = a1 ++ TRead MAllOk :: a2 /\ ~ In TStart a2.
Lemma said_snoc ls l : said ls -> l <> TStart -> said (ls ++ [l]).
Proof.
  intros (a1 & a2 & -> & H) N. exists a1, (a2 ++ [l]). split; [rewrite <- app_assoc; reflexivity|].
  intros K. apply in_snoc in K. destruct K as [K|K]; [exact (H K) | exact (N K)].
Qed.
Definition over (a : at_) : Prop := a = Ended \/ a = Out \/ a = Finished.
Definition T2 (cmd : bool) (ls : list label) (s : st) : Prop :=
  (cmd = true -> s_allok s = true -> said ls) /\
  (s_at s = Line MAllOk -> said ls) /\
  (good_exits ls \/ (s_ok s = false /\ over (s_at s))) /\
  (s_ok s = true -> exists c, In (TExit c) ls).
Lemma good_snoc ls l : good_exits ls -> (forall c, l = TExit c -> c = 0 /\ said ls) -> good_exits (ls ++ [l]).
Proof.
  intros G L a c b H. destruct b as [|x b] using rev_ind.
  - apply app_inj_tail in H. destruct H as (-> & ->). exact (L c eq_refl).
  - clear IHb. rewrite app_comm_cons, app_assoc in H. apply app_inj_tail in H. destruct H as (H & _). exact (G a c b H).
Qed.
Lemma good_other ls l : good_exits ls -> (forall c, l <> TExit c) -> good_exits (ls ++ [l]).
Proof. intros G H. apply good_snoc; [exact G|]. intros c E. destruct (H c E). Qed.
Lemma exit_snoc ls l : (exists c, In (TExit c) ls) -> exists c, In (TExit c) (ls ++ [l]).
Proof. intros (c & H). exists c. apply in_or_app. auto. Qed.
Lemma t2 main cmd d ls s : run main cmd ls (start d) = Some s -> T2 cmd ls s.
Proof.
  apply trace_ind; clear ls s.
  - unfold T2. cbn. split; [congruence|]. split; [congruence|]. split; [|congruence]. left. intros a c b H. destruct a; discriminate.
  - intros ls l s s' V (A & B & C & D) G. ds s. unfold T2, over in *.
    destruct l; go.
    all: split; [intros Hc Q | split; [intros Q | split; [ | intros Q]]].
    all: try discriminate.
    all: try solve [apply said_snoc; [auto | discriminate]].
    all: try solve [apply exit_snoc; auto].
    all: try solve [exists ls, []; split; [reflexivity | exact (fun f => f)]].
    all: try (destruct C as [C|(C & C1)]; [try solve [left; apply good_other; [exact C | discriminate]] | try solve [right; split; [assumption | intuition congruence] | exfalso; intuition congruence]]).
    + assert (cmd = true) as -> by (destruct cmd; intuition congruence).
      destruct ((code =? 0) && (allok && negb term)) eqn:K; [left | right; auto].
      apply andb_true_iff in K. destruct K as (K & K1). apply andb_true_iff in K1. apply Z.eqb_eq in K.
      apply good_snoc; [exact C|]. intros c Hc. injection Hc as <-. split; [exact K | apply A; tauto].
    + exists code. apply in_or_app. right. left. reflexivity.
Qed.

(** The answers are the answers to the questions, and the volumes were there. *)
Definition T3 (d : list (list Z)) (ls : list label) (s : st) : Prop :=
  questions ls = s_answers s ++ match s_asked s with Some v => [v] | None => [] end /\
  (forall f, In f (s_disk s) -> present d ls f) /\ (forall f, present d ls f -> In f (s_disk s)) /\
  (forall v, In v (s_answers s) -> exists f, In f (s_disk s) /\ same_but_case f v).
Lemma questions_snoc ls l : questions (ls ++ [l]) = questions ls ++ match l with TRead (MAsk v) => [v] | _ => [] end.
Proof. unfold questions. rewrite flat_map_app. cbn [flat_map]. rewrite app_nil_r. reflexivity. Qed.
Lemma mem_in f l : mem_name f l = true <-> In f l.
Proof.
  unfold mem_name. rewrite existsb_exists. split; [intros (x & H & B); apply beqb_eq in B; subst; exact H | intros H; exists f; split; [exact H | apply beqb_refl]].
Qed.
Lemma same_iff f v : same_name f v = true <-> same_but_case f v.
Proof. apply beqb_eq. Qed.
Lemma present_snoc d ls l f : present d (ls ++ [l]) f <-> present d ls f \/ l = QDisk f.
Proof. unfold present. rewrite in_app_iff. cbn. tauto. Qed.
Lemma inv_wait cmd s v : inv cmd s -> s_wait s = Some v -> s_open s = true -> s_asked s = Some v.
Proof. intros (P & _) W O. unfold phase, closed, opened, quiet in P. destruct (s_at s); intuition congruence. Qed.
Lemma inv_look cmd s v : inv cmd s -> s_at s = Look v -> s_asked s = Some v.
Proof. intros (P & _) W. unfold phase in P. rewrite W in P. tauto. Qed.
Lemma inv_taken cmd s a : inv cmd s -> s_at s = Taken a -> s_asked s = None.
Proof. intros (P & _) W. unfold phase, quiet in P. rewrite W in P. tauto. Qed.
Lemma t3 main cmd d ls s : run main cmd ls (start d) = Some s -> T3 d ls s.
Proof.
  apply trace_ind; clear ls s.
  - unfold T3, present. cbn. split; [reflexivity|]. split; [auto|]. split; [intros f [H|[]]; exact H | intros v []].
  - intros ls l s s' V (A & B & C & D) G.
    pose proof (fun v => inv_wait cmd s v V) as V1. pose proof (fun v => inv_look cmd s v V) as V2. pose proof (fun v => inv_taken cmd s v V) as V3. clear V.
    ds s. unfold T3.
    destruct l; go.
    all: split; [rewrite questions_snoc, A | split; [intros f0 Hf; apply present_snoc | split; [intros f0 Hf; apply present_snoc in Hf; destruct Hf as [Hf|Hf] | intros v0 Hv]]].
    all: try discriminate; try solve [auto | rewrite app_nil_r; reflexivity].
    all: try solve [match goal with V : forall v, Look ?x = Look v -> _ |- _ => rewrite (V x eq_refl) | V : forall v, Taken ?x = Taken v -> _ |- _ => rewrite (V x eq_refl)
                    | V : forall v, Some ?x = Some v -> _ |- _ => rewrite (V x eq_refl eq_refl) | E : Some _ = Some _ |- _ => injection E as -> end; rewrite ?app_nil_r; reflexivity].
    all: try solve [apply in_app_iff in Hf; destruct Hf as [Hf|[->|[]]]; auto].
    all: try solve [apply in_or_app; auto | injection Hf as ->; apply in_or_app; right; left; reflexivity].
    all: try solve [destruct (D v0 Hv) as (x & X & Y); exists x; split; [apply in_or_app; auto | exact Y]].
    all: apply in_app_iff in Hv; destruct Hv as [Hv|[<-|[]]]; [auto|].
    all: repeat match goal with K : _ && _ = true |- _ => apply andb_true_iff in K; destruct K end.
    all: match goal with K : mem_name ?x _ = true |- _ => exists x; split; [apply mem_in; exact K | try reflexivity; apply same_iff; assumption] end.
Qed.

(** The archives to be unpacked. *)
Definition T4 (main : list Z -> bool) (d : list (list Z)) (ls : list label) (s : st) : Prop :=
  (forall f, In f (s_found s) -> main f = true /\ In f (s_disk s)) /\
  (forall f, main f = true -> In (QFile f false) ls -> In f (s_found s)) /\
  (s_at s <> Scan -> forall f, main f = true -> In f d -> In f (s_found s)) /\
  (forall f, In f d -> In f (s_disk s)) /\ (s_late s = true -> after_end ls).
Lemma after_snoc ls l : after_end ls -> after_end (ls ++ [l]).
Proof. intros (a & b & f & -> & H). exists a, (b ++ [l]), f. split; [rewrite <- app_assoc; reflexivity | apply in_or_app; auto]. Qed.
Lemma after_now ls f : In QCompleted ls -> after_end (ls ++ [QFile f false]).
Proof.
  intros H. apply in_split in H. destruct H as (a & b & ->). exists a, (b ++ [QFile f false]), f. split; [rewrite <- app_assoc; reflexivity|].
  apply in_or_app. right. left. reflexivity.
Qed.
Lemma t4 main cmd d ls s : run main cmd ls (start d) = Some s -> (s_completed s = true -> In QCompleted ls) /\ T4 main d ls s.
Proof.
  apply (trace_ind main cmd d (fun ls s => (s_completed s = true -> In QCompleted ls) /\ T4 main d ls s)); clear ls s.
  - unfold T4. cbn. split; [discriminate|]. split; [intros f []|]. split; [intros f _ []|]. split; [congruence|]. split; [auto | discriminate].
  - intros ls l s s' _ (Z0 & A & B & C & D & F) G. ds s. unfold T4.
    destruct l; go.
    all: split; [intros Q; apply in_or_app | split; [intros f0 Q | split; [intros f0 Q Q1; apply in_snoc in Q1; destruct Q1 as [Q1|Q1] | split; [intros Q f0 Q1 Q2 | split; [intros f0 Q | intros Q]]]]].
    all: try discriminate; try solve [auto | right; left; reflexivity | apply after_snoc; auto | apply C; auto; discriminate].
    all: repeat match goal with K : _ && _ = true |- _ => apply andb_true_iff in K; destruct K end.
    all: try match goal with K : mem_name _ _ = true |- _ => apply mem_in in K end.
    all: try solve [injection Q1 as ->; congruence].
    all: try solve [injection Q1 as ->; apply in_or_app; right; left; reflexivity].
    all: try solve [apply in_or_app; left; auto | apply orb_true_iff in Q; destruct Q as [Q|Q]; [apply after_snoc; auto | apply after_now; auto]].
    all: try solve [destruct (A f0 Q); split; [assumption | apply in_or_app; auto]].
    all: try solve [apply in_app_iff in Q; destruct Q as [Q|[<-|[]]]; auto].
    + apply in_app_iff in Q. destruct Q as [Q|Q]; [auto|]. apply filter_In in Q. tauto.
    + apply in_or_app. right. apply filter_In. auto.
Qed.

Definition T5 (ls : list label) (s : st) : Prop := s_status s = SSuccess -> ~ In (TAsk true) ls /\ ~ In (TRead MFail) ls.
Lemma inv_success cmd s : inv cmd s -> s_status s = SSuccess -> s_at s = Finished.
Proof. intros (_ & _ & V & _) H. destruct (s_at s); try reflexivity; exfalso; apply V; congruence. Qed.
Lemma t5 main cmd d ls s : run main cmd ls (start d) = Some s -> T1 ls s /\ T5 ls s.
Proof.
  intros R. split; [exact (t1 _ _ _ _ _ R)|]. revert s R. induction ls as [|l ls IH] using rev_ind; intros s' R; [injection R as <-; discriminate|].
  apply run_snoc in R. destruct R as (s & R & G). pose proof (t1 _ _ _ _ _ R) as (A & B & C & D). pose proof (inv_success _ _ (inv_run _ _ _ _ _ R)) as V. specialize (IH _ R).
  ds s. unfold T5 in *.
  assert (X : s_status s' = SSuccess -> l <> TAsk true /\ l <> TRead MFail /\ (stat = SSuccess \/ (stp = false /\ que = true /\ at0 = Out))).
  { clear -G V. destruct l; go; intros Q; repeat split; try discriminate; auto; try (apply V in Q; discriminate).
    all: repeat match goal with K : _ && _ = true |- _ => apply andb_true_iff in K; destruct K end.
    all: right; split; [destruct stp; [discriminate | reflexivity] | auto]. }
  intros Q. destruct (X Q) as (X1 & X2 & [X3|(X3 & X4 & X5)]).
  - destruct (IH X3) as (Y1 & Y2). split; intros K; apply in_snoc in K; destruct K; contradiction.
  - cbn in *. subst. split; intros K; apply in_snoc in K; destruct K as [K|K]; try contradiction; [apply B in K | apply C in K]; intuition congruence.
Qed.
Definition T6 (ls : list label) (s : st) : Prop := forall f, In f (unpacked s) -> In f (s_found s).
Lemma inv_taken_found cmd s a : inv cmd s -> s_at s = Taken a -> In a (s_found s).
Proof. intros (P & _) W. unfold phase, all_of in P. rewrite W in P. destruct P as (_ & _ & -> & _). apply in_or_app. right. left. reflexivity. Qed.
Lemma t6 main cmd d ls s : run main cmd ls (start d) = Some s -> T6 ls s.
Proof.
  apply (trace_ind main cmd d T6); clear ls s; [intros f []|].
  intros ls l s s' V A G. pose proof (fun a => inv_taken_found cmd s a V) as V1. clear V. ds s. unfold T6 in *.
  destruct l; go.
  all: intros f0 Q; rewrite ?last_run_names, ?map_app in *; try apply in_or_app; auto.
  cbn [map fst] in Q. apply in_app_iff in Q. destruct Q as [Q|[<-|[]]]; auto.
Qed.
(** ** What is promised *)
Lemma success_thm main cmd d ls s : run main cmd ls (start d) = Some s -> s_status s = SSuccess ->
  good_exits ls /\ (exists c, In (TExit c) ls) /\ In QCompleted ls /\ ~ stops ls /\ ~ In (TAsk true) ls /\ ~ In (TRead MFail) ls.
Proof.
  intros R H. pose proof (inv_run _ _ _ _ _ R) as (V & V1 & V2 & V3). pose proof (t1 _ _ _ _ _ R) as (A1 & A2 & A3 & A4). pose proof (t2 _ _ _ _ _ R) as (B1 & B2 & B3 & B4).
  unfold phase in V. destruct (s_at s) eqn:E; try (exfalso; apply V2; congruence). destruct V as (_ & V). destruct (V H) as (X1 & X2 & X3 & X4 & X5 & X6).
  split; [destruct B3 as [B3|(B3 & _)]; [exact B3 | congruence]|]. split; [auto|]. split; [auto|]. split; [intros K; apply A1 in K; congruence|].
  exact (proj2 (t5 _ _ _ _ _ R) H).
Qed.
Lemma all_thm main cmd d ls s : run main cmd ls (start d) = Some s -> s_status s = SSuccess -> ~ after_end ls ->
  forall f, main f = true -> In f d \/ In (QFile f false) ls -> In f (unpacked s).
Proof.
  intros R H N f M K. pose proof (inv_run _ _ _ _ _ R) as (V & V1 & V2 & V3). pose proof (t4 _ _ _ _ _ R) as (_ & A1 & A2 & A3 & A4 & A5).
  unfold phase in V. destruct (s_at s) eqn:E; try (exfalso; apply V2; congruence). destruct V as (_ & V). destruct (V H) as (X1 & X2 & X3 & X4 & X5 & X6).
  assert (L : s_late s = false) by (destruct (s_late s); [destruct (N (A5 eq_refl)) | reflexivity]).
  unfold all_of in X5. rewrite (X6 L) in X5. cbn [app] in X5. rewrite app_nil_r in X5. rewrite <- X5.
  destruct K as [K|K]; [apply A3; auto; discriminate | apply A2; auto].
Qed.
Lemma only_thm main cmd d ls s f : run main cmd ls (start d) = Some s -> In f (unpacked s) -> main f = true /\ present d ls f.
Proof.
  intros R K. pose proof (t4 _ _ _ _ _ R) as (_ & A1 & _). pose proof (t3 _ _ _ _ _ R) as (_ & B1 & _ & _). pose proof (t6 _ _ _ _ _ R f K) as F.
  destruct (A1 f F). auto.
Qed.
Lemma answers_thm main cmd d ls s : run main cmd ls (start d) = Some s ->
  (exists q, questions ls = s_answers s ++ q /\ (length q <= 1)%nat) /\
  (forall v, In v (s_answers s) -> exists f, present d ls f /\ same_but_case f v).
Proof.
  intros R. pose proof (t3 _ _ _ _ _ R) as (A & B & C & D). split.
  - exists (match s_asked s with Some v => [v] | None => [] end). split; [exact A|]. destruct (s_asked s); cbn; lia.
  - intros v H. destruct (D v H) as (f & K & L). exists f. auto.
Qed.
Lemma wakes_thm main cmd d ls s v f : run main cmd ls (start d) = Some s -> s_at s = Run -> questions ls = s_answers s ++ [v] ->
  s_queued s = true -> s_thread s = true -> present d ls f -> same_but_case f v ->
  exists s', step main cmd (QFile f false) s = Some s' /\ s_answers s' = s_answers s ++ [v].
Proof.
  intros R E Q U T P K. pose proof (inv_run _ _ _ _ _ R) as (V & _). pose proof (t3 _ _ _ _ _ R) as (A & B & C & D).
  rewrite Q in A. apply app_inv_head in A. unfold phase in V. rewrite E in V. destruct V as ((O & _) & W & _).
  destruct (s_asked s) as [w|] eqn:F; [injection A as <-|discriminate].
  unfold step. rewrite U, T. assert (mem_name f (s_disk s) = true) as -> by (apply mem_in; auto). cbn [andb].
  rewrite W. assert (same_name f v = true) as -> by (apply same_iff; exact K). unfold answer. cbn [s_open set_wait]. rewrite O.
  destruct (main f); eexists; split; reflexivity.
Qed.
Lemma gives_up_thm main cmd d ls s v : run main cmd ls (start d) = Some s -> s_at s = Run -> questions ls = s_answers s ++ [v] ->
  s_completed s = true -> s_terminated s = true \/ s_queued s = false.
Proof.
  intros R E Q U. pose proof (inv_run _ _ _ _ _ R) as (V & _). pose proof (t3 _ _ _ _ _ R) as (A & B & C & D).
  rewrite Q in A. apply app_inv_head in A. unfold phase in V. rewrite E in V. destruct V as (_ & W & _ & _ & _ & V).
  destruct (s_asked s) as [w|] eqn:F; [|discriminate]. apply V; [exact U | congruence].
Qed.
