(** Post-processing of one download: the small steps it can make, what holds of it between them, and how the number
    of jobs that can still be started goes down. *)
From Verif Require Import Base UnpackModel PostModel PostSpec.
Open Scope list_scope. Open Scope Z_scope.

Inductive mlab := MStart (k : kind) | MTau | MDown | MAppear | MAgain.

(** The steps of one download; the flag: it is among the active jobs. *)
Inductive mstep (o : opts) : dl * bool -> dl * bool -> mlab -> Prop :=
| m_request d p : d_post d = Some p -> mstep o (d, true) (check_request o d, true) MTau
| m_requeue d d' p : d_post d = Some p -> p_request p = false -> cleanup_job d = Some (Requeued d') -> mstep o (d, true) (d', false) MTau
| m_left d d' : cleanup_job d = Some (Left d') -> mstep o (d, true) (d', false) MTau
| m_start d p ap d' k : d_post d = Some p -> p_stage p = ptQueued -> p_working p = false ->
    start_job o ap p d = (d', k) ->
    mstep o (d, false) (d', true) (match k with Some k => MStart k | None => MTau end)
| m_push d : d_post d <> None -> mstep o (d, false) (d, true) MTau
| m_down d a (direct : bool) : d_post d = None -> (a = true -> False) ->
    mstep o (d, a) (with_post (if (d_par d =? psNone) && negb (pc_always (o_parcheck o)) then with_par d psSkipped else d)
                      (Some (if direct then p_with_stage post0 ptQueued true else post0)), direct) MDown
| m_done d a r d' : job_done o r d = Some d' ->
    mstep o (d, a) (d', a) (match r with RParRename false true _ => MAgain | _ => MTau end)
| m_thread d a p : d_post d = Some p -> p_thread p = TRunning -> p_working p = false ->
    mstep o (d, a) (with_post d (Some (p_with_thread p TEnded)), a) MTau
| m_stage d a p n : d_post d = Some p -> par_stage (p_stage p) = true -> par_stage n = true -> p_working p = true ->
    mstep o (d, a) (with_post d (Some (p_with_stage p n true)), a) MTau
| m_direct d a p : d_post d = Some p -> p_thread p = TNone -> p_working p = true ->
    mstep o (d, a) (with_post d (Some (p_with_stage p (p_stage p) false)), a) MTau
| m_env d a e r : mstep o (d, a) (with_env d e r, a) (if negb (e_pars (d_env d)) && e_pars e then MAppear else MTau)
| m_mark d a p : d_post d = Some p -> p_working p = true ->
    mstep o (d, a) (with_post d (Some (mkPost (p_stage p) (p_working p) true (p_request p) (p_parfull p) (p_force p)
       (p_repaired p) (p_tried p) (p_passtried p) (p_last p) (p_need p) (p_thread p))), a) MTau
| m_delete d p : d_post d = Some p -> p_working p = false -> mstep o (d, false) (with_post d None, false) MTau.

(** In flight: a job of the given kind is working. *)
Definition fl (k : kind) (p : post) : bool :=
  p_working p && match k with JPar => par_stage (p_stage p) | _ => p_stage p =? stage_of k end.

Definition inv_post (o : opts) (a : bool) (d : dl) (p : post) : Prop :=
  (p_request p = true -> a = true /\ p_working p = false) /\
  (p_request p = true ->
     (d_par d <=? psSkipped) = true \/ (pc_manual (o_parcheck o) = false /\ p_force p = true /\ d_full d = false /\
                                        d_par d = psSuccess)) /\
  (fl JUnpack p = true -> (d_par d = psSkipped \/ d_par d = psSuccess) /\ d_delete d = dsNone /\ d_unpack d = usNone /\
     (d_prename d =? rsNone) && o_parrename o = false) /\
  (fl JPar p = true -> d_par d = psNone) /\
  ((p_parfull p = true /\ d_par d = psNone) \/ (p_request p = true /\ psSkipped < d_par d) ->
     d_delete d = dsNone /\ (d_prename d =? rsNone) && o_parrename o = false) /\
  (fl JParRename p = true \/ fl JScript p = true -> p_parfull p = true -> d_par d <> psNone) /\
  (p_working p = true -> p_thread p = TNone -> p_stage p = ptQueued) /\
  (p_working p = true -> a = true) /\
  (pc_manual (o_parcheck o) = true -> d_par d <> psNone) /\
  (p_tried p = true -> p_last p <> usNone).
Definition inv (o : opts) (x : dl * bool) : Prop :=
  0 <= d_par (fst x) <= 5 /\ (pc_manual (o_parcheck o) = true -> d_par (fst x) <> psSuccess) /\
  match d_post (fst x) with
  | None => snd x = false
  | Some p => inv_post o (snd x) (fst x) p
  end.

Definition b2z (b : bool) : Z := if b then 1 else 0.

(** Par-checks still possible, and whether one is due before the next unpack. *)
Definition due (d : dl) (p : post) : bool := (p_request p || (d_par d =? psNone)) && (e_pars (d_env d) || fl JPar p).
Definition checks (d : dl) (p : post) : Z :=
  if due d p then
    if e_pars (d_env d) then
      if (d_par d <=? psSkipped) && negb ((d_par d =? psNone) && p_parfull p && negb (p_request p)) then 2 else 1
    else 1
  else if e_pars (d_env d) then if d_par d =? psSkipped then 2 else if (d_par d =? psSuccess) && negb (d_full d) then 1 else 0
  else 0.

(** Jobs of a kind that can still be started. *)
Definition budget (k : kind) (d : dl) : Z :=
  match d_post d with
  | None => match k with
            | JParRename => b2z (d_prename d =? rsNone) + b2z (d_unpack d =? usNone)
            | JRarRename => b2z (d_rrename d =? rsNone)
            | JCleanup => b2z (d_cleanup d =? csNone)
            | JMove => b2z (d_move d =? msNone)
            | _ => 0
            end
  | Some p =>
    match k with
    | JParRename => (if fl JParRename p then 0 else b2z (d_prename d =? rsNone)) + b2z (d_unpack d =? usNone)
    | JRarRename => if fl JRarRename p then 0 else b2z (d_rrename d =? rsNone)
    | JCleanup => if fl JCleanup p then 0 else b2z (d_cleanup d =? csNone)
    | JMove => if fl JMove p then 0 else b2z (d_move d =? msNone)
    | JScript => if fl JScript p then 0 else b2z (negb (p_stage p =? ptFinished))
    | JPar => checks d p - b2z (fl JPar p)
    | JUnpack => checks d p + b2z ((d_unpack d =? usNone) && negb (due d p)) - b2z (fl JUnpack p)
    end
  end.
Definition allowance (k : kind) (l : mlab) : Z :=
  match l, k with
  | MDown, JScript => 1
  | MDown, JPar => 2
  | MDown, JUnpack => 3
  | MAppear, JPar => 2
  | MAppear, JUnpack => 2
  | MAgain, JParRename => 1
  | _, _ => 0
  end.
Definition started (k : kind) (l : mlab) : Z := match l with MStart j => b2z (kind_eqb j k) | _ => 0 end.

Lemma eqb_r x : (x =? x) = true. Proof. apply Z.eqb_refl. Qed.

Ltac zb := repeat match goal with
  | H : (_ =? _) = true |- _ => apply Z.eqb_eq in H
  | H : (_ =? _) = false |- _ => apply Z.eqb_neq in H
  | H : (_ <=? _) = true |- _ => apply Z.leb_le in H
  | H : (_ <=? _) = false |- _ => apply Z.leb_gt in H
  | H : (_ <? _) = true |- _ => apply Z.ltb_lt in H
  | H : (_ <? _) = false |- _ => apply Z.ltb_ge in H
  | H : _ && _ = true |- _ => apply andb_true_iff in H; destruct H
  | H : _ || _ = false |- _ => apply orb_false_iff in H; destruct H
  | H : negb _ = true |- _ => apply negb_true_iff in H
  | H : negb _ = false |- _ => apply negb_false_iff in H
  end.

(** ** What choose decides *)

Lemma par_failed_iff d : par_failed d = true <-> par_bad d.
Proof.
  unfold par_failed, par_bad. rewrite !orb_true_iff, !Z.eqb_eq. tauto.
Qed.
Lemma unpack_failed_iff d : unpack_failed d = true <-> unpack_bad d.
Proof. unfold unpack_failed, unpack_bad. rewrite !orb_true_iff, !Z.eqb_eq. tauto. Qed.
Lemma untested_iff d : untested d = true <-> not_unpacked d /\ not_checked d.
Proof. unfold untested, not_unpacked, not_checked. rewrite andb_true_iff, !orb_true_iff, !Z.eqb_eq. tauto. Qed.

Lemma choose_gate o ap d k skip : choose o ap d = (Run k, skip) -> may_start o d k.
Proof.
  unfold choose. intros E.
  destruct ((d_prename d =? rsNone) && (d_delete d =? dsNone) && o_parrename o) eqn:E1.
  { injection E as <- <-. zb. cbn. auto. }
  destruct ((d_par d =? psNone) && (d_delete d =? dsNone)) eqn:E2.
  { destruct (e_pars (d_env d)) eqn:Ep; [|discriminate]. destruct ap; [|discriminate]. injection E as <- <-.
    zb. cbn. unfold to_check. auto. }
  assert (NC : ~ to_check d).
  { intros [A B]. rewrite A, B in E2. discriminate. }
  assert (NR : o_parrename o = true -> d_prename d = rsNone -> d_delete d <> dsNone).
  { intros A B C. rewrite A, B, C in E1. discriminate. }
  destruct ((d_par d =? psSkipped) && _ && _) eqn:E3 in E; [discriminate|].
  destruct ((d_par d =? psSkipped) && _ && _) eqn:E4 in E; [discriminate|].
  remember (e_wanted (d_env d) && (d_unpack d =? usNone) && (d_delete d =? dsNone)) as unpack eqn:Eu.
  destruct ((d_rrename d =? rsNone) && unpack && o_rarrename o) eqn:E5.
  { injection E as <- <-. subst unpack. zb. cbn. auto 10. }
  destruct ((d_par d =? psSkipped) && _ && _ && _ && _) eqn:E6 in E; [discriminate|].
  destruct (unpack && negb (unpack && par_failed d)) eqn:E7.
  { injection E as <- <-. apply andb_true_iff in E7. destruct E7 as [Hu Hp]. rewrite Hu in Hp. cbn in Hp.
    subst unpack. zb. cbn. split; [assumption|]. unfold to_unpack. repeat split; auto.
    rewrite <- par_failed_iff. congruence. }
  assert (NU : ~ to_unpack d).
  { intros (A & B & C & D). rewrite <- par_failed_iff in D. rewrite A, B, C in Eu. cbn in Eu. subst unpack.
    destruct (par_failed d); [now apply D|discriminate]. }
  destruct (want_cleanup o unpack d) eqn:E8.
  { injection E as <- <-. unfold want_cleanup in E8. apply andb_true_iff in E8. destruct E8 as [E8 E9].
    zb. cbn. split; [assumption|]. split; [assumption|]. unfold may_clean.
    rewrite <- unpack_failed_iff. rewrite !orb_true_iff in E9.
    assert (HS : d_par d = psSuccess -> ~ par_bad d).
    { unfold par_bad. intros -> [|[|]]; discriminate. }
    assert (HN : not_checked d -> ~ par_bad d).
    { unfold not_checked, par_bad. intros [-> | ->] [|[|]]; discriminate. }
    assert (HU : d_unpack d = usSuccess -> unpack_failed d = false).
    { unfold unpack_failed. now intros ->. }
    assert (HU2 : not_unpacked d -> unpack_failed d = false).
    { unfold unpack_failed, not_unpacked. intros [-> | ->]; reflexivity. }
    destruct E9 as [[E9|E9]|E9].
    - apply andb_true_iff in E9. destruct E9 as [P1 P2]. zb. repeat split; auto.
      + rewrite P1; discriminate.
      + congruence.
      + intros X. exfalso. now apply (HS P1).
      + intros X. exfalso. unfold not_checked in X. rewrite P1 in X. destruct X; discriminate.
    - apply andb_true_iff in E9. destruct E9 as [P1 P2]. zb. repeat split; auto.
      + rewrite HU by assumption. discriminate.
      + intros _ X. exfalso. unfold not_unpacked in X. rewrite P1 in X. destruct X; discriminate.
    - apply andb_true_iff in E9. destruct E9 as [E9 Eh]. apply untested_iff in E9. destruct E9 as [A B]. zb.
      repeat split; auto.
      + destruct B as [-> | ->]; discriminate.
      + rewrite HU2 by assumption. discriminate.
      + intros X. exfalso. now apply HN. }
  destruct (want_move unpack d) eqn:E9.
  { injection E as <- <-. unfold want_move in E9. zb. cbn. split; [assumption|]. split; [assumption|].
    unfold may_move. rewrite <- unpack_failed_iff. repeat split; auto; try congruence.
    intros A B. assert (U : untested d = true) by (apply untested_iff; auto).
    match goal with X : _ && _ = false |- _ => rewrite U in X; cbn in X; apply Z.ltb_ge in X; exact X end. }
  injection E as <- <-. cbn. split; [assumption|]. split; [assumption|]. split; [assumption|].
  intros Nu (M1 & M2 & M3 & M4 & M5 & M6 & M7). unfold want_move in E9.
  assert (U : unpack = false).
  { subst unpack. apply Z.eqb_neq in Nu. rewrite Nu. now rewrite andb_false_r. }
  rewrite U, M1, M2, M3 in E9. apply Z.eqb_neq in M4, M5. rewrite M4, M5 in E9.
  rewrite <- unpack_failed_iff in M6. destruct (unpack_failed d); [now apply M6|]. cbn in E9.
  rewrite andb_true_r in E9. apply negb_false_iff in E9. apply andb_true_iff in E9. destruct E9 as [E9 EH].
  apply untested_iff in E9. destruct E9. apply Z.ltb_lt in EH. specialize (M7 H0 H). lia.
Qed.

(** ** Preservation *)

Ltac ifs := repeat match goal with
  | |- context [if ?b then _ else _] => destruct b eqn:?
  | H : context [if ?b then _ else _] |- _ => destruct b eqn:?
  end.
Ltac unf := cbv [ptQueued ptLoadingPars ptVerifyingSources ptRepairing ptVerifyingRepaired ptParRenaming ptRarRenaming
  ptUnpacking ptCleaningUp ptMoving ptExecutingScript ptFinished rsNone rsSkipped rsNothing rsSuccess csNone csFailure
  csSuccess msNone msFailure msSuccess dsNone usNone usSkipped usFailure usSuccess usSpace usPassword psNone psSkipped
  psFailure psSuccess psRepairPossible psManual stage_of par_stage] in *.

Lemma fl_working k p : p_working p = false -> fl k p = false.
Proof. unfold fl. now intros ->. Qed.
Lemma fl_queued k p : p_stage p = ptQueued -> fl k p = false.
Proof. unfold fl. intros ->. destruct k; cbn; apply andb_false_r. Qed.

Lemma budget_nonneg o d a k : inv o (d, a) -> 0 <= budget k d.
Proof.
  intros (R & M & I). cbn in *. unfold budget. destruct (d_post d) as [p|].
  2:{ unfold b2z. destruct k; ifs; lia. }
  destruct I as (I1 & I2 & I3 & I4 & I5 & I6 & I7 & I8 & I9 & I10).
  assert (C : 0 <= checks d p) by (unfold checks; ifs; lia).
  destruct k; try (unfold b2z; ifs; lia).
  - destruct (fl JPar p) eqn:F; cbn; [|lia]. specialize (I4 eq_refl).
    assert (D : due d p = true) by (unfold due; rewrite I4, F; cbn; now rewrite orb_true_r, orb_true_r).
    unfold checks in *. rewrite D in *. ifs; lia.
  - destruct (fl JUnpack p) eqn:F; cbn; [|unfold b2z; ifs; lia].
    destruct (I3 eq_refl) as (P & _ & U & _). rewrite U. cbn.
    assert (W : p_request p = false).
    { destruct (p_request p); [|reflexivity]. destruct (I1 eq_refl) as [_ W]. rewrite fl_working in F by exact W. discriminate. }
    assert (D : due d p = false) by (unfold due; rewrite W; destruct P as [-> | ->]; reflexivity).
    rewrite D. cbn. lia.
Qed.

Definition good o (x y : dl * bool) (l : mlab) : Prop :=
  inv o y /\ forall k, budget k (fst y) + started k l <= budget k (fst x) + allowance k l.

Ltac open_inv I :=
  let R := fresh "R" in let M := fresh "M" in destruct I as (R & M & I); cbn [fst snd] in R, M, I.
Ltac parts I :=
  destruct I as (I1 & I2 & I3 & I4 & I5 & I6 & I7 & I8 & I9 & I10).

Lemma good_left o d p : inv o (d, true) -> d_post d = Some p -> p_working p = false ->
  good o (d, true) (with_post d None, false) MTau.
Proof.
  intros I P W. split.
  - open_inv I. unfold inv. cbn. auto.
  - intros k. pose proof (budget_nonneg o d true k I) as N. cbn [fst started].
    unfold budget in *. cbn [d_post with_post d_prename d_unpack d_rrename d_cleanup d_move]. rewrite P in *.
    rewrite !fl_working in * by exact W.
    destruct k; cbn [started allowance]; lia.
Qed.
Lemma good_delete o d p : inv o (d, false) -> d_post d = Some p -> p_working p = false ->
  good o (d, false) (with_post d None, false) MTau.
Proof.
  intros I P W. split.
  - open_inv I. unfold inv. cbn. auto.
  - intros k. pose proof (budget_nonneg o d false k I) as N. cbn [fst started].
    unfold budget in *. cbn [d_post with_post d_prename d_unpack d_rrename d_cleanup d_move]. rewrite P in *.
    rewrite !fl_working in * by exact W.
    destruct k; cbn [started allowance]; lia.
Qed.

(** Changes of the [PostInfo] that leave the working job and the flags alone. *)
Definition like (p q : post) : Prop :=
  p_request q = p_request p /\ p_parfull q = p_parfull p /\ p_force q = p_force p /\ p_tried q = p_tried p /\
  p_last q = p_last p /\ (forall k, fl k q = fl k p) /\ (p_stage q =? ptFinished) = (p_stage p =? ptFinished).
Lemma good_like o d a a' p q :
  inv o (d, a) -> d_post d = Some p -> like p q ->
  (p_request p = true -> a' = true /\ p_working q = false) ->
  (p_working q = true -> p_thread q = TNone -> p_stage q = ptQueued) ->
  (p_working q = true -> a' = true) ->
  good o (d, a) (with_post d (Some q), a') MTau.
Proof.
  intros I P (L1 & L2 & L3 & L4 & L5 & L6 & L7) H1 H2 H3. split.
  - open_inv I. rewrite P in I. parts I. split; [exact R|]. split; [exact M|].
    cbn [fst snd with_post d_post]. unfold inv_post.
    cbn [d_par d_full d_delete d_unpack d_prename with_post]. rewrite L1, L2, L3, L4, L5, !L6. repeat apply conj; auto.
  - intros k. cbn [fst started]. unfold budget, checks, due. cbn [d_post with_post d_env d_par d_full d_unpack d_prename d_rrename d_cleanup d_move].
    rewrite P, L1, L2, L7, !L6. destruct k; cbn [allowance]; lia.
Qed.

Lemma good_requeue o d d' p : inv o (d, true) -> d_post d = Some p -> p_request p = false ->
  cleanup_job d = Some (Requeued d') -> good o (d, true) (d', false) MTau.
Proof.
  unfold cleanup_job. intros I P Q. rewrite P.
  destruct (negb (p_working p) && _) eqn:E1; [|discriminate].
  destruct ((p_stage p =? ptFinished) || p_deleted p) eqn:E2; [discriminate|].
  intros E; injection E as <-. zb.
  eapply good_like; [exact I|exact P| | | |].
  - unfold like. repeat split.
    + intros k. rewrite fl_queued by reflexivity. now rewrite fl_working.
    + cbn. now rewrite (proj2 (Z.eqb_neq _ _) H1).
  - congruence.
  - cbn. discriminate.
  - cbn. discriminate.
Qed.

Lemma good_thread o d a p : inv o (d, a) -> d_post d = Some p -> p_working p = false ->
  good o (d, a) (with_post d (Some (p_with_thread p TEnded)), a) MTau.
Proof.
  intros I P W. assert (I' := I). open_inv I'. rewrite P in I'. parts I'.
  eapply good_like; [exact I|exact P| | | |].
  - unfold like. repeat split.
  - intros X. split; [apply I1, X|exact W].
  - cbn. discriminate.
  - cbn. congruence.
Qed.

Lemma fl_stage p n k : p_working p = true -> par_stage (p_stage p) = true -> par_stage n = true ->
  fl k (p_with_stage p n true) = fl k p.
Proof.
  unfold fl. intros -> A B. cbn [p_working p_with_stage p_stage andb]. unf. zb.
  destruct k.
  2:{ transitivity true; [|symmetry]; apply andb_true_iff; split; apply Z.leb_le; lia. }
  all: transitivity false; [|symmetry]; apply Z.eqb_neq; lia.
Qed.
Lemma good_stage o d a p n : inv o (d, a) -> d_post d = Some p -> par_stage (p_stage p) = true -> par_stage n = true ->
  p_working p = true -> good o (d, a) (with_post d (Some (p_with_stage p n true)), a) MTau.
Proof.
  intros I P A B W. assert (I' := I). open_inv I'. rewrite P in I'. parts I'.
  eapply good_like; [exact I|exact P| | | |].
  - unfold like. repeat split.
    + intros k. now apply fl_stage.
    + cbn. unf. zb. transitivity false; [|symmetry]; apply Z.eqb_neq; lia.
  - intros X. destruct (I1 X). congruence.
  - cbn. intros _ X. specialize (I7 W X). exfalso. rewrite I7 in A. discriminate.
  - auto.
Qed.

Lemma good_direct o d a p : inv o (d, a) -> d_post d = Some p -> p_thread p = TNone -> p_working p = true ->
  good o (d, a) (with_post d (Some (p_with_stage p (p_stage p) false)), a) MTau.
Proof.
  intros I P T W. assert (I' := I). open_inv I'. rewrite P in I'. parts I'.
  eapply good_like; [exact I|exact P| | | |].
  - unfold like. repeat split.
    + intros k. rewrite fl_working by reflexivity. symmetry. apply fl_queued. auto.
  - intros X. split; [apply I1, X|reflexivity].
  - cbn. discriminate.
  - cbn. discriminate.
Qed.

Lemma good_mark o d a p : inv o (d, a) -> d_post d = Some p ->
  good o (d, a) (with_post d (Some (mkPost (p_stage p) (p_working p) true (p_request p) (p_parfull p) (p_force p)
       (p_repaired p) (p_tried p) (p_passtried p) (p_last p) (p_need p) (p_thread p))), a) MTau.
Proof.
  intros I P. assert (I' := I). open_inv I'. rewrite P in I'. parts I'.
  eapply good_like; [exact I|exact P| | | |].
  - unfold like. repeat split.
  - exact I1.
  - exact I7.
  - exact I8.
Qed.

Lemma good_push o d : inv o (d, false) -> d_post d <> None -> good o (d, false) (d, true) MTau.
Proof.
  intros I P. split; [|intros k; cbn; lia].
  open_inv I. split; [exact R|]. split; [exact M|]. cbn [fst snd]. destruct (d_post d) as [p|]; [|congruence].
  parts I. unfold inv_post. repeat apply conj; auto. intros X. split; [reflexivity|]. now apply I1.
Qed.

Lemma good_env o d a e r : inv o (d, a) ->
  good o (d, a) (with_env d e r, a) (if negb (e_pars (d_env d)) && e_pars e then MAppear else MTau).
Proof.
  intros I. split.
  - open_inv I. split; [exact R|]. split; [exact M|]. exact I.
  - intros k. cbn [fst]. open_inv I. unfold budget. cbn [d_post with_env].
    destruct (d_post d) as [p|].
    2:{ destruct k, (e_pars (d_env d)), (e_pars e); cbn; lia. }
    parts I. unfold budget, checks, due. cbn [d_post with_env d_env d_par d_full d_unpack d_prename d_rrename d_cleanup d_move].
    destruct k.
    2,4: destruct (e_pars (d_env d)) eqn:?, (e_pars e) eqn:?, (fl JPar p) eqn:F; cbn [allowance negb andb orb started];
         rewrite ?andb_true_r, ?andb_false_r; unfold b2z; ifs; try lia.
    all: destruct (e_pars (d_env d)), (e_pars e); cbn [allowance negb andb started]; lia.
Qed.

Lemma good_down o d (direct : bool) : inv o (d, false) -> d_post d = None ->
  good o (d, false) (with_post (if (d_par d =? psNone) && negb (pc_always (o_parcheck o)) then with_par d psSkipped else d)
                      (Some (if direct then p_with_stage post0 ptQueued true else post0)), direct) MDown.
Proof.
  intros I P. open_inv I. rewrite P in I.
  remember (if (d_par d =? psNone) && negb (pc_always (o_parcheck o)) then with_par d psSkipped else d) as d1 eqn:E1.
  assert (A : 0 <= d_par d1 <= 5 /\ (pc_manual (o_parcheck o) = true -> d_par d1 <> psSuccess /\ d_par d1 <> psNone) /\
              d_prename d1 = d_prename d /\ d_unpack d1 = d_unpack d /\ d_rrename d1 = d_rrename d /\
              d_cleanup d1 = d_cleanup d /\ d_move d1 = d_move d).
  { subst d1. destruct (d_par d =? psNone) eqn:Ep; cbn [andb].
    - destruct (o_parcheck o); cbn [pc_always negb pc_manual] in *; cbn [with_par d_par d_prename d_unpack d_rrename d_cleanup d_move]; repeat apply conj; auto; unf; lia || (intros; discriminate) || (intros; split; discriminate).
    - zb. repeat apply conj; auto; lia. }
  destruct A as (A1 & A2 & A3 & A4 & A5 & A6 & A7).
  remember (if direct then p_with_stage post0 ptQueued true else post0) as q.
  assert (Q : p_stage q = ptQueued /\ p_working q = direct /\ p_request q = false /\ p_parfull q = false /\ p_tried q = false).
  { subst q. destruct direct; cbn; auto. }
  destruct Q as (Q1 & Q2 & Q3 & Q4 & Q5).
  split.
  - split; [exact A1|]. split; [intros X; now apply A2|]. cbn [fst snd with_post d_post]. unfold inv_post.
    rewrite !fl_queued by exact Q1. rewrite Q3, Q4, Q5, Q2.
    cbn [d_par d_full d_delete d_unpack d_prename with_post].
    repeat apply conj; intros; try discriminate; auto.
    all: try (match goal with H : _ /\ _ \/ _ |- _ => destruct H as [[? ?]|[? ?]]; discriminate end).
    now apply A2.
  - intros k. cbn [fst]. unfold budget. rewrite P. cbn [d_post with_post].
    rewrite !fl_queued by exact Q1. unfold checks. cbn [d_par d_full d_unpack d_prename d_rrename d_cleanup d_move d_env with_post].
    rewrite A3, A4, A5, A6, A7, Q1.
    destruct k; cbn [allowance started b2z Z.eqb negb]; try lia; unfold b2z; ifs; try lia; discriminate.
Qed.

Ltac fields := cbn [with_post with_par with_full with_prename with_rrename with_unpack with_cleanup with_move with_scripts
  with_env d_id d_prio d_prename d_par d_rrename d_unpack d_cleanup d_move d_delete d_full d_scripts d_env d_ready d_post
  p_with_stage p_with_request p_with_need p_with_thread p_stage p_working p_deleted p_request p_parfull p_force p_repaired
  p_tried p_passtried p_last p_need p_thread fst snd].

(** A step of an idle job: nothing is in flight before and after. *)
Lemma budget_idle k d p : d_post d = Some p -> p_working p = false -> budget k d =
    match k with
    | JParRename => b2z (d_prename d =? rsNone) + b2z (d_unpack d =? usNone)
    | JRarRename => b2z (d_rrename d =? rsNone)
    | JCleanup => b2z (d_cleanup d =? csNone)
    | JMove => b2z (d_move d =? msNone)
    | JScript => b2z (negb (p_stage p =? ptFinished))
    | JPar => checks d p
    | JUnpack => checks d p + b2z ((d_unpack d =? usNone) && negb (due d p))
    end.
Proof.
  intros P W. unfold budget. rewrite P, !fl_working by exact W. destruct k; cbn [b2z]; lia.
Qed.
Lemma due_idle d p : p_working p = false -> due d p = (p_request p || (d_par d =? psNone)) && e_pars (d_env d).
Proof. intros W. unfold due. rewrite fl_working by exact W. now rewrite orb_false_r. Qed.
Lemma checks_idle d p : p_working p = false -> checks d p =
  if e_pars (d_env d) then
    if p_request p || (d_par d =? psNone) then
      if (d_par d <=? psSkipped) && negb ((d_par d =? psNone) && p_parfull p && negb (p_request p)) then 2 else 1
    else if d_par d =? psSkipped then 2 else if (d_par d =? psSuccess) && negb (d_full d) then 1 else 0
  else 0.
Proof.
  intros W. unfold checks. rewrite due_idle by exact W. destruct (e_pars (d_env d)).
  - now rewrite andb_true_r.
  - now rewrite andb_false_r.
Qed.

Lemma good_request o d p : inv o (d, true) -> d_post d = Some p -> good o (d, true) (check_request o d, true) MTau.
Proof.
  intros I P. unfold check_request. rewrite P.
  destruct (p_request p) eqn:Q; cbn [andb].
  2:{ split; [exact I|]. intros k. cbn. lia. }
  assert (I' := I). open_inv I'. rewrite P in I'. parts I'.
  destruct (I1 Q) as [_ W].
  destruct (((d_par d <=? psSkipped) || (p_force p && negb (d_full d))) && negb (pc_manual (o_parcheck o))) eqn:C1.
  - apply andb_true_iff in C1. destruct C1 as [C1 NM]. apply negb_true_iff in NM.
    split.
    + split; [fields; unf; lia|]. split; [congruence|]. fields. unfold inv_post. fields.
      rewrite !fl_working by reflexivity. repeat apply conj; intros; try discriminate; auto; try congruence.
      all: try (match goal with H : _ \/ _ |- _ => destruct H as [H|H]; discriminate end).
      all: match goal with H : _ /\ _ \/ _ |- _ => destruct H as [[H ?]|[H ?]]; [|discriminate] end;
           apply Z.ltb_lt in H; apply I5; right; auto.
    + intros k. cbn [started]. fields. erewrite (budget_idle k d p) by eassumption.
      erewrite (budget_idle k) by reflexivity. fields. rewrite !checks_idle, !due_idle by (assumption || reflexivity).
      fields. rewrite Q. cbn [orb Z.eqb psNone negb andb].
      destruct k; cbn [allowance]; try lia.
      all: destruct (e_pars (d_env d)); [|unfold b2z; ifs; lia].
      all: destruct (psSkipped <? d_par d) eqn:X; zb;
           [rewrite (proj2 (Z.leb_gt (d_par d) psSkipped)) by exact X
           |rewrite (proj2 (Z.leb_le (d_par d) psSkipped)) by exact X]; cbn [psSkipped Z.leb Z.compare andb negb];
           rewrite ?andb_false_r; cbn [negb andb]; unfold b2z; ifs; try lia; discriminate.
  - destruct ((d_par d <=? psSkipped) && pc_manual (o_parcheck o)) eqn:C2.
    2:{ split; [exact I|]. intros k. cbn. lia. }
    split.
    + split; [fields; unf; lia|]. split; [fields; unf; intros; lia|]. fields. unfold inv_post. fields.
      rewrite !fl_working by reflexivity. repeat apply conj; intros; try discriminate; auto.
      all: try (match goal with H : _ \/ _ |- _ => destruct H as [H|H]; discriminate end).
      all: match goal with H : _ /\ _ \/ _ |- _ => destruct H as [[H ?]|[H ?]]; discriminate end.
    + intros k. cbn [started]. fields. erewrite (budget_idle k d p) by eassumption.
      erewrite (budget_idle k) by reflexivity. fields. rewrite !checks_idle, !due_idle by (assumption || reflexivity).
      fields. rewrite Q. cbn [orb Z.eqb psNone psManual psSkipped psSuccess Pos.eqb negb andb].
      destruct k; cbn [allowance]; try lia.
      all: unfold b2z; ifs; zb; try lia; try congruence; try discriminate.
Qed.

Lemma choose_action o ap d a skip : choose o ap d = (a, skip) ->
  match a with
  | Run _ => True
  | SetPar s => skip = false /\ ((s = psSkipped /\ d_par d = psNone /\ e_pars (d_env d) = false) \/
                                 (s = psFailure /\ d_par d = psSkipped))
  | Request => skip = false /\ d_par d = psSkipped /\ e_pars (d_env d) = true
  | Need => skip = false /\ ap = false
  end.
Proof.
  unfold choose. intros E.
  destruct ((d_prename d =? rsNone) && (d_delete d =? dsNone) && o_parrename o) eqn:E1.
  { injection E as <- <-. exact I. }
  destruct ((d_par d =? psNone) && (d_delete d =? dsNone)) eqn:E2.
  { destruct (e_pars (d_env d)) eqn:Ep; [destruct ap|]; injection E as <- <-; auto. zb. auto 6. }
  destruct ((d_par d =? psSkipped) && _ && _) eqn:E3 in E.
  { injection E as <- <-. zb. auto. }
  destruct ((d_par d =? psSkipped) && _ && _) eqn:E4 in E.
  { injection E as <- <-. zb. auto. }
  remember (e_wanted (d_env d) && (d_unpack d =? usNone) && (d_delete d =? dsNone)) as unpack eqn:Eu.
  destruct ((d_rrename d =? rsNone) && unpack && o_rarrename o) eqn:E5.
  { injection E as <- <-. exact I. }
  destruct ((d_par d =? psSkipped) && _ && _ && _ && _) eqn:E6 in E.
  { injection E as <- <-. zb. auto. }
  repeat match type of E with context [if ?b then _ else _] => destruct b end; injection E as <- <-; exact I.
Qed.
Lemma choose_skip o ap d k : choose o ap d = (Run k, true) -> d_unpack d = usNone.
Proof.
  unfold choose. intros E.
  destruct ((d_prename d =? rsNone) && (d_delete d =? dsNone) && o_parrename o) eqn:E1; [discriminate|].
  destruct ((d_par d =? psNone) && (d_delete d =? dsNone)) eqn:E2.
  { destruct (e_pars (d_env d)) eqn:Ep; [destruct ap|]; discriminate. }
  destruct ((d_par d =? psSkipped) && _ && _) eqn:E3 in E; [discriminate|].
  destruct ((d_par d =? psSkipped) && _ && _) eqn:E4 in E; [discriminate|].
  remember (e_wanted (d_env d) && (d_unpack d =? usNone) && (d_delete d =? dsNone)) as unpack eqn:Eu.
  destruct ((d_rrename d =? rsNone) && unpack && o_rarrename o) eqn:E5; [discriminate|].
  destruct ((d_par d =? psSkipped) && _ && _ && _ && _) eqn:E6 in E; [discriminate|].
  destruct (unpack && negb (unpack && par_failed d)) eqn:E7; [discriminate|].
  assert (K : unpack && par_failed d = true).
  { destruct (want_cleanup o unpack d); [injection E as _ E; exact E|].
    destruct (want_move unpack d); injection E as _ E; exact E. }
  apply andb_true_iff in K. destruct K as [K _]. subst unpack. zb. assumption.
Qed.

Lemma fl_start k j q : p_working q = true -> p_stage q = stage_of j -> fl k q = kind_eqb j k.
Proof. unfold fl. intros -> ->. destruct k, j; reflexivity. Qed.

Lemma good_start o d p ap d' k : inv o (d, false) -> d_post d = Some p -> p_stage p = ptQueued -> p_working p = false ->
  start_job o ap p d = (d', k) ->
  good o (d, false) (d', true) (match k with Some k => MStart k | None => MTau end).
Proof.
  intros I P ST W E. unfold start_job in E. destruct (choose o ap d) as [a skip] eqn:C.
  pose proof (choose_action _ _ _ _ _ C) as CA.
  assert (I' := I). open_inv I'. rewrite P in I'. parts I'.
  assert (Q : p_request p = false).
  { destruct (p_request p); [|reflexivity]. now destruct (I1 eq_refl). }
  destruct a as [j|s| |].
  - injection E as <- <-. pose proof (choose_gate _ _ _ _ _ C) as G.
    remember (if skip then with_unpack d usSkipped else d) as d1 eqn:E1.
    assert (D1 : d_par d1 = d_par d /\ d_full d1 = d_full d /\ d_delete d1 = d_delete d /\ d_prename d1 = d_prename d /\
                 d_rrename d1 = d_rrename d /\ d_cleanup d1 = d_cleanup d /\ d_move d1 = d_move d /\ d_env d1 = d_env d /\
                 d_unpack d1 = if skip then usSkipped else d_unpack d).
    { subst d1. destruct skip; fields; repeat split. }
    destruct D1 as (D1 & D2 & D3 & D4 & D5 & D6 & D7 & D8 & D9).
    remember (match j with JPar => p_with_need (p_with_thread (p_with_stage p (stage_of j) true) TRunning) false
                         | _ => p_with_thread (p_with_stage p (stage_of j) true) TRunning end) as q eqn:Eq.
    assert (Q' : p_stage q = stage_of j /\ p_working q = true /\ p_request q = false /\ p_parfull q = p_parfull p /\
                 p_force q = p_force p /\ p_tried q = p_tried p /\ p_last q = p_last p /\ p_thread q = TRunning).
    { subst q. destruct j; fields; repeat split; exact Q. }
    destruct Q' as (Q1 & Q2 & Q3 & Q4 & Q5 & Q6 & Q7 & Q8).
    assert (F : forall k, fl k q = kind_eqb j k) by (intros k; now apply fl_start).
    assert (SK : skip = true -> j = JCleanup \/ j = JMove \/ j = JScript).
    { intros ->. revert C. unfold choose. clear.
      repeat match goal with |- context [if ?b then _ else _] => destruct b end; intros C; try discriminate C;
        injection C as <-; auto; discriminate. }
    assert (Hdel : (d_prename d =? rsNone) && o_parrename o = true -> d_delete d = dsNone -> j = JParRename).
    { intros X Y. revert C. unfold choose. apply andb_true_iff in X. destruct X as [X1 X2]. rewrite X1, X2, Y. cbn.
      intros C; injection C as <- <-. reflexivity. }
    split.
    + split; [fields; lia|]. split; [fields; rewrite D1; exact M|]. fields. unfold inv_post. fields.
      rewrite !F, Q2, Q3, Q4, Q5, Q6, Q7, Q8, D1, D2, D3, D4, D9. repeat apply conj; intros; repeat apply conj; try discriminate; auto.
      * destruct j; try discriminate. destruct G as (G1 & G2 & G3 & G4 & G5). 
        assert (d_par d <> psNone) by (intros X; apply G1; split; assumption). unfold par_bad in G5. unf. lia.
      * destruct j; try discriminate. now destruct G as (G1 & G2 & G3 & G4 & G5).
      * destruct skip; [now destruct (SK eq_refl) as [-> |[-> | ->]]|]. 
        destruct j; try discriminate. now destruct G as (G1 & G2 & G3 & G4 & G5).
      * destruct j; try discriminate. destruct G as (G1 & G2 & G3 & G4 & G5).
        destruct ((d_prename d =? rsNone) && o_parrename o); [|reflexivity]. now discriminate (Hdel eq_refl G4).
      * destruct j; try discriminate. now destruct G as [[G1 G2] G3].
      * match goal with H : _ /\ _ \/ _ |- _ => destruct H as [[H ?]|[H ?]]; [|discriminate] end. apply I5. auto.
      * match goal with H : _ /\ _ \/ _ |- _ => destruct H as [[H ?]|[H ?]]; [|discriminate] end. apply I5. auto.
      * intros X. destruct I5 as [J1 J2]; [auto|].
        match goal with H : _ \/ _ |- _ => destruct H as [H|H] end; destruct j; try discriminate.
        -- destruct G as (G1 & G2 & G3). rewrite G1, G2 in J2. discriminate.
        -- destruct G as (G1 & G2). apply G1. split; assumption.
    + intros k. cbn [started]. fields. erewrite (budget_idle k d p) by eassumption.
      unfold budget. fields. rewrite !F. unfold checks, due. rewrite !F. fields.
      rewrite Q, Q3, Q4, D1, D2, D4, D5, D6, D7, D8, D9, ST, Q1, !fl_working by exact W.
      destruct k.
      * destruct j; cbn [kind_eqb b2z allowance]; 
          try (destruct skip; [rewrite (choose_skip _ _ _ _ C)|]; cbn [usNone usSkipped Z.eqb b2z]; lia).
        destruct G as (G1 & G2 & G3). rewrite G2. destruct skip; [now destruct (SK eq_refl) as [|[|]]|].
        cbn [rsNone Z.eqb b2z]. lia.
      * destruct j; cbn [kind_eqb b2z allowance]; try lia.
        destruct G as [[G1 G2] G3]. rewrite G1, G3. cbn [orb andb psNone Z.eqb]. ifs; lia.
      * destruct j; cbn [kind_eqb b2z allowance]; try lia. destruct G as (_ & _ & _ & _ & _ & G). rewrite G. cbn [rsNone csNone msNone Z.eqb b2z]. lia.
      * destruct j; cbn [kind_eqb b2z allowance]; 
          try (destruct skip; [now destruct (SK eq_refl) as [|[|]]|]); try lia.
        -- destruct G as [[G1 G2] G3]. rewrite G1, G3. cbn [orb andb psNone Z.eqb]. lia.
        -- destruct skip; [rewrite (choose_skip _ _ _ _ C)|]; cbn [usNone usSkipped Z.eqb Pos.eqb b2z andb]; [|lia].
           unfold b2z; ifs; lia.
        -- destruct skip; [rewrite (choose_skip _ _ _ _ C)|]; cbn [usNone usSkipped Z.eqb Pos.eqb b2z andb]; [|lia].
           unfold b2z; ifs; lia.
        -- destruct skip; [rewrite (choose_skip _ _ _ _ C)|]; cbn [usNone usSkipped Z.eqb Pos.eqb b2z andb]; [|lia].
           unfold b2z; ifs; lia.
      * destruct j; cbn [kind_eqb b2z allowance]; try lia. destruct G as (_ & _ & _ & _ & G & _). rewrite G. cbn [rsNone csNone msNone Z.eqb b2z]. lia.
      * destruct j; cbn [kind_eqb b2z allowance]; try lia. destruct G as (_ & _ & _ & G & _). rewrite G. cbn [rsNone csNone msNone Z.eqb b2z]. lia.
      * destruct j; cbn; lia.
  - destruct CA as [-> CA]. injection E as <- <-. split.
    + split; [fields; destruct CA as [(-> & _)|(-> & _)]; unf; lia|].
      split; [fields; destruct CA as [(-> & _)|(-> & _)]; discriminate|]. fields. rewrite P. unfold inv_post. fields.
      rewrite !fl_working by exact W. rewrite Q, W. repeat apply conj; intros; try discriminate; auto.
      all: try (match goal with H : _ \/ _ |- _ => destruct H as [H|H]; discriminate end).
      all: try (match goal with H : _ /\ _ \/ _ |- _ => destruct H as [[_ H]|[H _]]; [|discriminate] end;
           destruct CA as [(-> & _)|(-> & _)]; discriminate).
      destruct CA as [(-> & _)|(-> & _)]; discriminate.
    + intros k. cbn [started]. fields. erewrite (budget_idle k d p), (budget_idle k (with_par d s) p) by eassumption.
      rewrite !checks_idle, !due_idle by exact W. fields. rewrite Q.
      destruct CA as [(-> & -> & ->)|(-> & ->)]; destruct k; cbn [allowance]; cbn [orb andb psNone psSkipped psFailure psSuccess Z.eqb Pos.eqb]; try lia;
        unfold b2z; ifs; lia.
  - destruct CA as (-> & CP & CE). injection E as <- <-. split.
    + split; [fields; lia|]. split; [fields; exact M|]. fields. unfold inv_post. fields.
      rewrite !fl_working by exact W. rewrite CP. repeat apply conj; intros; try discriminate; auto; try congruence.
      all: try (match goal with H : _ \/ _ |- _ => destruct H as [H|H]; discriminate end).
      all: match goal with H : _ /\ _ \/ _ |- _ => destruct H as [[_ H]|[_ H]]; discriminate end.
    + intros k. cbn [started]. fields. erewrite (budget_idle k d p) by eassumption.
      erewrite budget_idle; [|reflexivity|exact W].
      rewrite !checks_idle, !due_idle by exact W. fields. rewrite Q, CP, CE.
      destruct k; cbn [allowance]; cbn [orb andb psNone psSkipped psFailure psSuccess Z.eqb Pos.eqb Z.leb Z.compare negb]; try lia.
      all: unfold b2z; ifs; try lia.
  - destruct CA as [-> _]. injection E as <- <-.
    eapply good_like; [exact I|exact P| | | |].
    + unfold like. repeat split.
    + intros X. congruence.
    + fields. congruence.
    + fields. congruence.
Qed.

Lemma fail_status_some u : fail_status u <> usNone.
Proof. unfold fail_status. ifs; discriminate. Qed.
Lemma unpack_run_result i f runs r tried : unpack_run i f runs = Some (r, tried) ->
  (i_tried i = true -> i_last i <> usNone) ->
  match r with
  | UStatus s => s <> usNone
  | URequest force listed last => last <> usNone /\ i_haspars i = true /\
      ((i_par i <=? psSkipped) = true \/ (force = true /\ i_parfull i = false))
  end.
Proof.
  unfold unpack_run. intros E L.
  destruct (i_tried i && negb (i_repaired i) && _) eqn:E1 in E.
  { injection E as <- <-. apply L. zb. assumption. }
  destruct (f_wanted f && _) eqn:E2 in E.
  - cbv zeta in E. 
    match type of E with match ?a with _ => _ end = _ => destruct a as [[[[u tr] n] listed]|] end; [|discriminate].
    injection E as <- <-.
    match goal with |- context [completed _ _ ?x _] => remember x as v end. clear Heqv.
    unfold completed. destruct (u_ok v && f_moved f); [discriminate|].
    match goal with |- context [if ?b then _ else _] => destruct b eqn:C end; [|apply fail_status_some].
    split; [apply fail_status_some|]. zb. split; [assumption|].
    match goal with H : (i_par i <=? psSkipped) || _ = true |- _ => apply orb_true_iff in H; destruct H as [H|H] end; [auto|].
    zb. destruct (i_par i <=? psSkipped) eqn:Y; [auto|]. right. split; [|assumption].
    zb. rewrite (proj2 (Z.ltb_lt psSkipped (i_par i))) by exact Y. now rewrite orb_true_r.
  - destruct (f_wanted f).
    + destruct ((i_par i <=? psSkipped) && negb (f_prenamed f) && i_haspars i) eqn:E3.
      * injection E as <- <-. zb. split; [discriminate|]. split; [assumption|]. left. now apply Z.leb_le.
      * destruct (f_renamed f); injection E as <- <-; discriminate.
    + injection E as <- <-. discriminate.
Qed.

Lemma script_request par codes l : run_scripts par codes = (l, true) -> (par <=? psSkipped) = true.
Proof.
  revert l. induction codes as [|c r IH]; cbn; intros l E; [discriminate|].
  destruct (script_status par c) as [s q] eqn:S1. destruct q.
  - unfold script_status in S1.
    repeat match type of S1 with context [if ?b then _ else _] => destruct b eqn:? end; try discriminate.
    zb. apply Z.leb_le. lia.
  - destruct (run_scripts par r) as [l' q']. injection E as <- ->. eauto.
Qed.

(** A job that is not a par-check or an unpack ends and may ask for a par-check. *)
Lemma good_ask o d a p d' q k0 :
  inv o (d, a) -> d_post d = Some p -> p_working p = true -> fl k0 p = true -> k0 <> JPar -> k0 <> JUnpack ->
  d_post d' = Some q -> p_working q = false ->
  d_par d' = d_par d -> d_full d' = d_full d -> d_delete d' = d_delete d -> d_env d' = d_env d -> d_unpack d' = d_unpack d ->
  p_parfull q = p_parfull p -> p_tried q = p_tried p -> p_last q = p_last p ->
  (p_request q = true -> (k0 = JParRename \/ k0 = JScript) /\ (d_par d <=? psSkipped) = true) ->
  (d_prename d' = d_prename d \/ k0 = JParRename) ->
  inv o (d', a) /\ forall l k, k = JPar \/ k = JUnpack -> budget k d' + 0 <= budget k d + allowance k l.
Proof.
  intros I P W F K1 K2 P' W' A1 A2 A3 A4 A5 B1 B2 B3 Q N.
  assert (I' := I). open_inv I'. rewrite P in I'. parts I'.
  assert (Rq : p_request p = false).
  { destruct (p_request p); [|reflexivity]. destruct (I1 eq_refl). congruence. }
  assert (U : forall j, j <> k0 -> fl j p = false).
  { intros j Hj. unfold fl in *. rewrite W in *. cbn [andb] in *. clear -F Hj K1 K2. unf.
    destruct j, k0; try congruence; zb; rewrite ?F; try reflexivity; try (apply Z.eqb_neq; lia);
      apply andb_false_iff; rewrite !Z.leb_gt; lia. }
  assert (Hp : p_parfull p = true -> p_request q = true -> d_par d <> psNone).
  { intros X Y. destruct (Q Y) as [[-> | ->] _]; auto. }
  split.
  - split; [fields; rewrite A1; exact R|]. split; [fields; rewrite A1; exact M|]. fields. rewrite P'. unfold inv_post.
    rewrite !fl_working by exact W'. rewrite A1, A2, A3, A5, B1, B2, B3, W'. repeat apply conj; intros; try discriminate; auto.
    + left. now apply Q.
    + match goal with H : _ /\ _ \/ _ |- _ => destruct H as [[H ?]|[H ?]] end.
      * destruct I5 as [J1 J2]; [auto|]. split; [exact J1|]. destruct N as [-> | ->]; [exact J2|].
        exfalso. apply I6; auto.
      * exfalso. destruct (Q H) as [_ X]. zb. lia.
    + match goal with H : _ \/ _ |- _ => destruct H; discriminate end.
  - intros l k Hk. erewrite (budget_idle k d') by eassumption. unfold budget. rewrite P.
    rewrite checks_idle, due_idle by exact W'. unfold checks, due. rewrite !(U JPar), !(U JUnpack) by congruence.
    rewrite A1, A2, A4, A5, B1, Rq. cbn [orb]. rewrite !orb_false_r.
    assert (0 <= allowance k l) by (destruct l, k; cbn; lia).
    destruct (p_request q) eqn:Q'.
    + destruct (Q eq_refl) as [_ X]. rewrite X. zb. cbn [orb andb negb].
      assert (Hn : (d_par d =? psNone) && p_parfull p = false).
      { destruct (d_par d =? psNone) eqn:Y; [|reflexivity]. destruct (p_parfull p); [|reflexivity]. zb.
        exfalso. now apply Hp. }
      rewrite !Hn, !andb_false_r. cbn [negb andb].
      destruct (e_pars (d_env d)); cbn [andb];
      destruct (d_par d =? psNone) eqn:Y; cbn [orb andb negb b2z];
        [|rewrite (proj2 (Z.eqb_eq (d_par d) psSkipped)) by (zb; unf; lia)| |];
        destruct Hk as [-> | ->]; unfold b2z; ifs; lia.
    + cbn [orb]. destruct (e_pars (d_env d)); rewrite ?andb_true_r, ?andb_false_r; destruct Hk as [-> | ->]; cbn [b2z]; lia.
Qed.

(** The end of a job without requests. *)
Ltac plain K :=
  match goal with I : inv ?o (?d, ?a), P : d_post ?d = Some ?p, W : p_working ?p = true, F : fl K ?p = true,
                  S1 : (p_stage ?p =? _) = true |- good _ _ (?d', _) _ =>
    let G1 := fresh in let G2 := fresh in let k := fresh in
    edestruct (good_ask o d a p d') as [G1 G2]; [exact I|exact P|exact W|exact F|discriminate|discriminate|fields; reflexivity| .. ];
      try reflexivity; try (fields; congruence); [left; reflexivity|];
    split; [exact G1|]; intros k; cbn [fst]; destruct k;
    [ | cbn [started]; apply (G2 MTau); auto | | cbn [started]; apply (G2 MTau); auto | | | ];
    match goal with |- budget ?k _ + _ <= _ => erewrite (budget_idle k d') by (fields; reflexivity) end;
         unfold budget; rewrite P; fields; cbn [started allowance];
         rewrite ?F; try (match goal with |- context [fl ?k p] => replace (fl k p) with false by (unfold fl; rewrite W; zb; now rewrite S1) end);
         ifs; cbn [rsNone rsSuccess rsNothing csNone csSuccess csFailure msNone msSuccess msFailure Z.eqb Pos.eqb negb b2z]; lia
  end.

Lemma good_done o d a r d' : inv o (d, a) -> job_done o r d = Some d' ->
  good o (d, a) (d', a) (match r with RParRename false true _ => MAgain | _ => MTau end).
Proof.
  intros I E. unfold job_done in E. destruct (d_post d) as [p|] eqn:P; [|discriminate].
  destruct (negb (p_working p)) eqn:W; [discriminate|]. apply negb_false_iff in W.
  assert (I' := I). open_inv I'. rewrite P in I'. parts I'.
  assert (Rq : p_request p = false).
  { destruct (p_request p); [|reflexivity]. destruct (I1 eq_refl). congruence. }
  destruct r as [ren again missing|x full|ren|pw pf f runs|ok|ok|codes].
  - destruct (p_stage p =? ptParRenaming) eqn:S1; [|discriminate]. injection E as <-.
    assert (F : fl JParRename p = true) by (unfold fl; rewrite W; exact S1).
    unfold done_prename. 
    match goal with |- context [with_post _ (Some ?x)] => remember x as q eqn:Eq end.
    assert (Q1 : p_working q = false /\ p_parfull q = p_parfull p /\ p_tried q = p_tried p /\ p_last q = p_last p /\
                 p_stage q = p_stage p /\ (p_request q = true -> (d_par d <=? psSkipped) = true)).
    { subst q. destruct (missing && (d_par d <=? psSkipped)) eqn:X; fields; repeat split; try congruence.
      intros _. now apply andb_true_iff in X. }
    destruct Q1 as (Q1 & Q2 & Q3 & Q4 & Q5 & Q6).
    match goal with |- good _ _ (?x, _) _ => remember x as d' eqn:Ed end.
    edestruct (good_ask o d a p d' q JParRename) as [G1 G2]; try eassumption; subst d'; try reflexivity; try discriminate; auto.
    split; [exact G1|]. intros k. cbn [fst].
    destruct k.
    2,4: match goal with |- budget ?k _ + _ <= _ + allowance ?k ?l =>
           pose proof (G2 l k) as X; replace (started k l) with 0 by (destruct ren, again; reflexivity); apply X; auto end.
    + erewrite (budget_idle JParRename) by (fields; first [reflexivity|assumption]). unfold budget. rewrite P, F. fields.
      destruct ren, again; cbn [negb andb started allowance rsNone rsSuccess rsNothing Z.eqb b2z]; lia.
    + erewrite (budget_idle JRarRename) by (fields; first [reflexivity|assumption]). unfold budget. rewrite P. fields.
      replace (fl JRarRename p) with false by (unfold fl; rewrite W; zb; now rewrite S1).
      destruct ren, again; cbn [negb andb started allowance rsNone rsSuccess rsNothing Z.eqb b2z]; lia.
    + erewrite (budget_idle JCleanup) by (fields; first [reflexivity|assumption]). unfold budget. rewrite P. fields.
      replace (fl JCleanup p) with false by (unfold fl; rewrite W; zb; now rewrite S1).
      destruct ren, again; cbn [negb andb started allowance rsNone rsSuccess rsNothing Z.eqb b2z]; lia.
    + erewrite (budget_idle JMove) by (fields; first [reflexivity|assumption]). unfold budget. rewrite P. fields.
      replace (fl JMove p) with false by (unfold fl; rewrite W; zb; now rewrite S1).
      destruct ren, again; cbn [negb andb started allowance rsNone rsSuccess rsNothing Z.eqb b2z]; lia.
    + erewrite (budget_idle JScript) by (fields; first [reflexivity|assumption]). unfold budget. rewrite P. fields.
      replace (fl JScript p) with false by (unfold fl; rewrite W; zb; now rewrite S1).
      rewrite Q5. destruct ren, again; cbn [negb andb started allowance rsNone rsSuccess rsNothing Z.eqb b2z]; lia.
  - destruct (par_stage (p_stage p)) eqn:S1; [|discriminate]. injection E as <-.
    assert (F : fl JPar p = true) by (unfold fl; rewrite W; exact S1). pose proof (I4 F) as PN.
    unfold done_par. rewrite PN. cbn [psNone psSkipped psFailure Z.leb Z.compare Z.eqb].
    assert (NM : pc_manual (o_parcheck o) = true -> False) by (intros X; now apply (I9 X)).
    assert (U : forall k, k <> JPar -> fl k p = false).
    { intros k Hk. unfold fl. rewrite W. cbn [andb]. clear -S1 Hk. unf. zb. destruct k; try congruence; apply Z.eqb_neq; lia. }
    split.
    + split; [fields; destruct x; unf; lia|]. split; [fields; intros X; now destruct (NM X)|]. fields. unfold inv_post. fields.
      rewrite !fl_working by reflexivity. rewrite Rq. repeat apply conj; intros; try discriminate; auto.
      all: try (match goal with H : _ /\ _ \/ _ |- _ => destruct H as [[_ H]|[H _]]; [destruct x|]; discriminate end).
      all: try (match goal with H : _ \/ _ |- _ => destruct H; discriminate end).
      all: now destruct NM.
    + intros k. cbn [started]. fields. erewrite (budget_idle k) by (fields; reflexivity).
      rewrite checks_idle, due_idle by reflexivity. unfold budget. rewrite P. unfold checks, due. fields. rewrite F, PN, Rq.
      rewrite !(U _) by discriminate. cbn [orb andb negb psNone psSkipped Z.eqb Z.leb Z.compare].
      destruct k; cbn [allowance]; try (unfold b2z; ifs; lia);
      destruct x, full, (p_parfull p), (e_pars (d_env d)); cbn [orb andb negb psSuccess psFailure psRepairPossible psNone psSkipped Z.eqb Pos.eqb b2z]; 
        rewrite ?andb_true_r, ?andb_false_r; unfold b2z; ifs; lia.
  - destruct (p_stage p =? ptRarRenaming) eqn:S1; [|discriminate]. injection E as <-.
    assert (F : fl JRarRename p = true) by (unfold fl; rewrite W; exact S1). plain JRarRename.
  - destruct (p_stage p =? ptUnpacking) eqn:S1; [|discriminate].
    assert (F : fl JUnpack p = true) by (unfold fl; rewrite W; exact S1).
    destruct (I3 F) as (PP & DN & UN & PR).
    unfold done_unpack in E.
    match type of E with match unpack_run ?i ?ff _ with _ => _ end = _ =>
      destruct (unpack_run i ff runs) as [[res tried]|] eqn:UR; [|discriminate] end.
    apply unpack_run_result in UR; [|exact I10]. cbn [i_haspars i_par i_parfull] in UR.
    assert (U : forall k, k <> JUnpack -> fl k p = false).
    { intros k Hk. unfold fl. rewrite W. cbn [andb]. clear -S1 Hk. unf. zb. rewrite S1. destruct k; try congruence; reflexivity. }
    assert (PN : (d_par d =? psNone) = false) by (destruct PP as [-> | ->]; reflexivity).
    destruct res as [s|force listed last].
    + injection E as <-.
      remember (if (s =? usSuccess) && o_parrename o then with_prename (with_unpack d s) rsNone else with_unpack d s) as d2 eqn:E2.
      assert (D2 : d_par d2 = d_par d /\ d_full d2 = d_full d /\ d_delete d2 = d_delete d /\ d_rrename d2 = d_rrename d /\
                   d_cleanup d2 = d_cleanup d /\ d_move d2 = d_move d /\ d_env d2 = d_env d /\ d_unpack d2 = s /\
                   d_prename d2 = if (s =? usSuccess) && o_parrename o then rsNone else d_prename d).
      { subst d2. destruct ((s =? usSuccess) && o_parrename o); fields; repeat split. }
      destruct D2 as (D1 & D2 & D3 & D4 & D5 & D6 & D7 & D8 & D9).
      split.
      * split; [fields; lia|]. split; [fields; rewrite D1; exact M|]. fields. unfold inv_post. fields.
        rewrite !fl_working by reflexivity. rewrite D1, D2, D3, Rq.
        repeat apply conj; intros; try discriminate; auto.
        all: try (match goal with H : _ /\ _ \/ _ |- _ => destruct H as [[_ H]|[H _]]; [rewrite H in PN; discriminate PN|discriminate] end).
        all: match goal with H : _ \/ _ |- _ => destruct H as [H|H]; discriminate H | |- _ => intros X; rewrite X in PN; discriminate PN end.
      * intros k. cbn [started]. fields. erewrite (budget_idle k) by (fields; reflexivity).
        rewrite checks_idle, due_idle by reflexivity. unfold budget. rewrite P. unfold checks, due. fields. rewrite F, Rq.
        rewrite !(U _) by discriminate. rewrite D1, D2, D4, D5, D6, D7, D8, D9, UN, PN.
        rewrite (proj2 (Z.eqb_neq s usNone)) by exact UR.
        cbn [orb andb negb usNone Z.eqb b2z]. 
        destruct k; cbn [allowance]; try lia. 
        -- destruct ((s =? usSuccess) && o_parrename o) eqn:X; [|lia]. zb. 
           match goal with H : o_parrename o = true |- _ => rewrite H, andb_true_r in PR end. rewrite PR. cbn [rsNone Z.eqb b2z]. lia.
    + injection E as <-. destruct UR as (UL & UP & UF). fields. 
      assert (UF' : d_par d = psSkipped \/ (d_par d = psSuccess /\ force = true /\ d_full d = false)).
      { destruct PP as [PP|PP]; [auto|]. right. rewrite PP in UF. destruct UF as [UF|[-> UF]]; [discriminate|auto]. }
      split.
      * split; [fields; lia|]. split; [fields; exact M|]. fields. unfold inv_post. fields.
        rewrite !fl_working by reflexivity.
        repeat apply conj; intros; try discriminate; auto.
        -- destruct UF' as [UF'|(X1 & X2 & X3)]; [left; rewrite UF'; reflexivity|].
           right. repeat split; auto. destruct (pc_manual (o_parcheck o)); [|reflexivity]. now destruct M.
        -- match goal with H : _ \/ _ |- _ => destruct H; discriminate end.
      * intros k. cbn [started]. fields. erewrite (budget_idle k) by (fields; reflexivity).
        rewrite checks_idle, due_idle by reflexivity. unfold budget. rewrite P. unfold checks, due. fields. rewrite F, Rq.
        rewrite !(U _) by discriminate. rewrite UN, PN, UP.
        cbn [orb andb negb usNone Z.eqb b2z].
        destruct UF' as [-> |(-> & -> & ->)]; 
          cbn [psSkipped psSuccess psNone Z.eqb Pos.eqb Z.leb Z.compare Pos.compare Pos.compare_cont andb negb];
          destruct k; cbn [allowance]; try lia.
  - destruct (p_stage p =? ptCleaningUp) eqn:S1; [|discriminate]. injection E as <-.
    assert (F : fl JCleanup p = true) by (unfold fl; rewrite W; exact S1). plain JCleanup.
  - destruct (p_stage p =? ptMoving) eqn:S1; [|discriminate]. injection E as <-.
    assert (F : fl JMove p = true) by (unfold fl; rewrite W; exact S1). plain JMove.
  - destruct (p_stage p =? ptExecutingScript) eqn:S1; [|discriminate]. injection E as <-.
    assert (F : fl JScript p = true) by (unfold fl; rewrite W; exact S1).
    unfold done_script. rewrite Rq. destruct (run_scripts (d_par d) codes) as [l q] eqn:RS.
    match goal with |- good _ _ (?x, _) _ => remember x as d' eqn:Ed end.
    edestruct (good_ask o d a p d') as [G1 G2]; try exact F; try eassumption; try (subst d'; fields; reflexivity); try discriminate; auto.
    { fields. destruct q; [|discriminate]. intros _. split; [auto|]. eapply script_request, RS. }
    { left. subst d'. reflexivity. }
    split; [exact G1|]. intros k. cbn [fst].
    destruct k.
    2,4: cbn [started]; match goal with |- budget ?k _ + _ <= _ + allowance ?k ?l => apply (G2 l k); auto end.
    all: match goal with |- budget ?k _ + _ <= _ => erewrite (budget_idle k d') by (subst d'; fields; reflexivity) end;
         unfold budget; rewrite P; subst d'; fields; cbn [started allowance];
         rewrite ?F; try (match goal with |- context [fl ?k ?pp] => replace (fl k pp) with false by (unfold fl; rewrite W; zb; now rewrite S1) end);
         cbn [ptFinished Z.eqb Pos.eqb negb b2z]; lia.
Qed.

Lemma mstep_good o x y l : mstep o x y l -> inv o x -> good o x y l.
Proof.
  intros H I. destruct H.
  - now apply good_request with (p := p).
  - now apply good_requeue with (p := p).
  - unfold cleanup_job in H. destruct (d_post d) as [p|] eqn:P; [|discriminate].
    destruct (negb (p_working p) && _) eqn:E1 in H; [|discriminate].
    destruct ((p_stage p =? ptFinished) || p_deleted p); [|discriminate]. injection H as <-. zb.
    now apply good_left with (p := p).
  - now apply good_start with (p := p) (ap := ap).
  - now apply good_push.
  - destruct a; [now exfalso|]. now apply good_down.
  - now apply good_done.
  - now apply good_thread.
  - now apply good_stage.
  - now apply good_direct.
  - now apply good_env.
  - now apply good_mark.
  - now apply good_delete with (p := p).
Qed.

(** Paths of steps. *)
Inductive mpath (o : opts) : dl * bool -> dl * bool -> list mlab -> Prop :=
| mp_nil x : mpath o x x []
| mp_cons x y z l ls : mstep o x y l -> mpath o y z ls -> mpath o x z (l :: ls).
Definition sum (f : mlab -> Z) (ls : list mlab) : Z := fold_right (fun l n => f l + n) 0 ls.
Lemma sum_app f a b : sum f (a ++ b) = sum f a + sum f b.
Proof. induction a; cbn [sum fold_right app] in *; [reflexivity|]. fold (sum f (a0 ++ b)) (sum f a0). unfold sum in *. lia. Qed.
Lemma mpath_app o x y z a b : mpath o x y a -> mpath o y z b -> mpath o x z (a ++ b).
Proof. induction 1; intros; cbn; [assumption|]. econstructor; eauto. Qed.
Lemma mpath_one o x y l : mstep o x y l -> mpath o x y [l].
Proof. intros. econstructor; [eassumption|constructor]. Qed.
Lemma mpath_good o x y ls : mpath o x y ls -> inv o x ->
  inv o y /\ forall k, budget k (fst y) + sum (started k) ls <= budget k (fst x) + sum (allowance k) ls.
Proof.
  induction 1 as [|x y z l ls S1 S2 IH]; intros I.
  - split; [exact I|]. intros k. cbn. lia.
  - destruct (mstep_good _ _ _ _ S1 I) as [I' B]. destruct (IH I') as [I'' B'']. split; [exact I''|].
    intros k. specialize (B k). specialize (B'' k). cbn [sum fold_right]. unfold sum in *. lia.
Qed.

(** A request has been dealt with. *)
Lemma request_gone o d p : inv o (d, true) -> d_post d = Some p ->
  exists q, d_post (check_request o d) = Some q /\ p_request q = false /\ p_need q = p_need p /\
            (p_request p = false -> check_request o d = d).
Proof.
  intros I P. unfold check_request. rewrite P. destruct (p_request p) eqn:Q; cbn [andb].
  2:{ exists p. auto. }
  open_inv I. rewrite P in I. parts I. destruct (I2 Q) as [X|(X1 & X2 & X3 & X4)].
  - rewrite X. cbn [orb andb]. destruct (pc_manual (o_parcheck o)); cbn [negb andb]; fields; eexists; repeat split; discriminate.
  - rewrite X1, X2, X3. cbn [negb andb]. rewrite orb_true_r. cbn [andb]. fields. eexists; repeat split; discriminate.
Qed.
