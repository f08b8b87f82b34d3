From Coq Require Import String.
From Verif Require Import Base WildModel DuModel DuSpec.
Open Scope list_scope. Open Scope Z_scope.

Definition closed s := s_open s = false /\ s_unpacking s = false.
Definition opened s := s_open s = true /\ s_unpacking s = true.
Definition quiet s := s_wait s = None /\ s_asked s = None.
Definition all_of s (l : list (list Z)) := s_found s = unpacked s ++ l ++ s_arch s.
Definition phase (s : st) : Prop :=
  match s_at s with
  | Scan => closed s /\ quiet s /\ s_processed s = false /\ s_ok s = false /\ s_runs s = [] /\ all_of s []
  | Loop => closed s /\ quiet s /\ all_of s [] /\ s_processed s = s_ok s
  | Taken a => closed s /\ quiet s /\ all_of s [a] /\ s_processed s = true
  | Run => opened s /\ s_wait s = s_asked s /\ all_of s [] /\ s_processed s = true /\ s_runs s <> [] /\
           (s_completed s = true -> s_wait s <> None -> s_terminated s = true \/ s_queued s = false)
  | Line m => opened s /\ s_wait s = None /\ s_asked s = match m with MAsk v => Some v | _ => None end /\ all_of s [] /\ s_processed s = true /\ s_runs s <> []
  | Look v | Missing v => opened s /\ s_wait s = None /\ s_asked s = Some v /\ all_of s [] /\ s_processed s = true /\ s_runs s <> []
  | Ended => closed s /\ s_processed s = true /\ (s_ok s = true -> quiet s /\ all_of s [])
  | Out => closed s /\ (s_ok s = true -> quiet s /\ all_of s [] /\ (s_stopped s = false -> s_completed s = true /\ (s_late s = false -> s_arch s = [])))
  | Finished => closed s /\ (s_status s = SSuccess -> s_thread s = false /\ s_ok s = true /\ s_stopped s = false /\ s_completed s = true /\ all_of s [] /\ (s_late s = false -> s_arch s = []))
  end.
Definition inv (cmd : bool) (s : st) : Prop :=
  phase s /\ (cmd = false -> s_ok s = false /\ s_open s = false) /\ (s_at s <> Finished -> s_status s <> SSuccess) /\ (s_terminated s = true -> s_stopped s = true).

Lemma last_run_names c k l : map (fun r => fst (fst r)) (last_run c k l) = map (fun r : list Z * Z * bool => fst (fst r)) l.
Proof.
  unfold last_run. rewrite <- (rev_involutive l) at 2. destruct (rev l) as [|((a, x), y) r]; [reflexivity|].
  cbn [rev]. rewrite !map_app. reflexivity.
Qed.
Lemma inv_start cmd d : inv cmd (start d).
Proof. unfold inv, phase, start, closed, quiet, all_of; cbn. repeat split; congruence. Qed.

Ltac un := unfold inv, phase, closed, opened, quiet, all_of, unpacked, step, push, answer, stop_found, stop in *; cbn [s_at s_arch s_wait s_completed s_stopped s_processed s_unpacking s_terminated s_allok s_ok s_asked s_open s_queued s_thread s_status s_disk s_found s_late s_runs s_answers s_failed s_bad
  set_at set_arch set_wait set_completed set_stopped set_processed set_unpacking set_terminated set_allok set_ok set_asked set_open set_queued set_thread set_status set_disk set_found set_late set_runs set_answers set_failed set_bad] in *.
Ltac brk := repeat match goal with
  | H : _ /\ _ |- _ => destruct H
  | H : Some _ = Some _ |- _ => injection H as H; subst
  | H : None = Some _ |- _ => discriminate
  | H : Some _ = None |- _ => discriminate
  | H : match ?x with _ => _ end = Some _ |- _ => destruct x eqn:?
  | H : (if ?x then _ else _) = Some _ |- _ => destruct x eqn:?
  end.
Ltac ifs := repeat match goal with
  | |- context [if ?b then _ else _] => destruct b eqn:?; un
  | |- context [match ?b with Some _ => _ | None => _ end] => destruct b eqn:?; un
  | |- context [match ?b with MAsk _ => _ | MFail => _ | MAllOk => _ | MOther => _ end] => destruct b eqn:?; un
  end.
Ltac fin := repeat match goal with
  | |- _ /\ _ => split
  | |- _ -> _ => intro
  end; subst; cbn [app] in *; rewrite ?app_nil_r in *; rewrite ?map_app, <- ?app_assoc, ?last_run_names in *; cbn [app map fst] in *; try congruence; try tauto; auto.
Lemma inv_step main cmd l s s' : inv cmd s -> step main cmd l s = Some s' -> inv cmd s'.
Proof.
  intros H D. destruct s as [at0 arch wait comp stp proc unp term allok ok asked open que thr stat disk found late runs ans failed bad].
  destruct l; un; brk; un; brk; subst; un; brk; subst; un.
  all: ifs; un; brk; subst.
  all: fin.
  all: try (destruct at0; un; brk; subst; fin).
  all: try match goal with H : _ <> Finished -> _ |- _ <> SSuccess => apply H; discriminate end.
  all: try match goal with |- ?r ++ _ <> [] => destruct r; discriminate end.
  all: repeat match goal with
         | H : _ && _ = true |- _ => apply andb_true_iff in H; destruct H
         | H : negb _ = true |- _ => apply negb_true_iff in H
         | H : ?x = ?x -> _ |- _ => specialize (H eq_refl)
         | H : ?x = true, H1 : ?x = true -> _ |- _ => specialize (H1 H)
         | H : ?x = false, H1 : ?x = false -> _ |- _ => specialize (H1 H)
         | H : _ /\ _ |- _ => destruct H
         | H : _ <> Finished -> SSuccess <> SSuccess |- _ => exfalso; apply H; [discriminate | reflexivity]
         end; subst; rewrite ?orb_true_r; try discriminate; try congruence; try tauto; auto.
  all: try (left; apply orb_true_r).
  all: rewrite <- ?app_assoc; try reflexivity; try congruence.
  all: try match goal with H : match ?a with _ => _ end = true |- ?a = None => destruct a; [discriminate | reflexivity] end.
  rewrite orb_true_r in *. discriminate.
Qed.

Lemma run_app main cmd a b s : run main cmd (a ++ b) s = match run main cmd a s with Some s' => run main cmd b s' | None => None end.
Proof. revert s. induction a as [|l a IH]; intros s; [reflexivity|]. cbn [app run]. destruct (step main cmd l s); [apply IH | reflexivity]. Qed.
Lemma run_snoc main cmd a l s s' : run main cmd (a ++ [l]) s = Some s' -> exists s1, run main cmd a s = Some s1 /\ step main cmd l s1 = Some s'.
Proof.
  rewrite run_app. destruct (run main cmd a s) as [s1|]; [|discriminate]. intros H. exists s1. split; [reflexivity|]. cbn [run] in H.
  destruct (step main cmd l s1); [assumption | discriminate].
Qed.
Lemma inv_run main cmd ls d s : run main cmd ls (start d) = Some s -> inv cmd s.
Proof.
  revert s. induction ls as [|l ls IH] using rev_ind; intros s H; [injection H as <-; apply inv_start|].
  apply run_snoc in H. destruct H as (s1 & H & D). exact (inv_step main cmd l s1 s (IH _ H) D).
Qed.
(** A property of steps and states holds after every run if it holds at the beginning and is kept by every step. *)
Lemma trace_ind main cmd d (P : list label -> st -> Prop) :
  P [] (start d) -> (forall ls l s s', inv cmd s -> P ls s -> step main cmd l s = Some s' -> P (ls ++ [l]) s') ->
  forall ls s, run main cmd ls (start d) = Some s -> P ls s.
Proof.
  intros P0 PS ls. induction ls as [|l ls IH] using rev_ind; intros s H; [injection H as <-; exact P0|].
  apply run_snoc in H. destruct H as (s1 & H & D). exact (PS ls l s1 s (inv_run main cmd ls d s1 H) (IH _ H) D).
Qed.
