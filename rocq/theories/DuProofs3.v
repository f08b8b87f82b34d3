(** C170: after it is stopped no archive is begun. *)
From Coq Require Import String.
From Verif Require Import Base DuModel DuSpec.
Open Scope list_scope. Open Scope Z_scope.
Lemma stopped_step main cmd l s s' : step main cmd l s = Some s' -> s_stopped s = true -> s_stopped s' = true.
Proof.
  intros H T. destruct s. cbn in T. subst. unfold step, stop_found, answer in H. destruct l; cbn in H;
  repeat match type of H with
  | match ?x with _ => _ end = _ => destruct x eqn:?; try discriminate
  end;
  injection H as <-; cbn;
  repeat match goal with |- context [match ?x with _ => _ end] => destruct x end; reflexivity.
Qed.
Lemma stopper_step main cmd l s s' : stops [l] -> step main cmd l s = Some s' -> s_stopped s' = true.
Proof.
  intros S0 H. assert (C : (exists f, l = QFile f true) \/ l = QShutdown \/ l = QDeleted) by (destruct S0 as [(f & [-> | []]) | [[-> | []] | [-> | []]]]; [left; exists f|right; left|right; right]; reflexivity).
  clear S0. destruct C as [(f & ->) | [-> | ->]]; cbn [step] in H;
  repeat match type of H with
  | (if ?x then _ else _) = _ => destruct x; try discriminate
  end; injection H as <-; destruct s; reflexivity.
Qed.
Lemma stopped_no_take main cmd : forall ls s s', run main cmd ls s = Some s' -> s_stopped s = true -> ~ In TTake ls.
Proof.
  induction ls as [|l ls IH]; intros s s' H T I0; [destruct I0|]. cbn [run] in H. destruct (step main cmd l s) as [s1|] eqn:Q; [|discriminate]. destruct I0 as [-> | I0].
  - cbn [step] in Q. rewrite T in Q. destruct (s_at s); try discriminate Q; destruct (s_arch s); discriminate Q.
  - exact (IH s1 s' H (stopped_step _ _ _ _ _ Q T) I0).
Qed.
Lemma stops_thm main cmd disk a l b s : run main cmd (a ++ l :: b) (start disk) = Some s -> stops [l] -> ~ In TTake b.
Proof.
  intros H S0. revert H. generalize (start disk). induction a as [|x a IH]; intros s0 H; cbn [app run] in H.
  - destruct (step main cmd l s0) as [s1|] eqn:Q; [|discriminate]. exact (stopped_no_take _ _ _ _ _ H (stopper_step _ _ _ _ _ S0 Q)).
  - destruct (step main cmd x s0) as [s1|] eqn:Q; [|discriminate]. exact (IH s1 H).
Qed.
