(** Proofs: the words of options and commands (C126, C129). *)
From Coq Require Import String.
From Verif Require Import Base NumFmt LineModel OptModel OptSpec.
Open Scope list_scope. Open Scope Z_scope.

Definition pairb (p q : list Z * Z) : bool := beqb (fst p) (fst q) && (snd p =? snd q).
Definition subl (l r : list (list Z * Z)) : bool := forallb (fun p => existsb (pairb p) r) l.
Lemma subl_in l r : subl l r = true -> forall w x, In (w, x) l -> In (w, x) r.
Proof.
  intros H w x I1. unfold subl in H. rewrite forallb_forall in H. apply H in I1. apply existsb_exists in I1 as ((w' & x') & I2 & E).
  unfold pairb in E. cbn [fst snd] in E. apply andb_true_iff in E as (E1 & E2). apply beqb_eq in E1. apply Z.eqb_eq in E2. now subst.
Qed.
Lemma both l r : subl l r = true -> subl r l = true -> forall w x, In (w, x) l <-> In (w, x) r.
Proof. intros A B w x. split; apply subl_in; assumption. Qed.

Lemma commands_meaning : forall w x, In (w, x) (w_names command_words) <-> In (w, x) command_meaning.
Proof. apply both; vm_compute; reflexivity. Qed.
Lemma words_meaning : (forall w x, In (w, x) (w_names bool_words) <-> In (w, x) bool_meaning) /\
  (forall n ws w x, In (n, ws) enum_options -> In n (map str ["InfoTarget"; "WarningTarget"; "ErrorTarget"; "DebugTarget"; "DetailTarget"]%string) ->
    In (w, x) (w_names ws) <-> In (w, x) target_meaning).
Proof.
  split; [apply both; vm_compute; reflexivity|].
  assert (H : forallb (fun o => negb (existsb (beqb (fst o)) (map str ["InfoTarget"; "WarningTarget"; "ErrorTarget"; "DebugTarget"; "DetailTarget"]%string)) ||
      (subl (w_names (snd o)) target_meaning && subl target_meaning (w_names (snd o)))) enum_options = true) by (vm_compute; reflexivity).
  intros n ws w x I1 I2. rewrite forallb_forall in H. apply H in I1. cbn [fst snd] in I1. apply orb_true_iff in I1 as [E|E].
  - apply negb_true_iff in E. assert (T : existsb (beqb n) (map str ["InfoTarget"; "WarningTarget"; "ErrorTarget"; "DebugTarget"; "DetailTarget"]%string) = true).
    { apply existsb_exists. exists n. split; [exact I2|apply beqb_refl]. }
    congruence.
  - apply andb_true_iff in E as (A & B). split; apply subl_in; assumption.
Qed.
