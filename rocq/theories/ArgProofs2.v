(** Proofs about the command line: the switches. *)
From Coq Require Import String.
From Verif Require Import Base NumFmt WildModel WebModel RpProofs LineProofs ArgModel ArgSpec ArgProofs.
Open Scope list_scope. Open Scope Z_scope.

(** ** The words left are no more than before *)
Lemma append_len : forall f ws a a' r, append_words f ws a = Some (a', r) -> (length r <= length ws)%nat.
Proof.
  induction f as [|f IH]; intros ws a a' r H; [discriminate|]. cbn [append_words] in H. destruct ws as [|w ws]; [injection H as <- <-; lia|].
  cbn [length].
  repeat match type of H with
  | (if ?b then _ else _) = _ => destruct b
  | match ?l with [] => _ | _ :: _ => _ end = _ => destruct l as [|? ?]; cbn [length]
  | append_words _ _ _ = _ => apply IH in H; lia
  | None = Some _ => discriminate
  | Some _ = Some _ => injection H as <- <-; cbn [length]; lia
  end.
Qed.
Ltac shrink H :=
  repeat match type of H with
  | (if ?b then _ else _) = _ => destruct b
  | match (if ?b then _ else _) with _ => _ end = _ => destruct b
  | match ?l with [] => _ | _ :: _ => _ end = _ => destruct l as [|? ?]; cbn [length]
  | None = Some _ => discriminate
  | Some _ = Some _ => injection H as <- <-; cbn [length]; lia
  end.
Lemma queue_len g w r s s' r' : queue_action g w r s = Some (s', r') -> (length r' <= length r)%nat.
Proof. unfold queue_action, take_text, take_param. intros H. shrink H. Qed.
Lemma history_len w r s s' r' : history_action w r s = Some (s', r') -> (length r' <= length r)%nat.
Proof. unfold history_action, take_param. intros H. shrink H. Qed.
Lemma post_len w r s s' r' : post_action w r s = Some (s', r') -> (length r' <= length r)%nat.
Proof. unfold post_action. intros H. shrink H. Qed.
Lemma edit_len w r s s' r' : edit_words w r s = Some (s', r') -> (length r' <= length r)%nat.
Proof.
  unfold edit_words. cbv zeta. intros H.
  assert (K : exists w1 r1, (length r1 <= length r)%nat /\ (if is w "O" then post_action w1 r1 (with_mode (if is w "GN" || is w "FN" then MName else if is w "GR" || is w "FR" then MRegEx else MId) (with_op RequestEditQueue s)) else if is w "H" then history_action w1 r1 (with_mode (if is w "GN" || is w "FN" then MName else if is w "GR" || is w "FR" then MRegEx else MId) (with_op RequestEditQueue s)) else queue_action (is w "G" || is w "GN" || is w "GR") w1 r1 (with_mode (if is w "GN" || is w "FN" then MName else if is w "GR" || is w "FR" then MRegEx else MId) (with_op RequestEditQueue s))) = Some (s', r')).
  { match type of H with match (if ?b then _ else _) with _ => _ end = _ => destruct b end; [destruct r as [|w1 r1]; [discriminate|]|]; eexists _, _; (split; [|exact H]); cbn [length]; lia. }
  destruct K as (w1 & r1 & L & K). destruct (is w "O"); [apply post_len in K; lia|]. destruct (is w "H"); [apply history_len in K; lia|]. apply queue_len in K. lia.
Qed.
Lemma list_len r s s' r' : list_words r s = Some (s', r') -> (length r' <= length r)%nat.
Proof. unfold list_words. intros H. shrink H. Qed.
Lemma pause_len p r s s' r' : pause_words p r s = Some (s', r') -> (length r' <= length r)%nat.
Proof. unfold pause_words. cbv zeta. intros H. shrink H. Qed.
Lemma scan_len r s s' r' : scan_words r s = Some (s', r') -> (length r' <= length r)%nat.
Proof. unfold scan_words. intros H. shrink H. Qed.
Lemma write_len w r s s' r' : write_words w r s = Some (s', r') -> (length r' <= length r)%nat.
Proof. unfold write_words. cbv zeta. intros H. shrink H. Qed.
Lemma of_step_some x s r : of_step x = SGo s r -> x = Some (s, r).
Proof. destruct x as [[? ?]|]; cbn [of_step]; intros H; [injection H as <- <-; reflexivity|discriminate]. Qed.
Lemma switch_len c r s s' r' : switch c r s = SGo s' r' -> (length r' <= length r)%nat.
Proof.
  unfold switch. intros H.
  repeat match type of H with
  | (if ?b then _ else _) = _ => destruct b
  | match ?l with [] => _ | _ :: _ => _ end = _ => destruct l as [|? ?]; cbn [length]
  | SWrong = SGo _ _ => discriminate | SUsage = SGo _ _ => discriminate | SVersion = SGo _ _ => discriminate | SOutside = SGo _ _ => discriminate
  | SGo _ _ = SGo _ _ => injection H as <- <-; cbn [length]; lia
  | of_step _ = _ => apply of_step_some in H
  | edit_words _ _ _ = _ => apply edit_len in H; lia
  | write_words _ _ _ = _ => apply write_len in H; lia
  | list_words _ _ = _ => apply list_len in H; lia
  | pause_words _ _ _ = _ => apply pause_len in H; lia
  | scan_words _ _ = _ => apply scan_len in H; lia
  | match append_words ?f ?ws ?a with _ => _ end = _ => let K := fresh in destruct (append_words f ws a) as [[? ?]|] eqn:K; [apply append_len in K; injection H as <- <-; lia|discriminate]
  end.
Qed.

(** ** Switches one by one *)
Lemma switches_fuel : forall f1 f2 ws s n, (length ws < f1)%nat -> (length ws < f2)%nat -> switches f1 ws s n = switches f2 ws s n.
Proof.
  induction f1 as [|f1 IH]; intros f2 ws s n L1 L2; [lia|]. destruct f2 as [|f2]; [lia|]. cbn [switches]. destruct ws as [|w r]; [reflexivity|]. cbn [length] in L1, L2.
  destruct (beqb w (str "--")); [reflexivity|]. destruct (negb (prefixb (str "-") w) || beqb w (str "-")); [apply IH; lia|].
  destruct (letter w); [|reflexivity]. destruct (switch l r s) eqn:Q; try reflexivity. apply switch_len in Q. apply IH; lia.
Qed.
Lemma switches_step f w r s n : switches (S f) (w :: r) s n =
  if beqb w (str "--") then LDone s (n + length r)
  else if negb (prefixb (str "-") w) || beqb w (str "-") then switches f r s (S n)
  else match letter w with
       | None => LOutside
       | Some c => match switch c r s with SWrong => LWrong | SUsage => LUsage | SVersion => LVersion | SOutside => LOutside | SGo s' r' => switches f r' s' n end
       end.
Proof. reflexivity. Qed.
Definition run (ws : list (list Z)) (s : cl) (n : nat) : lres := switches (S (length ws)) ws s n.
Lemma run_nil s n : run [] s n = LDone s n.
Proof. reflexivity. Qed.
Lemma run_other w r s n : no_switch w -> run (w :: r) s n = run r s (S n).
Proof.
  intros H. unfold run. change (S (length (w :: r))) with (S (S (length r))). rewrite switches_step.
  assert (P : prefixb (str "-") w = false).
  { destruct w as [|c w]; [reflexivity|]. change (str "-") with [45]. cbn [prefixb]. destruct (45 =? c) eqn:Q; [apply Z.eqb_eq in Q; destruct (H w); congruence|reflexivity]. }
  assert (D : beqb w (str "--") = false). { destruct (beqb w (str "--")) eqn:Q; [|reflexivity]. apply beqb_eq in Q. subst w. destruct (H (str "-")). reflexivity. }
  rewrite D, P. reflexivity.
Qed.
Lemma run_others fs : Forall no_switch fs -> forall s n, run fs s n = LDone s (n + length fs).
Proof. induction 1 as [|f fs H _ IH]; intros s n; [rewrite run_nil; f_equal; cbn; lia|]. rewrite (run_other _ _ _ _ H), IH. f_equal. cbn [length]. lia. Qed.
(** A word for a switch, by its letter. *)
Definition word_of (c : string) (w : list Z) : Prop := beqb w (str "--") = false /\ negb (prefixb (str "-") w) || beqb w (str "-") = false /\ letter w = Some (str c).
Lemma run_switch c w r s n : word_of c w -> run (w :: r) s n = match switch (str c) r s with SWrong => LWrong | SUsage => LUsage | SVersion => LVersion | SOutside => LOutside | SGo s' r' => run r' s' n end.
Proof.
  intros (A & B & L). unfold run. change (S (length (w :: r))) with (S (S (length r))). rewrite switches_step. rewrite A, B, L. destruct (switch (str c) r s) eqn:Q; try reflexivity.
  apply switch_len in Q. apply switches_fuel; lia.
Qed.

(** ** Settings before the command *)
Definition pre (nc : bool) (cf : option (list Z)) (os : list (list Z)) : cl := Cl NoOperation false false false false nc cf os added0 FileMoveOffset 0 None MId 0 KInfo false [] [] None.
Lemma run_pre gs pws : Forall2 given_words gs pws -> forall nc cf os rest n, exists nc', run (concat pws ++ rest) (pre nc cf os) n =
  run rest (pre nc' (latest (fun g => match g with GConfig f => Some (Some f) | GNoConfig => Some None | _ => None end) gs cf) (os ++ options_of gs)) n.
Proof.
  induction 1 as [|g ws gs pws H _ IH]; intros nc cf os rest n; [exists nc; cbn [concat app options_of flat_map latest fold_left]; rewrite app_nil_r; reflexivity|].
  cbn [concat]. rewrite <- app_assoc. destruct g as [f| |o]; cbn [given_words] in H.
  - destruct (IH nc (Some f) os rest n) as (nc' & Q). exists nc'. cbn [options_of flat_map]. unfold latest in *. cbn [fold_left].
    destruct H as [-> | ->]; cbn [app]; (rewrite (run_switch "c") by (split; [|split]; vm_compute; reflexivity)); exact Q.
  - destruct (IH true None os rest n) as (nc' & Q). exists nc'. cbn [options_of flat_map]. unfold latest in *. cbn [fold_left].
    destruct H as [-> | ->]; cbn [app]; (rewrite (run_switch "n") by (split; [|split]; vm_compute; reflexivity)); exact Q.
  - destruct (IH nc cf (os ++ [o]) rest n) as (nc' & Q). exists nc'. cbn [options_of flat_map]. unfold latest in *. cbn [fold_left]. rewrite <- app_assoc in Q.
    destruct H as [-> | ->]; cbn [app]; (rewrite (run_switch "o") by (split; [|split]; vm_compute; reflexivity)); exact Q.
Qed.
Lemma parse_run cwd a w b s n : run (a ++ w :: b) cl0 0 = LDone s n -> c_server s = false -> c_print s = false ->
  parse cwd (a ++ w :: b) = init_file_arg cwd (skipn (length (a ++ w :: b) - n) (a ++ w :: b)) s.
Proof.
  intros R V P. unfold parse. destruct (a ++ w :: b) as [|x l] eqn:Q; [destruct a; discriminate|]. unfold init_command_line. fold (run (x :: l) cl0 0). rewrite R, V. cbn [andb]. rewrite P. reflexivity.
Qed.
Lemma parse_wrong cwd a w b : run (a ++ w :: b) cl0 0 = LWrong -> parse cwd (a ++ w :: b) = Wrong.
Proof. intros R. unfold parse. destruct (a ++ w :: b) as [|x l] eqn:Q; [destruct a; discriminate|]. unfold init_command_line. fold (run (x :: l) cl0 0). rewrite R. reflexivity. Qed.
Lemma skipn_end {A} (a b : list A) : skipn (length (a ++ b) - length b) (a ++ b) = b.
Proof. rewrite app_length. replace (length a + length b - length b)%nat with (length a) by lia. rewrite skipn_app, skipn_all, Nat.sub_diag. reflexivity. Qed.
