(** Requests for par2-files and the waiting for them. *)
From Coq Require Import String Permutation.
From Verif Require Import Base WildModel ParModel ParSpec.
Open Scope list_scope. Open Scope Z_scope.

(** ** Waiting *)
Definition wgood (s : wstate) (between : bool) : Prop :=
  (w_pc s = WWait -> (0 < w_left s)%nat \/ w_changed s = true) /\
  (w_pc s = WLook -> (w_asked s = true -> (0 < w_left s)%nat \/ (0 < w_come s)%nat) /\ between = true) /\
  (w_pc s <> WLook -> between = false).

Lemma wait_good es : forall s s' b, wgood s b -> no_loss_between b es -> wait_run es s = Some s' -> exists b', wgood s' b'.
Proof.
  induction es as [|e r IH]; intros s s' b G N R; [cbn in R; injection R as <-; exists b; exact G|].
  cbn [wait_run] in R. destruct (wait_step e s) as [s1|] eqn:E; [|discriminate].
  destruct s as [pc l c n a ch]. destruct G as (G1 & G2 & G3). cbn [w_pc w_left w_come w_asked w_changed] in *.
  destruct e; cbn [no_loss_between] in N; unfold wait_step in E.
  - destruct pc; try discriminate. injection E as <-. refine (IH _ _ _ _ N R). destruct (c =? 0)%nat; split; [discriminate|split; [discriminate|intros _; apply G3; discriminate]|discriminate|split; [discriminate|intros _; apply G3; discriminate]].
  - destruct pc; try discriminate. injection E as <-. refine (IH _ _ _ _ N R). split; [discriminate|]. cbn [w_pc w_asked w_left w_come]. split; [|congruence]. intros _. split; [|reflexivity]. intros H. left. lia.
  - destruct pc; try discriminate. injection E as <-. refine (IH _ _ _ _ N R). destruct (G2 eq_refl) as [A B].
    destruct (c =? 0)%nat eqn:C; [destruct a|]; (split; [|split; [discriminate|reflexivity]]); cbn [w_pc w_left]; try discriminate.
    intros _. left. destruct (A eq_refl); lia.
  - destruct pc; try discriminate. destruct ch; [|discriminate]. injection E as <-. refine (IH _ _ _ _ N R).
    split; [discriminate|split; [discriminate|intros _; apply G3; discriminate]].
  - destruct pc; try discriminate. injection E as <-. refine (IH _ _ _ _ N R).
    split; [discriminate|split; [discriminate|intros _; apply G3; discriminate]].
  - destruct l as [|k]; [destruct pc; discriminate|].
    assert (E' : Some (WState pc k (S c) n a true) = Some s1) by (destruct pc; exact E). injection E' as <-. refine (IH _ _ _ _ N R).
    split; [intros _; right; reflexivity|]. split; [|exact G3]. intros H. destruct (G2 H) as [A B]. split; [|exact B]. intros _. right. cbn. lia.
  - destruct N as [-> N]. destruct l as [|k]; [destruct pc; discriminate|].
    assert (E' : Some (WState pc k c n a true) = Some s1) by (destruct pc; exact E). injection E' as <-. refine (IH _ _ _ _ N R).
    split; [intros _; right; reflexivity|]. split; [|exact G3]. intros H. destruct (G2 H) as [_ B]. discriminate.
  - destruct deleted.
    + assert (E' : Some (WState pc l c n a true) = Some s1) by (destruct pc; exact E). injection E' as <-. refine (IH _ _ _ _ N R).
      split; [intros _; right; reflexivity|]. split; [exact G2|exact G3].
    + assert (E' : Some (WState pc l (S c) n a true) = Some s1) by (destruct pc; exact E). injection E' as <-. refine (IH _ _ _ _ N R).
      split; [intros _; right; reflexivity|]. split; [|exact G3]. intros H. destruct (G2 H) as [A B]. split; [|exact B]. intros _. right. cbn. lia.
Qed.

Theorem wait_progress l es s : no_loss_between false es -> wait_run es (wait_start l) = Some s ->
  w_pc s = WGiveUp \/ (exists e s', by_checker e = true /\ wait_step e s = Some s') \/ (0 < w_left s)%nat.
Proof.
  intros N R. assert (G : wgood (wait_start l) false) by (split; [discriminate|split; [discriminate|reflexivity]]).
  destruct (wait_good _ _ _ _ G N R) as (b & G1 & _). destruct s as [pc k c n a ch]. cbn [w_pc w_left w_changed] in *. destruct pc.
  - right. left. exists SCheck. eexists. split; reflexivity.
  - right. left. exists (SAsk 0). eexists. split; reflexivity.
  - right. left. exists SLook. eexists. split; reflexivity.
  - destruct (G1 eq_refl) as [H | ->]; [right; right; exact H|]. right. left. exists SWake. eexists. split; reflexivity.
  - right. left. exists SLoad. eexists. split; reflexivity.
  - left. reflexivity.
Qed.

Theorem wait_all l es s : wait_run es (wait_start l) = Some s -> (w_seen s + w_come s = downloads es)%nat.
Proof.
  assert (G : forall es s s', wait_run es s = Some s' -> (w_seen s' + w_come s' = w_seen s + w_come s + downloads es)%nat).
  { clear. intros es. induction es as [|e r IH]; intros s s' R; [cbn in R; injection R as <-; cbn; lia|].
    cbn [wait_run] in R. destruct (wait_step e s) as [s1|] eqn:E; [|discriminate]. rewrite (IH _ _ R). clear IH R.
    destruct s as [pc l c n a ch]. unfold wait_step in E. unfold downloads.
    destruct e; try destruct deleted; cbn [filter length]; destruct pc; try discriminate; try (destruct l; discriminate); try (destruct ch; [|discriminate]); try destruct l; try discriminate; injection E as <-; cbn [w_seen w_come]; lia. }
  intros R. rewrite (G _ _ _ R). reflexivity.
Qed.

(** It gives up only when there was nothing to wait for and all that came was loaded. *)
Theorem wait_giveup es1 es2 k es3 l s1 s2 s3 s : wait_run es1 (wait_start l) = Some s1 -> wait_step (SAsk k) s1 = Some s2 ->
  wait_run es2 s2 = Some s3 -> Forall (fun e => by_checker e = false) es2 -> wait_step SLook s3 = Some s -> w_pc s = WGiveUp ->
  es3 = es1 ++ SAsk k :: es2 -> w_left s2 = 0%nat /\ w_come s = 0%nat /\ w_seen s = downloads es3.
Proof.
  intros R1 A R2 Q L P ->.
  assert (K : w_asked s3 = w_asked s2).
  { clear - R2 Q. revert s2 R2. induction es2 as [|e r IH]; intros s2 R; [cbn in R; injection R as ->; reflexivity|].
    inversion_clear Q as [|? ? B Q']. cbn [wait_run] in R. destruct (wait_step e s2) as [s'|] eqn:E; [|discriminate]. rewrite (IH Q' _ R).
    destruct s2 as [pc l c n a ch]. unfold wait_step in E. destruct e; try discriminate; try destruct deleted; destruct pc; try destruct l; try discriminate; injection E as <-; reflexivity. }
  assert (D : wait_run (es1 ++ SAsk k :: es2) (wait_start l) = Some s3).
  { clear - R1 A R2. revert R1. generalize (wait_start l). induction es1 as [|e r IH]; intros s0 R; cbn [app wait_run] in *.
    - injection R as ->. rewrite A. exact R2.
    - destruct (wait_step e s0); [exact (IH _ R)|discriminate]. }
  apply wait_all in D. destruct s3 as [pc l3 c n a ch]. destruct pc; try discriminate. cbn [w_seen w_come w_asked] in *.
  cbn in L. injection L as <-. cbn [w_pc w_come w_seen] in *. destruct (c =? 0)%nat eqn:C; [|discriminate]. destruct a; [discriminate|].
  destruct s1 as [pc1 l1 c1 n1 a1 ch1]. destruct pc1; try discriminate. cbn in A. injection A as <-. cbn [w_asked] in K. cbn [w_left].
  split; [destruct (l1 + k)%nat; [reflexivity|discriminate]|split; lia].
Qed.

(** Without events the checker comes to rest. *)
Theorem wait_rest es : forall s s', wait_run es s = Some s' -> Forall (fun e => by_checker e = true) es -> (length es <= 13)%nat.
Proof.
  assert (ZZ : forall es s s', wait_run es s = Some s' -> Forall (fun e => by_checker e = true) es -> w_pc s <> WWait \/ w_changed s = false ->
     (length es <= match w_pc s with WGiveUp | WWait => 0 | WLook => if (w_come s =? 0)%nat then 1 else 5 | WAsk => if (w_come s =? 0)%nat then 2 else 6
        | WCheck => if (w_come s =? 0)%nat then 3 else 5 | WLoad => 4 end)%nat).
  { clear. induction es as [|e r IH]; intros s s' R F; [cbn [length]; lia|]. inversion_clear F as [|? ? B F'].
    cbn [wait_run] in R. destruct (wait_step e s) as [s1|] eqn:E; [|discriminate]. specialize (IH _ _ R F').
    destruct s as [pc l c n a ch]. unfold wait_step in E. cbn [w_pc w_come w_changed]. intros W. cbn [length].
    destruct e; try discriminate; destruct pc; try discriminate.
    - injection E as <-. cbn [w_pc w_come w_changed] in IH. destruct (c =? 0)%nat.
      + lapply IH; [intros X|left; discriminate].
        clear - X.
        lia.
      + lapply IH; [intros X|left; discriminate].
        clear - X.
        lia.
    - injection E as <-. cbn [w_pc w_come w_changed] in IH. lapply IH; [intros X|left; discriminate]. clear - X. destruct (c =? 0)%nat; lia.
    - injection E as <-. cbn [w_pc w_come w_changed] in IH. lapply IH; [intros X|right; reflexivity]. clear - X. destruct (c =? 0)%nat; [destruct a|]; lia.
    - destruct W as [W | W]; [contradiction|]. rewrite W in E. discriminate.
    - injection E as <-. cbn [w_pc w_come w_changed] in IH. lapply IH; [intros X|left; discriminate]. cbn in X. clear - X. lia. }
  intros s s' R F. destruct es as [|e r]; [cbn; lia|]. inversion_clear F as [|? ? B F'].
  cbn [wait_run] in R. destruct (wait_step e s) as [s1|] eqn:E; [|discriminate]. specialize (ZZ r s1 s' R F').
  assert (W : w_pc s1 <> WWait \/ w_changed s1 = false).
  { destruct s as [pc l c n a ch]. unfold wait_step in E. destruct e; try discriminate; destruct pc; try discriminate.
    - injection E as <-. left. destruct (c =? 0)%nat; discriminate.
    - injection E as <-. left. discriminate.
    - injection E as <-. right. reflexivity.
    - destruct ch; [|discriminate]. injection E as <-. left. discriminate.
    - injection E as <-. left. discriminate. }
  specialize (ZZ W). cbn [length]. clear - ZZ. destruct (w_pc s1); destruct (w_come s1 =? 0)%nat; lia.
Qed.
