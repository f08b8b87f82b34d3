(** Proofs about moving queue entries. *)
From Verif Require Import Base MoveModel MoveSpec.
From Coq Require Import Permutation Arith.

Lemma same_orders_perm sel l r : same_orders sel l r -> Permutation l r.
Proof.
  intros [H1 H2].
  assert (H : forall m : list Z, Permutation m (filter sel m ++ filter (fun x => negb (sel x)) m)).
  { induction m as [|x m IH]; cbn [filter]; [constructor|].
    destruct (sel x); cbn [negb]; [cbn [app]; constructor; exact IH|].
    eapply Permutation_trans; [apply perm_skip; exact IH | apply Permutation_middle]. }
  eapply Permutation_trans; [apply (H l)|]. rewrite <- H1, <- H2. apply Permutation_sym, H.
Qed.

Lemma index_of_app x P Q : ~ In x P -> index_of x (P ++ x :: Q) = length P.
Proof.
  induction P as [|y P IH]; cbn [app index_of length]; intros H.
  - now rewrite Z.eqb_refl.
  - destruct (Z.eqb_spec y x) as [->|]; [exfalso; apply H; left; reflexivity|].
    f_equal. apply IH. intro; apply H; right; assumption.
Qed.

Lemma remove_at_app {A} (P : list A) x Q : remove_at (length P) (P ++ x :: Q) = P ++ Q.
Proof.
  unfold remove_at. rewrite firstn_app, firstn_all, Nat.sub_diag, skipn_app.
  rewrite skipn_all2 by lia. replace (S (length P) - length P)%nat with 1%nat by lia.
  cbn [firstn skipn app]. now rewrite app_nil_r.
Qed.

Lemma insert_at_app {A} d (x : A) P Q : (d <= length P)%nat ->
  insert_at d x (P ++ Q) = insert_at d x P ++ Q.
Proof.
  intros H. unfold insert_at. rewrite firstn_app, skipn_app.
  replace (d - length P)%nat with O by lia. cbn [firstn skipn]. rewrite app_nil_r, <- app_assoc.
  reflexivity.
Qed.

Lemma length_insert_at {A} d (x : A) P : length (insert_at d x P) = S (length P).
Proof.
  unfold insert_at. rewrite app_length. cbn [length].
  rewrite <- (firstn_skipn d P) at 3. rewrite app_length. lia.
Qed.

Lemma rev_insert_at {A} d (x : A) P : (d <= length P)%nat ->
  rev (insert_at d x P) = insert_at (length P - d) x (rev P).
Proof.
  intros H. unfold insert_at. rewrite rev_app_distr. cbn [rev].
  assert (E : rev P = rev (skipn d P) ++ rev (firstn d P)).
  { rewrite <- rev_app_distr, firstn_skipn. reflexivity. }
  rewrite E. assert (L : length (rev (skipn d P)) = (length P - d)%nat) by (rewrite rev_length, skipn_length; reflexivity).
  rewrite firstn_app, skipn_app, <- L, firstn_all, skipn_all, Nat.sub_diag. cbn [firstn skipn].
  rewrite app_nil_r, <- app_assoc. reflexivity.
Qed.

(** One entry moved within the part of the queue that was already handled. *)
Lemma move_entry_up P x rest d :
  ~ In x P -> (d <= length P)%nat ->
  move_entry x (Z.of_nat d - Z.of_nat (length P)) (P ++ x :: rest) = Some (insert_at d x P ++ rest).
Proof.
  intros N D. unfold move_entry. rewrite index_of_app by exact N. cbv zeta.
  rewrite app_length. cbn [length].
  replace (Z.of_nat (length P) + (Z.of_nat d - Z.of_nat (length P))) with (Z.of_nat d) by lia.
  destruct (Z.ltb_spec (Z.of_nat d) 0); [lia|].
  destruct (Z.ltb_spec (Z.of_nat (length P + S (length rest)) - 1) (Z.of_nat d)); [lia|].
  destruct (Z.leb_spec 0 (Z.of_nat d)); [|lia].
  destruct (Z.leb_spec (Z.of_nat d) (Z.of_nat (length P + S (length rest)) - 1)); [|lia]. cbn [andb].
  destruct (Nat.leb_spec (length P + S (length rest)) (length P)); [lia|].
  rewrite Nat2Z.id, remove_at_app, insert_at_app by exact D. reflexivity.
Qed.

Lemma move_entry_down P x rest d :
  ~ In x P -> ~ In x rest -> (d <= length P)%nat ->
  move_entry x (Z.of_nat (length P) - Z.of_nat d) (rev (P ++ x :: rest)) = Some (rev (insert_at d x P ++ rest)).
Proof.
  intros N N2 D. unfold move_entry.
  rewrite rev_app_distr. cbn [rev]. rewrite <- app_assoc. cbn [app].
  rewrite index_of_app by (rewrite <- in_rev; exact N2). cbv zeta.
  rewrite app_length. cbn [length]. rewrite !rev_length.
  replace (Z.of_nat (length rest) + (Z.of_nat (length P) - Z.of_nat d))
    with (Z.of_nat (length rest + (length P - d))) by lia.
  set (e := (length rest + (length P - d))%nat).
  assert (E : (e <= length rest + length P)%nat) by (unfold e; lia).
  destruct (Z.ltb_spec (Z.of_nat e) 0); [lia|].
  destruct (Z.ltb_spec (Z.of_nat (length rest + S (length P)) - 1) (Z.of_nat e)); [lia|].
  destruct (Z.leb_spec 0 (Z.of_nat e)); [|lia].
  destruct (Z.leb_spec (Z.of_nat e) (Z.of_nat (length rest + S (length P)) - 1)); [|lia]. cbn [andb].
  destruct (Nat.leb_spec (length rest + S (length P)) (length rest)); [lia|].
  rewrite Nat2Z.id. rewrite <- (rev_length rest) at 1.
  rewrite remove_at_app. rewrite rev_app_distr, rev_insert_at by exact D. f_equal.
  unfold insert_at, e. rewrite firstn_app, skipn_app, !rev_length.
  rewrite firstn_all2 by (rewrite rev_length; lia).
  rewrite skipn_all2 by (rewrite rev_length; lia).
  replace (length rest + (length P - d) - length rest)%nat with (length P - d)%nat by lia.
  cbn [app]. rewrite <- app_assoc. reflexivity.
Qed.

Definition unsel (ids : list Z) (x : Z) : bool := negb (mem ids x).

Lemma filter_all {A} (f : A -> bool) l : Forall (fun x => f x = true) l -> filter f l = l.
Proof. induction 1 as [|x l Hx _ IH]; cbn [filter]; [reflexivity|]. now rewrite Hx, IH. Qed.
Lemma filter_none {A} (f : A -> bool) l : Forall (fun x => f x = false) l -> filter f l = [].
Proof. induction 1 as [|x l Hx _ IH]; cbn [filter]; [reflexivity|]. now rewrite Hx, IH. Qed.

Lemma filter_insert_sel (f : Z -> bool) d x P :
  f x = true -> Forall (fun y => f y = false) (skipn d P) ->
  filter f (insert_at d x P) = filter f P ++ [x].
Proof.
  intros Hx H. unfold insert_at. rewrite filter_app. cbn [filter]. rewrite Hx.
  rewrite (filter_none f (skipn d P) H).
  rewrite <- (firstn_skipn d P) at 2. rewrite filter_app, (filter_none f (skipn d P) H), app_nil_r. reflexivity.
Qed.
Lemma filter_insert_unsel (f : Z -> bool) d x P :
  f x = false -> filter f (insert_at d x P) = filter f P.
Proof.
  intros Hx. unfold insert_at. rewrite filter_app. cbn [filter]. rewrite Hx.
  rewrite <- filter_app, firstn_skipn. reflexivity.
Qed.

Lemma in_insert_at {A} d (x y : A) P : In y (insert_at d x P) <-> y = x \/ In y P.
Proof.
  unfold insert_at. rewrite in_app_iff. cbn [In].
  rewrite <- (firstn_skipn d P) at 3. rewrite in_app_iff. intuition.
Qed.

(** State after some entries were handled: [P] holds them, [q] is one more than the
    position of the last selected one. *)
Record inv (ids : list Z) (k : nat) (P : list Z) (q : nat) : Prop := {
  inv_q : (q <= length P)%nat;
  inv_tail : Forall (fun y => mem ids y = false) (skipn q P);
  inv_lo : (length (filter (mem ids) P) <= q)%nat;
  inv_hi : (q <= Nat.max (length P - k) (length (filter (mem ids) P)))%nat
}.

Lemma filter_skipn_le {A} (f : A -> bool) l : (length (filter f l) <= length l)%nat.
Proof. induction l as [|x l IH]; cbn [filter length]; [lia|]. destruct (f x); cbn [length]; lia. Qed.

Lemma Forall_skipn {A} (R : A -> Prop) n l : Forall R l -> Forall R (skipn n l).
Proof. intros H. rewrite <- (firstn_skipn n l) in H. apply Forall_app in H. tauto. Qed.

Lemma skipn_le_Forall {A} (R : A -> Prop) q d (l : list A) :
  (q <= d)%nat -> Forall R (skipn q l) -> Forall R (skipn d l).
Proof.
  revert d l. induction q as [|q IH]; intros d l L H.
  - now apply Forall_skipn.
  - destruct d as [|d]; [lia|]. destruct l as [|x l]; [constructor|]. cbn [skipn] in *. apply IH; [lia|exact H].
Qed.

Lemma skipn_S_insert_at {A} d (x : A) P : (d <= length P)%nat -> skipn (S d) (insert_at d x P) = skipn d P.
Proof.
  intros H. unfold insert_at. rewrite skipn_app, firstn_length, Nat.min_l by lia.
  rewrite skipn_all2 by (rewrite firstn_length; lia). replace (S d - d)%nat with 1%nat by lia. reflexivity.
Qed.

Lemma nth_insert_at {A} d (x : A) P : (d <= length P)%nat -> nth_error (insert_at d x P) d = Some x.
Proof.
  intros H. unfold insert_at. rewrite nth_error_app2 by (rewrite firstn_length; lia).
  rewrite firstn_length, Nat.min_l, Nat.sub_diag by lia. reflexivity.
Qed.

Lemma firstn_insert_at {A} q d (x : A) P : (q <= d)%nat -> (d <= length P)%nat ->
  firstn q (insert_at d x P) = firstn q P.
Proof.
  intros H1 H2. unfold insert_at. rewrite firstn_app, firstn_length, Nat.min_l by lia.
  replace (q - d)%nat with O by lia. cbn [firstn]. rewrite app_nil_r, firstn_firstn, Nat.min_l by lia. reflexivity.
Qed.

Lemma inv_step ids k P q x (d := Nat.max (length P - k) (length (filter (mem ids) P))) :
  (0 < k)%nat -> inv ids k P q -> mem ids x = true ->
  d = Nat.max (length P - k) q /\ (q <= d)%nat /\ (d <= length P)%nat /\ inv ids k (insert_at d x P) (S d).
Proof.
  intros K [H1 H2 H3 H4] Hx. pose proof (filter_skipn_le (mem ids) P) as L.
  assert (D : (d <= length P)%nat) by (unfold d; lia).
  assert (Q : (q <= d)%nat) by (unfold d; lia).
  repeat split; try assumption; try (unfold d; lia).
  - rewrite length_insert_at; lia.
  - rewrite skipn_S_insert_at by exact D. eapply skipn_le_Forall; eauto.
  - rewrite (filter_insert_sel (mem ids)); [| exact Hx | eapply skipn_le_Forall; eauto].
    rewrite app_length; cbn [length]. unfold d; lia.
  - rewrite (filter_insert_sel (mem ids)); [| exact Hx | eapply skipn_le_Forall; eauto].
    rewrite app_length, length_insert_at; cbn [length]. unfold d; lia.
Qed.

Lemma inv_skip ids k P q x : inv ids k P q -> mem ids x = false -> inv ids k (P ++ [x]) q.
Proof.
  intros [H1 H2 H3 H4] Hx. constructor.
  - rewrite app_length; lia.
  - rewrite skipn_app. apply Forall_app; split; [exact H2|].
    apply Forall_skipn. constructor; [exact Hx|constructor].
  - rewrite filter_app. cbn [filter]. rewrite Hx, app_nil_r. exact H3.
  - rewrite filter_app. cbn [filter]. rewrite Hx, app_nil_r, app_length. cbn [length]. lia.
Qed.

(** What the remaining loop achieves. *)
Definition goal (ids : list Z) (k : nat) (P : list Z) (q : nat) (rest r : list Z) : Prop :=
  filter (mem ids) r = filter (mem ids) (P ++ rest) /\
  filter (fun x => negb (mem ids x)) r = filter (fun x => negb (mem ids x)) (P ++ rest) /\
  firstn q r = firstn q P /\
  forall m x, nth_error rest m = Some x -> mem ids x = true ->
    nth_error r (Nat.max (length P + m - k) (length (filter (mem ids) P) + length (filter (mem ids) (firstn m rest))))
    = Some x.

Lemma goal_skip ids k P q x rest r : (q <= length P)%nat -> mem ids x = false ->
  goal ids k (P ++ [x]) q rest r -> goal ids k P q (x :: rest) r.
Proof.
  intros Q Hx (G1 & G2 & G3 & G4). repeat split.
  - rewrite G1, <- app_assoc. reflexivity.
  - rewrite G2, <- app_assoc. reflexivity.
  - rewrite G3, firstn_app. replace (q - length P)%nat with O by lia. apply app_nil_r.
  - intros m y Hm Hy. destruct m as [|m]; cbn [nth_error] in Hm.
    + injection Hm as ->. congruence.
    + specialize (G4 m y Hm Hy). rewrite <- G4. f_equal.
      rewrite filter_app, app_length. cbn [filter firstn]. rewrite Hx, app_nil_r. cbn [length]. lia.
Qed.

Lemma nth_firstn {A} (l : list A) n i : (i < n)%nat -> nth_error (firstn n l) i = nth_error l i.
Proof.
  revert l i. induction n as [|n IH]; intros l i H; [lia|].
  destruct l as [|x l]; [now destruct i|]. destruct i as [|i]; [reflexivity|]. cbn [firstn nth_error]. apply IH. lia.
Qed.

Lemma goal_step ids k P q x rest r (d := Nat.max (length P - k) (length (filter (mem ids) P))) :
  (0 < k)%nat -> inv ids k P q -> mem ids x = true ->
  goal ids k (insert_at d x P) (S d) rest r -> goal ids k P q (x :: rest) r.
Proof.
  intros K I Hx (G1 & G2 & G3 & G4).
  destruct (inv_step ids k P q x K I Hx) as (_ & Q & D & _). fold d in Q, D.
  pose proof (inv_tail _ _ _ _ I) as T.
  assert (F : filter (mem ids) (insert_at d x P) = filter (mem ids) P ++ [x])
    by (apply filter_insert_sel; [exact Hx | eapply skipn_le_Forall; eauto]).
  repeat split.
  - rewrite G1, !filter_app, F. cbn [filter]. rewrite Hx, <- app_assoc. reflexivity.
  - rewrite G2, !filter_app. rewrite filter_insert_unsel by (cbv beta; now rewrite Hx). cbn [filter]. rewrite Hx. reflexivity.
  - assert (E : firstn q r = firstn q (firstn (S d) r)) by (rewrite firstn_firstn, Nat.min_l by lia; reflexivity).
    rewrite E, G3, firstn_firstn, Nat.min_l by lia. apply firstn_insert_at; assumption.
  - intros m y Hm Hy. destruct m as [|m]; cbn [nth_error] in Hm; cbn [firstn filter length].
    + injection Hm as ->. rewrite !Nat.add_0_r. fold d.
      rewrite <- (nth_firstn r (S d) d) by lia. rewrite G3, nth_firstn by lia. now apply nth_insert_at.
    + specialize (G4 m y Hm Hy). rewrite <- G4. f_equal.
      rewrite F, length_insert_at, app_length, Hx. cbn [length]. lia.
Qed.

Lemma goal_nil ids k P q : goal ids k P q [] P.
Proof. repeat split; rewrite ?app_nil_r; auto. intros [|m] x H; discriminate H. Qed.

Lemma NoDup_mid_l {A} (P : list A) x rest : NoDup (P ++ x :: rest) -> ~ In x P.
Proof. intros H. apply NoDup_remove_2 in H. intro; apply H, in_app_iff; auto. Qed.
Lemma NoDup_mid_r {A} (P : list A) x rest : NoDup (P ++ x :: rest) -> ~ In x rest.
Proof. intros H. apply NoDup_remove_2 in H. intro; apply H, in_app_iff; auto. Qed.

Lemma NoDup_insert {A} d (P : list A) x rest : NoDup (P ++ x :: rest) -> NoDup (insert_at d x P ++ rest).
Proof.
  intros H. eapply Permutation_NoDup; [|exact H]. unfold insert_at.
  change (x :: rest) with ([x] ++ rest). rewrite app_assoc. apply Permutation_app_tail.
  rewrite <- (firstn_skipn d P) at 1. rewrite <- app_assoc. apply Permutation_app_head.
  apply Permutation_sym, Permutation_cons_append.
Qed.

Lemma up_go ids k n : (0 < k)%nat -> forall rest P q last,
  NoDup (P ++ rest) -> inv ids k P q ->
  last = Z.of_nat q - 1 -> n = Z.of_nat (length (P ++ rest)) ->
  exists r, move_items (prepare_go ids (- Z.of_nat k) n last (indexed (Z.of_nat (length P)) rest)) (P ++ rest) = Some r
            /\ goal ids k P q rest r.
Proof.
  intros K. induction rest as [|x rest IH]; intros P q last N I L En; cbn [indexed prepare_go].
  - exists P. cbn [move_items]. rewrite app_nil_r. split; [reflexivity|apply goal_nil].
  - destruct (mem ids x) eqn:Hx.
    + cbn [move_items].
      destruct (inv_step ids k P q x K I Hx) as (Ed & Q & D & I').
      set (d := Nat.max (length P - k) (length (filter (mem ids) P))) in *.
      assert (W : work_offset (- Z.of_nat k) (Z.of_nat (length P)) last n = Z.of_nat d - Z.of_nat (length P)).
      { unfold work_offset. rewrite app_length in En; cbn [length] in En. cbv zeta.
        pose proof (inv_q _ _ _ _ I) as QQ.
        destruct (Z.eqb_spec last (-1)).
        - destruct (Z.ltb_spec (Z.of_nat (length P) + - Z.of_nat k) 0); [lia|].
          destruct (Z.ltb_spec (n - 1) (Z.of_nat (length P) + - Z.of_nat k)); lia.
        - destruct (Z.ltb_spec (- Z.of_nat k) 0); [|lia].
          destruct (Z.ltb_spec 0 (- Z.of_nat k)); [lia|]. cbn [andb].
          destruct (Z.leb_spec (Z.of_nat (length P) + - Z.of_nat k) last); lia. }
      rewrite W. rewrite move_entry_up; [| eapply NoDup_mid_l; eauto | exact D].
      destruct (IH (insert_at d x P) (S d) (Z.of_nat (length P) + (Z.of_nat d - Z.of_nat (length P)))) as (r & E & G).
      * now apply NoDup_insert.
      * exact I'.
      * lia.
      * rewrite En, !app_length, length_insert_at. cbn [length]. lia.
      * rewrite length_insert_at in E. replace (Z.of_nat (length P) + 1) with (Z.of_nat (S (length P))) by lia.
        rewrite E. exists r. split; [reflexivity|]. eapply goal_step; eauto.
    + destruct (IH (P ++ [x]) q last) as (r & E & G).
      * now rewrite <- app_assoc.
      * now apply inv_skip.
      * exact L.
      * now rewrite <- app_assoc.
      * rewrite <- app_assoc in E. cbn [app] in E. rewrite app_length in E. cbn [length] in E.
        replace (Z.of_nat (length P) + 1) with (Z.of_nat (length P + 1)) by lia.
        exists r. split; [exact E|]. apply goal_skip; auto. apply (inv_q _ _ _ _ I).
Qed.

(** indices counted from the end *)
Fixpoint rindexed (n : Z) (l : list Z) : list (Z * Z) :=
  match l with [] => [] | x :: t => (n, x) :: rindexed (n - 1) t end.

Lemma rindexed_snoc n l x : rindexed n (l ++ [x]) = rindexed n l ++ [(n - Z.of_nat (length l), x)].
Proof.
  revert n. induction l as [|y l IH]; intros n; cbn [app rindexed length].
  - rewrite Z.sub_0_r. reflexivity.
  - rewrite IH. do 4 f_equal. lia.
Qed.

Lemma rev_indexed l i : rev (indexed i l) = rindexed (i + Z.of_nat (length l) - 1) (rev l).
Proof.
  revert i. induction l as [|x l IH]; intros i; cbn [indexed rev length]; [reflexivity|].
  rewrite IH, rindexed_snoc, rev_length. f_equal; [f_equal; lia|]. do 2 f_equal. lia.
Qed.

Lemma down_go ids k n : (0 < k)%nat -> forall rest P q last,
  NoDup (P ++ rest) -> inv ids k P q ->
  last = (if (q =? 0)%nat then -1 else n - Z.of_nat q) -> n = Z.of_nat (length (P ++ rest)) ->
  exists r, move_items (prepare_go ids (Z.of_nat k) n last (rindexed (n - 1 - Z.of_nat (length P)) rest)) (rev (P ++ rest))
            = Some (rev r) /\ goal ids k P q rest r.
Proof.
  intros K. induction rest as [|x rest IH]; intros P q last N I L En; cbn [rindexed prepare_go].
  - exists P. cbn [move_items]. rewrite app_nil_r. split; [reflexivity|apply goal_nil].
  - destruct (mem ids x) eqn:Hx.
    + cbn [move_items].
      destruct (inv_step ids k P q x K I Hx) as (Ed & Q & D & I').
      set (d := Nat.max (length P - k) (length (filter (mem ids) P))) in *.
      pose proof (inv_q _ _ _ _ I) as QQ.
      assert (Ln : n = Z.of_nat (length P) + 1 + Z.of_nat (length rest))
        by (rewrite En, app_length; cbn [length]; lia).
      assert (W : work_offset (Z.of_nat k) (n - 1 - Z.of_nat (length P)) last n = Z.of_nat (length P) - Z.of_nat d).
      { unfold work_offset. cbv zeta.
        destruct (Nat.eqb_spec q 0) as [Eq|Eq].
        - subst last. rewrite Z.eqb_refl.
          destruct (Z.ltb_spec (n - 1 - Z.of_nat (length P) + Z.of_nat k) 0); [lia|].
          destruct (Z.ltb_spec (n - 1) (n - 1 - Z.of_nat (length P) + Z.of_nat k)); lia.
        - destruct (Z.eqb_spec last (-1)); [lia|].
          destruct (Z.ltb_spec (Z.of_nat k) 0); [lia|].
          destruct (Z.ltb_spec 0 (Z.of_nat k)); [|lia]. cbn [andb].
          destruct (Z.leb_spec last (n - 1 - Z.of_nat (length P) + Z.of_nat k)); lia. }
      rewrite W. rewrite move_entry_down; [| eapply NoDup_mid_l; eauto | eapply NoDup_mid_r; eauto | exact D].
      destruct (IH (insert_at d x P) (S d) (n - 1 - Z.of_nat (length P) + (Z.of_nat (length P) - Z.of_nat d))) as (r & E & G).
      * now apply NoDup_insert.
      * exact I'.
      * cbn [Nat.eqb]. lia.
      * rewrite app_length, length_insert_at. lia.
      * rewrite length_insert_at in E. replace (n - 1 - Z.of_nat (length P) - 1) with (n - 1 - Z.of_nat (S (length P))) by lia.
        rewrite E. exists r. split; [reflexivity|]. eapply goal_step; eauto.
    + destruct (IH (P ++ [x]) q last) as (r & E & G).
      * now rewrite <- app_assoc.
      * now apply inv_skip.
      * exact L.
      * now rewrite <- app_assoc.
      * rewrite <- app_assoc in E. cbn [app] in E. rewrite app_length in E. cbn [length] in E.
        replace (n - 1 - Z.of_nat (length P) - 1) with (n - 1 - Z.of_nat (length P + 1)) by lia.
        exists r. split; [exact E|]. apply goal_skip; auto. apply (inv_q _ _ _ _ I).
Qed.

Lemma inv_nil ids k : inv ids k [] 0.
Proof. constructor; cbn [length filter skipn]; try lia. constructor. Qed.

Lemma goal_moved_up ids k l r : goal ids k [] 0 l r -> moved_up (mem ids) k l r.
Proof.
  intros (G1 & G2 & _ & G4). split; [split; assumption|].
  intros i x Hi Hx. specialize (G4 i x Hi Hx). exact G4.
Qed.

Lemma in_indexed l : forall b i x, In (i, x) (indexed b l) -> b <= i < b + Z.of_nat (length l).
Proof.
  induction l as [|y l IH]; intros b i x H; cbn [indexed length] in *; [destruct H|].
  destruct H as [H|H]; [injection H as -> ->; lia|]. apply IH in H. lia.
Qed.

Lemma dest_ok_range ids off l :
  -2147483648 <= off -> off + Z.of_nat (length l) <= 2147483648 -> dest_ok ids off l = true.
Proof.
  intros H1 H2. unfold dest_ok. apply forallb_forall. intros [i x] H. cbn [fst snd].
  apply in_indexed in H. unfold int_ok.
  destruct (Z.leb_spec (-2147483648) (i + off)); [|lia].
  destruct (Z.leb_spec (i + off) 2147483647); [|lia]. now rewrite orb_true_r.
Qed.

Lemma move_up ids k l : NoDup l -> (0 < k)%nat -> Z.of_nat k <= 2147483648 -> Z.of_nat (length l) <= 2147483648 ->
  exists r, move_by ids (- Z.of_nat k) l = Some r /\ moved_up (mem ids) k l r.
Proof.
  intros N K B1 B2.
  unfold move_by, prepare. rewrite dest_ok_range by lia. rewrite orb_true_r. cbv zeta.
  destruct (Z.eqb_spec (- Z.of_nat k) 0); [lia|].
  destruct (Z.ltb_spec (- Z.of_nat k) 0); [|lia].
  destruct (up_go ids k (Z.of_nat (length l)) K l [] 0 (-1)) as (r & E & G); auto using inv_nil.
  exists r. split; [exact E|]. now apply goal_moved_up.
Qed.

Lemma move_down ids k l : NoDup l -> (0 < k)%nat -> Z.of_nat k + Z.of_nat (length l) <= 2147483648 ->
  exists r, move_by ids (Z.of_nat k) l = Some r /\ moved_down (mem ids) k l r.
Proof.
  intros N K B1.
  unfold move_by, prepare. rewrite dest_ok_range by lia. rewrite orb_true_r. cbv zeta.
  destruct (Z.eqb_spec (Z.of_nat k) 0); [lia|].
  destruct (Z.ltb_spec (Z.of_nat k) 0); [lia|].
  destruct (down_go ids k (Z.of_nat (length l)) K (rev l) [] 0 (-1)) as (r & E & G).
  - cbn [app]. apply NoDup_rev; exact N.
  - apply inv_nil.
  - reflexivity.
  - cbn [app]. now rewrite rev_length.
  - cbn [app length] in E. rewrite rev_involutive in E.
    rewrite rev_indexed. replace (0 + Z.of_nat (length l) - 1) with (Z.of_nat (length l) - 1 - Z.of_nat 0) by lia.
    exists (rev r). split; [exact E|]. unfold moved_down. rewrite rev_involutive. now apply goal_moved_up.
Qed.

Lemma move_zero ids l : NoDup l -> move_by ids 0 l = Some l.
Proof.
  intros N. unfold move_by, prepare. cbn [Z.eqb orb]. cbv zeta.
  assert (H : forall items, Forall (fun p => In (fst p) l /\ snd p = 0) items -> move_items items l = Some l).
  { induction items as [|[x w] items IH]; intros F; [reflexivity|]. inversion F as [|p t [Hx Hw] F']; subst.
    cbn [fst snd] in *. subst w. cbn [move_items].
    apply in_split in Hx. destruct Hx as (P & Q & ->).
    pose proof (move_entry_up P x Q (length P) (NoDup_mid_l _ _ _ N) (le_n _)) as M.
    rewrite Z.sub_diag in M. rewrite M. unfold insert_at. rewrite firstn_all, skipn_all, <- app_assoc. cbn [app].
    apply IH; exact F'. }
  apply H. apply Forall_forall. intros [x w] Hp. apply in_flat_map in Hp. destruct Hp as (id & _ & Hp).
  apply in_map_iff in Hp. destruct Hp as (y & E & Hy). injection E as <- <-. apply filter_In in Hy. cbn. tauto.
Qed.
