From Verif Require Import Base InfoModel InfoSpec StatsModel StatsSpec HistModel HistSpec HistProofs.
From Coq Require Import Permutation.
Open Scope list_scope.
Open Scope Z_scope.

Lemma split_some : forall id l a h b, split_id id l = Some (a, h, b) ->
  l = a ++ h :: b /\ h_id h = id /\ ~ In id (map h_id a).
Proof.
  induction l as [|x l IH]; intros a h b H; cbn [split_id] in H; [discriminate|].
  destruct (h_id x =? id) eqn:E.
  - injection H as <- <- <-. apply Z.eqb_eq in E. cbn. auto.
  - destruct (split_id id l) as [[[a' x'] b']|]; [|discriminate]. injection H as <- <- <-.
    destruct (IH _ _ _ eq_refl) as (-> & E' & N). apply Z.eqb_neq in E. cbn. intuition.
Qed.
Lemma split_none : forall id l, split_id id l = None -> ~ In id (map h_id l).
Proof.
  induction l as [|x l IH]; intro H; cbn [split_id map In] in *; [tauto|].
  destruct (h_id x =? id) eqn:E; [discriminate|]. apply Z.eqb_neq in E.
  destruct (split_id id l) as [[[a' x'] b']|]; [discriminate|]. intros [H'|H']; [congruence|].
  now apply IH.
Qed.

Definition same_id (h : hitem) (f : hfate) : Prop :=
  match f with Stay h' | ToQueue h' => h_id h' = h_id h | Gone => False end.

Ltac ifs := repeat match goal with |- context [if ?b then _ else _] => destruct b end.

Lemma retry_id : forall h d, same_id h (fst (history_retry h d)) /\ snd (history_retry h d) = d.
Proof. intros h d. unfold history_retry. ifs; cbn; auto. Qed.
Lemma redownload_id : forall ps nd h d, same_id h (fst (history_redownload ps nd h d)).
Proof. intros ps nd h d. unfold history_redownload. ifs; cbn; auto. Qed.
Lemma return_id : forall ps nd h d, same_id h (fst (history_return ps nd h d)) /\
  snd (history_return ps nd h d) = d.
Proof.
  intros ps nd h d. unfold history_return, history_redownload.
  destruct (is_kind (h_kind h) hkUrl); [cbn; auto|].
  destruct (is_kind (h_kind h) hkNzb && _); [cbn; auto|].
  destruct (is_kind (h_kind h) hkNzb); [apply retry_id|cbn; auto].
Qed.

Lemma one_id : forall nc dc ps nd a h d, ~ deletes a ->
  same_id h (fst (fst (edit_one nc dc ps nd a h d))).
Proof.
  intros nc dc ps nd a h d N. destruct a; cbn [edit_one deletes] in *; try tauto.
  - apply return_id.
  - destruct (is_kind (h_kind h) hkNzb); [apply retry_id|reflexivity].
  - apply redownload_id.
  - apply retry_id.
  - destruct (negb _); [reflexivity|]. destruct (cut_eq text) as [[n v]|]; reflexivity.
  - destruct (negb _); reflexivity.
  - destruct text; reflexivity.
  - reflexivity.
  - reflexivity.
  - destruct mode; reflexivity.
  - destruct (_ && _); reflexivity.
Qed.

Lemma delete_id : forall nc dc fin h d h', fst (history_delete nc dc fin h d) = Stay h' -> h_id h' = h_id h.
Proof.
  intros nc dc fin h d h'. unfold history_delete.
  destruct (fin || _ || _); cbn [fst]; [discriminate|].
  destruct (is_kind (h_kind h) hkNzb); cbn [fst]; intro E; injection E as <-; reflexivity.
Qed.
Lemma delete_stays : forall nc dc fin h d h', fst (history_delete nc dc fin h d) <> ToQueue h'.
Proof.
  intros nc dc fin h d h'. unfold history_delete.
  destruct (fin || _ || _); cbn [fst]; [discriminate|].
  destruct (is_kind (h_kind h) hkNzb); cbn [fst]; discriminate.
Qed.

(** One step, as a relation: nothing found, or the item at a place is replaced,
    removed or moved. *)
Lemma step_cases : forall nc dc ps nd a s id,
  (edit_step nc dc ps nd a s id = s /\ ~ In id (map h_id (hs_hist s))) \/
  exists l h r f d ok,
    hs_hist s = l ++ h :: r /\ h_id h = id /\ ~ In id (map h_id l) /\
    edit_one nc dc ps nd a h (hs_disk s) = (f, d, ok) /\
    edit_step nc dc ps nd a s id =
      match f with
      | Stay h' => mkHS (l ++ h' :: r) (hs_queue s) d ok
      | Gone => mkHS (l ++ r) (hs_queue s) d ok
      | ToQueue h' => mkHS (l ++ r) (h' :: hs_queue s) d ok
      end.
Proof.
  intros nc dc ps nd a s id. unfold edit_step.
  destruct (split_id id (hs_hist s)) as [[[l h] r]|] eqn:E.
  - right. destruct (split_some _ _ _ _ _ E) as (E1 & E2 & E3).
    destruct (edit_one nc dc ps nd a h (hs_disk s)) as [[f d] ok] eqn:O.
    exists l, h, r, f, d, ok. destruct f; auto.
  - left. split; auto. now apply split_none.
Qed.

Lemma listed_in : forall ids h, listed ids h = true <-> In (h_id h) ids.
Proof.
  intros ids h. unfold listed. rewrite existsb_exists. split.
  - intros (x & H & E). apply Z.eqb_eq in E. now subst.
  - intro H. exists (h_id h). now rewrite Z.eqb_refl.
Qed.

Lemma others_app : forall ids a b, others ids (a ++ b) = others ids a ++ others ids b.
Proof. intros. unfold others. apply filter_app. Qed.
Lemma others_drop : forall ids h l, In (h_id h) ids -> others ids (h :: l) = others ids l.
Proof.
  intros ids h l H. unfold others. cbn [filter]. apply listed_in in H. now rewrite H.
Qed.

Lemma step_others : forall nc dc ps nd a s id ids, In id ids ->
  others ids (hs_hist (edit_step nc dc ps nd a s id)) = others ids (hs_hist s).
Proof.
  intros nc dc ps nd a s id ids H.
  destruct (step_cases nc dc ps nd a s id) as [[-> _]|(l & h & r & f & d & ok & E & I & _ & O & ->)]; auto.
  assert (K : match f with Stay h' | ToQueue h' => h_id h' = h_id h | Gone => True end).
  { destruct a as [fin| | | | | | | | | | |] eqn:A.
    - cbn [edit_one] in O. injection O as O <-.
      destruct f; auto.
      + apply (delete_id nc dc fin h (hs_disk s)). now rewrite O.
      + exfalso. apply (delete_stays nc dc fin h (hs_disk s) h0). now rewrite O.
    - all: pose proof (one_id nc dc ps nd a h (hs_disk s)) as Q; rewrite A, O in Q; cbn [fst] in Q;
        destruct f; cbn in Q; auto; try (apply Q; tauto).
    - pose proof (one_id nc dc ps nd a h (hs_disk s)) as Q; rewrite A, O in Q; cbn [fst] in Q;
        destruct f; cbn in Q; auto; try (apply Q; tauto).
    - pose proof (one_id nc dc ps nd a h (hs_disk s)) as Q; rewrite A, O in Q; cbn [fst] in Q;
        destruct f; cbn in Q; auto; try (apply Q; tauto).
    - pose proof (one_id nc dc ps nd a h (hs_disk s)) as Q; rewrite A, O in Q; cbn [fst] in Q;
        destruct f; cbn in Q; auto; try (apply Q; tauto).
    - pose proof (one_id nc dc ps nd a h (hs_disk s)) as Q; rewrite A, O in Q; cbn [fst] in Q;
        destruct f; cbn in Q; auto; try (apply Q; tauto).
    - pose proof (one_id nc dc ps nd a h (hs_disk s)) as Q; rewrite A, O in Q; cbn [fst] in Q;
        destruct f; cbn in Q; auto; try (apply Q; tauto).
    - pose proof (one_id nc dc ps nd a h (hs_disk s)) as Q; rewrite A, O in Q; cbn [fst] in Q;
        destruct f; cbn in Q; auto; try (apply Q; tauto).
    - pose proof (one_id nc dc ps nd a h (hs_disk s)) as Q; rewrite A, O in Q; cbn [fst] in Q;
        destruct f; cbn in Q; auto; try (apply Q; tauto).
    - pose proof (one_id nc dc ps nd a h (hs_disk s)) as Q; rewrite A, O in Q; cbn [fst] in Q;
        destruct f; cbn in Q; auto; try (apply Q; tauto).
    - pose proof (one_id nc dc ps nd a h (hs_disk s)) as Q; rewrite A, O in Q; cbn [fst] in Q;
        destruct f; cbn in Q; auto; try (apply Q; tauto).
    - pose proof (one_id nc dc ps nd a h (hs_disk s)) as Q; rewrite A, O in Q; cbn [fst] in Q;
        destruct f; cbn in Q; auto; try (apply Q; tauto). }
  rewrite E, others_app, (others_drop ids h) by congruence.
  destruct f; cbn [hs_hist]; rewrite others_app; auto.
  rewrite (others_drop ids h0) by congruence. reflexivity.
Qed.

Lemma edit_others : forall nc dc ps nd a ids s,
  others ids (hs_hist (edit_list nc dc ps nd a ids s)) = others ids (hs_hist s).
Proof.
  intros nc dc ps nd a ids s. unfold edit_list.
  assert (G : forall l t, incl l ids ->
    others ids (hs_hist (fold_left (edit_step nc dc ps nd a) l t)) = others ids (hs_hist t)).
  { induction l as [|id l IH]; intros t H; [reflexivity|]. cbn [fold_left].
    rewrite IH; [|intros x Hx; apply H; now right]. apply step_others, H. now left. }
  rewrite G; [reflexivity|apply incl_refl].
Qed.

(** No item is lost. *)
Lemma step_none_lost : forall nc dc ps nd a s id, ~ deletes a ->
  Permutation (map h_id (hs_hist (edit_step nc dc ps nd a s id) ++ hs_queue (edit_step nc dc ps nd a s id)))
              (map h_id (hs_hist s ++ hs_queue s)).
Proof.
  intros nc dc ps nd a s id N.
  destruct (step_cases nc dc ps nd a s id) as [[-> _]|(l & h & r & f & d & ok & E & I & _ & O & ->)]; auto.
  pose proof (one_id nc dc ps nd a h (hs_disk s) N) as Q. rewrite O in Q. cbn [fst] in Q.
  rewrite E, !map_app. cbn [map].
  destruct f; cbn [same_id hs_hist hs_queue] in *; rewrite !map_app; cbn [map]; try tauto.
  - now rewrite Q.
  - rewrite Q. rewrite <- !app_assoc. apply Permutation_app_head. cbn [app].
    symmetry. apply Permutation_middle.
Qed.
Lemma edit_none_lost : forall nc dc ps nd a ids s, ~ deletes a ->
  Permutation (map h_id (hs_hist (edit_list nc dc ps nd a ids s) ++ hs_queue (edit_list nc dc ps nd a ids s)))
              (map h_id (hs_hist s ++ hs_queue s)).
Proof.
  intros nc dc ps nd a ids s N. unfold edit_list.
  assert (G : forall l t,
    Permutation (map h_id (hs_hist (fold_left (edit_step nc dc ps nd a) l t) ++
                           hs_queue (fold_left (edit_step nc dc ps nd a) l t)))
                (map h_id (hs_hist t ++ hs_queue t))).
  { induction l as [|id l IH]; intro t; [reflexivity|]. cbn [fold_left].
    rewrite IH. now apply step_none_lost. }
  rewrite G. reflexivity.
Qed.

(** ** Setting members *)

Lemma set_one : forall nc dc ps nd a h d, setter a ->
  exists h' ok, edit_one nc dc ps nd a h d = (Stay h', d, ok) /\ set_to a h h' /\
    (ok = false -> h' = h).
Proof.
  intros nc dc ps nd a h d S. unfold set_to. destruct a; cbn [setter] in S; try tauto; cbn [edit_one].
  - destruct (h_kind h) eqn:K; cbn [is_kind orb negb];
      try (destruct (cut_eq text) as [[n v]|]); (eexists; eexists; split; [reflexivity|]); cbn;
      rewrite ?K; intuition congruence.
  - destruct (h_kind h) eqn:K; cbn [is_kind orb negb]; (eexists; eexists; split; [reflexivity|]); cbn;
      rewrite ?K; intuition congruence.
  - destruct text; (eexists; eexists; split; [reflexivity|]); cbn; intuition congruence.
  - (eexists; eexists; split; [reflexivity|]); cbn; intuition congruence.
  - (eexists; eexists; split; [reflexivity|]); cbn; intuition congruence.
  - destruct mode; (eexists; eexists; split; [reflexivity|]); cbn; intuition congruence.
  - destruct (h_kind h) eqn:K; cbn [is_kind andb];
      try (destruct ((h_deleted h =? 3) || (h_deleted h =? 1)) eqn:D);
      (eexists; eexists; split; [reflexivity|]); cbn; rewrite ?K; intuition congruence.
Qed.

Lemma set_again : forall a h h1 h2, setter a -> set_to a h h1 -> set_to a h1 h2 -> set_to a h h2.
Proof.
  intros a h h1 h2 S A B. unfold set_to in *.
  destruct A as (A1 & A2 & A3 & A4 & A5 & A6 & A7 & A8 & A9 & A10 & A11 & A12 & A13 & A14).
  destruct B as (B1 & B2 & B3 & B4 & B5 & B6 & B7 & B8 & B9 & B10 & B11 & B12 & B13 & B14).
  destruct a; cbn [setter] in S; try tauto;
    repeat match goal with |- _ /\ _ => split end; try congruence; auto.
  - rewrite B9, A2, A9. now destruct (h_kind h).
  - rewrite B8, A8. now destruct text.
  - rewrite B12, A12. now destruct mode.
  - rewrite B14, A2, A14. destruct (h_kind h); auto.
    destruct ((h_deleted h =? 3) || (h_deleted h =? 1)) eqn:D; [|now rewrite D].
    now destruct yes.
Qed.

Lemma set_list : forall nc dc ps nd a ids s, setter a -> NoDup (map h_id (hs_hist s)) ->
  let s' := edit_list nc dc ps nd a ids s in
  hs_queue s' = hs_queue s /\ hs_disk s' = hs_disk s /\
  Forall2 (fun h h' => if listed ids h then set_to a h h' else h' = h) (hs_hist s) (hs_hist s').
Proof.
  intros nc dc ps nd a ids s S ND s'. subst s'. unfold edit_list.
  assert (G : forall l done t,
    hs_queue t = hs_queue s -> hs_disk t = hs_disk s ->
    Forall2 (fun h h' => if listed done h then set_to a h h' else h' = h) (hs_hist s) (hs_hist t) ->
    let t' := fold_left (edit_step nc dc ps nd a) l t in
    hs_queue t' = hs_queue s /\ hs_disk t' = hs_disk s /\
    Forall2 (fun h h' => if listed (done ++ l) h then set_to a h h' else h' = h) (hs_hist s) (hs_hist t')).
  { induction l as [|id l IH]; intros done t Q D F.
    - cbn. rewrite app_nil_r. auto.
    - cbn [fold_left].
      replace (done ++ id :: l) with ((done ++ [id]) ++ l) by (now rewrite <- app_assoc).
      assert (FI : map h_id (hs_hist t) = map h_id (hs_hist s)).
      { clear - F. induction F as [|h h' x y HF F IH]; auto. cbn. f_equal; auto.
        destruct (listed done h); [apply HF|now subst]. }
      destruct (step_cases nc dc ps nd a t id) as [[-> NI]|(u & h & r & f & d & ok & E & I & NU & O & ->)].
      + apply IH; auto. rewrite FI in NI. clear - F NI.
        induction F as [|h h' x y HF F IHF]; constructor.
        * assert (EL : listed (done ++ [id]) h = listed done h).
          { unfold listed. rewrite existsb_app. cbn. rewrite orb_false_r.
            assert (NE : h_id h =? id = false) by (apply Z.eqb_neq; intro; apply NI; now left).
            now rewrite NE, orb_false_r. }
          rewrite EL. exact HF.
        * apply IHF. intro H. apply NI. now right.
      + destruct (set_one nc dc ps nd a h (hs_disk t) S) as (h' & ok' & O' & ST & _).
        rewrite O in O'. injection O' as -> -> ->.
        apply IH; auto. cbn [hs_hist].
        rewrite E in F. rewrite E in FI. rewrite <- FI in ND.
        assert (NR : ~ In id (map h_id r)).
        { rewrite map_app in ND. cbn [map] in ND. apply NoDup_remove_2 in ND. rewrite I in ND.
          intro H. apply ND. apply in_or_app. now right. }
        clear - F NU NR ST I S. revert F. generalize (hs_hist s) as base. induction u as [|z u IHu]; intros base F.
        * cbn [app] in *. inversion F as [|b0 ? bs ? HB HF]; subst. constructor.
          { assert (HI : h_id b0 = h_id h) by (destruct (listed done b0); [symmetry; apply HB|now subst]).
            assert (L : listed (done ++ [h_id h]) b0 = true).
            { apply listed_in. rewrite HI. apply in_or_app. right. now left. }
            rewrite L. destruct (listed done b0).
            - now apply (set_again a b0 h h').
            - now subst. }
          { clear - HF NR. revert bs HF. induction r as [|q r IHr]; intros bs HF; inversion HF as [|b1 ? bs1 ? HB HF1]; subst; constructor.
            - assert (HI : h_id b1 = h_id q) by (destruct (listed done b1); [symmetry; apply HB|now subst]).
              assert (L : listed (done ++ [h_id h]) b1 = listed done b1).
              { unfold listed. rewrite existsb_app. cbn. rewrite orb_false_r.
                assert (NE : h_id b1 =? h_id h = false)
                  by (apply Z.eqb_neq; intro X; apply NR; left; congruence).
                now rewrite NE, orb_false_r. }
              now rewrite L.
            - apply IHr; auto. intro H. apply NR. now right. }
        * cbn [app] in *. inversion F as [|b0 ? bs ? HB HF]; subst. constructor.
          { assert (HI : h_id b0 = h_id z) by (destruct (listed done b0); [symmetry; apply HB|now subst]).
            assert (L : listed (done ++ [h_id h]) b0 = listed done b0).
            { unfold listed. rewrite existsb_app. cbn. rewrite orb_false_r.
              assert (NE : h_id b0 =? h_id h = false)
                by (apply Z.eqb_neq; intro X; apply NU; left; congruence).
              now rewrite NE, orb_false_r. }
            now rewrite L. }
          { apply IHu; auto. intro H. apply NU. now right. } }
  apply (G ids [] (mkHS (hs_hist s) (hs_queue s) (hs_disk s) false)); auto.
  cbn. clear. induction (hs_hist s); constructor; auto.
Qed.

(** The answer for a single item. *)
Lemma single_ok : forall nc dc ps nd a id s,
  let s' := edit_list nc dc ps nd a [id] s in
  hs_ok s' = false -> hs_hist s' = hs_hist s /\ hs_queue s' = hs_queue s /\ hs_disk s' = hs_disk s.
Proof.
  intros nc dc ps nd a id s s'. subst s'. unfold edit_list. cbn [fold_left].
  destruct (step_cases nc dc ps nd a (mkHS (hs_hist s) (hs_queue s) (hs_disk s) false) id)
    as [[-> _]|(l & h & r & f & d & ok & E & I & _ & O & ->)]; auto.
  cbn [hs_hist hs_disk hs_queue] in *. intro OK.
  assert (K : ok = false) by (destruct f; exact OK). subst ok.
  destruct a; cbn [edit_one] in O; try (destruct (history_delete _ _ _ _ _); discriminate);
    try (destruct (history_return _ _ _ _); discriminate); try discriminate.
  all: try (destruct (set_one nc dc ps nd (HSetParameter text) h (hs_disk s) Logic.I) as (h' & ok' & O' & _ & Z1);
    cbn [edit_one] in O'; rewrite O in O'; injection O' as -> -> <-; rewrite (Z1 eq_refl); cbn; rewrite E; auto; fail).
  all: try (destruct (set_one nc dc ps nd (HSetCategory text) h (hs_disk s) Logic.I) as (h' & ok' & O' & _ & Z1);
    cbn [edit_one] in O'; rewrite O in O'; injection O' as -> -> <-; rewrite (Z1 eq_refl); cbn; rewrite E; auto; fail).
  all: try (destruct (set_one nc dc ps nd (HSetName text) h (hs_disk s) Logic.I) as (h' & ok' & O' & _ & Z1);
    cbn [edit_one] in O'; rewrite O in O'; injection O' as -> -> <-; rewrite (Z1 eq_refl); cbn; rewrite E; auto; fail).
  destruct (is_kind (h_kind h) hkNzb && _); discriminate.
Qed.
