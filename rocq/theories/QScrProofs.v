(** Proofs about the coordinator of queue-scripts. *)
From Coq Require Import String Sorted Permutation.
From Verif Require Import Base WildModel WildSpec InfoModel WebModel OptModel QScrModel QScrSpec.
From Verif Require RawProofs TextProofs OptProofs6.
Open Scope list_scope. Open Scope Z_scope.

(** ** Which scripts *)

Lemma yes_iff v : yes_value v = true <-> said_yes v.
Proof.
  unfold yes_value, said_yes, nocase_eq. rewrite !orb_true_iff, !beqb_eq.
  change (map lower (str "yes")) with (str "yes"). change (map lower (str "on")) with (str "on"). change (map lower (str "1")) with (str "1"). tauto.
Qed.

Lemma assigns_iff s p : Z.of_nat (length (fst p)) <= 1023 -> (assigns s p = true <-> fst p = s_name s ++ [58] /\ hd 0 (s_name s ++ [58]) <> 42 /\ said_yes (snd p)).
Proof.
  intros L. unfold assigns. rewrite <- yes_iff. destruct (fst p) as [|c r] eqn:E; [split; [discriminate|intros (Q & _); destruct (s_name s); discriminate Q]|].
  rewrite <- E in *. rewrite firstn_all2 by lia. rewrite !andb_true_iff, negb_true_iff, Z.eqb_neq, Z.eqb_eq, beqb_eq.
  assert (N : fst p <> []) by (rewrite E; discriminate). split.
  - intros (((A & B) & Y) & D). pose proof (app_removelast_last 0 N) as Q. rewrite B, D in Q. rewrite <- Q, E. auto.
  - intros (Q & A & Y). rewrite <- Q, E in A. cbn in A. split; [split; [split; [exact A|]|exact Y]|]; rewrite Q; [apply last_last|apply removelast_last].
Qed.

Lemma listed s exts : named_in s exts = true <-> lists exts (s_name s).
Proof.
  unfold named_in, lists. rewrite TextProofs.tokens_ok, existsb_exists. unfold TextProofs.kept. split.
  - intros (x & I & E). apply filter_In in I as (I & N). apply in_map_iff in I as (f & <- & I). apply beqb_eq in E. exists f. rewrite E in N.
    split; [exact I|]. split; [exact E|]. intros Q. rewrite Q in N. discriminate N.
  - intros (f & I & E & N). exists (s_name s). rewrite (proj2 (beqb_eq _ _) eq_refl). split; [|reflexivity]. apply filter_In. rewrite <- E at 1. split; [apply in_map, I|].
    destruct (s_name s); [congruence|reflexivity].
Qed.

Lemma first_split {A} (P : A -> Prop) l i x : nth_error l i = Some x -> (forall j y, (j < i)%nat -> nth_error l j = Some y -> ~ P y) ->
  exists a b, l = a ++ x :: b /\ length a = i /\ Forall (fun y => ~ P y) a.
Proof.
  intros E F. destruct (nth_error_split l i E) as (a & b & Q & L). exists a, b. split; [exact Q|]. split; [exact L|]. apply Forall_forall. intros y I.
  apply In_nth_error in I as (j & J). assert (J2 := J). apply (F j y).
  - rewrite <- L. apply nth_error_Some. congruence.
  - rewrite Q, nth_error_app1; [exact J2|]. apply nth_error_Some. congruence.
Qed.

Lemma category_found g n i : q_category n <> [] -> find_category (map fst (g_cats g)) (q_category n) false = Some i ->
  of_category g n (nth i (map snd (g_cats g)) []).
Proof.
  intros N E. unfold find_category in E. destruct (find_index _ _) as [j|] eqn:F; [|discriminate E]. injection E as ->.
  apply OptProofs6.find_index_some in F as (c & C & S1 & B). split; [exact N|]. rewrite nth_error_map in C. destruct (nth_error (g_cats g) i) as [(c1, e)|] eqn:G; [|discriminate C]. injection C as <-.
  destruct (first_split (fun d : category * list Z => same_name (c_name (fst d)) (q_category n)) _ _ _ G) as (a & b & Q & L & F).
  - intros j y J K Sy. specialize (B j (fst y) J). rewrite nth_error_map, K in B. specialize (B eq_refl). apply (proj2 (beqb_eq _ _)) in Sy. unfold nocase_eq in B. congruence.
  - exists a, c1, b. assert (V : nth i (map snd (g_cats g)) [] = e) by (apply nth_error_nth; rewrite nth_error_map, G; reflexivity). rewrite V. split; [exact Q|]. split; [|exact F].
    apply beqb_eq. exact S1.
Qed.
Lemma category_unique g n x y : of_category g n x -> of_category g n y -> x = y.
Proof.
  intros (_ & a & c & b & E & Sc & F) (_ & a1 & c1 & b1 & E1 & Sc1 & F1). rewrite E in E1. clear E.
  revert a1 E1 F F1. induction a as [|d a IH]; intros a1 E1 F F1.
  - destruct a1 as [|d1 a1]; [injection E1 as -> -> _; reflexivity|]. injection E1 as <- _. inversion F1 as [|? ? Q _]; subst. destruct (Q Sc).
  - destruct a1 as [|d1 a1]; [injection E1 as -> _; inversion F as [|? ? Q _]; subst; destruct (Q Sc1)|]. injection E1 as <- E1. inversion F; inversion F1; subst. exact (IH a1 E1 H2 H6).
Qed.
Lemma category_none g n : find_category (map fst (g_cats g)) (q_category n) false = None -> forall x, ~ of_category g n x.
Proof.
  intros E x (_ & a & c & b & Q & Sc & _). unfold find_category in E. destruct (find_index _ _) as [j|] eqn:F; [discriminate E|]. rewrite OptProofs6.find_index_none in F.
  specialize (F c). rewrite Q, map_app in F. cbn [map fst] in F. specialize (F (in_elt _ _ _)). apply (proj2 (beqb_eq _ _)) in Sc. unfold nocase_eq in F. congruence.
Qed.
Lemma default_applies g n : applies g n (default_exts g n).
Proof.
  unfold default_exts. destruct (q_category n) as [|k r] eqn:C; [right; split; [reflexivity|intros x (N & _); congruence]|]. rewrite <- C.
  assert (N : q_category n <> []) by congruence.
  destruct (find_category _ _ false) as [i|] eqn:E.
  - pose proof (category_found g n i N E) as Q. destruct (nth i (map snd (g_cats g)) []) as [|z m] eqn:V.
    + right. split; [reflexivity|]. intros x H. exact (category_unique g n x [] H Q).
    + left. split; [exact Q|discriminate].
  - right. split; [reflexivity|]. intros x H. destruct (category_none g n E x H).
Qed.
Lemma applies_unique g n x : applies g n x -> x = default_exts g n.
Proof.
  intros H. pose proof (default_applies g n) as D. destruct H as [(H & N)|(-> & H)], D as [(D & M)|(D & M)].
  - exact (category_unique g n _ _ H D).
  - destruct (N (M x H)).
  - destruct (M (H _ D)).
  - congruence.
Qed.

Lemma usable_iff g s n e : short_params n -> (usable g s n e = true <-> wants g s n e).
Proof.
  intros Sh. unfold usable, wants. rewrite !andb_true_iff, orb_true_iff, andb_true_iff, Z.eqb_eq, existsb_exists, listed.
  assert (P : (exists x, In x (q_params n) /\ assigns s x = true) <-> exists v, In (s_name s ++ [58], v) (q_params n) /\ hd 0 (s_name s ++ [58]) <> 42 /\ said_yes v).
  { split.
    - intros ((a, v) & I & E). apply assigns_iff in E; [|exact (proj1 (Forall_forall _ _) Sh _ I)]. destruct E as (Q & A & Y). cbn [fst snd] in *. subst a. eauto.
    - intros (v & I & A & Y). exists (s_name s ++ [58], v). split; [exact I|]. apply assigns_iff; [exact (proj1 (Forall_forall _ _) Sh _ I)|]. auto. }
  rewrite P. assert (W : (match s_events s with [] => true | _ :: _ => match strstr (s_events s) (event_name e) with Some _ => true | None => false end end) = true <->
                         (s_events s = [] \/ exists a b, s_events s = a ++ event_name e ++ b)).
  { pose proof (RawProofs.strstr_has (s_events s) (event_name e)) as R. destruct (s_events s) as [|z l]; [tauto|]. unfold is_some in R.
    destruct (strstr (z :: l) (event_name e)); cbn in R; rewrite <- R; intuition congruence. }
  rewrite W. assert (D : lists (default_exts g n) (s_name s) <-> exists exts, applies g n exts /\ lists exts (s_name s)).
  { split; [intros H; eexists; split; [apply default_applies|exact H]|]. intros (x & A & H). rewrite <- (applies_unique g n x A). exact H. }
  rewrite D. tauto.
Qed.
