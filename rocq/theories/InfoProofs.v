From Verif Require Import Base WildModel InfoModel InfoSpec.

(** ** Names *)

Lemma same_letter_lower : forall a b, lower a = lower b <-> same_letter a b.
Proof.
  intros a b. unfold same_letter, lower.
  destruct (65 <=? a) eqn:A1; destruct (a <=? 90) eqn:A2;
    destruct (65 <=? b) eqn:B1; destruct (b <=? 90) eqn:B2; cbn; lia.
Qed.

Lemma same_nocase_spec : forall a b, same_nocase a b = true <-> same_name a b.
Proof.
  intros a b. unfold same_nocase, same_name. rewrite beqb_eq.
  revert b. induction a as [|x a IH]; intros [|y b]; cbn; split; intro H;
    try constructor; try discriminate; try (inversion H; fail).
  - inversion H. now apply same_letter_lower.
  - inversion H. now apply IH.
  - inversion H; subst. f_equal.
    + now apply same_letter_lower.
    + now apply IH.
Qed.

Lemma same_nocase_false : forall a b, same_nocase a b = false <-> ~ same_name a b.
Proof.
  intros. rewrite <- same_nocase_spec. destruct (same_nocase a b); split; congruence.
Qed.

Lemma same_nocase_refl : forall a, same_nocase a a = true.
Proof. intro. unfold same_nocase. now apply beqb_eq. Qed.

Lemma same_nocase_sym : forall a b, same_nocase a b = same_nocase b a.
Proof.
  intros. unfold same_nocase.
  destruct (beqb (map lower a) (map lower b)) eqn:E.
  - apply beqb_eq in E. symmetry. now apply beqb_eq.
  - destruct (beqb (map lower b) (map lower a)) eqn:F; auto.
    apply beqb_eq in F. rewrite F in E. assert (beqb (map lower a) (map lower a) = true) by now apply beqb_eq.
    congruence.
Qed.

Lemma same_nocase_trans : forall a b c,
  same_nocase a b = true -> same_nocase a c = same_nocase b c.
Proof. intros a b c H. unfold same_nocase in *. apply beqb_eq in H. now rewrite H. Qed.

(** ** Parameter lists *)

Definition keys (l : list param) : list (list Z) := map (fun p => map lower (fst p)) l.

Lemma same_nocase_key : forall a b, same_nocase a b = true <-> map lower a = map lower b.
Proof. intros. unfold same_nocase. apply beqb_eq. Qed.

Lemma find_none_key : forall l name, ~ In (map lower name) (keys l) -> find_parameter l name = None.
Proof.
  induction l as [|[n v] l IH]; intros name H; cbn; auto.
  destruct (same_nocase n name) eqn:E.
  - apply same_nocase_key in E. exfalso. apply H. left. exact E.
  - apply IH. intro. apply H. now right.
Qed.

Lemma keys_set : forall l name value k,
  In k (keys (set_parameter l name value)) -> In k (keys l) \/ k = map lower name.
Proof.
  induction l as [|[n v] l IH]; intros name value k H; cbn in *.
  - destruct value; cbn in H; [easy|]. destruct H as [H|[]]. now right.
  - destruct (same_nocase n name) eqn:E.
    + destruct value; cbn in H; [now left; right|].
      destruct H; [now left; left|now left; right].
    + cbn in H. destruct H as [H|H]; [now left; left|].
      destruct (IH _ _ _ H); auto.
Qed.

Lemma set_NoDup : forall l name value, NoDup (keys l) -> NoDup (keys (set_parameter l name value)).
Proof.
  induction l as [|[n v] l IH]; intros name value H; cbn.
  - destruct value; cbn; constructor; auto; constructor.
  - cbn in H. apply NoDup_cons_iff in H as [H1 H2].
    destruct (same_nocase n name) eqn:E.
    + destruct value; [exact H2|]. cbn. now constructor.
    + cbn. constructor.
      * intro H. apply keys_set in H as [H|H]; [now apply H1|].
        apply same_nocase_key in H. congruence.
      * now apply IH.
Qed.

Lemma find_set : forall l name value name', NoDup (keys l) ->
  find_parameter (set_parameter l name value) name' =
  if same_nocase name name'
  then match value with [] => None | _ => Some value end
  else find_parameter l name'.
Proof.
  induction l as [|[n v] l IH]; intros name value name' H; cbn.
  - destruct value as [|c value]; cbn.
    + now destruct (same_nocase name name').
    + now destruct (same_nocase name name').
  - cbn in H. apply NoDup_cons_iff in H as [H1 H2].
    destruct (same_nocase n name) eqn:E.
    + rewrite (same_nocase_trans _ _ name' E).
      destruct value as [|c value].
      * destruct (same_nocase name name') eqn:F; auto.
        apply find_none_key. apply same_nocase_key in E, F. rewrite <- F, <- E. exact H1.
      * cbn. rewrite (same_nocase_trans _ _ name' E). now destruct (same_nocase name name').
    + cbn. destruct (same_nocase n name') eqn:F.
      * destruct (same_nocase name name') eqn:G; auto.
        rewrite (same_nocase_sym name name') in G.
        apply same_nocase_key in F, G. assert (same_nocase n name = true) by (apply same_nocase_key; congruence).
        congruence.
      * now apply IH.
Qed.

Definition run_params (l : list param) (ops : list (list Z * list Z)) : list param :=
  fold_left (fun acc p => set_parameter acc (fst p) (snd p)) ops l.

Lemma run_params_NoDup : forall ops l, NoDup (keys l) -> NoDup (keys (run_params l ops)).
Proof.
  induction ops as [|o ops IH]; intros l H; cbn; auto. apply IH, set_NoDup, H.
Qed.

Lemma run_params_snoc : forall ops l n v,
  run_params l (ops ++ [(n, v)]) = set_parameter (run_params l ops) n v.
Proof. intros. unfold run_params. now rewrite fold_left_app. Qed.

Lemma run_params_assigned : forall ops l name v, NoDup (keys l) ->
  assigned ops name v ->
  find_parameter (run_params l ops) name = match v with [] => None | _ => Some v end.
Proof.
  intros ops l name v Hl H. induction H.
  - rewrite run_params_snoc, find_set by now apply run_params_NoDup.
    apply same_nocase_spec in H. now rewrite H.
  - rewrite run_params_snoc, find_set by now apply run_params_NoDup.
    apply same_nocase_false in H0. rewrite H0. now apply IHassigned.
Qed.

Lemma run_params_untouched : forall ops l name, NoDup (keys l) ->
  untouched ops name -> find_parameter (run_params l ops) name = find_parameter l name.
Proof.
  induction ops as [|[n v] ops IH] using rev_ind; intros l name Hl H; auto.
  rewrite run_params_snoc, find_set by now apply run_params_NoDup.
  assert (E : same_nocase n name = false).
  { apply same_nocase_false. apply (H n v). apply in_or_app. right. now left. }
  rewrite E. apply IH; auto. intros a b Hin. apply (H a b). apply in_or_app. now left.
Qed.

Lemma keys_distinct : forall l : list param, NoDup (keys l) <-> distinct_names l.
Proof.
  intro l. unfold distinct_names, keys. rewrite NoDup_nth_error. split.
  - intros H i j a b Ha Hb Hs. apply H.
    + rewrite map_length. apply nth_error_Some. intro N. congruence.
    + rewrite (map_nth_error _ _ _ Ha), (map_nth_error _ _ _ Hb).
      f_equal. apply same_nocase_key. now apply same_nocase_spec.
  - intros H i j Hi Heq. rewrite map_length in Hi.
    destruct (nth_error l i) as [a|] eqn:Ha; [|exfalso; apply nth_error_None in Ha; exact (Nat.lt_irrefl _ (Nat.lt_le_trans _ _ _ Hi Ha))].
    rewrite (map_nth_error _ _ _ Ha) in Heq.
    destruct (nth_error l j) as [b|] eqn:Hb.
    + rewrite (map_nth_error _ _ _ Hb) in Heq. inversion Heq.
      apply (H i j a b Ha Hb). apply same_nocase_spec. now apply same_nocase_key.
    + exfalso. symmetry in Heq.
      assert (N : (j < length (map (fun p : param => map lower (fst p)) l))%nat)
        by (apply nth_error_Some; rewrite Heq; discriminate).
      rewrite map_length in N. apply nth_error_None in Hb.
      exact (Nat.lt_irrefl _ (Nat.lt_le_trans _ _ _ N Hb)).
Qed.

Lemma assigned_or_untouched : forall ops name,
  untouched ops name \/ exists v, assigned ops name v.
Proof.
  induction ops as [|[n v] ops IH] using rev_ind; intro name.
  - left. intros a b [].
  - destruct (same_nocase n name) eqn:E.
    + right. exists v. constructor. now apply same_nocase_spec.
    + apply same_nocase_false in E. destruct (IH name) as [H|[w H]].
      * left. intros a b Hin. apply in_app_or in Hin as [Hin|[Hin|[]]]; [now apply (H a b)|].
        inversion Hin; subst. exact E.
      * right. exists w. now constructor.
Qed.

(** No stored value is ever empty. *)
Lemma set_nonempty : forall l n v, Forall (fun p : param => snd p <> []) l ->
  Forall (fun p : param => snd p <> []) (set_parameter l n v).
Proof.
  induction l as [|[a b] l IH]; intros n v H; cbn.
  - destruct v; constructor; auto. cbn. discriminate.
  - inversion H; subst. destruct (same_nocase a n).
    + destruct v; auto. constructor; auto. cbn. discriminate.
    + constructor; auto.
Qed.

Lemma run_params_nonempty : forall ops l, Forall (fun p : param => snd p <> []) l ->
  Forall (fun p : param => snd p <> []) (run_params l ops).
Proof. induction ops as [|o ops IH]; intros l H; cbn; auto. apply IH, set_nonempty, H. Qed.

(** Copying another list. *)
Lemma copy_from_spec : forall src l name, NoDup (keys l) -> NoDup (keys src) ->
  Forall (fun p : param => snd p <> []) src ->
  find_parameter (copy_from l src) name =
  match find_parameter src name with Some v => Some v | None => find_parameter l name end.
Proof.
  induction src as [|[n v] src IH]; intros l name Hl Hs Hv; cbn; auto.
  cbn in Hs. apply NoDup_cons_iff in Hs as [H1 H2]. inversion Hv; subst. cbn in H3.
  unfold copy_from in IH. rewrite IH; auto using set_NoDup.
  rewrite find_set by auto.
  destruct (same_nocase n name) eqn:E.
  - rewrite find_none_key; [|apply same_nocase_key in E; rewrite <- E; exact H1].
    destruct v; [easy|reflexivity].
  - reflexivity.
Qed.

(** ** Server statistics *)

Lemma ok_of_cons : forall s l id, ok_of (s :: l) id = (if sv_id s =? id then sv_ok s else 0) + ok_of l id.
Proof. intros. unfold ok_of. cbn [filter]. destruct (sv_id s =? id); cbn; lia. Qed.
Lemma bad_of_cons : forall s l id, bad_of (s :: l) id = (if sv_id s =? id then sv_bad s else 0) + bad_of l id.
Proof. intros. unfold bad_of. cbn [filter]. destruct (sv_id s =? id); cbn; lia. Qed.

Lemma stat_op_add : forall l sid a b id,
  ok_of (stat_op l sid a b soAdd) id = ok_of l id + (if sid =? id then a else 0) /\
  bad_of (stat_op l sid a b soAdd) id = bad_of l id + (if sid =? id then b else 0).
Proof.
  induction l as [|s l IH]; intros sid a b id; cbn [stat_op stat_apply].
  - rewrite ok_of_cons, bad_of_cons. cbn. destruct (sid =? id); cbn; lia.
  - destruct (sv_id s =? sid) eqn:E.
    + rewrite !ok_of_cons, !bad_of_cons. cbn [stat_apply sv_id sv_ok sv_bad].
      apply Z.eqb_eq in E. rewrite E. destruct (sid =? id); lia.
    + rewrite !ok_of_cons, !bad_of_cons. destruct (IH sid a b id) as [-> ->]. lia.
Qed.

Lemma stat_op_sub : forall l sid a b id,
  ok_of (stat_op l sid a b soSubtract) id = ok_of l id - (if sid =? id then a else 0) /\
  bad_of (stat_op l sid a b soSubtract) id = bad_of l id - (if sid =? id then b else 0).
Proof.
  induction l as [|s l IH]; intros sid a b id; cbn [stat_op stat_apply].
  - rewrite ok_of_cons, bad_of_cons. cbn. destruct (sid =? id); cbn; lia.
  - destruct (sv_id s =? sid) eqn:E.
    + rewrite !ok_of_cons, !bad_of_cons. cbn [stat_apply sv_id sv_ok sv_bad].
      apply Z.eqb_eq in E. rewrite E. destruct (sid =? id); lia.
    + rewrite !ok_of_cons, !bad_of_cons. destruct (IH sid a b id) as [-> ->]. lia.
Qed.

Lemma list_op_add : forall src l id,
  ok_of (list_op l src soAdd) id = ok_of l id + ok_of src id /\
  bad_of (list_op l src soAdd) id = bad_of l id + bad_of src id.
Proof.
  induction src as [|s src IH]; intros l id; unfold list_op; cbn [fold_left].
  - cbn. lia.
  - fold (list_op (stat_op l (sv_id s) (sv_ok s) (sv_bad s) soAdd) src soAdd).
    destruct (IH (stat_op l (sv_id s) (sv_ok s) (sv_bad s) soAdd) id) as [-> ->].
    destruct (stat_op_add l (sv_id s) (sv_ok s) (sv_bad s) id) as [-> ->].
    rewrite ok_of_cons, bad_of_cons. lia.
Qed.

Lemma list_op_sub : forall src l id,
  ok_of (list_op l src soSubtract) id = ok_of l id - ok_of src id /\
  bad_of (list_op l src soSubtract) id = bad_of l id - bad_of src id.
Proof.
  induction src as [|s src IH]; intros l id; unfold list_op; cbn [fold_left].
  - cbn. lia.
  - fold (list_op (stat_op l (sv_id s) (sv_ok s) (sv_bad s) soSubtract) src soSubtract).
    destruct (IH (stat_op l (sv_id s) (sv_ok s) (sv_bad s) soSubtract) id) as [-> ->].
    destruct (stat_op_sub l (sv_id s) (sv_ok s) (sv_bad s) id) as [-> ->].
    rewrite ok_of_cons, bad_of_cons. lia.
Qed.

Lemma stat_op_ids : forall l sid a b k x,
  In x (map sv_id (stat_op l sid a b k)) <-> In x (map sv_id l) \/ x = sid.
Proof.
  induction l as [|s l IH]; intros sid a b k x; cbn.
  - destruct k; cbn; intuition.
  - destruct (sv_id s =? sid) eqn:E; cbn.
    + apply Z.eqb_eq in E. destruct k; cbn; intuition congruence.
    + rewrite IH. intuition.
Qed.

Lemma stat_op_one : forall l sid a b k, one_entry_each l -> one_entry_each (stat_op l sid a b k).
Proof.
  unfold one_entry_each. induction l as [|s l IH]; intros sid a b k H; cbn.
  - destruct k; cbn; constructor; auto; constructor.
  - cbn in H. apply NoDup_cons_iff in H as [H1 H2].
    destruct (sv_id s =? sid) eqn:E; cbn.
    + destruct k; cbn; constructor; auto.
    + constructor; auto. rewrite stat_op_ids. intros [H|H]; [now apply H1|lia].
Qed.

Lemma list_op_one : forall src l k, one_entry_each l -> one_entry_each (list_op l src k).
Proof.
  induction src as [|s src IH]; intros l k H; cbn; auto.
  unfold list_op in IH. apply IH, stat_op_one, H.
Qed.

Lemma ok_absent : forall l id, ~ In id (map sv_id l) -> ok_of l id = 0 /\ bad_of l id = 0.
Proof.
  induction l as [|s l IH]; intros id H; [cbn; lia|].
  rewrite ok_of_cons, bad_of_cons. cbn in H.
  destruct (sv_id s =? id) eqn:E; [exfalso; apply H; left; lia|].
  destruct (IH id) as [-> ->]; [tauto|lia].
Qed.

Lemma stat_op_set : forall l sid a b id, one_entry_each l ->
  ok_of (stat_op l sid a b soSet) id = (if sid =? id then a else ok_of l id) /\
  bad_of (stat_op l sid a b soSet) id = (if sid =? id then b else bad_of l id).
Proof.
  induction l as [|s l IH]; intros sid a b id H; cbn [stat_op stat_apply].
  - rewrite ok_of_cons, bad_of_cons. cbn. destruct (sid =? id); cbn; lia.
  - unfold one_entry_each in H. cbn in H. apply NoDup_cons_iff in H as [H1 H2].
    destruct (sv_id s =? sid) eqn:E.
    + rewrite !ok_of_cons, !bad_of_cons. cbn [stat_apply sv_id sv_ok sv_bad].
      apply Z.eqb_eq in E. rewrite E in *. destruct (sid =? id) eqn:F; [|lia].
      apply Z.eqb_eq in F. subst id. destruct (ok_absent _ _ H1) as [-> ->]. lia.
    + rewrite !ok_of_cons, !bad_of_cons. destruct (IH sid a b id H2) as [-> ->].
      destruct (sid =? id) eqn:F; [|lia]. destruct (sv_id s =? id) eqn:G; lia.
Qed.

Lemma list_op_set : forall src l id, one_entry_each l -> one_entry_each src ->
  (In id (map sv_id src) ->
     ok_of (list_op l src soSet) id = ok_of src id /\
     bad_of (list_op l src soSet) id = bad_of src id) /\
  (~ In id (map sv_id src) ->
     ok_of (list_op l src soSet) id = ok_of l id /\
     bad_of (list_op l src soSet) id = bad_of l id).
Proof.
  induction src as [|s src IH]; intros l id Hl Hs; unfold list_op; cbn [fold_left].
  - cbn. tauto.
  - fold (list_op (stat_op l (sv_id s) (sv_ok s) (sv_bad s) soSet) src soSet).
    unfold one_entry_each in Hs. cbn in Hs. apply NoDup_cons_iff in Hs as [H1 H2].
    assert (Hl' := stat_op_one l (sv_id s) (sv_ok s) (sv_bad s) soSet Hl).
    destruct (IH _ id Hl' H2) as [IHa IHb].
    destruct (stat_op_set l (sv_id s) (sv_ok s) (sv_bad s) id Hl) as [Ea Eb].
    rewrite ok_of_cons, bad_of_cons. cbn [map]. split.
    + intros [H|H].
      * subst id. rewrite Z.eqb_refl in *.
        destruct (IHb H1) as [-> ->]. rewrite Ea, Eb.
        destruct (ok_absent _ _ H1) as [-> ->]. lia.
      * destruct (IHa H) as [-> ->].
        destruct (sv_id s =? id) eqn:F; [|lia]. apply Z.eqb_eq in F. subst. tauto.
    + intro H. cbn in H. destruct (IHb ltac:(tauto)) as [-> ->]. rewrite Ea, Eb.
      destruct (sv_id s =? id) eqn:F; [|tauto]. apply Z.eqb_eq in F. tauto.
Qed.

(** Any history of additions and subtractions. *)
Definition run_stats (l : list sstat) (ops : list (bool * list sstat)) : list sstat :=
  fold_left (fun acc (o : bool * list sstat) =>
    list_op acc (snd o) (if fst o then soAdd else soSubtract)) ops l.

Lemma run_stats_sum : forall ops l id,
  ok_of (run_stats l ops) id =
    ok_of l id + fold_right Z.add 0 (map (fun o : bool * list sstat =>
      (if fst o then 1 else -1) * ok_of (snd o) id) ops) /\
  bad_of (run_stats l ops) id =
    bad_of l id + fold_right Z.add 0 (map (fun o : bool * list sstat =>
      (if fst o then 1 else -1) * bad_of (snd o) id) ops).
Proof.
  induction ops as [|[b src] ops IH]; intros l id; unfold run_stats; cbn [fold_left map fold_right].
  - lia.
  - cbn [fst snd].
    fold (run_stats (list_op l src (if b then soAdd else soSubtract)) ops).
    destruct (IH (list_op l src (if b then soAdd else soSubtract)) id) as [-> ->].
    destruct b.
    + destruct (list_op_add src l id) as [-> ->]. lia.
    + destruct (list_op_sub src l id) as [-> ->]. lia.
Qed.

Lemma run_stats_one : forall ops l, one_entry_each l -> one_entry_each (run_stats l ops).
Proof. induction ops as [|o ops IH]; intros l H; cbn; auto. apply IH, list_op_one, H. Qed.

(** ** Script statuses *)

Lemma total_from : forall l st,
  fold_left total_step l st =
  if existsb (fun s => match s with srFailure => true | _ => false end) l then srFailure
  else match st with
       | srNone => if existsb (fun s => match s with srSuccess => true | _ => false end) l
                   then srSuccess else srNone
       | _ => st
       end.
Proof.
  induction l as [|s l IH]; intro st; cbn; [now destruct st|].
  rewrite IH. destruct s, st; cbn; destruct (existsb _ l); auto.
Qed.

Lemma calc_total_spec : forall l,
  (calc_total_status l = srFailure <-> In srFailure l) /\
  (calc_total_status l = srSuccess <-> ~ In srFailure l /\ In srSuccess l) /\
  (calc_total_status l = srNone <-> forall s, In s l -> s = srNone).
Proof.
  intro l. unfold calc_total_status. rewrite total_from.
  set (f := fun s => match s with srFailure => true | _ => false end).
  set (g := fun s => match s with srSuccess => true | _ => false end).
  assert (Hf : existsb f l = true <-> In srFailure l).
  { rewrite existsb_exists. split; [intros (x & H & E); destruct x; easy|]. intro H. now exists srFailure. }
  assert (Hg : existsb g l = true <-> In srSuccess l).
  { rewrite existsb_exists. split; [intros (x & H & E); destruct x; easy|]. intro H. now exists srSuccess. }
  assert (Hf0 : existsb f l = false -> ~ In srFailure l) by (intros E H; apply Hf in H; congruence).
  assert (Hg0 : existsb g l = false -> ~ In srSuccess l) by (intros E H; apply Hg in H; congruence).
  assert (Hn : (forall s, In s l -> s = srNone) <-> ~ In srFailure l /\ ~ In srSuccess l).
  { split.
    - intro H. split; intro K; specialize (H _ K); discriminate.
    - intros [H1 H2] s Hs. destruct s; tauto. }
  rewrite Hn.
  destruct (existsb f l) eqn:Ef; [|destruct (existsb g l) eqn:Eg].
  - assert (In srFailure l) by tauto. repeat split; intros; try tauto; try discriminate.
  - assert (In srSuccess l) by tauto. assert (~ In srFailure l) by tauto.
    repeat split; intros; try tauto; try discriminate.
  - assert (~ In srSuccess l) by tauto. assert (~ In srFailure l) by tauto.
    repeat split; intros; try tauto; try discriminate.
Qed.
