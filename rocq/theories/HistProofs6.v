From Verif Require Import Base InfoModel InfoSpec InfoProofs StatsModel StatsSpec StatsProofs
  HistModel HistSpec HistProofs HistProofs2.
Open Scope list_scope.
Open Scope Z_scope.

(** ** A single item *)

Lemma split_at : forall l h r, NoDup (map h_id (l ++ h :: r)) -> split_id (h_id h) (l ++ h :: r) = Some (l, h, r).
Proof.
  induction l as [|x l IH]; intros h r N; cbn [app split_id].
  - now rewrite Z.eqb_refl.
  - cbn [app map] in N. apply NoDup_cons_iff in N as [N1 N2].
    destruct (h_id x =? h_id h) eqn:E.
    + exfalso. apply N1. apply Z.eqb_eq in E. rewrite E, map_app. apply in_or_app. right. now left.
    + now rewrite (IH h r N2).
Qed.

Lemma returned_kept : forall h, kept_settings h (returned h).
Proof. intro h. repeat split. Qed.

Lemma retry_cases : forall h d,
  (h_kind h = hkNzb /\ In (h_dir h) (d_dirs d) /\ history_retry h d = (ToQueue (returned h), d)) \/
  (~ (h_kind h = hkNzb /\ In (h_dir h) (d_dirs d)) /\ history_retry h d = (Stay h, d)).
Proof.
  intros h d. unfold history_retry. destruct (is_kind (h_kind h) hkNzb) eqn:K; cbn [negb].
  - apply kind_iff in K. destruct (there (h_dir h) (d_dirs d)) eqn:T; cbn [negb].
    + apply there_iff in T. auto.
    + right. split; auto. intros [_ H]. apply there_iff in H. congruence.
  - apply kind_false in K. right. split; auto. tauto.
Qed.

Lemma redownload_cases : forall ps nd h d,
  ((h_kind h = hkUrl \/ (h_kind h = hkNzb /\ In (h_nzb h) (d_files d) /\ ps (h_nzb h) = true)) /\
   exists d', history_redownload ps nd h d = (ToQueue (returned h), d') /\ d_files d' = d_files d /\
     forall x, In x (d_dirs d') <-> In x (d_dirs d) /\ ~ (h_kind h = hkNzb /\ (x = h_dir h \/ x = nd h))) \/
  (~ (h_kind h = hkUrl \/ (h_kind h = hkNzb /\ In (h_nzb h) (d_files d) /\ ps (h_nzb h) = true)) /\
   history_redownload ps nd h d = (Stay h, d)).
Proof.
  intros ps nd h d. unfold history_redownload. destruct (is_kind (h_kind h) hkUrl) eqn:K.
  - apply kind_iff in K. left. split; auto. exists d. repeat split; auto; intuition congruence.
  - apply kind_false in K. destruct (is_kind (h_kind h) hkNzb) eqn:K2; cbn [negb].
    + apply kind_iff in K2. destruct (there (h_nzb h) (d_files d)) eqn:T; cbn [negb].
      * apply there_iff in T. destruct (ps (h_nzb h)) eqn:P; cbn [negb].
        -- left. split; auto. eexists. split; [reflexivity|]. split; [reflexivity|]. intro x. cbn [d_dirs].
           rewrite !gone_in. intuition congruence.
        -- right. split; auto. intuition congruence.
      * right. split; auto. intros [H|(_ & H & _)]; [auto|]. apply there_iff in H. congruence.
    + apply kind_false in K2. right. split; auto. intuition congruence.
Qed.

Lemma take_one : forall nc dc ps nd a h d, takes a ->
  (taken ps d a h /\ exists h' d', edit_one nc dc ps nd a h d = (ToQueue h', d', true) /\ kept_settings h h' /\
     d_files d' = d_files d /\
     forall x, In x (d_dirs d') <->
       In x (d_dirs d) /\ ~ (a = HRedownload /\ h_kind h = hkNzb /\ (x = h_dir h \/ x = nd h))) \/
  (~ taken ps d a h /\ edit_one nc dc ps nd a h d = (Stay h, d, true)).
Proof.
  intros nc dc ps nd a h d T. pose proof (returned_kept h) as RK.
  destruct a; cbn [takes] in T; try tauto; cbn [edit_one taken].
  - (* return *)
    unfold history_return. destruct (is_kind (h_kind h) hkUrl) eqn:K.
    + apply kind_iff in K. left. split; auto. unfold history_redownload. rewrite K. cbn [is_kind].
      exists (returned h), d. repeat split; auto; intuition congruence.
    + apply kind_false in K. destruct (is_kind (h_kind h) hkNzb) eqn:K2; cbn [andb].
      * apply kind_iff in K2. destruct (h_parked h =? 0) eqn:P.
        -- apply Z.eqb_eq in P. right. split; auto. tauto.
        -- apply Z.eqb_neq in P. destruct (retry_cases h d) as [(A & B & ->)|(A & ->)].
           ++ left. split; [tauto|]. exists (returned h), d. repeat split; auto; intuition congruence.
           ++ right. split; auto. tauto.
      * apply kind_false in K2. right. split; auto. tauto.
  - (* process *)
    destruct (is_kind (h_kind h) hkNzb) eqn:K2.
    + apply kind_iff in K2. destruct (retry_cases h d) as [(A & B & ->)|(A & ->)].
      * left. split; auto. exists (returned h), d. repeat split; auto; intuition congruence.
      * right. split; auto.
    + apply kind_false in K2. right. split; auto. tauto.
  - (* redownload *)
    destruct (redownload_cases ps nd h d) as [(A & d' & -> & B & C)|(A & ->)].
    + left. split; auto. exists (returned h), d'. split; auto. split; auto. split; auto. intro x. rewrite C.
      intuition congruence.
    + right. auto.
  - (* retry *)
    destruct (retry_cases h d) as [(A & B & ->)|(A & ->)].
    + left. split; auto. exists (returned h), d. repeat split; auto; intuition congruence.
    + right. split; auto.
Qed.

Lemma take_single : forall nc dc ps nd a l h r q d ok, takes a -> NoDup (map h_id (l ++ h :: r)) ->
  let s' := edit_list nc dc ps nd a [h_id h] (mkHS (l ++ h :: r) q d ok) in
  (taken ps d a h -> hs_hist s' = l ++ r /\ exists h', hs_queue s' = h' :: q /\ kept_settings h h') /\
  (~ taken ps d a h -> hs_hist s' = l ++ h :: r /\ hs_queue s' = q) /\
  d_files (hs_disk s') = d_files d /\
  (forall x, In x (d_dirs (hs_disk s')) <-> In x (d_dirs d) /\
     ~ (taken ps d a h /\ a = HRedownload /\ h_kind h = hkNzb /\ (x = h_dir h \/ x = nd h))).
Proof.
  intros nc dc ps nd a l h r q d ok T N. cbn zeta. unfold edit_list. cbn [fold_left hs_hist hs_queue hs_disk].
  unfold edit_step. cbn [hs_hist hs_queue hs_disk]. rewrite split_at by exact N.
  destruct (take_one nc dc ps nd a h d T) as [(A & h' & d' & -> & B & C & D)|(A & ->)];
    cbn [hs_hist hs_queue hs_disk].
  - repeat apply conj; auto.
    + intros _. split; auto. exists h'. auto.
    + tauto.
    + intro x. rewrite D. tauto.
  - repeat apply conj; auto; [tauto|]. intro x. tauto.
Qed.

Lemma delete_single : forall nc dc ps nd fin l h r q d ok, NoDup (map h_id (l ++ h :: r)) ->
  let s' := edit_list nc dc ps nd (HDelete fin) [h_id h] (mkHS (l ++ h :: r) q d ok) in
  hs_ok s' = true /\ hs_queue s' = q /\
  (fin = true \/ dc = false \/ h_kind h = hkUrl -> hs_hist s' = l ++ r) /\
  (fin = false -> dc = true -> h_kind h = hkNzb ->
     exists h', hs_hist s' = l ++ h' :: r /\ hidden_of h h') /\
  (fin = false -> dc = true -> h_kind h = hkDup -> hs_hist s' = l ++ h :: r) /\
  (forall x, In x (d_files (hs_disk s')) <->
     In x (d_files d) /\ ~ (h_kind h = hkNzb /\ nc = true /\ named_in x (h_nzb h))) /\
  (forall x, In x (d_dirs (hs_disk s')) <->
     In x (d_dirs d) /\ ~ (h_kind h = hkNzb /\ x = h_dir h /\ (h_deleted h <> 0 \/ h_failed h = true))).
Proof.
  intros nc dc ps nd fin l h r q d ok N. cbn zeta. unfold edit_list. cbn [fold_left hs_hist hs_queue hs_disk].
  unfold edit_step. cbn [hs_hist hs_queue hs_disk]. rewrite split_at by exact N. cbn [edit_one].
  unfold history_delete. cbn zeta.
  set (d1 := if is_kind (h_kind h) hkNzb then delete_disk_files nc h d else d).
  set (cond := is_kind (h_kind h) hkNzb && (negb (h_deleted h =? 0) || h_failed h) && there (h_dir h) (d_dirs d1)).
  set (d2 := if cond then mkDisk (gone (h_dir h) (d_dirs d1)) (d_files d1) else d1).
  assert (F1 : forall x, In x (d_files d1) <-> In x (d_files d) /\ ~ (h_kind h = hkNzb /\ nc = true /\ named_in x (h_nzb h))).
  { intro x. subst d1. destruct (is_kind (h_kind h) hkNzb) eqn:K.
    - apply kind_iff in K. rewrite disk_files_ok. tauto.
    - apply kind_false in K. tauto. }
  assert (D1 : d_dirs d1 = d_dirs d).
  { subst d1. unfold delete_disk_files. destruct (is_kind (h_kind h) hkNzb), nc; reflexivity. }
  assert (F2 : d_files d2 = d_files d1) by (subst d2; destruct cond; reflexivity).
  assert (D2 : forall x, In x (d_dirs d2) <-> In x (d_dirs d) /\
     ~ (h_kind h = hkNzb /\ x = h_dir h /\ (h_deleted h <> 0 \/ h_failed h = true))).
  { intro x. subst d2. destruct cond eqn:C; subst cond.
    - rewrite !andb_true_iff, orb_true_iff, negb_true_iff, Z.eqb_neq in C. destruct C as [[C1 C2] C3].
      apply kind_iff in C1. cbn [d_dirs]. rewrite gone_in, D1. intuition congruence.
    - rewrite D1. split; [|tauto]. intro H. split; auto. intros (K & -> & E).
      apply kind_iff in K. rewrite K in C. rewrite D1 in C. apply there_iff in H. rewrite H in C.
      cbn [andb] in C. rewrite andb_true_r in C. apply orb_false_iff in C as [C1 C2].
      apply negb_false_iff, Z.eqb_eq in C1. intuition congruence. }
  assert (DD : forall e, (forall x, In x (d_files (delete_disk_files nc h e)) <->
                 In x (d_files e) /\ ~ (nc = true /\ named_in x (h_nzb h))) /\
                 d_dirs (delete_disk_files nc h e) = d_dirs e).
  { intro e. split; [intro; apply disk_files_ok|]. unfold delete_disk_files. destruct nc; reflexivity. }
  destruct (fin || negb dc || is_kind (h_kind h) hkUrl) eqn:C.
  - cbn [hs_hist hs_queue hs_disk hs_ok]. rewrite F2. repeat apply conj; auto.
    + intros -> -> K. rewrite K in C. discriminate.
    + intros -> -> K. rewrite K in C. discriminate.
  - rewrite !orb_false_iff in C. destruct C as [[-> C2] C3]. apply negb_false_iff in C2. subst dc. apply kind_false in C3.
    destruct (is_kind (h_kind h) hkNzb) eqn:K.
    + apply kind_iff in K. cbn [hs_hist hs_queue hs_disk hs_ok]. destruct (DD d2) as [DD1 DD2].
      repeat apply conj; auto.
      * intros [H|[H|H]]; congruence.
      * intros. exists (hide h). split; auto. repeat split.
      * congruence.
      * intro x. rewrite DD1, F2, F1. tauto.
      * rewrite DD2. exact D2.
    + apply kind_false in K. cbn [hs_hist hs_queue hs_disk hs_ok]. rewrite F2. repeat apply conj; auto.
      * intros [H|[H|H]]; congruence.
      * congruence.
Qed.

(** ** Parameters *)

Lemma cut_eq_at : forall n v, ~ In 61 n -> cut_eq (n ++ 61 :: v) = Some (n, v).
Proof.
  induction n as [|c n IH]; intros v N; cbn [app cut_eq].
  - now rewrite Z.eqb_refl.
  - destruct (c =? 61) eqn:E; [exfalso; apply N; left; lia|]. rewrite IH; auto. intro; apply N; now right.
Qed.

Lemma param_single : forall nc dc ps nd n v l h r q d ok, NoDup (map h_id (l ++ h :: r)) -> ~ In 61 n ->
  h_kind h <> hkDup ->
  let s' := edit_list nc dc ps nd (HSetParameter (n ++ 61 :: v)) [h_id h] (mkHS (l ++ h :: r) q d ok) in
  hs_ok s' = true /\ exists h', hs_hist s' = l ++ h' :: r /\ h_params h' = set_parameter (h_params h) n v.
Proof.
  intros nc dc ps nd n v l h r q d ok N E K. cbn zeta. unfold edit_list.
  cbn [fold_left hs_hist hs_queue hs_disk]. unfold edit_step. cbn [hs_hist hs_queue hs_disk].
  rewrite split_at by exact N. cbn [edit_one].
  assert (Q : is_kind (h_kind h) hkNzb || is_kind (h_kind h) hkUrl = true) by (destruct (h_kind h); auto).
  rewrite Q, cut_eq_at by exact E. cbn [negb hs_ok hs_hist]. split; auto. eexists. split; [reflexivity|]. reflexivity.
Qed.

(** ** Keeping of files *)

Lemma keep_unsuccessful : forall par unpack clean, par = 2 \/ unpack = 2 \/ unpack = 4 \/ unpack = 5 ->
  forget_files par unpack 0 clean false false = false.
Proof.
  intros par unpack clean H. unfold forget_files. rewrite orb_false_r, andb_true_r, orb_false_r.
  destruct H as [->|[->|[->| ->]]]; cbn; rewrite ?andb_false_r, ?andb_true_r, ?orb_false_r; auto.
Qed.

Lemma forget_iff : forall par unpack deleted clean parking wiped,
  forget_files par unpack deleted clean parking wiped = true <->
  wiped = true \/
  (parking = false /\
   (deleted <> 0 \/
    ((par = 3 \/ par = 4) /\ unpack <> 2 /\ unpack <> 4 /\ unpack <> 5) \/
    (unpack = 3 /\ par <> 2) \/ (unpack <= 1 /\ par <> 2 /\ clean = true))).
Proof.
  intros. unfold forget_files.
  rewrite orb_true_iff, andb_true_iff, !orb_true_iff, !andb_true_iff, !orb_true_iff, !negb_true_iff, !Z.eqb_eq,
    !Z.eqb_neq, Z.leb_le. tauto.
Qed.

Lemma parked_zero : forall l, parked_count l = 0 <->
  Forall (fun c => c_status c <> cfNone) l /\
  (forall a c, l = a ++ [c] -> c_status c <> cfPartial).
Proof.
  assert (P : forall l, 0 <= parked_count l).
  { induction l as [|c l IH]; cbn [parked_count]; [lia|]. destruct (_ || _); lia. }
  induction l as [|c l IH]; cbn [parked_count].
  - split; auto. intros _. split; auto. intros [|? ?] ? E; discriminate.
  - specialize (P l).
    set (t := is_status (c_status c) cfNone || _).
    assert (K : t = true <-> c_status c = cfNone \/ (c_status c = cfPartial /\ l = [])).
    { subst t. destruct (c_status c), l; cbn; intuition (congruence || auto). }
    clearbody t. destruct t.
    + split; [lia|]. intros [A B]. exfalso. destruct K as [K _]. specialize (K eq_refl).
      inversion A; subst. destruct K as [K|[K ->]]; [auto|]. apply (B [] c eq_refl K).
    + rewrite Z.add_0_l, IH. assert (N : ~ (c_status c = cfNone \/ (c_status c = cfPartial /\ l = []))).
      { intro Q. apply K in Q. congruence. }
      split.
      * intros [A B]. split; [constructor; auto|]. intros a x Q. destruct a as [|y a]; injection Q as <- Q; subst.
        -- auto.
        -- eapply B. reflexivity.
      * intros [A B]. inversion A; subst. split; auto. intros a x ->. apply (B (c :: a) x eq_refl).
Qed.

Lemma clean_sum : forall l,
  total (finished Failed) l - total (finished ParFailed) l =
  total (fun f => if f_par f then 0 else f_num f FFail + f_num f FMissed) l.
Proof.
  induction l as [|f l IH]; auto. rewrite !total_cons. cbn [finished]. unfold if_par.
  destruct (f_par f); lia.
Qed.
