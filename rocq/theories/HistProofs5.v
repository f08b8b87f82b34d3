From Verif Require Import Base InfoModel InfoSpec InfoProofs StatsModel StatsSpec StatsProofs StatsProofs2
  HistModel HistSpec HistProofs3.
From Coq Require Import Permutation.
Open Scope list_scope.
Open Scope Z_scope.

(** ** Pausing all files *)

Lemma put_middle : forall a f f' b, ~ In (f_id f) (map f_id a) ->
  put_file (f_id f) f' (a ++ f :: b) = a ++ f' :: b.
Proof.
  induction a as [|x a IH]; intros f f' b N; cbn [app put_file].
  - rewrite Z.eqb_refl. reflexivity.
  - destruct (f_id x =? f_id f) eqn:E.
    + exfalso. apply N. left. lia.
    + rewrite IH; auto. intro H. apply N. right. exact H.
Qed.

Lemma pause_loop : forall b todo gone_ g, inv g -> g_files g = map (with_paused b) gone_ ++ todo ->
  let g' := fold_left (fun s f => set_paused b f s) todo g in
  inv g' /\ g_files g' = map (with_paused b) (gone_ ++ todo) /\ g_done g' = g_done g /\
  g_cur g' = g_cur g /\ g_srv g' = g_srv g /\ g_deleting g' = g_deleting g.
Proof.
  intros b. induction todo as [|f todo IH]; intros gone_ g V E; cbn [fold_left].
  - rewrite app_nil_r in *. auto 10.
  - assert (In f (g_files g)) by (rewrite E; apply in_or_app; right; left; reflexivity).
    pose proof (iv_ids g V) as ND.
    assert (Fd : find_file (f_id f) (g_files g) = Some f) by (apply find_in; auto).
    pose proof (set_paused_inv b f g V Fd) as V'.
    assert (E' : g_files (set_paused b f g) = map (with_paused b) (gone_ ++ [f]) ++ todo).
    { unfold set_paused, replace.
      destruct (Bool.eqb (f_paused f) b); gcbn; cbn [f_id with_paused]; rewrite E, put_middle;
        try (rewrite map_app, <- app_assoc; reflexivity).
      all: intro Hn; rewrite E, map_app in ND; cbn [map] in ND; apply NoDup_remove_2 in ND;
        apply ND; apply in_or_app; left; exact Hn. }
    destruct (IH (gone_ ++ [f]) _ V' E') as (I1 & I2 & I3 & I4 & I5 & I6).
    assert (R : g_done (set_paused b f g) = g_done g /\ g_cur (set_paused b f g) = g_cur g /\
                g_srv (set_paused b f g) = g_srv g /\ g_deleting (set_paused b f g) = g_deleting g).
    { unfold set_paused, replace. destruct (Bool.eqb (f_paused f) b); auto. }
    destruct R as (R1 & R2 & R3 & R4).
    rewrite <- app_assoc in I2. cbn [app] in I2.
    repeat apply conj; auto; congruence.
Qed.

(** Files of which nothing is downloaded. *)
Definition idle (f : finfo) : Prop :=
  f_num f FSuccArt = 0 /\ f_num f FFailArt = 0 /\ f_num f FActive = 0 /\ f_srv f = [] /\ f_extra f = false.

Lemma srv_sum_idle : forall w l id, (forall i, w [] i = 0) -> Forall idle l -> srv_sum w id l = 0.
Proof.
  intros w l id W F. unfold srv_sum. induction F as [|f l (A & B & C & D & _) F IH]; auto.
  rewrite total_cons, D, W, IH. reflexivity.
Qed.

Lemma total_idle : forall w l, Forall (fun f => w f = 0) l -> total w l = 0.
Proof.
  intros w l F. induction F as [|f l H F IH]; auto. rewrite total_cons. lia.
Qed.

Lemma move_inv : forall src g, inv src -> g_done src = [] -> g_deleting src = false ->
  Forall idle (g_files src) -> g_st g Extra = 0 -> g_st g Active = 0 ->
  g_deleting g = false -> g_parking g = false ->
  inv (move_file_list src (mkG (g_st g) (g_files g) [] [] [] (g_deleting g) (g_parking g)
                              (g_renaming g) [] 0)).
Proof.
  intros src g V D Dl F Ex Ac G1 G2. pose proof V as V0. destruct V.
  unfold move_file_list. constructor; gcbn; try (rewrite ?G1, ?G2; auto; lia).
  - intros x _. assert (Q : forall y, g_st src y = summary y (g_files src) (g_done src)).
    { intro y. apply iv_st. left. exact Dl. }
    rewrite D in Q. unfold summary in *. 
    assert (C1 : total (queued CurSuccArt) (g_files src) = 0).
    { apply total_idle. eapply Forall_impl; [|exact F]. intros f (A & _). exact A. }
    assert (C0 : total (queued SuccArt) (g_files src) = 0).
    { apply total_idle. apply Forall_forall. reflexivity. }
    assert (C2 : total (queued CurFailArt) (g_files src) = total (queued FailArt) (g_files src)).
    { clear - F. induction F as [|f l (A & B & _) F IH]; auto. rewrite !total_cons, IH. cbn. lia. }
    assert (C3 : total (queued Active) (g_files src) = 0).
    { apply total_idle. eapply Forall_impl; [|exact F]. intros f (_ & _ & A & _). exact A. }
    assert (C4 : total (queued Extra) (g_files src) = 0).
    { apply total_idle. eapply Forall_impl; [|exact F]. intros f (_ & _ & _ & _ & A). cbn. now rewrite A. }
    destruct x; cbn [assign fld_eqb fld_tag Nat.eqb]; rewrite ?Q; cbn [total map fold_right] in *; lia.
  - intro id. rewrite srv_sum_idle; auto.
  - intro id. rewrite srv_sum_idle; auto.
Qed.

(** ** Dropping files *)

(** Order and files are kept. *)
Lemma del_filter : forall id l, NoDup (map f_id l) ->
  del_file id l = filter (fun f => negb (f_id f =? id)) l.
Proof.
  induction l as [|x l IH]; intro N; auto. cbn [map] in N. apply NoDup_cons_iff in N as [N1 N2].
  cbn [del_file filter]. destruct (f_id x =? id) eqn:E; cbn [negb].
  - symmetry. apply Z.eqb_eq in E. subst id. clear - N1. induction l as [|y l IH]; auto.
    cbn [filter]. destruct (f_id y =? f_id x) eqn:E.
    + exfalso. apply N1. left. lia.
    + cbn [negb]. rewrite IH; auto. intro H. apply N1. right. exact H.
  - rewrite IH by exact N2. reflexivity.
Qed.

Lemma drop_loop : forall ds g, inv g -> (forall d, In d ds -> In d (g_files g)) -> NoDup (map f_id ds) ->
  Forall (fun d => f_num d FActive = 0) ds ->
  inv (fold_left drop_dupe ds g) /\
  g_files (fold_left drop_dupe ds g) =
    filter (fun f => negb (existsb (Z.eqb (f_id f)) (map f_id ds))) (g_files g) /\
  g_done (fold_left drop_dupe ds g) = g_done g /\
  g_deleting (fold_left drop_dupe ds g) = g_deleting g.
Proof.
  induction ds as [|d ds IH]; intros g V Sub Nd Ac; cbn [fold_left].
  - cbn. repeat apply conj; auto. clear. induction (g_files g) as [|x l IH]; cbn; congruence.
  - cbn [map] in Nd. apply NoDup_cons_iff in Nd as [Nd1 Nd2]. inversion Ac as [|? ? Ac1 Ac2]; subst.
    pose proof (iv_ids g V) as N.
    assert (Fd : find_file (f_id d) (g_files g) = Some d) by (apply find_in; auto; apply Sub; left; reflexivity).
    pose proof (remove_deleted_inv d g V Fd Ac1) as V'. fold (drop_dupe g d) in V'.
    assert (E' : g_files (drop_dupe g d) = filter (fun f => negb (f_id f =? f_id d)) (g_files g)).
    { unfold drop_dupe. gcbn. apply del_filter. exact N. }
    assert (Sub' : forall x, In x ds -> In x (g_files (drop_dupe g d))).
    { intros x Ix. rewrite E', filter_In. split; [apply Sub; right; exact Ix|].
      destruct (f_id x =? f_id d) eqn:E; auto. exfalso. apply Nd1. apply Z.eqb_eq in E. rewrite <- E.
      apply in_map. exact Ix. }
    destruct (IH _ V' Sub' Nd2 Ac2) as (I1 & I2 & I3 & I4).
    repeat apply conj; auto.
    rewrite I2, E'. clear. induction (g_files g) as [|x l IH]; auto.
    cbn [filter map existsb]. destruct (f_id x =? f_id d) eqn:E; cbn [negb orb filter].
    + exact IH.
    + destruct (existsb (Z.eqb (f_id x)) (map f_id ds)); cbn [negb]; [exact IH|]. f_equal. exact IH.
Qed.

(** ** Which files are dropped *)

Lemma twin_iff : forall name all i f l j,
  has_twin name all i f j l = true <->
  exists a f2 b, l = a ++ f2 :: b /\ i <> (j + length a)%nat /\ name f = name f2 /\
    (f_num f FSize < f_num f2 FSize \/ (f_num f FSize = f_num f2 FSize /\ (j + length a < i)%nat)) /\
    dupes_of name all f2 = 2%nat.
Proof.
  intros name all i f. induction l as [|x l IH]; intro j; cbn [has_twin].
  - split; [discriminate|]. intros (a & f2 & b & E & _). destruct a; discriminate.
  - rewrite orb_true_iff, IH, !andb_true_iff, orb_true_iff, andb_true_iff, negb_true_iff, beqb_eq,
      Nat.eqb_neq, Nat.eqb_eq, Nat.ltb_lt, Z.ltb_lt, Z.eqb_eq. split.
    + intros [(((A & B) & C) & D)|(a & f2 & b & E & A & B & C & D)].
      * exists [], x, l. cbn [length]. rewrite Nat.add_0_r. auto 10.
      * exists (x :: a), f2, b. cbn [length app]. rewrite E. repeat apply conj; auto; try lia.
    + intros (a & f2 & b & E & A & B & C & D). destruct a as [|y a]; injection E as <- ->.
      * left. cbn [length] in A, C. rewrite Nat.add_0_r in A, C. auto 10.
      * right. exists a, f2, b. cbn [length] in A, C. repeat apply conj; auto; lia.
Qed.

Lemma dupe_list_iff : forall name all l i x,
  In x (dupe_list name all i l) <->
  exists a b, l = a ++ x :: b /\ has_twin name all (i + length a) x 0 all = true.
Proof.
  intros name all. induction l as [|f l IH]; intros i x; cbn [dupe_list].
  - split; [easy|]. intros (a & b & E & _). destruct a; discriminate.
  - assert (R : (exists a b, f :: l = a ++ x :: b /\ has_twin name all (i + length a) x 0 all = true) <->
       (f = x /\ has_twin name all i f 0 all = true) \/ In x (dupe_list name all (S i) l)).
    { rewrite IH. split.
      - intros (a & b & E & H). destruct a as [|y a]; injection E as <- ->.
        + left. cbn [length] in H. rewrite Nat.add_0_r in H. auto.
        + right. exists a, b. cbn [length] in H. split; auto. rewrite <- Nat.add_succ_comm in H. exact H.
      - intros [[<- H]|(a & b & -> & H)].
        + exists [], l. cbn [length app]. rewrite Nat.add_0_r. auto.
        + exists (f :: a), b. cbn [length app]. split; auto. rewrite <- Nat.add_succ_comm. exact H. }
    rewrite R. destruct (has_twin name all i f 0 all); cbn [In]; intuition (auto; discriminate).
Qed.

Lemma cut_two : forall (A : Type) (a : list A) u b c x d, a ++ u :: b = c ++ x :: d -> (length a < length c)%nat ->
  exists m, c = a ++ u :: m /\ b = m ++ x :: d.
Proof.
  intros A. induction a as [|y a IH]; intros u b c x d E L.
  - destruct c as [|z c]; [cbn in L; lia|]. cbn in E. injection E as <- ->. exists c. auto.
  - destruct c as [|z c]; [cbn in L; lia|]. cbn in E. injection E as <- E. cbn in L.
    destruct (IH _ _ _ _ _ E) as (m & -> & ->); [lia|]. exists m. auto.
Qed.

Lemma dupes_two : forall name a u b v c f, name u = name f -> name v = name f ->
  (dupes_of name (a ++ u :: b ++ v :: c) f = 2%nat <->
   Forall (fun x => name x <> name f) (a ++ b ++ c)).
Proof.
  intros name a u b v c f U V.
  assert (Q : forall l, length (filter (fun x => beqb (name x) (name f)) l) = 0%nat <->
                Forall (fun x => name x <> name f) l).
  { induction l as [|x l IH]; cbn [filter]; [split; auto|].
    destruct (beqb (name x) (name f)) eqn:E.
    - apply beqb_eq in E. cbn [length]. split; [lia|]. intro F. inversion F; subst. contradiction.
    - apply beqb_neq in E. rewrite IH. split; [auto|]. intro F. inversion F; auto. }
  unfold dupes_of. rewrite !filter_app. cbn [filter]. rewrite U, beqb_refl, !filter_app. cbn [filter].
  rewrite V, beqb_refl, !app_length. cbn [length]. rewrite app_length. cbn [length].
  rewrite !Forall_app, <- !Q. lia.
Qed.

Lemma dupes_name : forall name l f f2, name f = name f2 -> dupes_of name l f2 = dupes_of name l f.
Proof. intros name l f f2 E. unfold dupes_of. rewrite E. reflexivity. Qed.

Lemma dupe_list_ok : forall name l f, In f (dupe_list name l 0 l) <-> smaller_twin name l f.
Proof.
  intros name l f. rewrite dupe_list_iff. unfold smaller_twin. split.
  - intros (A & B & E & H). cbn [Nat.add] in H. apply twin_iff in H.
    destruct H as (a & f2 & b & E2 & Ne & Nm & Sz & Du). cbn [Nat.add] in *.
    rewrite (dupes_name name l f f2 Nm) in Du.
    destruct (Nat.lt_trichotomy (length a) (length A)) as [L|[L|L]]; [| lia |].
    + rewrite E in E2. symmetry in E2. destruct (cut_two _ _ _ _ _ _ _ E2 L) as (m & -> & ->).
      exists a, m, B, f2. rewrite <- app_assoc in E. cbn [app] in E. split.
      * left. split; auto. lia.
      * split; auto. rewrite E in Du. apply dupes_two in Du; auto.
    + rewrite E in E2. destruct (cut_two _ _ _ _ _ _ _ E2 L) as (m & -> & ->).
      exists A, m, b, f2. split.
      * right. split; auto. lia.
      * split; auto. rewrite E in Du. apply dupes_two in Du; auto.
  - intros (a & b & c & f2 & [(E & Sz)|(E & Sz)] & Nm & Fa).
    + exists (a ++ f2 :: b), c. rewrite <- app_assoc. split; [exact E|].
      apply twin_iff. exists a, f2, (b ++ f :: c). cbn [Nat.add]. rewrite app_length. cbn [length].
      repeat apply conj; auto; try lia.
      rewrite (dupes_name name l f f2) by auto. rewrite E. apply dupes_two; auto.
    + exists a, (b ++ f2 :: c). split; [exact E|].
      apply twin_iff. exists (a ++ f :: b), f2, c. cbn [Nat.add]. rewrite app_length. cbn [length].
      repeat apply conj; auto; try lia.
      * rewrite <- app_assoc. exact E.
      * rewrite (dupes_name name l f f2) by auto. rewrite E. apply dupes_two; auto.
Qed.

Lemma dupe_list_sub : forall name all l i x, In x (dupe_list name all i l) -> In x l.
Proof.
  intros name all l i x H. apply dupe_list_iff in H. destruct H as (a & b & -> & _).
  apply in_or_app. right. left. reflexivity.
Qed.

Lemma dupe_list_ids : forall name all l i, NoDup (map f_id l) -> NoDup (map f_id (dupe_list name all i l)).
Proof.
  intros name all. induction l as [|f l IH]; intros i N; cbn [dupe_list]; [constructor|].
  cbn [map] in N. apply NoDup_cons_iff in N as [N1 N2].
  destruct (has_twin name all i f 0 all); auto. cbn [map]. constructor; auto.
  intro H. apply N1. apply in_map_iff in H as (x & E & H). rewrite <- E. apply in_map.
  eapply dupe_list_sub; eauto.
Qed.

Lemma check_dupe_ok : forall name g, inv g -> Forall (fun f => f_num f FActive = 0) (g_files g) ->
  inv (check_dupe_files name g) /\ g_done (check_dupe_files name g) = g_done g /\
  g_deleting (check_dupe_files name g) = g_deleting g /\
  exists p, g_files (check_dupe_files name g) = filter p (g_files g) /\
    forall f, In f (g_files g) -> (p f = true <-> ~ smaller_twin name (g_files g) f).
Proof.
  intros name g V A. unfold check_dupe_files. pose proof (iv_ids g V) as N.
  set (ds := dupe_list name (g_files g) 0 (g_files g)).
  assert (Sub : forall d, In d ds -> In d (g_files g)) by (intros; eapply dupe_list_sub; eauto).
  destruct (drop_loop ds g V Sub) as (I1 & I2 & I3 & I4).
  - apply dupe_list_ids. exact N.
  - rewrite Forall_forall in *. auto.
  - repeat apply conj; auto. eexists. split; [exact I2|].
    intros f Hf. cbv beta. rewrite <- dupe_list_ok. fold ds.
    rewrite negb_true_iff, <- not_true_iff_false, existsb_exists. split; intros H H'; apply H.
    + exists (f_id f). split; [apply in_map; exact H'|apply Z.eqb_refl].
    + destruct H' as (i & Hi & E). apply Z.eqb_eq in E. subst i. apply in_map_iff in Hi as (d & E & Hd).
      assert (Some d = Some f) as Q.
      { rewrite <- (find_in _ _ N (Sub d Hd)), <- (find_in _ _ N Hf), E. reflexivity. }
      injection Q as ->. exact Hd.
Qed.

(** ** Downloading again *)
Lemma redownload_ok : forall name paused src g,
  NoDup (map (fun x : Z * bool * list (option Z) => fst (fst x)) src) ->
  g_st g Extra = 0 -> g_st g Active = 0 -> g_deleting g = false -> g_parking g = false ->
  let g' := redownload name paused (new_group src) g in
  (forall x, g_st g' x = summary x (g_files g') []) /\
  (exists p, g_files g' = filter p (map (with_paused paused) (add_files src)) /\
     forall f, In f (map (with_paused paused) (add_files src)) ->
       (p f = true <-> ~ smaller_twin name (map (with_paused paused) (add_files src)) f)) /\
  Forall file_ok (g_files g') /\
  (forall id, ok_of (g_srv g') id = 0 /\ bad_of (g_srv g') id = 0).
Proof.
  intros name paused src g N Ex Ac Dl Pk. cbn zeta. unfold redownload. cbn zeta.
  pose proof (new_group_inv src N) as V.
  assert (E0 : g_files (new_group src) = map (with_paused paused) [] ++ g_files (new_group src)) by reflexivity.
  pose proof (pause_loop paused (g_files (new_group src)) [] (new_group src) V E0) as P. cbn zeta in P.
  set (s1 := fold_left _ _ (new_group src)) in *.
  destruct P as (P1 & P2 & P3 & P4 & P5 & P6). cbn [app] in P2.
  assert (Fr : Forall idle (g_files s1)).
  { rewrite P2. apply Forall_forall. intros f Hf. apply in_map_iff in Hf as (x & <- & Hx).
    pose proof (add_files_fresh src) as F. rewrite Forall_forall in F. destruct (F x Hx).
    unfold idle. cbn [f_num f_srv f_extra with_paused]. auto. }
  pose proof (move_inv s1 g P1 P3 P6 Fr Ex Ac Dl Pk) as M.
  set (m := move_file_list s1 _) in *.
  assert (Fm : g_files m = map (with_paused paused) (add_files src)) by exact P2.
  destruct (check_dupe_ok name m M) as (C1 & C2 & C3 & p & C4 & C5).
  - change (g_files m) with (g_files s1). eapply Forall_impl; [|exact Fr]. intros f (_ & _ & A & _). exact A.
  - assert (D1 : g_done (check_dupe_files name m) = []) by (rewrite C2; reflexivity).
    repeat apply conj.
    + intro x. rewrite <- D1. apply inv_summary; [exact C1|]. rewrite C3. exact Dl.
    + exists p. rewrite C4, Fm. split; auto. rewrite Fm in C5. exact C5.
    + apply (iv_files _ C1).
    + intro id. rewrite (iv_srv_ok _ C1), (iv_srv_bad _ C1), D1. auto.
Qed.
