(** Proofs about sorting groups and pausing par files. *)
From Verif Require Import Base MoveModel MoveSpec MoveProofs MoveToProofs.
From Coq Require Import Permutation Sorted Arith.

(** ** Stable sorting in general *)

Lemma insert_perm {A} (lt : A -> A -> bool) x l : Permutation (x :: l) (insert_sorted lt x l).
Proof.
  induction l as [|y l IH]; cbn [insert_sorted]; [apply Permutation_refl|].
  destruct (lt y x); [|apply Permutation_refl].
  eapply Permutation_trans; [apply perm_swap|]. constructor. exact IH.
Qed.

Lemma sort_perm {A} (lt : A -> A -> bool) l : Permutation l (stable_sort lt l).
Proof.
  induction l as [|x l IH]; cbn [stable_sort]; [constructor|].
  eapply Permutation_trans; [apply perm_skip; exact IH|apply insert_perm].
Qed.

Lemma sw_neg_trans {A} (lt : A -> A -> bool) a b c : strict_weak lt -> lt b a = false -> lt c b = false -> lt c a = false.
Proof.
  intros (_ & _ & H) H1 H2. destruct (lt c a) eqn:E; [|reflexivity].
  destruct (H c a b E) as [K|K]; congruence.
Qed.

Lemma sw_asym {A} (lt : A -> A -> bool) a b : strict_weak lt -> lt a b = true -> lt b a = false.
Proof.
  intros (I & T & _) H. destruct (lt b a) eqn:E; [|reflexivity].
  rewrite <- (I a). symmetry. eapply T; eauto.
Qed.

Lemma insert_sorted_sorted {A} (lt : A -> A -> bool) x l : strict_weak lt ->
  StronglySorted (fun a b => lt b a = false) l -> StronglySorted (fun a b => lt b a = false) (insert_sorted lt x l).
Proof.
  intros SW. induction 1 as [|y l Hs IH Hf]; cbn [insert_sorted].
  - constructor; [constructor|constructor].
  - destruct (lt y x) eqn:E.
    + constructor; [exact IH|]. apply Forall_forall. intros z Hz.
      apply (Permutation_in z (Permutation_sym (insert_perm lt x l))) in Hz. destruct Hz as [<-|Hz].
      * now apply sw_asym.
      * eapply Forall_forall in Hf; eauto.
    + constructor; [constructor; assumption|]. constructor; [exact E|].
      eapply Forall_impl; [|exact Hf]. cbv beta. intros z Hz. eapply sw_neg_trans; eauto.
Qed.

Definition eqv {A} (lt : A -> A -> bool) (x y : A) : bool := negb (lt x y) && negb (lt y x).

Lemma insert_filter {A} (lt : A -> A -> bool) x l z : strict_weak lt ->
  filter (eqv lt z) (insert_sorted lt x l) = filter (eqv lt z) (x :: l).
Proof.
  intros SW. induction l as [|y l IH]; cbn [insert_sorted]; [reflexivity|].
  destruct (lt y x) eqn:E; [|reflexivity].
  change (filter (eqv lt z) (y :: insert_sorted lt x l)) with
    (if eqv lt z y then y :: filter (eqv lt z) (insert_sorted lt x l) else filter (eqv lt z) (insert_sorted lt x l)).
  rewrite IH. cbn [filter]. destruct (eqv lt z y) eqn:Ey; [|reflexivity].
  destruct (eqv lt z x) eqn:Ex; [|reflexivity]. exfalso.
  unfold eqv in Ex, Ey. apply andb_prop in Ex, Ey. rewrite !negb_true_iff in *. destruct Ex as [X1 X2], Ey as [Y1 Y2].
  destruct SW as (_ & _ & H). destruct (H y x z E); congruence.
Qed.

Lemma stable_sort_ok {A} (lt : A -> A -> bool) l : strict_weak lt -> stable_sorted lt l (stable_sort lt l).
Proof.
  intros SW. split; [apply sort_perm|]. split.
  - induction l as [|x l IH]; cbn [stable_sort]; [constructor|]. now apply insert_sorted_sorted.
  - intros z. change (filter (eqv lt z) (stable_sort lt l) = filter (eqv lt z) l).
    induction l as [|x l IH]; cbn [stable_sort]; [reflexivity|].
    rewrite insert_filter by exact SW. cbn [filter]. now rewrite IH.
Qed.

Lemma stable_sorted_unique {A} (lt : A -> A -> bool) l r1 r2 : strict_weak lt ->
  stable_sorted lt l r1 -> stable_sorted lt l r2 -> r1 = r2.
Proof.
  intros SW (P1 & S1 & F1) (P2 & S2 & F2).
  assert (P : Permutation r1 r2) by (eapply Permutation_trans; [apply Permutation_sym; exact P1|exact P2]).
  assert (F : forall x, filter (eqv lt x) r1 = filter (eqv lt x) r2) by (intros x; unfold eqv; now rewrite F1, F2).
  clear P1 P2 F1 F2 l. revert r2 P S2 F. induction S1 as [|a r1 S1 IH H1]; intros r2 P S2 F.
  - apply Permutation_nil in P. now subst.
  - destruct r2 as [|b r2]; [apply Permutation_sym, Permutation_nil in P; discriminate|].
    inversion S2 as [|? ? S2' H2]; subst.
    assert (AB : lt a b = false).
    { assert (In a (b :: r2)) by (eapply Permutation_in; [exact P|left; reflexivity]).
      destruct H as [->|H]; [apply SW|]. eapply Forall_forall in H2; eauto. }
    assert (BA : lt b a = false).
    { assert (In b (a :: r1)) by (eapply Permutation_in; [apply Permutation_sym; exact P|left; reflexivity]).
      destruct H as [->|H]; [apply SW|]. eapply Forall_forall in H1; eauto. }
    assert (E : a = b).
    { specialize (F a). cbn [filter] in F.
      assert (E1 : eqv lt a a = true) by (unfold eqv; now rewrite (proj1 SW a)).
      assert (E2 : eqv lt a b = true) by (unfold eqv; now rewrite AB, BA).
      rewrite E1, E2 in F. congruence. }
    subst b. f_equal. apply IH; [eapply Permutation_cons_inv; eauto|exact S2'|].
    intros x. specialize (F x). cbn [filter] in F. destruct (eqv lt x a); congruence.
Qed.

(** ** The comparators *)

Lemma str_lt_irrefl a : str_lt a a = false.
Proof. induction a as [|x a IH]; cbn [str_lt]; [reflexivity|]. rewrite Z.ltb_irrefl. exact IH. Qed.

Lemma str_lt_trans a : forall b c, str_lt a b = true -> str_lt b c = true -> str_lt a c = true.
Proof.
  induction a as [|x a IH]; intros [|y b] [|z c] H1 H2; cbn [str_lt] in *; try discriminate; try reflexivity.
  destruct (Z.ltb_spec x y), (Z.ltb_spec y z), (Z.ltb_spec x z); try reflexivity; try lia.
  - destruct (Z.ltb_spec z y); [discriminate|]. lia.
  - destruct (Z.ltb_spec y x); [discriminate|]. lia.
  - destruct (Z.ltb_spec y x); [discriminate|]. destruct (Z.ltb_spec z y); [discriminate|].
    destruct (Z.ltb_spec z x); [lia|]. eapply IH; eauto.
Qed.

Lemma str_lt_neg a : forall b c, str_lt a b = true -> str_lt a c = true \/ str_lt c b = true.
Proof.
  induction a as [|x a IH]; intros [|y b] [|z c] H; cbn [str_lt] in *; try discriminate; auto.
  destruct (Z.ltb_spec x y), (Z.ltb_spec y x); try lia; try discriminate.
  - destruct (Z.ltb_spec x z), (Z.ltb_spec z y); auto; lia.
  - assert (x = y) by lia. subst y. destruct (Z.ltb_spec x z), (Z.ltb_spec z x); auto; try lia.
Qed.

Lemma str_lt_sw {A} (f : A -> list Z) : strict_weak (fun a b => str_lt (f a) (f b)).
Proof.
  split; [|split].
  - intros a; apply str_lt_irrefl.
  - intros a b c; apply str_lt_trans.
  - intros a b c; apply str_lt_neg.
Qed.

Lemma zlt_sw {A} (f : A -> Z) : strict_weak (fun a b => f a <? f b).
Proof. split; [|split]; intros; rewrite ?Z.ltb_lt, ?Z.ltb_ge in *; lia. Qed.

Lemma sw_flip {A} (lt : A -> A -> bool) : strict_weak lt -> strict_weak (fun a b => lt b a).
Proof.
  intros (I & T & N). split; [|split].
  - exact I.
  - intros a b c H1 H2. eapply T; eauto.
  - intros a b c H. destruct (N b a c H); auto.
Qed.

Lemma crit_sw c : strict_weak (crit_lt c).
Proof.
  destruct c; unfold crit_lt; try apply str_lt_sw.
  - apply (zlt_sw g_size).
  - apply (zlt_sw (fun g => g_remaining g - g_paused g)).
  - apply (sw_flip (fun a b => g_mintime a <? g_mintime b)), zlt_sw.
  - apply (zlt_sw g_priority).
Qed.


Lemma dir_sw c d : strict_weak (dir_lt c d).
Proof. destruct d; unfold dir_lt; [apply sw_flip|]; apply crit_sw. Qed.

(** ** Sorting with the comparator of the code *)

Definition sel_g (sel : list Z) (g : group) : bool := match sel with [] => true | _ => mem sel (g_id g) end.
Definition is_desc (o : order) : bool := match o with SoDesc => true | _ => false end.

Lemma sort_lt_eq sel c o a b : sort_lt sel c o a b = sel_g sel a && sel_g sel b && dir_lt c (is_desc o) a b.
Proof.
  unfold sort_lt, sel_g, dir_lt. cbv zeta.
  destruct (match sel with [] => true | _ :: _ => mem sel (g_id a) end), (match sel with [] => true | _ :: _ => mem sel (g_id b) end);
    cbn [negb andb]; try reflexivity. destruct o; reflexivity.
Qed.

Lemma insert_block sel c o x Sx B :
  Forall (fun g => sel_g sel g = false) B -> Forall (fun g => sel_g sel g = true) Sx -> sel_g sel x = true ->
  insert_sorted (sort_lt sel c o) x (Sx ++ B) = insert_sorted (dir_lt c (is_desc o)) x Sx ++ B.
Proof.
  intros HB HS Hx. induction HS as [|y Sx Hy _ IH]; cbn [app insert_sorted].
  - destruct HB as [|b B Hb HB]; [reflexivity|]. cbn [insert_sorted].
    rewrite sort_lt_eq, Hb. reflexivity.
  - rewrite sort_lt_eq, Hx, Hy. cbn [andb]. destruct (dir_lt c (is_desc o) y x); [|reflexivity].
    cbn [app]. now rewrite IH.
Qed.

Lemma insert_front sel c o x l : sel_g sel x = false -> insert_sorted (sort_lt sel c o) x l = x :: l.
Proof.
  intros H. destruct l as [|y l]; cbn [insert_sorted]; [reflexivity|].
  rewrite sort_lt_eq, H, andb_false_r. reflexivity.
Qed.

Lemma sort_block sel c o A Sx B :
  Forall (fun g => sel_g sel g = false) A -> Forall (fun g => sel_g sel g = true) Sx ->
  Forall (fun g => sel_g sel g = false) B ->
  stable_sort (sort_lt sel c o) (A ++ Sx ++ B) = A ++ stable_sort (dir_lt c (is_desc o)) Sx ++ B.
Proof.
  intros HA HS HB.
  assert (EB : stable_sort (sort_lt sel c o) B = B).
  { induction HB as [|b B Hb HB IH]; [reflexivity|]. cbn [stable_sort]. rewrite IH. now apply insert_front. }
  assert (ES : stable_sort (sort_lt sel c o) (Sx ++ B) = stable_sort (dir_lt c (is_desc o)) Sx ++ B).
  { induction HS as [|x Sx Hx HS IH]; [exact EB|]. cbn [app stable_sort]. rewrite IH. apply insert_block; auto.
    apply Forall_forall. intros z Hz. apply (Permutation_in z (Permutation_sym (sort_perm _ _))) in Hz.
    eapply Forall_forall in HS; eauto. }
  induction HA as [|a A Ha HA IH]; [exact ES|]. cbn [app stable_sort]. rewrite IH. now apply insert_front.
Qed.

Lemma same_ids_iff a b : same_ids a b = true <-> map g_id a = map g_id b.
Proof.
  revert b; induction a as [|x a IH]; intros [|y b]; cbn [same_ids map]; try (split; [discriminate|discriminate]); [tauto|].
  rewrite andb_true_iff, Z.eqb_eq, IH. split; [intros [-> ->]; reflexivity|intros H; injection H; auto].
Qed.

Lemma id_inj (Sx : list group) : NoDup (map g_id Sx) -> forall x y, In x Sx -> In y Sx -> g_id x = g_id y -> x = y.
Proof.
  induction Sx as [|s Sx IH]; intros N x y Hx Hy Hid; [destruct Hx|].
  cbn [map] in N. inversion N as [|? ? N1 N2]; subst. destruct Hx as [Hx|Hx], Hy as [Hy|Hy].
  - congruence.
  - exfalso; apply N1. rewrite Hx, Hid. now apply in_map.
  - exfalso; apply N1. rewrite Hy, <- Hid. now apply in_map.
  - auto.
Qed.

Lemma map_id_eq (Big : list group) : NoDup (map g_id Big) -> forall a b,
  incl a Big -> incl b Big -> map g_id a = map g_id b -> a = b.
Proof.
  intros N. induction a as [|s a IH]; intros b IA IB E; destruct b as [|t b]; try discriminate; [reflexivity|].
  cbn [map] in E. injection E as E1 E2. f_equal.
  - apply (id_inj Big N); auto; [apply IA|apply IB]; left; reflexivity.
  - apply IH; auto; intros z Hz; [apply IA|apply IB]; right; exact Hz.
Qed.


Lemma exec_block sel c o A Sx B :
  Forall (fun g => sel_g sel g = false) A -> Forall (fun g => sel_g sel g = true) Sx ->
  Forall (fun g => sel_g sel g = false) B ->
  NoDup (map g_id Sx) ->
  exists S', sort_exec sel c o (A ++ Sx ++ B) = A ++ S' ++ B /\
    match o with
    | SoAsc => stable_sorted (dir_lt c false) Sx S'
    | SoDesc => stable_sorted (dir_lt c true) Sx S'
    | SoAuto =>
        (stable_sorted (dir_lt c (auto_desc c)) Sx S' /\ S' <> Sx) \/
        (stable_sorted (dir_lt c (auto_desc c)) Sx Sx /\ stable_sorted (dir_lt c (negb (auto_desc c))) Sx S')
    end.
Proof.
  intros HA HS HB N. unfold sort_exec. cbv zeta.
  assert (K : forall o', sort_exec sel c o (A ++ Sx ++ B) = sort_exec sel c o (A ++ Sx ++ B) ->
    stable_sort (sort_lt sel c o') (A ++ Sx ++ B) = A ++ stable_sort (dir_lt c (is_desc o')) Sx ++ B)
    by (intros; now apply sort_block).
  specialize (fun o' => K o' eq_refl).
  destruct o.
  - rewrite K. eexists; split; [reflexivity|]. apply stable_sort_ok, dir_sw.
  - rewrite K. eexists; split; [reflexivity|]. apply stable_sort_ok, dir_sw.
  - set (o1 := match c with ScPriority => SoDesc | _ => SoAuto end).
    assert (D1 : is_desc o1 = auto_desc c) by (destruct c; reflexivity).
    assert (D2 : is_desc (match o1 with SoDesc => SoAsc | _ => SoDesc end) = negb (auto_desc c)) by (destruct c; reflexivity).
    replace (match c with ScPriority => SoDesc | _ => SoAuto end) with o1 by reflexivity.
    assert (E0 : (match c with ScName | ScSize | ScRemaining | ScAge | ScCategory => SoAuto | ScPriority => SoDesc end) = o1)
      by reflexivity.
    rewrite K, D1.
    pose proof (stable_sort_ok (dir_lt c (auto_desc c)) Sx (dir_sw c _)) as OK1.
    destruct (same_ids (A ++ Sx ++ B) (A ++ stable_sort (dir_lt c (auto_desc c)) Sx ++ B)) eqn:E.
    + apply same_ids_iff in E. rewrite !map_app in E. apply app_inv_head, app_inv_tail in E.
      assert (ES : Sx = stable_sort (dir_lt c (auto_desc c)) Sx).
      { assert (IN : incl (stable_sort (dir_lt c (auto_desc c)) Sx) Sx)
          by (intros z Hz; eapply Permutation_in; [apply Permutation_sym, sort_perm|exact Hz]).
        apply (map_id_eq Sx); auto using incl_refl. }
      rewrite <- ES in *. rewrite K, D2. eexists; split; [reflexivity|]. right. split; [exact OK1|].
      apply stable_sort_ok, dir_sw.
    + eexists; split; [reflexivity|]. left. split; [exact OK1|]. intros EQ. rewrite EQ in E.
      rewrite (proj2 (same_ids_iff _ _) eq_refl) in E. discriminate.
Qed.

(** Rearranging records by ids. *)
Lemma find_group_one l g : NoDup (map g_id l) -> In g l -> find_group l (g_id g) = [g].
Proof.
  unfold find_group. induction l as [|x l IH]; intros N H; [destruct H|].
  cbn [map] in N. inversion N as [|? ? N1 N2]; subst. cbn [filter].
  destruct H as [->|H].
  - rewrite Z.eqb_refl. f_equal. apply filter_none. apply Forall_forall. intros y Hy.
    apply Z.eqb_neq. intros E. apply N1. rewrite <- E. now apply in_map.
  - destruct (Z.eqb_spec (g_id x) (g_id g)) as [E|E]; [|auto].
    exfalso. apply N1. rewrite E. now apply in_map.
Qed.

Lemma find_groups l m : NoDup (map g_id l) -> incl m l -> flat_map (find_group l) (map g_id m) = m.
Proof.
  intros N. induction m as [|x m IH]; intros I; [reflexivity|]. cbn [map flat_map].
  rewrite find_group_one by (auto; apply I; left; reflexivity). cbn [app]. rewrite IH; [reflexivity|].
  intros z Hz; apply I; right; exact Hz.
Qed.

Lemma filter_map_id (f : Z -> bool) l : filter f (map g_id l) = map g_id (filter (fun g => f (g_id g)) l).
Proof. induction l as [|x l IH]; [reflexivity|]. cbn [map filter]. destruct (f (g_id x)); cbn [map]; now rewrite IH. Qed.


Lemma sort_groups_spec ids c o l : NoDup (map g_id l) -> (exists g, In g l /\ picked ids g = true) ->
  exists A B S', sort_groups ids c o l = A ++ S' ++ B /\
    A ++ B = filter (fun g => negb (picked ids g)) l /\
    (forall A2 y R2, l = A2 ++ y :: R2 -> Forall (fun g => picked ids g = false) A2 -> picked ids y = true -> A = A2) /\
    let Sx := filter (picked ids) l in
    match o with
    | SoAsc => stable_sorted (dir_lt c false) Sx S'
    | SoDesc => stable_sorted (dir_lt c true) Sx S'
    | SoAuto =>
        (stable_sorted (dir_lt c (auto_desc c)) Sx S' /\ S' <> Sx) \/
        (stable_sorted (dir_lt c (auto_desc c)) Sx Sx /\ stable_sorted (dir_lt c (negb (auto_desc c))) Sx S')
    end.
Proof.
  intros N (g0 & G1 & G2). unfold sort_groups. set (sel := filter (mem (map g_id l)) ids).
  assert (MS : forall g, In g l -> mem sel (g_id g) = picked ids g).
  { intros g Hg. unfold picked. apply eq_true_iff_eq. unfold sel. rewrite !mem_In, filter_In, mem_In.
    split; [tauto|]. intros H; split; [exact H|]. now apply in_map. }
  assert (NEs : sel <> []).
  { intros E. specialize (MS g0 G1). rewrite E in MS. unfold picked in *. rewrite G2 in MS. discriminate. }
  assert (SG : forall g, In g l -> sel_g sel g = picked ids g).
  { intros g Hg. unfold sel_g. rewrite <- MS by exact Hg. destruct sel; [congruence|reflexivity]. }
  destruct (align_spec sel (map g_id l)) as (A & B & E & EU & EA).
  rewrite !filter_map_id in *.
  assert (F1 : filter (fun g => mem sel (g_id g)) l = filter (picked ids) l)
    by (apply filter_ext_in; intros g Hg; now apply MS).
  assert (F2 : filter (fun g => negb (mem sel (g_id g))) l = filter (fun g => negb (picked ids g)) l)
    by (apply filter_ext_in; intros g Hg; now rewrite MS).
  rewrite F1 in E. rewrite F2 in EU. symmetry in EU. apply map_eq_app in EU. destruct EU as (A' & B' & EU & <- & <-).
  assert (IA : incl A' l /\ incl B' l).
  { split; intros z Hz; assert (Hf : In z (filter (fun g => negb (picked ids g)) l)) by (rewrite EU; apply in_app_iff; auto);
      apply filter_In in Hf; tauto. }
  destruct IA as [IA IB].
  assert (IS : incl (filter (picked ids) l) l) by (intros z Hz; apply filter_In in Hz; tauto).
  rewrite E, <- !map_app, find_groups by (auto; repeat apply incl_app; auto).
  assert (UA : Forall (fun g => picked ids g = false) (A' ++ B')).
  { rewrite <- EU. apply Forall_forall. intros z Hz. apply filter_In in Hz. destruct (picked ids z); [destruct Hz; discriminate|reflexivity]. }
  apply Forall_app in UA. destruct UA as [UA UB].
  destruct (exec_block sel c o A' (filter (picked ids) l) B') as (S' & ES & OK).
  - apply Forall_forall. intros z Hz. rewrite SG by auto. eapply Forall_forall in UA; eauto.
  - apply Forall_forall. intros z Hz. rewrite SG by auto. apply filter_In in Hz; tauto.
  - apply Forall_forall. intros z Hz. rewrite SG by auto. eapply Forall_forall in UB; eauto.
  - change (filter (picked ids) l) with (filter (fun g => mem ids (g_id g)) l). rewrite <- filter_map_id. apply NoDup_filter, N.
  - exists A', B', S'. split; [exact ES|]. split; [now symmetry|]. split; [|exact OK].
    intros A2 y R2 El FA Hy.
    assert (EM : map g_id A' = map g_id A2).
    { apply (EA (map g_id A2) (g_id y) (map g_id R2)).
      - rewrite El, map_app. reflexivity.
      - apply Forall_forall. intros z Hz. apply in_map_iff in Hz. destruct Hz as (g & <- & Hg).
        rewrite MS by (rewrite El; apply in_app_iff; auto). eapply Forall_forall in FA; eauto.
      - rewrite MS by (rewrite El; apply in_app_iff; right; left; reflexivity). exact Hy. }
    assert (I2 : incl A2 l) by (rewrite El; apply incl_appl, incl_refl).
    rewrite <- (find_groups l A' N IA), <- (find_groups l A2 N I2), EM. reflexivity.
Qed.

(** With no selection everything is sorted. *)
Lemma sort_all_spec c o l : NoDup (map g_id l) ->
  match o with
  | SoAsc => stable_sorted (dir_lt c false) l (sort_groups [] c o l)
  | SoDesc => stable_sorted (dir_lt c true) l (sort_groups [] c o l)
  | SoAuto =>
      (stable_sorted (dir_lt c (auto_desc c)) l (sort_groups [] c o l) /\ sort_groups [] c o l <> l) \/
      (stable_sorted (dir_lt c (auto_desc c)) l l /\ stable_sorted (dir_lt c (negb (auto_desc c))) l (sort_groups [] c o l))
  end.
Proof.
  intros N. unfold sort_groups. cbn [filter]. cbv zeta.
  assert (EA : align [] (map g_id l) = map g_id l).
  { destruct (align_spec [] (map g_id l)) as (A & B & E & EU & _).
    cbn [mem existsb negb] in *. rewrite filter_none in E by (apply Forall_forall; reflexivity).
    rewrite filter_all in EU by (apply Forall_forall; reflexivity). rewrite E. cbn [app]. exact EU. }
  rewrite EA, find_groups by (auto; apply incl_refl).
  destruct (exec_block [] c o [] l []) as (S' & ES & OK); try constructor; auto.
  - apply Forall_forall; reflexivity.
  - cbn [app] in ES. rewrite !app_nil_r in ES. rewrite ES. exact OK.
Qed.

(** ** Pausing extra par files *)

Lemma pause_smallest_some : forall vols s,
  exists v, (v = s \/ In v vols) /\ pf_size v <= pf_size s /\ (forall w, In w vols -> pf_size v <= pf_size w) /\
    Permutation (pf_id v :: pause_smallest (Some s) vols) (pf_id s :: map pf_id vols).
Proof.
  induction vols as [|f vols IH]; intros s; cbn [pause_smallest map].
  - exists s. repeat split; auto; [lia|intros w []].
  - destruct (Z.ltb_spec (pf_size f) (pf_size s)).
    + destruct (IH f) as (v & H1 & H2 & H3 & H4). exists v. repeat split.
      * destruct H1 as [->|H1]; right; [left; reflexivity|right; exact H1].
      * lia.
      * intros w [<-|Hw]; [lia|auto].
      * eapply Permutation_trans; [apply perm_swap|]. constructor. exact H4.
    + destruct (IH s) as (v & H1 & H2 & H3 & H4). exists v. repeat split.
      * destruct H1 as [->|H1]; [left; reflexivity|right; right; exact H1].
      * lia.
      * intros w [<-|Hw]; [lia|auto].
      * eapply Permutation_trans; [apply perm_swap|]. eapply Permutation_trans; [apply perm_skip; exact H4|]. apply perm_swap.
Qed.

Lemma str_lt_meaning a : forall b, str_lt a b = true <-> bytes_before a b.
Proof.
  induction a as [|x a IH]; intros [|y b]; cbn [str_lt].
  - split; [discriminate|]. intros [(t & c & E)|(p & u & v & a' & b' & E & _)]; [discriminate|destruct p; discriminate].
  - split; [|reflexivity]. intros _. left. exists y, b. reflexivity.
  - split; [discriminate|]. intros [(t & c & E)|(p & u & v & a' & b' & _ & E & _)]; [discriminate|destruct p; discriminate].
  - destruct (Z.ltb_spec x y) as [L|L]; [|destruct (Z.ltb_spec y x) as [L2|L2]].
    + split; [|reflexivity]. intros _. right. exists [], x, y, a, b. auto.
    + split; [discriminate|]. intros [(t & c & E)|(p & u & v & a' & b' & E1 & E2 & V)].
      * cbn [app] in E. injection E as -> _. lia.
      * destruct p as [|z p]; cbn [app] in *; injection E1 as -> _; injection E2 as -> _; lia.
    + assert (x = y) by lia. subst y. rewrite IH. split.
      * intros [(t & c & ->)|(p & u & v & a' & b' & -> & -> & V)]; [left; exists t, c; reflexivity|].
        right. exists (x :: p), u, v, a', b'. auto.
      * intros [(t & c & E)|(p & u & v & a' & b' & E1 & E2 & V)].
        -- cbn [app] in E. injection E as ->. left. exists t, c. reflexivity.
        -- destruct p as [|z p]; cbn [app] in *.
           ++ injection E1 as -> _. injection E2 as -> _. lia.
           ++ injection E1 as -> ->. injection E2 as ->. right. exists p, u, v, a', b'. auto.
Qed.

Lemma crit_meaning c a b : crit_lt c a b = true <-> before c a b.
Proof. destruct c; unfold crit_lt, before; try apply str_lt_meaning; apply Z.ltb_lt. Qed.

Lemma pause_extra fl :
  filter (fun f => pf_par f && negb (pf_vol f)) fl = [] ->
  filter (fun f => pf_par f && pf_vol f) fl <> [] ->
  exists v, In v fl /\ pf_par v = true /\ (forall w, In w fl -> pf_par w = true -> pf_size v <= pf_size w) /\
    Permutation (pf_id v :: pause_pars true fl) (map pf_id (filter pf_par fl)).
Proof.
  intros H1 H2. unfold pause_pars. cbn [negb]. cbv zeta. rewrite H1.
  assert (E : filter pf_par fl = filter (fun f => pf_par f && pf_vol f) fl).
  { apply filter_ext_in. intros f Hf. destruct (pf_par f) eqn:E1; [|reflexivity]. cbn [andb].
    destruct (pf_vol f) eqn:E2; [reflexivity|]. exfalso.
    assert (K : In f (filter (fun f => pf_par f && negb (pf_vol f)) fl)) by (apply filter_In; rewrite E1, E2; auto).
    rewrite H1 in K. destruct K. }
  rewrite <- E in *. assert (I : forall w, In w (filter pf_par fl) <-> In w fl /\ pf_par w = true) by (intros; apply filter_In).
  destruct (filter pf_par fl) as [|s vols]; [congruence|]. cbn [pause_smallest map].
  destruct (pause_smallest_some vols s) as (v & V1 & V2 & V3 & V4).
  assert (Iv : In v (s :: vols)) by (destruct V1 as [->|V1]; [left; reflexivity|right; exact V1]).
  apply I in Iv. destruct Iv as [Iv Pv]. exists v. repeat split; auto.
  intros w Hw Pw. assert (K : In w (s :: vols)) by (apply I; auto). destruct K as [<-|K]; auto.
Qed.
