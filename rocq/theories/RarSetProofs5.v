(** Where the files of sets are afterwards. *)
From Coq Require Import String Permutation.
From Verif Require Import Base NumFmt InfoModel NameModel NameProofs WildModel RarModel RarSetModel RarSetSpec RarSetProofs RarSetProofs2 RarSetProofs3 RarSetProofs4.
Open Scope list_scope. Open Scope Z_scope.

Lemma biggest_ok : forall l m, exists i r, m :: l = i ++ biggest m l :: r /\
  (forall g, In g i -> rf_size g < rf_size (biggest m l)) /\ (forall g, In g r -> rf_size g <= rf_size (biggest m l)).
Proof.
  induction l as [|x l IH]; intros m; [exists [], []; repeat apply conj; [reflexivity|intros g []|intros g []]|]. cbn [biggest]. destruct (Z.ltb_spec (rf_size m) (rf_size x)) as [C|C].
  - destruct (IH x) as (i & r & E & A & B). exists (m :: i), r. repeat apply conj; [cbn [app]; rewrite <- E; reflexivity| |exact B].
    intros g [<- | G]; [|exact (A g G)]. destruct i as [|y i]; [injection E as E _; rewrite <- E; exact C|]. injection E as <- _. specialize (A x (or_introl eq_refl)). lia.
  - destruct (IH m) as (i & r & E & A & B). destruct i as [|y i].
    + injection E as E1 E2. exists [], (x :: r). repeat apply conj; [cbn [app]; rewrite <- E1, <- E2; reflexivity|intros g []|]. intros g [<- | G]; [rewrite <- E1; exact C|exact (B g G)].
    + injection E as <- E. exists (m :: x :: i), r. repeat apply conj; [cbn [app]; rewrite <- E; reflexivity| |exact B].
      intros g [<- | [<- | G]]; [apply A; left; reflexivity| |apply A; right; exact G]. specialize (A m (or_introl eq_refl)). lia.
Qed.
Lemma main_ok s : flat_map v_files s <> [] -> main_name s (main_base s).
Proof.
  intros N. unfold main_name, main_base, main_file. destruct (flat_map v_files s) as [|f0 l]; [congruence|]. destruct (biggest_ok l f0) as (i & r & E & A & B). set (f := biggest f0 l) in *.
  set (n := firstn (Z.to_nat 1023) (base_name (rf_name f))). exists i, f, r, n. repeat apply conj; auto.
  - exists (base_name (rf_name f)). split; [apply base_name_part|reflexivity].
  - clearbody n. destruct (strrchr dot n) as [[a e]|] eqn:S.
    + apply strrchr_some in S as (S & x & -> & Nx). unfold dot in *. destruct (length (46%Z :: x) =? 4)%nat eqn:L.
      * apply Nat.eqb_eq in L. cbn [length] in L. left. exists x. repeat apply conj; [exact S|lia|exact Nx].
      * apply Nat.eqb_neq in L. right. split; [reflexivity|]. intros (a' & e' & E' & L' & N'). rewrite S in E'.
        apply (split_last (fun c => c = 46)) in E'; auto; [subst e'; cbn [length] in L; lia| |]; intros c Hc ->; contradiction.
    + apply strrchr_none in S. right. split; [reflexivity|]. intros (a' & e' & E' & _). apply S. rewrite E'. apply in_or_app. right. left. reflexivity.
Qed.
Lemma numbered_ok b k : 1 <= k -> numbered b (try_base b k) k.
Proof. intros K. unfold numbered, try_base. destruct (Z.eqb_spec k 1) as [-> |N]; [left; auto|right; split; [lia|reflexivity]]. Qed.
Lemma numbered_fun b x y k : numbered b x k -> numbered b y k -> x = y.
Proof. intros [[-> ->]|[K ->]] [[K' ->]|[K' ->]]; try lia; reflexivity. Qed.
Lemma taken_iff fs dir base s : Forall fine s -> taken fs dir base s <-> existsb (blocked fs dir base) s = true.
Proof.
  intros F. rewrite Forall_forall in F. rewrite existsb_exists. unfold taken, blocked. split.
  - intros (v & p & c & V & Hp & Nm & I). exists v. split; [exact V|]. rewrite (dest_fun _ _ _ _ (F v V) Hp) in *. apply beqb_neq in Nm. rewrite Nm. cbn [negb andb]. apply is_there_iff. apply (in_map fst) in I. exact I.
  - intros (v & V & H). apply andb_true_iff in H as [H1 H2]. rewrite negb_true_iff in H1. apply beqb_neq in H1. apply is_there_iff in H2. apply in_map_iff in H2 as ([p c] & E & I). cbn in E. subst p.
    exists v, (dest dir base v), c. repeat apply conj; auto. apply dest_ok, F, V.
Qed.

Lemma rename_set_place dir fs s fs' : NoDup (map v_no s) -> Forall fine s -> flat_map v_files s <> [] -> NoDup (paths fs) -> NoDup (map v_name s) -> (forall v, In v s -> In (v_name v) (paths fs)) ->
  rename_set (fun _ _ => true) dir fs s = Some fs' ->
  NoDup (paths fs') /\ (forall p, (forall v, In v s -> v_name v <> p) -> In p (paths fs) -> look fs' p = look fs p) /\
  ((proper s = true /\ fs' = fs) \/
   (proper s = false /\ exists base k, 1 <= k /\ base = try_base (main_base s) k /\ existsb (blocked fs dir base) s = false /\
      (forall j, 1 <= j < k -> existsb (blocked fs dir (try_base (main_base s) j)) s = true) /\
      forall v, In v s -> look fs' (dest dir base v) = look fs (v_name v))).
Proof.
  intros Nn Fi Fl N Nv Hin H. unfold rename_set in H. destruct (proper s) eqn:P; [injection H as <-; auto|].
  destruct (free_base _ _ _ _ _ _) as [base|] eqn:E; [|discriminate]. injection H as <-. destruct (free_base_some _ _ _ _ _ _ _ E) as (k & K & Eb & B & J).
  pose proof (dests_nodup dir base s Nn Fi) as Nd. pose proof (not_blocked _ _ _ _ B) as Nb.
  destruct (renames_ok (fun _ _ => true) dir base s fs N Nd Nb) as (G1 & _ & _ & G4). split; [exact G1|]. split; [exact G4|]. right. split; [reflexivity|].
  exists base, k. repeat apply conj; auto. intros v V. exact (renames_place dir base s fs N Nd Nv Nb Hin v V).
Qed.

Definition placed (dir : list Z) (s : list vol) (fs fs' : disk) : Prop :=
  (proper s = true /\ stays s fs fs') \/ (proper s = false /\ renamed dir s fs fs').
Definition ready (s : list vol) : Prop := NoDup (map v_no s) /\ Forall fine s /\ flat_map v_files s <> [].

Lemma NoDup_app_inv {A} (a b : list A) : NoDup (a ++ b) -> NoDup a /\ NoDup b /\ forall x, In x a -> ~ In x b.
Proof.
  induction a as [|x a IH]; intros H; [repeat apply conj; [constructor|exact H|intros x []]|]. cbn [app] in H. apply NoDup_cons_iff in H as [H1 H2]. destruct (IH H2) as (A1 & A2 & A3). repeat apply conj.
  - constructor; [intros I; apply H1; apply in_or_app; auto|exact A1].
  - exact A2.
  - intros y [<- | Y] I; [apply H1; apply in_or_app; auto|exact (A3 y Y I)].
Qed.
Lemma sets_place dir : forall sets fs fs', (forall s, In s sets -> ready s) -> NoDup (paths fs) -> NoDup (map v_name (concat sets)) -> (forall v, In v (concat sets) -> In (v_name v) (paths fs)) ->
  rename_sets (fun _ _ => true) dir fs sets = Some fs' ->
  (forall p, (forall v, In v (concat sets) -> v_name v <> p) -> In p (paths fs) -> look fs' p = look fs p) /\
  forall s, In s sets -> placed dir s fs fs'.
Proof.
  induction sets as [|s sets IH]; intros fs fs' R N Nv Hin H; cbn [rename_sets] in H; [injection H as <-; split; [auto|intros s []]|].
  destruct (rename_set _ dir fs s) as [f1|] eqn:E; [|discriminate]. destruct (R s (or_introl eq_refl)) as (R1 & R2 & R3). cbn [concat] in Nv, Hin. rewrite map_app in Nv. apply NoDup_app_inv in Nv as (Nv1 & Nv2 & Nv3).
  assert (Hs : forall v, In v s -> In (v_name v) (paths fs)) by (intros v V; apply Hin, in_or_app; auto).
  assert (Hr : forall v, In v (concat sets) -> In (v_name v) (paths fs)) by (intros v V; apply Hin, in_or_app; auto).
  destruct (rename_set_place dir fs s f1 R1 R2 R3 N Nv1 Hs E) as (N1 & O1 & P1).
  assert (Lr : forall v, In v (concat sets) -> look f1 (v_name v) = look fs (v_name v)).
  { intros v V. apply O1; [|exact (Hr v V)]. intros w W Q. apply (Nv3 (v_name w)); [apply in_map, W|]. rewrite Q. apply in_map, V. }
  destruct (IH f1 fs' (fun x X => R x (or_intror X)) N1 Nv2 (fun v V => look_paths _ _ _ (Lr v V) (Hr v V)) H) as (O2 & P2). split.
  - intros p Hp I. cbn [concat] in Hp. assert (L1 : look f1 p = look fs p) by (apply O1; [intros v V; apply Hp, in_or_app; auto|exact I]).
    rewrite O2; [exact L1|intros v V; apply Hp, in_or_app; auto|exact (look_paths _ _ _ L1 I)].
  - intros t [<- | T].
    + destruct P1 as [[P ->]|(P & base & k & K & Eb & B & J & L)].
      * left. split; [exact P|]. intros v V. apply O2; [|exact (Hs v V)]. intros w W Q. apply (Nv3 (v_name v)); [apply in_map, V|]. rewrite <- Q. apply in_map, W.
      * right. split; [exact P|]. exists (main_base s), base, k. split; [exact (main_ok s R3)|]. split; [rewrite Eb; apply numbered_ok, K|]. intros v V. exists (dest dir base v). rewrite Forall_forall in R2. split; [apply dest_ok, R2, V|].
        rewrite <- (L v V). assert (Ip : In (dest dir base v) (paths f1)).
        { specialize (L v V). destruct (look f1 (dest dir base v)) as [c|] eqn:Q; [apply look_in in Q; apply (in_map fst) in Q; exact Q|]. symmetry in L. apply look_none in L. exfalso. exact (L (Hs v V)). }
        apply O2; [|exact Ip]. intros w W Q. destruct (not_blocked _ _ _ _ B v V) as [Nb|Nb].
        -- apply (Nv3 (v_name v)); [apply in_map, V|]. rewrite Nb, <- Q. apply in_map, W.
        -- apply Nb. rewrite <- Q. exact (Hr w W).
    + destruct (P2 t T) as [[P St]|[P (b & base & k & Mn & Nb & L)]].
      * left. split; [exact P|]. intros v V. rewrite (St v V). apply Lr. apply in_concat. exists t. auto.
      * right. split; [exact P|]. exists b, base, k. repeat apply conj; auto. intros v V. destruct (L v V) as (p & Hp & Q). exists p. split; [exact Hp|]. rewrite Q. apply Lr. apply in_concat. exists t. auto.
Qed.
Lemma set_files s : is_set s -> flat_map v_files s <> [].
Proof. intros (_ & (h & r & f & fs & -> & _ & E & _) & _). cbn [flat_map]. rewrite E. discriminate. Qed.

Theorem files_renamed dir vols sets fs fs' : volumes_ok vols -> make_sets vols = Some sets -> NoDup (map v_name (concat sets)) ->
  (forall v, In v vols -> In (v_name v) (paths fs)) -> NoDup (paths fs) -> rename_files (fun _ _ => true) dir vols fs = Some fs' ->
  (forall p c, (forall v, In v (concat sets) -> v_name v <> p) -> In (p, c) fs -> look fs' p = Some c) /\
  forall s new, In s sets -> Forall (fun v => v_new v = new) s ->
    (well_named_but new s /\ stays s fs fs') \/ (~ well_named new s /\ renamed dir s fs fs').
Proof.
  intros V E Nv Hin N H. destruct V as [Sm L]. unfold rename_files in H. rewrite E in H. 
  assert (A : forall s, In s sets -> is_set s /\ incl s vols) by (intros s I; apply (sets_sound vols sets Sm ltac:(lia) E s I)).
  assert (R : forall s, In s sets -> ready s). { intros s I. destruct (A s I) as [A1 A2]. destruct (set_fine vols s (conj Sm L) A1 A2) as (B1 & B2 & _). repeat apply conj; auto. apply set_files, A1. }
  assert (Hc : forall v, In v (concat sets) -> In (v_name v) (paths fs)). { intros v I. apply in_concat in I as (s & I1 & I2). apply Hin. apply (A s I1), I2. }
  destruct (sets_place dir sets fs fs' R N Nv Hc H) as [O P]. split.
  - intros p c Hp I. rewrite O; [apply in_look; assumption|exact Hp|]. apply (in_map fst) in I. exact I.
  - intros s new I Un. destruct (A s I) as [A1 A2]. destruct (set_fine vols s (conj Sm L) A1 A2) as (B1 & B2 & B3). pose proof A1 as (_ & (h & r & _ & _ & Es & _) & _).
    destruct (P s I) as [[Q St]|[Q Re]]; [left|right]; (split; [|assumption]).
    + exact (proper_well new s h r Es Un B2 B3 Q).
    + intros W. rewrite (well_proper new s h r Es Un B2 B3 W) in Q. discriminate.
Qed.
(** One set: the first name that is free. *)
Theorem first_free dir fs s vols fs' : volumes_ok vols -> is_set s -> incl s vols -> NoDup (paths fs) -> NoDup (map v_name s) -> (forall v, In v s -> In (v_name v) (paths fs)) ->
  proper s = false -> rename_set (fun _ _ => true) dir fs s = Some fs' ->
  exists b base k, main_name s b /\ numbered b base k /\ ~ taken fs dir base s /\ (forall j x, 1 <= j < k -> numbered b x j -> taken fs dir x s) /\
    forall v, In v s -> exists p, volume_path dir base v p /\ look fs' p = look fs (v_name v).
Proof.
  intros V A1 A2 N Nv Hin P H. destruct (set_fine vols s V A1 A2) as (B1 & B2 & _).
  destruct (rename_set_place dir fs s fs' B1 B2 (set_files s A1) N Nv Hin H) as (_ & _ & [[Q _]|(_ & base & k & K & Eb & B & J & L)]); [congruence|].
  exists (main_base s), base, k. split; [apply main_ok, set_files, A1|]. split; [rewrite Eb; apply numbered_ok, K|]. split; [rewrite taken_iff, B by exact B2; discriminate|]. split.
  - intros j x Hj Nx. apply taken_iff; [exact B2|]. rewrite (numbered_fun _ _ _ _ Nx (numbered_ok (main_base s) j ltac:(lia))). apply J, Hj.
  - intros v Hv. exists (dest dir base v). rewrite Forall_forall in B2. split; [apply dest_ok, B2, Hv|apply L, Hv].
Qed.
