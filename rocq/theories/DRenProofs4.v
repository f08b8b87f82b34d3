(** Proofs: which par2-files are downloaded first, when the renaming starts, and the sums (C151, C152). *)
From Coq Require Import String Permutation.
From Coq Require Sorting.Sorted.
From Verif Require Import Base WildModel RarModel RarSetModel ParRenModel ParRenSpec DRenModel DRenSpec.
From Verif Require DRenProofs2.
Open Scope list_scope. Open Scope Z_scope.

(** ** The choice *)

Lemma find_id_in fl f : NoDup (map f_id fl) -> In f fl -> find_id (f_id f) fl = Some f.
Proof.
  induction fl as [|g fl IH]; intros N I; [destruct I|]. cbn [map] in N. apply NoDup_cons_iff in N as [N1 N2]. unfold find_id. cbn [find].
  destruct (Z.eqb_spec (f_id g) (f_id f)) as [E|E].
  - destruct I as [-> |I]; [reflexivity|]. exfalso. apply N1. rewrite E. apply in_map, I.
  - destruct I as [-> |I]; [congruence|]. apply IH; assumption.
Qed.
Lemma find_id_some fl id f : find_id id fl = Some f -> In f fl /\ f_id f = id.
Proof. intros H. apply find_some in H as (I & E). apply Z.eqb_eq in E. auto. Qed.
Lemma same_id fl f g : NoDup (map f_id fl) -> In f fl -> In g fl -> f_id f = f_id g -> f = g.
Proof. intros N I J E. pose proof (find_id_in _ _ N I) as A. rewrite E, (find_id_in _ _ N J) in A. injection A as ->. reflexivity. Qed.

Lemma before_weak fl : weak_order (before fl).
Proof.
  split.
  - intros a b. unfold before. destruct (find_id (f_id a) fl), (find_id (f_id b) fl); intros; try reflexivity; try discriminate. lia.
  - intros a b c. unfold before. destruct (find_id (f_id a) fl), (find_id (f_id b) fl), (find_id (f_id c) fl); intros; try reflexivity; try discriminate. lia.
Qed.

(** There is such a sorting: by insertion. *)
Fixpoint insert (lt : dfile -> dfile -> bool) (x : dfile) (l : list dfile) : list dfile :=
  match l with [] => [x] | y :: r => if lt y x then y :: insert lt x r else x :: y :: r end.
Definition by_insertion (lt : dfile -> dfile -> bool) (l : list dfile) : list dfile := fold_right (insert lt) [] l.
Lemma insert_perm lt x : forall l, Permutation (x :: l) (insert lt x l).
Proof. induction l as [|y l IH]; cbn [insert]; [reflexivity|]. destruct (lt y x); [|reflexivity]. rewrite perm_swap. apply perm_skip, IH. Qed.
Lemma by_insertion_ok : sorter by_insertion.
Proof.
  intros lt l (As & Tr).
  assert (P : forall l, Permutation l (by_insertion lt l)).
  { induction l0 as [|x r IH]; cbn [by_insertion fold_right]; [reflexivity|]. rewrite <- insert_perm. apply perm_skip, IH. }
  split; [apply P|].
  assert (Q : forall l, Sorted.StronglySorted (fun a b => lt b a = false) l -> forall x, Sorted.StronglySorted (fun a b => lt b a = false) (insert lt x l)).
  { induction l0 as [|y r IH]; intros H x; cbn [insert]; [constructor; constructor|]. inversion H as [|? ? Hr Fy]; subst. destruct (lt y x) eqn:E.
    - constructor; [apply IH, Hr|]. rewrite Forall_forall in *. intros z Iz. apply (Permutation_in z (Permutation_sym (insert_perm lt x r))) in Iz as [<- |Iz]; [apply As, E|apply Fy, Iz].
    - constructor; [exact H|]. constructor; [exact E|]. rewrite Forall_forall in *. intros z Iz. apply (Tr z y x); [apply Fy, Iz|exact E]. }
  assert (St : Sorted.StronglySorted (fun a b => lt b a = false) (by_insertion lt l)).
  { induction l as [|x r IH]; cbn [by_insertion fold_right]; [constructor|]. apply Q, IH. }
  induction St as [|x r Hr IH Fx]; intros i j a b L Ei Ej; [destruct i; discriminate Ei|].
  destruct j as [|j]; [lia|]. destruct i as [|i].
  - injection Ei as <-. cbn [nth_error] in Ej. apply nth_error_In in Ej. rewrite Forall_forall in Fx. apply Fx, Ej.
  - apply (IH i j a b); [lia|exact Ei|exact Ej].
Qed.

Lemma choose_iff fl : forall l sets id, In id (choose fl sets l) <->
  exists a f b, l = a ++ f :: b /\ f_id f = id /\ ~ In (f_set f) sets /\ (forall g, In g a -> f_set g <> f_set f) /\ find_id id fl <> None.
Proof.
  induction l as [|f l IH]; intros sets id.
  - cbn [choose]. split; [intros []|]. intros (a & f & b & E & _). destruct a; discriminate E.
  - cbn [choose]. destruct (existsb (beqb (f_set f)) sets) eqn:X.
    + assert (Is : In (f_set f) sets) by (apply existsb_exists in X as (x & I & E); apply beqb_eq in E as ->; exact I).
      rewrite IH. split.
      * intros (a & g & b & -> & Ei & Ns & Fa & Fd). exists (f :: a), g, b. split; [reflexivity|]. split; [exact Ei|]. split; [exact Ns|]. split; [|exact Fd].
        intros h [<- |H]; [intros Q; rewrite Q in Is; contradiction|exact (Fa h H)].
      * intros (a & g & b & E & Ei & Ns & Fa & Fd). destruct a as [|x a]; [injection E as -> ->; contradiction|]. injection E as <- ->.
        exists a, g, b. split; [reflexivity|]. split; [exact Ei|]. split; [exact Ns|]. split; [|exact Fd]. intros h H. apply Fa. right. exact H.
    + assert (Nf : ~ In (f_set f) sets).
      { intros Q. assert (T : existsb (beqb (f_set f)) sets = true) by (apply existsb_exists; exists (f_set f); split; [exact Q|apply beqb_refl]). congruence. }
      rewrite in_app_iff, IH. split.
      * intros [Q|(a & g & b & -> & Ei & Ns & Fa & Fd)].
        -- destruct (find_id (f_id f) fl) eqn:Ef; [|destruct Q]. destruct Q as [Q|[]]. exists [], f, l. split; [reflexivity|]. split; [exact Q|]. split; [exact Nf|].
           split; [intros g []|]. rewrite <- Q, Ef. discriminate.
        -- exists (f :: a), g, b. split; [reflexivity|]. split; [exact Ei|]. split; [intros Q; apply Ns, in_or_app; left; exact Q|]. split; [|exact Fd].
           intros h [<- |H]; [intros Q; apply Ns, in_or_app; right; left; exact Q|exact (Fa h H)].
      * intros (a & g & b & E & Ei & Ns & Fa & Fd). destruct a as [|x a].
        -- injection E as <- <-. left. rewrite Ei. destruct (find_id id fl); [left; reflexivity|contradiction].
        -- injection E as <- ->. right. exists a, g, b. split; [reflexivity|]. split; [exact Ei|]. split.
           { intros Q. apply in_app_or in Q as [Q|[Q|[]]]; [exact (Ns Q)|]. exact (Fa f (or_introl eq_refl) Q). }
           split; [|exact Fd]. intros h H. apply Fa. right. exact H.
Qed.

Lemma first_occ (P : dfile -> bool) : forall l f, In f l -> P f = true -> exists a g b, l = a ++ g :: b /\ P g = true /\ forall h, In h a -> P h = false.
Proof.
  induction l as [|x l IH]; intros f I E; [destruct I|]. destruct (P x) eqn:Px.
  - exists [], x, l. split; [reflexivity|]. split; [exact Px|intros h []].
  - destruct I as [-> |I]; [congruence|]. destruct (IH f I E) as (a & g & b & -> & Pg & F). exists (x :: a), g, b. split; [reflexivity|]. split; [exact Pg|].
    intros h [<- |H]; [exact Px|exact (F h H)].
Qed.

Definition picks sort (fl dl : list dfile) : list Z :=
  let l := sort (before fl) (filter f_par (fl ++ dl)) in choose fl (map f_set (filter f_done l)) l.

Lemma picked sort fl dl f : sorter sort -> proper fl dl -> In f fl -> In (f_id f) (picks sort fl dl) ->
  smallest (f_set f) fl dl f /\ forall g, In g fl -> in_set (f_set f) g -> In (f_id g) (picks sort fl dl) -> g = f.
Proof.
  intros So (N & Fl & Dl) If Ip. unfold picks in *. destruct (So (before fl) (filter f_par (fl ++ dl)) (before_weak fl)) as (Pm & Od).
  set (l := sort (before fl) (filter f_par (fl ++ dl))) in *.
  assert (Il : forall g, In g l <-> f_par g = true /\ (In g fl \/ In g dl)).
  { intros g. split.
    - intros G. apply Permutation_sym in Pm. apply (Permutation_in _ Pm) in G. apply filter_In in G as (G & P). apply in_app_or in G. auto.
    - intros (P & G). apply (Permutation_in _ Pm). apply filter_In. split; [apply in_or_app; exact G|exact P]. }
  assert (Dn : forall g, In g (map f_set (filter f_done l)) \/ ~ In g (map f_set (filter f_done l))).
  { intros g. destruct (in_dec (list_eq_dec Z.eq_dec) g (map f_set (filter f_done l))); auto. }
  assert (Key : forall h, In h fl -> In (f_id h) (choose fl (map f_set (filter f_done l)) l) -> exists a b, l = a ++ h :: b /\ ~ In (f_set h) (map f_set (filter f_done l)) /\ forall g, In g a -> f_set g <> f_set h).
  { intros h Ih Q. apply choose_iff in Q as (a & g & b & E & Ei & Ns & Fa & _). assert (Ig : In g l) by (rewrite E; apply in_or_app; right; left; reflexivity).
    pose proof (proj1 (Il g) Ig) as (Pg & [Gf|Gd]).
    - assert (g = h) as -> by (apply (same_id fl); auto). eauto.
    - exfalso. apply Ns. apply in_map, filter_In. split; [exact Ig|apply Dl, Gd]. }
  destruct (Key f If Ip) as (a & b & E & Ns & Fa).
  assert (Pf : f_par f = true) by (apply Il; rewrite E; apply in_or_app; right; left; reflexivity).
  split.
  - split; [split; [exact Pf|reflexivity]|]. split.
    + intros g Gd (Pg & Sg). apply Ns. rewrite <- Sg. apply in_map, filter_In. split; [apply Il; auto|apply Dl, Gd].
    + intros g Gf (Pg & Sg). assert (Ig : In g l) by (apply Il; auto). rewrite E in Ig. apply in_app_or in Ig as [Ig|[<- |Ig]]; [exfalso; exact (Fa g Ig Sg)|lia|].
      apply In_nth_error in Ig as (j & Ej).
      assert (B : before fl g f = false).
      { apply (Od (length a) (length a + S j)%nat f g); [lia| |].
        - rewrite E, nth_error_app2 by lia. rewrite Nat.sub_diag. reflexivity.
        - rewrite E, nth_error_app2 by lia. replace (length a + S j - length a)%nat with (S j) by lia. exact Ej. }
      unfold before in B. rewrite (find_id_in _ _ N Gf), (find_id_in _ _ N If) in B. apply Z.ltb_ge in B. exact B.
  - intros g Gf (Pg & Sg) Q. destruct (Key g Gf Q) as (a2 & b2 & E2 & _ & Fa2).
    assert (N1 : nth_error l (length a) = Some f) by (rewrite E, nth_error_app2, Nat.sub_diag by lia; reflexivity).
    assert (N2 : nth_error l (length a2) = Some g) by (rewrite E2, nth_error_app2, Nat.sub_diag by lia; reflexivity).
    destruct (Nat.lt_trichotomy (length a) (length a2)) as [L|[L|L]].
    + exfalso. rewrite E2, nth_error_app1 in N1 by exact L. apply nth_error_In in N1. exact (Fa2 f N1 (eq_sym Sg)).
    + congruence.
    + exfalso. rewrite E, nth_error_app1 in N2 by exact L. apply nth_error_In in N2. exact (Fa g N2 Sg).
Qed.

Lemma some_picked sort fl dl set : sorter sort -> proper fl dl -> (exists g, In g fl /\ in_set set g) -> (forall g, In g dl -> ~ in_set set g) ->
  exists f, In f fl /\ in_set set f /\ In (f_id f) (picks sort fl dl).
Proof.
  intros So (N & Fl & Dl) (g & Ig & Pg & Sg) Nd. unfold picks. destruct (So (before fl) (filter f_par (fl ++ dl)) (before_weak fl)) as (Pm & _).
  set (l := sort (before fl) (filter f_par (fl ++ dl))) in *.
  assert (Il : forall g, In g l <-> f_par g = true /\ (In g fl \/ In g dl)).
  { intros h. split.
    - intros G. apply Permutation_sym in Pm. apply (Permutation_in _ Pm) in G. apply filter_In in G as (G & P). apply in_app_or in G. auto.
    - intros (P & G). apply (Permutation_in _ Pm). apply filter_In. split; [apply in_or_app; exact G|exact P]. }
  assert (Gl : In g l) by (apply Il; auto).
  destruct (first_occ (fun h => beqb (f_set h) set) l g Gl) as (a & f & b & E & Ef & Fa); [rewrite Sg; apply beqb_refl|]. apply beqb_eq in Ef.
  assert (Fl2 : In f l) by (rewrite E; apply in_or_app; right; left; reflexivity). apply Il in Fl2 as (Pf & [Ff|Fd]); [|exfalso; apply (Nd f Fd); split; assumption].
  exists f. split; [exact Ff|]. split; [split; assumption|]. apply choose_iff. exists a, f, b. split; [exact E|]. split; [reflexivity|]. split.
  - intros Q. apply in_map_iff in Q as (h & Eh & Ih). apply filter_In in Ih as (Ih & Dh). apply Il in Ih as (Ph & [Hf|Hd]); [rewrite (Fl h Hf) in Dh; discriminate|].
    apply (Nd h Hd). split; [exact Ph|congruence].
  - split; [|rewrite (find_id_in _ _ N Ff); discriminate]. intros h Ih Q. pose proof (Fa h Ih) as R. rewrite Q, Ef in R. rewrite beqb_refl in R. discriminate.
Qed.

Lemma picked_b sort fl dl f : existsb (Z.eqb (f_id f)) (picks sort fl dl) = true <-> In (f_id f) (picks sort fl dl).
Proof. split; [intros H; apply existsb_exists in H as (x & I & E); apply Z.eqb_eq in E as ->; exact I|intros H; apply existsb_exists; exists (f_id f); split; [exact H|apply Z.eqb_refl]]. Qed.
Lemma unpause_map sort fl dl : unpause_pars sort fl dl = map (raise (picks sort fl dl)) fl.
Proof. reflexivity. Qed.
Lemma raise_raised sort fl dl f : In (f_id f) (picks sort fl dl) -> raised f (raise (picks sort fl dl) f).
Proof. intros H. unfold raise. rewrite (proj2 (picked_b sort fl dl f) H). repeat split. Qed.
Lemma raise_other sort fl dl f : ~ In (f_id f) (picks sort fl dl) -> raise (picks sort fl dl) f = f.
Proof. intros H. unfold raise. destruct (existsb (Z.eqb (f_id f)) (picks sort fl dl)) eqn:E; [apply picked_b in E; contradiction|reflexivity]. Qed.

(** Files are left or, if smallest of a set without completed file, raised; of each such set exactly one. *)
Theorem chosen sort fl dl : sorter sort -> proper fl dl ->
  length (unpause_pars sort fl dl) = length fl /\
  (forall i f f', nth_error fl i = Some f -> nth_error (unpause_pars sort fl dl) i = Some f' -> f' = f \/ smallest (f_set f) fl dl f /\ raised f f') /\
  (forall set, (exists g, In g fl /\ in_set set g) -> (forall g, In g dl -> ~ in_set set g) ->
     exists i f f', nth_error fl i = Some f /\ nth_error (unpause_pars sort fl dl) i = Some f' /\ in_set set f /\ raised f f' /\
       forall j g g', nth_error fl j = Some g -> nth_error (unpause_pars sort fl dl) j = Some g' -> in_set set g -> j <> i -> g' = g).
Proof.
  intros So Pr. pose proof Pr as (N & Fl & Dl). rewrite unpause_map. split; [apply map_length|]. split.
  - intros i f f' E E'. rewrite nth_error_map, E in E'. injection E' as <-. pose proof (nth_error_In _ _ E) as If.
    destruct (in_dec Z.eq_dec (f_id f) (picks sort fl dl)) as [Q|Q]; [right|left; apply raise_other, Q].
    split; [apply (picked sort fl dl f So Pr If Q)|apply raise_raised, Q].
  - intros set Ex Nd. destruct (some_picked sort fl dl set So Pr Ex Nd) as (f & If & (Pf & Sf) & Q). pose proof (In_nth_error _ _ If) as (i & Ei).
    exists i, f, (raise (picks sort fl dl) f). split; [exact Ei|]. split; [rewrite nth_error_map, Ei; reflexivity|]. split; [split; assumption|]. split; [apply raise_raised, Q|].
    intros j g g' Ej Ej' (Pg & Sg) Nj. rewrite nth_error_map, Ej in Ej'. injection Ej' as <-. apply raise_other. intros Qg.
    assert (g = f) as -> by (apply (proj2 (picked sort fl dl f So Pr If Q)); [apply (nth_error_In _ _ Ej)|split; congruence|exact Qg]).
    apply Nj. apply (proj1 (NoDup_nth_error (map f_id fl)) N).
    + rewrite map_length. apply nth_error_Some. congruence.
    + rewrite !nth_error_map, Ei, Ej. reflexivity.
Qed.

(** ** When the renaming starts *)

Lemma known_iff f : known f = true <-> first_known f.
Proof.
  unfold known, first_known. rewrite andb_true_iff, !negb_true_iff, andb_false_iff. split.
  - intros (A & B). split; [destruct (f_hash f); [discriminate A|discriminate]|]. intros P. destruct B as [B|B]; [congruence|]. destruct (f_set f); [discriminate B|discriminate].
  - intros (A & B). split; [destruct (f_hash f); [contradiction|reflexivity]|]. destruct (f_par f); [right; destruct (f_set f); [exfalso; apply (B eq_refl); reflexivity|reflexivity]|left; reflexivity].
Qed.
Lemma all_known l : forallb known l = true <-> Forall first_known l.
Proof. rewrite forallb_forall, Forall_forall. split; intros H f I; apply known_iff, H, I. Qed.

Lemma check_ready sort n : ready n -> let fl := if n_waiting n then n_files n else unpause_pars sort (n_files n) (n_done n) in
  let start := negb (n_loading n) && negb (existsb f_extra fl) in
  check_state sort n = (DNzb (n_status n) true (n_loading n || start) fl (n_done n) (n_psize n) (n_psucc n) (n_pfail n) (n_pmiss n) (n_pcount n), start).
Proof.
  intros (St & A & B). unfold check_state, tsRunning. destruct (1 <? n_status n) eqn:X; [lia|]. apply all_known in A, B. rewrite A, B. reflexivity.
Qed.
Lemma check_not sort n : ~ ready n -> check_state sort n = (n, false).
Proof.
  intros H. unfold check_state, tsRunning. destruct (1 <? n_status n) eqn:X; [reflexivity|].
  destruct (forallb known (n_files n)) eqn:A; [|reflexivity]. destruct (forallb known (n_done n)) eqn:B; [|reflexivity].
  exfalso. apply H. apply all_known in A, B. split; [lia|split; assumption].
Qed.
Lemma ready_dec n : ready n \/ ~ ready n.
Proof.
  destruct (1 <? n_status n) eqn:X; [right; intros (A & _); lia|]. destruct (forallb known (n_files n)) eqn:A; [|right; intros (_ & Q & _); apply all_known in Q; congruence].
  destruct (forallb known (n_done n)) eqn:B; [|right; intros (_ & _ & Q); apply all_known in Q; congruence]. left. apply all_known in A, B. split; [lia|split; assumption].
Qed.

Theorem start_iff sort n : sorter sort -> proper (n_files n) (n_done n) ->
  (snd (check_state sort n) = true <->
    ready n /\ n_loading n = false /\ (forall f, In f (n_files n) -> f_extra f = false) /\
    (n_waiting n = false -> forall f, In f (n_files n) -> f_par f = true -> exists g, In g (n_done n) /\ in_set (f_set f) g)).
Proof.
  intros So Pr. destruct (ready_dec n) as [R|R]; [|rewrite (check_not sort n R); split; [discriminate|intros (Q & _); contradiction]].
  rewrite (check_ready sort n R). cbv zeta. cbn [snd]. rewrite andb_true_iff, !negb_true_iff.
  destruct (chosen sort (n_files n) (n_done n) So Pr) as (Ln & Each & Some1). split.
  - intros (L & X). split; [exact R|]. split; [exact L|].
    assert (Nx : forall f, In f (if n_waiting n then n_files n else unpause_pars sort (n_files n) (n_done n)) -> f_extra f = false).
    { intros f I. destruct (f_extra f) eqn:E; [|reflexivity]. rewrite <- X. symmetry. apply existsb_exists. eauto. }
    clear X. destruct (n_waiting n); [split; [exact Nx|discriminate]|]. split.
    + intros f I. apply In_nth_error in I as (i & E). destruct (nth_error (unpause_pars sort (n_files n) (n_done n)) i) as [f'|] eqn:E'.
      * pose proof (Nx f' (nth_error_In _ _ E')) as Q. destruct (Each i f f' E E') as [-> |(_ & _ & Q2 & _)]; [exact Q|congruence].
      * apply nth_error_None in E'. rewrite Ln in E'. apply nth_error_None in E'. congruence.
    + intros _ f I Pf. destruct (existsb (fun g => f_par g && beqb (f_set g) (f_set f)) (n_done n)) eqn:Ex.
      * apply existsb_exists in Ex as (g & Ig & Q). apply andb_true_iff in Q as (Pg & Sg). apply beqb_eq in Sg. exists g. split; [exact Ig|]. split; assumption.
      * exfalso. destruct (Some1 (f_set f)) as (i & h & h' & Eh & Eh' & _ & (_ & Q & _) & _).
        { exists f. split; [exact I|split; [exact Pf|reflexivity]]. }
        { intros g Ig (Pg & Sg). assert (T : existsb (fun g => f_par g && beqb (f_set g) (f_set f)) (n_done n) = true); [|congruence].
          apply existsb_exists. exists g. split; [exact Ig|]. rewrite Pg, Sg. apply beqb_refl. }
        rewrite (Nx h' (nth_error_In _ _ Eh')) in Q. discriminate.
  - intros (_ & L & Nx & Al). split; [exact L|]. apply not_true_is_false. intros X. apply existsb_exists in X as (f' & I & E).
    destruct (n_waiting n); [rewrite (Nx f' I) in E; discriminate|]. apply In_nth_error in I as (i & Ei). destruct (nth_error (n_files n) i) as [f|] eqn:Ef.
    + pose proof (nth_error_In _ _ Ef) as If. destruct (Each i f f' Ef Ei) as [-> |((Is & Nd & _) & _)]; [rewrite (Nx f If) in E; discriminate|].
      destruct (Al eq_refl f If (proj1 Is)) as (g & Ig & Q). exact (Nd g Ig Q).
    + apply nth_error_None in Ef. rewrite <- Ln in Ef. apply nth_error_None in Ef. congruence.
Qed.

(** Once. *)
Lemma check_load sort n : n_loading (fst (check_state sort n)) = n_loading n || snd (check_state sort n).
Proof.
  unfold check_state. destruct (tsRunning <? n_status n); [cbn; symmetry; apply orb_false_r|].
  destruct (negb (forallb known (n_files n)) || negb (forallb known (n_done n))); [cbn; symmetry; apply orb_false_r|]. reflexivity.
Qed.
Lemma check_loaded sort n : n_loading n = true -> snd (check_state sort n) = false.
Proof.
  intros H. unfold check_state. destruct (tsRunning <? n_status n); [reflexivity|].
  destruct (negb (forallb known (n_files n)) || negb (forallb known (n_done n))); [reflexivity|]. rewrite H. reflexivity.
Qed.
Lemma step_load sort e n : n_loading (fst (d_step sort e n)) = n_loading n || snd (d_step sort e n) /\ (n_loading n = true -> snd (d_step sort e n) = false).
Proof.
  destruct e as [id hash par set large|id completed|id p|]; cbn [d_step].
  - unfold article_done. destruct (find_id id (n_files n)); [|cbn; rewrite orb_false_r; split; auto]. cbv zeta. rewrite check_load. split; [reflexivity|]. intros H. apply check_loaded, H.
  - unfold file_done. destruct (find_id id (n_files n)); [|cbn; rewrite orb_false_r; split; auto]. cbv zeta.
    match goal with |- context [check_state sort ?m] => pose proof (check_load sort m) as A; pose proof (check_loaded sort m) as B; destruct (check_state sort m) as (n1, b) eqn:E end.
    cbn [fst snd] in *. cbn [set_files n_loading] in *. split; [exact A|exact B].
  - cbn. rewrite orb_false_r. split; auto.
  - cbn. rewrite orb_false_r. split; auto.
Qed.
Theorem once sort : forall es n, 0 <= snd (d_run sort es n) <= (if n_loading n then 0 else 1).
Proof.
  induction es as [|e es IH]; intros n; cbn [d_run]; [cbn; destruct (n_loading n); lia|].
  destruct (step_load sort e n) as (A & B). destruct (d_step sort e n) as (n1, b) eqn:E. cbn [fst snd] in *. specialize (IH n1). destruct (d_run sort es n1) as (n2, k). cbn [fst snd] in *.
  rewrite A in IH. destruct (n_loading n); [rewrite (B eq_refl) in *; cbn [orb] in *; lia|]. cbn [orb] in *. destruct b; lia.
Qed.

(** ** The sums *)

Lemma par_sum_map g h : (forall f, f_par (h f) = f_par f /\ g (h f) = g f) -> forall l, par_sum g (map h l) = par_sum g l.
Proof. intros H. induction l as [|f l IH]; [reflexivity|]. unfold par_sum in *. cbn [map fold_right]. rewrite IH. destruct (H f) as (-> & ->). reflexivity. Qed.
Lemma raise_same ids f : f_par (raise ids f) = f_par f /\ f_size (raise ids f) = f_size f /\ f_succ (raise ids f) = f_succ f /\ f_fail (raise ids f) = f_fail f /\ f_miss (raise ids f) = f_miss f.
Proof. unfold raise. destruct (existsb (Z.eqb (f_id f)) ids); repeat split. Qed.

Definition plain (g : dfile -> Z) : Prop := forall ids f, g (raise ids f) = g f.
Lemma check_sum sort n g : plain g -> par_sum g (n_files (fst (check_state sort n))) = par_sum g (n_files n).
Proof.
  intros H. unfold check_state. destruct (tsRunning <? n_status n); [reflexivity|]. destruct (negb (forallb known (n_files n)) || negb (forallb known (n_done n))); [reflexivity|].
  cbn [fst n_files]. destruct (n_waiting n); [reflexivity|]. rewrite unpause_map. apply par_sum_map. intros f. split; [apply raise_same|apply H].
Qed.
Lemma check_same sort n : let n' := fst (check_state sort n) in
  n_psize n' = n_psize n /\ n_psucc n' = n_psucc n /\ n_pfail n' = n_pfail n /\ n_pmiss n' = n_pmiss n /\ n_pcount n' = n_pcount n.
Proof.
  unfold check_state. destruct (tsRunning <? n_status n); [repeat split|]. destruct (negb (forallb known (n_files n)) || negb (forallb known (n_done n))); repeat split.
Qed.
Lemma set_sum g id hash par set : (forall f, g (set_first f hash par set) = g f) -> forall l f, NoDup (map f_id l) -> find_id id l = Some f ->
  par_sum g (map (fun h => if f_id h =? id then set_first h hash par set else h) l) =
  par_sum g l + g f * (if Bool.eqb (f_par f) par then 0 else if par then 1 else -1).
Proof.
  intros H. induction l as [|h l IH]; intros f N E; [discriminate E|]. cbn [map] in N. apply NoDup_cons_iff in N as (N1 & N2). unfold find_id in E. cbn [find] in E. unfold par_sum. cbn [map fold_right].
  destruct (Z.eqb_spec (f_id h) id) as [Q|Q].
  - injection E as ->. assert (M : map (fun h => if f_id h =? id then set_first h hash par set else h) l = l).
    { rewrite <- (map_id l) at 2. apply map_ext_in. intros x Ix. destruct (Z.eqb_spec (f_id x) id) as [R|R]; [|reflexivity]. exfalso. apply N1. rewrite Q, <- R. apply in_map, Ix. }
    rewrite M, H. cbn [set_first f_par]. destruct (f_par f), par; cbn [Bool.eqb]; lia.
  - specialize (IH f N2 E). unfold par_sum in IH. rewrite IH. lia.
Qed.

Theorem sums sort id hash par set large n : NoDup (map f_id (n_files n)) -> let n' := fst (article_done sort id hash par set large n) in
  n_psize n' - par_sum f_size (n_files n') = n_psize n - par_sum f_size (n_files n) /\
  n_psucc n' - par_sum f_succ (n_files n') = n_psucc n - par_sum f_succ (n_files n) /\
  n_pmiss n' - par_sum f_miss (n_files n') = n_pmiss n - par_sum f_miss (n_files n) /\
  n_pfail n' - par_sum (fun f => f_fail f + f_miss f) (n_files n') = n_pfail n - par_sum (fun f => f_fail f + f_miss f) (n_files n) /\
  n_pcount n' - par_sum (fun _ => 1) (n_files n') = n_pcount n - par_sum (fun _ => 1) (n_files n).
Proof.
  intros N. cbv zeta. unfold article_done. destruct (find_id id (n_files n)) as [f|] eqn:E; [|repeat split]. cbv zeta.
  match goal with |- context [check_state sort ?m] => destruct (check_same sort m) as (A1 & A2 & A3 & A4 & A5); pose proof (fun g => check_sum sort m g) as B end.
  rewrite A1, A2, A3, A4, A5. rewrite !B by (intros ids g; destruct (raise_same ids g) as (? & ? & ? & ? & ?); congruence).
  cbn [n_psize n_psucc n_pfail n_pmiss n_pcount n_files]. rewrite !(set_sum _ id _ par set) with (f := f) by (auto; intros; reflexivity).
  destruct (Bool.eqb (f_par f) par), par; lia.
Qed.

(** The article's file: its hash, flag and set; a file paused as par2-file is resumed when it is none. *)
Lemma check_nth sort n i f : nth_error (n_files n) i = Some f -> exists f', nth_error (n_files (fst (check_state sort n))) i = Some f' /\ (f' = f \/ raised f f').
Proof.
  intros E. unfold check_state. destruct (tsRunning <? n_status n); [exists f; auto|]. destruct (negb (forallb known (n_files n)) || negb (forallb known (n_done n))); [exists f; auto|].
  cbn [fst n_files]. destruct (n_waiting n); [exists f; auto|]. rewrite unpause_map, nth_error_map, E. eexists. split; [reflexivity|].
  destruct (in_dec Z.eq_dec (f_id f) (picks sort (n_files n) (n_done n))) as [Q|Q]; [right; apply raise_raised, Q|left; apply raise_other, Q].
Qed.
Theorem article_file sort id hash par set large n i f : nth_error (n_files n) i = Some f -> exists f', nth_error (n_files (fst (article_done sort id hash par set large n))) i = Some f' /\
  (f_id f <> id -> f' = f \/ raised f f') /\
  (f_id f = id -> f_name f' = f_name f /\ f_hash f' = (if large then hash else f_hash f) /\ f_par f' = par /\ f_set f' = (if par then set else f_set f) /\
     (f_par f = true -> par = false -> f_paused f' = false) /\ (f_paused f' = true -> f_paused f = true)).
Proof.
  intros E. unfold article_done. destruct (find_id id (n_files n)) as [f0|] eqn:F.
  - cbv zeta. match goal with |- context [check_state sort ?m] => pose proof (fun f => check_nth sort m i f) as C end. cbn [n_files] in C. rewrite nth_error_map, E in C. cbn [option_map] in C.
    destruct (C _ eq_refl) as (f' & E' & Q). exists f'. split; [exact E'|]. destruct (Z.eqb_spec (f_id f) id) as [R|R]; (split; [intros R2; try contradiction; try exact Q|intros R2; try contradiction]).
    assert (Z1 : let h := set_first f (if large then Some hash else None) par set in f_name h = f_name f /\ f_hash h = (if large then hash else f_hash f) /\ f_par h = par /\ f_set h = (if par then set else f_set f) /\
     (f_par f = true -> par = false -> f_paused h = false) /\ (f_paused h = true -> f_paused f = true)).
    { cbn [set_first f_name f_hash f_par f_set f_paused]. split; [reflexivity|]. split; [destruct large; reflexivity|]. split; [reflexivity|]. split; [reflexivity|].
      split; [intros -> ->; reflexivity|]. destruct (negb (Bool.eqb (f_par f) par) && negb par); [discriminate|auto]. }
    destruct Q as [-> |(Q1 & Q2 & Q3 & Q4 & Q5 & Q6 & Q7 & Q8 & _)]; [exact Z1|]. rewrite Q4, Q6, Q7, Q8, Q1. destruct Z1 as (A1 & A2 & A3 & A4 & _). rewrite A1, A2, A3, A4. repeat split. discriminate.
  - exists f. split; [exact E|]. split; [auto|]. intros R. exfalso. pose proof (find_none _ _ F f (nth_error_In _ _ E)) as Q. cbv beta in Q. rewrite R, Z.eqb_refl in Q. discriminate.
Qed.
