(** Renaming the files of sets. *)
From Coq Require Import String Permutation.
From Verif Require Import Base NumFmt InfoModel NameModel NameProofs WildModel RarModel RarSetModel RarSetSpec RarSetProofs RarSetProofs2.
Open Scope list_scope. Open Scope Z_scope.

(** ** The disk *)
Lemma look_in fs p c : look fs p = Some c -> In (p, c) fs.
Proof.
  induction fs as [|[q d] fs IH]; intros H; [discriminate|]. cbn [look] in H. destruct (beqb p q) eqn:E; [apply beqb_eq in E as ->; injection H as ->; left; reflexivity|right; apply IH, H].
Qed.
Lemma look_none fs p : look fs p = None <-> ~ In p (paths fs).
Proof.
  induction fs as [|[q d] fs IH]; [split; [intros _ []|reflexivity]|]. cbn [look paths map fst]. destruct (beqb p q) eqn:E.
  - apply beqb_eq in E as ->. split; [discriminate|]. intros N. exfalso. apply N. left. reflexivity.
  - apply beqb_neq in E. rewrite IH. split; [intros N [Q|Q]; [congruence|exact (N Q)]|intros N Q; apply N; right; exact Q].
Qed.
Lemma in_look fs p c : NoDup (paths fs) -> In (p, c) fs -> look fs p = Some c.
Proof.
  induction fs as [|[q d] fs IH]; intros N I; [destruct I|]. cbn [paths map fst] in N. apply NoDup_cons_iff in N as [N1 N2]. cbn [look]. destruct I as [I|I].
  - injection I as -> ->. rewrite beqb_refl. reflexivity.
  - destruct (beqb p q) eqn:E; [|apply IH; assumption]. apply beqb_eq in E as ->. exfalso. apply N1. apply (in_map fst) in I. exact I.
Qed.
Lemma is_there_iff fs p : is_there fs p = true <-> In p (paths fs).
Proof.
  unfold is_there. destruct (look fs p) eqn:E; split; try discriminate; try reflexivity.
  - intros _. apply look_in in E. apply (in_map fst) in E. exact E.
  - intros I. apply look_none in E. contradiction.
Qed.
Lemma remove_none p fs : ~ In p (paths fs) -> remove p fs = fs.
Proof.
  induction fs as [|[q d] fs IH]; intros N; [reflexivity|]. cbn [remove filter fst] in *. destruct (beqb p q) eqn:E.
  - apply beqb_eq in E as ->. exfalso. apply N. left. reflexivity.
  - cbn [negb]. fold (remove p fs). rewrite IH; [reflexivity|]. intros I. apply N. right. exact I.
Qed.
Lemma remove_perm p c fs : NoDup (paths fs) -> In (p, c) fs -> Permutation fs ((p, c) :: remove p fs).
Proof.
  induction fs as [|[q d] fs IH]; intros N I; [destruct I|]. cbn [paths map fst] in N. apply NoDup_cons_iff in N as [N1 N2]. cbn [remove filter fst]. destruct I as [I|I].
  - injection I as -> ->. rewrite beqb_refl. cbn [negb]. fold (remove p fs). rewrite remove_none by exact N1. reflexivity.
  - destruct (beqb p q) eqn:E; [apply beqb_eq in E as ->; exfalso; apply N1; apply (in_map fst) in I; exact I|]. cbn [negb]. fold (remove p fs).
    rewrite (IH N2 I) at 1. apply perm_swap.
Qed.
Lemma look_perm fs fs' p : NoDup (paths fs) -> Permutation fs fs' -> look fs p = look fs' p.
Proof.
  intros N P. assert (N' : NoDup (paths fs')) by (eapply Permutation_NoDup; [apply Permutation_map, P|exact N]).
  destruct (look fs p) as [c|] eqn:E.
  - apply look_in in E. symmetry. apply in_look; [exact N'|]. eapply Permutation_in; eassumption.
  - symmetry. apply look_none. apply look_none in E. intros I. apply E. eapply Permutation_in; [symmetry; apply Permutation_map, P|exact I].
Qed.

(** A renaming to a new name. *)
Lemma rename_new can fs s d : NoDup (paths fs) -> ~ In d (paths fs) ->
  let fs' := rename_file can fs s d in
  fs' = fs \/ exists c, look fs s = Some c /\ can s d = true /\ Permutation fs ((s, c) :: remove s fs) /\ Permutation fs' ((d, c) :: remove s fs) /\ ~ In d (paths (remove s fs)) /\ ~ In s (paths (remove s fs)).
Proof.
  intros N D fs'. unfold fs', rename_file. destruct (look fs s) as [c|] eqn:E; [|left; reflexivity]. destruct (can s d) eqn:C; [|left; reflexivity].
  right. exists c. apply look_in in E. pose proof (remove_perm s c fs N E) as P.
  assert (P2 : Permutation (paths fs) (s :: paths (remove s fs))) by (apply (Permutation_map fst) in P; exact P).
  assert (D2 : ~ In d (paths (remove s fs))). { intros I. apply D. eapply Permutation_in; [symmetry; exact P2|]. right. exact I. }
  repeat apply conj; auto.
  - rewrite remove_none by exact D2. reflexivity.
  - apply (Permutation_NoDup P2) in N. apply NoDup_cons_iff in N as [N _]. exact N.
Qed.
Lemma rename_facts can fs s d : NoDup (paths fs) -> ~ In d (paths fs) ->
  let fs' := rename_file can fs s d in
  NoDup (paths fs') /\ Permutation (contents fs) (contents fs') /\ (forall p, In p (paths fs') -> In p (paths fs) \/ (p = d /\ can s d = true)) /\
  (forall p, p <> s -> p <> d -> look fs' p = look fs p) /\
  (can s d = true -> look fs s <> None -> look fs' d = look fs s).
Proof.
  intros N D. pose proof (rename_new can fs s d N D) as H. cbv zeta in *. set (fs' := rename_file can fs s d) in *.
  assert (K : can s d = true -> look fs s <> None -> look fs' d = look fs s).
  { intros C L. unfold fs', rename_file. rewrite C. destruct (look fs s); [|congruence]. cbn [look]. rewrite beqb_refl. reflexivity. }
  destruct H as [E|(c & L & C & P & P' & D2 & S2)].
  - rewrite E in *. repeat apply conj; auto.
  - assert (Pp : Permutation (paths fs) (s :: paths (remove s fs))) by (apply (Permutation_map fst) in P; exact P).
    assert (Pp' : Permutation (paths fs') (d :: paths (remove s fs))) by (apply (Permutation_map fst) in P'; exact P').
    assert (N2 : NoDup (paths (remove s fs))). { apply (Permutation_NoDup Pp) in N. apply NoDup_cons_iff in N as [_ N]. exact N. }
    assert (N' : NoDup (paths fs')). { eapply Permutation_NoDup; [symmetry; exact Pp'|]. constructor; assumption. }
    repeat apply conj; auto.
    + apply (Permutation_map snd) in P. apply (Permutation_map snd) in P'. cbn [map snd] in *. unfold contents. rewrite P, P'. reflexivity.
    + intros p I. apply (Permutation_in _ Pp') in I as [<- | I]; [right; auto|left]. eapply Permutation_in; [symmetry; exact Pp|right; exact I].
    + intros p Ps Pd. rewrite (look_perm fs' _ p N' P'), (look_perm fs _ p N P). cbn [look]. apply beqb_neq in Ps, Pd. rewrite Ps, Pd. reflexivity.
Qed.

(** ** The files of one set *)
Lemma renames_ok can dir base : forall l fs, NoDup (paths fs) -> NoDup (map (dest dir base) l) ->
  (forall v, In v l -> v_name v = dest dir base v \/ ~ In (dest dir base v) (paths fs)) ->
  let fs' := fold_left (rename_one can dir base) l fs in
  NoDup (paths fs') /\ Permutation (contents fs) (contents fs') /\
  (forall p, In p (paths fs') -> In p (paths fs) \/ exists v, In v l /\ p = dest dir base v /\ can (v_name v) p = true) /\
  (forall p, (forall v, In v l -> v_name v <> p) -> In p (paths fs) -> look fs' p = look fs p).
Proof.
  induction l as [|v l IH]; intros fs N D H fs'; [unfold fs'; cbn; auto|]. cbn [fold_left] in fs'. cbn [map] in D. apply NoDup_cons_iff in D as [D1 D2].
  set (fs1 := rename_one can dir base fs v) in *.
  assert (G : NoDup (paths fs1) /\ Permutation (contents fs) (contents fs1) /\ (forall p, In p (paths fs1) -> In p (paths fs) \/ (p = dest dir base v /\ can (v_name v) p = true)) /\
    (forall p, p <> v_name v -> In p (paths fs) -> look fs1 p = look fs p)).
  { unfold fs1, rename_one. destruct (beqb (v_name v) (dest dir base v)) eqn:E; [auto|]. apply beqb_neq in E. destruct (H v (or_introl eq_refl)) as [H0|H0]; [congruence|].
    destruct (rename_facts can fs (v_name v) (dest dir base v) N H0) as (F1 & F2 & F3 & F4 & _). repeat apply conj; auto.
    - intros p I. destruct (F3 p I) as [?|[-> ?]]; auto.
    - intros p Ps I. apply F4; [exact Ps|]. intros ->. contradiction. }
  destruct G as (G1 & G2 & G3 & G4).
  assert (H1 : forall w, In w l -> v_name w = dest dir base w \/ ~ In (dest dir base w) (paths fs1)).
  { intros w W. destruct (H w (or_intror W)) as [Hw|Hw]; [left; exact Hw|right]. intros I. destruct (G3 _ I) as [I2|[I2 _]]; [exact (Hw I2)|]. apply D1. rewrite <- I2. apply in_map, W. }
  destruct (IH fs1 G1 D2 H1) as (I1 & I2 & I3 & I4). fold fs' in I1, I2, I3, I4. repeat apply conj; auto.
  - rewrite G2. exact I2.
  - intros p I. destruct (I3 p I) as [I0|(w & W & ? & ?)]; [|right; exists w; auto using in_cons]. destruct (G3 p I0) as [?|[-> ?]]; [left; assumption|right; exists v; auto using in_eq].
  - intros p Hp I. rewrite <- (G4 p); [|intros ->; exact (Hp v (or_introl eq_refl) eq_refl)|exact I]. apply I4; [intros w W; apply Hp; right; exact W|].
    assert (L : look fs1 p = look fs p) by (apply G4; [intros ->; exact (Hp v (or_introl eq_refl) eq_refl)|exact I]).
    destruct (look fs1 p) as [c|] eqn:Q; [apply look_in in Q; apply (in_map fst) in Q; exact Q|]. symmetry in L. apply look_none in L. contradiction.
Qed.
(** If nothing is refused: where the contents are afterwards. *)
Lemma renames_place dir base : forall l fs, NoDup (paths fs) -> NoDup (map (dest dir base) l) -> NoDup (map v_name l) ->
  (forall v, In v l -> v_name v = dest dir base v \/ ~ In (dest dir base v) (paths fs)) -> (forall v, In v l -> In (v_name v) (paths fs)) ->
  forall v, In v l -> look (fold_left (rename_one (fun _ _ => true) dir base) l fs) (dest dir base v) = look fs (v_name v).
Proof.
  induction l as [|w l IH]; intros fs N D Nn H Hin v V; [destruct V|]. cbn [fold_left]. cbn [map] in D, Nn. apply NoDup_cons_iff in D as [D1 D2]. apply NoDup_cons_iff in Nn as [Nn1 Nn2].
  set (can := fun _ _ : list Z => true) in *. set (fs1 := rename_one can dir base fs w) in *.
  destruct (renames_ok can dir base [w] fs N ltac:(constructor; [intros []|constructor]) ltac:(intros x [<- | []]; apply H; left; reflexivity)) as (G1 & G2 & G3 & G4). cbn [fold_left] in G1, G2, G3, G4. fold fs1 in G1, G2, G3, G4.
  assert (H1 : forall x, In x l -> v_name x = dest dir base x \/ ~ In (dest dir base x) (paths fs1)).
  { intros x W. destruct (H x (or_intror W)) as [Hw|Hw]; [left; exact Hw|right]. intros I. destruct (G3 _ I) as [I2|(y & [<- | []] & I2 & _)]; [exact (Hw I2)|]. apply D1. rewrite <- I2. apply in_map, W. }
  assert (L1 : forall x, In x l -> look fs1 (v_name x) = look fs (v_name x)).
  { intros x X. apply G4; [|apply Hin; right; exact X]. intros y [<- | []] E. apply Nn1. rewrite E. apply in_map, X. }
  assert (Hin1 : forall x, In x l -> In (v_name x) (paths fs1)).
  { intros x X. specialize (L1 x X). pose proof (Hin x (or_intror X)) as I. destruct (look fs1 (v_name x)) as [c|] eqn:Q; [apply look_in in Q; apply (in_map fst) in Q; exact Q|]. symmetry in L1. apply look_none in L1. contradiction. }
  destruct V as [<- | V].
  - assert (E1 : look fs1 (dest dir base w) = look fs (v_name w)).
    { unfold fs1, rename_one. destruct (beqb (v_name w) (dest dir base w)) eqn:E; [apply beqb_eq in E as <-; reflexivity|]. apply beqb_neq in E.
      destruct (H w (or_introl eq_refl)) as [H0|H0]; [congruence|]. destruct (rename_facts can fs (v_name w) (dest dir base w) N H0) as (_ & _ & _ & _ & F). apply F; [reflexivity|].
      intros Q. apply look_none in Q. apply Q, Hin. left. reflexivity. }
    rewrite <- E1. destruct (renames_ok can dir base l fs1 G1 D2 H1) as (_ & _ & _ & I4). apply I4.
    + intros x X Q. destruct (H x (or_intror X)) as [Hx|Hx].
      * apply D1. rewrite <- Q, Hx. apply in_map, X.
      * destruct (H w (or_introl eq_refl)) as [Hw|Hw]; [|apply Hw; rewrite <- Q; apply Hin; right; exact X]. apply Nn1. rewrite Hw, <- Q. apply in_map, X.
    + destruct (look fs1 (dest dir base w)) as [c|] eqn:Q; [apply look_in in Q; apply (in_map fst) in Q; exact Q|]. symmetry in E1. apply look_none in E1. exfalso. apply E1, Hin. left. reflexivity.
  - rewrite (IH fs1 G1 D2 Nn2 H1 Hin1 v V). apply L1, V.
Qed.

(** ** The names differ *)
Lemma ext_inj v w : fine v -> fine w -> ext_of v = ext_of w -> v_no v = v_no w.
Proof.
  intros [V1 V2] [W1 W2] E. unfold ext_of in E.
  assert (Ln : forall n, (9 <= length (new_ext n))%nat). { intros n. unfold new_ext, pad. rewrite !app_length, repeat_length. change (length (str "part")) with 4%nat. change (length (str ".rar")) with 4%nat. lia. }
  destruct (v_new v), (v_new w).
  - unfold new_ext in E. apply app_inv_head in E. apply app_inv_tail in E. apply (f_equal (pdigits 0)) in E. rewrite !pdigits_pad in E by lia. lia.
  - specialize (W2 eq_refl). apply (f_equal (@length Z)) in E. rewrite old_ext_len in E by lia. specialize (Ln (v_no v)). lia.
  - specialize (V2 eq_refl). apply (f_equal (@length Z)) in E. rewrite old_ext_len in E by lia. specialize (Ln (v_no w)). lia.
  - specialize (V2 eq_refl). specialize (W2 eq_refl).
    assert (G : forall n m, 0 <= n <= 14200 -> 0 <= m <= 14200 -> old_ext n = old_ext m -> n = m \/ (1 <= n /\ 1 <= m) \/ False).
    { intros n m Hn Hm Q. destruct (Z.eq_dec n 0) as [-> |Nn]; destruct (Z.eq_dec m 0) as [-> |Nm]; [left; reflexivity| | |right; left; lia].
      - rewrite (old_ext_form m) in Q by lia. injection Q as _ Q. pose proof (pad_digits 2 ((m - 1) mod 100) ltac:(lia)) as F. rewrite <- Q in F. inversion F. lia.
      - rewrite (old_ext_form n) in Q by lia. injection Q as _ Q. pose proof (pad_digits 2 ((n - 1) mod 100) ltac:(lia)) as F. rewrite Q in F. inversion F. lia. }
    destruct (G _ _ (conj V1 V2) (conj W1 W2) E) as [Q|[[Q1 Q2]|[]]]; [exact Q|]. rewrite !old_ext_form in E by lia.
    assert (E1 := f_equal (hd 0) E). assert (E2 := f_equal (@tl Z) E). cbn [hd tl] in E1, E2. apply (f_equal (pdigits 0)) in E2. rewrite !pdigits_pad in E2 by lia. lia.
Qed.
Lemma ext_sep v : fine v -> ~ In 47 (ext_of v) /\ ~ In 92 (ext_of v).
Proof.
  intros [V1 V2]. unfold ext_of. 
  assert (P : forall w n c, 0 <= n -> In c (pad w n) -> 48 <= c <= 57). { intros w n c Hn I. pose proof (pad_digits w n Hn) as F. rewrite Forall_forall in F. exact (F c I). }
  destruct (v_new v).
  - unfold new_ext. split; intros I; apply in_app_or in I as [I|I]; try (vm_compute in I; intuition discriminate); apply in_app_or in I as [I|I]; try (vm_compute in I; intuition discriminate); apply P in I; lia.
  - specialize (V2 eq_refl). destruct (Z.eq_dec (v_no v) 0) as [-> |N]; [split; vm_compute; intuition discriminate|]. rewrite old_ext_form by lia. split; (intros [I|I]; [lia|apply P in I; lia]).
Qed.
Lemma dests_nodup dir base s : NoDup (map v_no s) -> Forall fine s -> NoDup (map (dest dir base) s).
Proof.
  intros N F. induction s as [|v s IH]; [constructor|]. cbn [map] in *. apply NoDup_cons_iff in N as [N1 N2]. inversion F as [|? ? Fv F']; subst. constructor; [|apply IH; assumption].
  intros I. apply in_map_iff in I as (w & E & W). apply N1. rewrite Forall_forall in F'. unfold dest in E. apply app_inv_head in E. injection E as E. apply app_inv_head in E. injection E as E.
  rewrite <- (ext_inj w v (F' w W) Fv E). apply in_map, W.
Qed.

(** ** The search for a name *)
Lemma firstn_len (n : nat) (l : list Z) : (length l <= n)%nat -> firstn n l = l.
Proof. apply firstn_all2. Qed.
Definition suff (j : Z) : list Z := if j =? 1 then [] else str "-" ++ udec j.
Lemma try_base_cut main j : (length main <= Z.to_nat 1023)%nat -> try_base main j = main ++ suff j \/ length (try_base main j) = Z.to_nat 1023.
Proof.
  intros L. unfold try_base, suff. destruct (j =? 1); [left; rewrite app_nil_r; reflexivity|].
  destruct (le_lt_dec (length (main ++ str "-" ++ udec j)) (Z.to_nat 1023)) as [Q|Q]; [left; apply firstn_len, Q|right]. rewrite firstn_length. lia.
Qed.
Lemma cut_at_dot (x x' r r' : list Z) : ~ In 46 x -> ~ In 46 x' -> x ++ 46 :: r = x' ++ 46 :: r' -> x = x'.
Proof.
  revert x'. induction x as [|a x IH]; intros [|b x'] N N' E; cbn [app] in E.
  - reflexivity.
  - injection E as <- _. exfalso. apply N'. left. reflexivity.
  - injection E as -> _. exfalso. apply N. left. reflexivity.
  - injection E as -> E. f_equal. apply IH; [intros I; apply N; right; exact I|intros I; apply N'; right; exact I|exact E].
Qed.
Lemma suff_nodot j : 0 <= j -> ~ In 46 (suff j).
Proof.
  intros J. unfold suff. destruct (j =? 1); [intros []|]. intros [I|I]; [discriminate|]. pose proof (udec_digits j J) as F. rewrite Forall_forall in F. apply F in I. discriminate.
Qed.
Lemma suff_inj i j : 1 <= i -> 1 <= j -> suff i = suff j -> i = j.
Proof.
  intros A B E. unfold suff in E. destruct (Z.eqb_spec i 1) as [-> |]; destruct (Z.eqb_spec j 1) as [-> |]; try discriminate; [reflexivity|].
  apply app_inv_head in E. apply (f_equal (pdigits 0)) in E. rewrite <- (app_nil_r (udec i)), <- (app_nil_r (udec j)), !pdigits_udec in E by (try lia; exact I). exact E.
Qed.
Lemma pigeon (L : list (list Z)) (P : Z -> list Z -> Prop) : (forall i j p, 1 <= i -> 1 <= j -> P i p -> P j p -> i = j) ->
  forall n, (forall j, 1 <= j <= Z.of_nat n -> exists p, In p L /\ P j p) -> (n <= length L)%nat.
Proof.
  intros Inj n H.
  assert (G : forall m, (m <= n)%nat -> exists l, length l = m /\ NoDup l /\ incl l L /\ forall p, In p l -> exists j, 1 <= j <= Z.of_nat m /\ P j p).
  { induction m as [|m IH]; intros Hm; [exists []; repeat apply conj; [reflexivity|constructor|intros x []|intros p []]|].
    destruct IH as (l & Ll & Nl & Il & Pl); [lia|]. destruct (H (Z.of_nat (S m)) ltac:(lia)) as (p & Ip & Pp). exists (p :: l). repeat apply conj.
    - cbn. lia.
    - constructor; [|exact Nl]. intros I. destruct (Pl p I) as (j & J & Pj). assert (Q : Z.of_nat (S m) = j) by (apply (Inj _ _ p); try assumption; lia). lia.
    - intros x [<- | X]; [exact Ip|apply Il, X].
    - intros x [<- | X]; [exists (Z.of_nat (S m)); split; [lia|exact Pp]|]. destruct (Pl x X) as (j & J & Pj). exists j. split; [lia|exact Pj]. }
  destruct (G n (le_n n)) as (l & Ll & Nl & Il & _). rewrite <- Ll. apply NoDup_incl_length; assumption.
Qed.
Lemma free_base_some f fs dir main set : forall num base, free_base f fs dir main set num = Some base ->
  exists k, num <= k /\ base = try_base main k /\ existsb (blocked fs dir base) set = false /\ forall j, num <= j < k -> existsb (blocked fs dir (try_base main j)) set = true.
Proof.
  induction f as [|f IH]; intros num base H; [discriminate|]. cbn [free_base] in H. destruct (existsb _ set) eqn:E.
  - destruct (IH _ _ H) as (k & K & Eb & B & J). exists k. repeat apply conj; auto; [lia|]. intros j Hj. destruct (Z.eq_dec j num) as [-> |N]; [exact E|]. apply J. lia.
  - injection H as <-. exists num. repeat apply conj; auto; [lia|]. intros j Hj. lia.
Qed.
Lemma free_base_none f fs dir main set : forall num, free_base f fs dir main set num = None -> forall j, num <= j < num + Z.of_nat f -> existsb (blocked fs dir (try_base main j)) set = true.
Proof.
  induction f as [|f IH]; intros num H j J; [lia|]. cbn [free_base] in H. destruct (existsb _ set) eqn:E; [|discriminate]. destruct (Z.eq_dec j num) as [-> |N]; [exact E|]. apply (IH _ H). lia.
Qed.
Lemma main_base_len s : (length (main_base s) <= Z.to_nat 1023)%nat.
Proof.
  unfold main_base. set (n := firstn _ _). assert (L : (length n <= Z.to_nat 1023)%nat) by (unfold n; rewrite firstn_length; lia).
  destruct (strrchr dot n) as [[a e]|] eqn:E; [|exact L]. destruct (length e =? 4)%nat; [|exact L]. apply strrchr_some in E as [E _]. rewrite E, app_length in L. lia.
Qed.
Lemma try_base_sep s k c : 0 <= k -> (c = 47 \/ c = 92) -> ~ In c (try_base (main_base s) k).
Proof.
  intros K C I.
  assert (M : ~ In c (main_base s)).
  { unfold main_base. set (n := firstn _ _). assert (Nn : ~ In c n). { unfold n. intros J. assert (J2 : In c (base_name (rf_name (main_file s)))) by (rewrite <- (firstn_skipn (Z.to_nat 1023) (base_name _)); apply in_or_app; left; exact J). destruct (base_name_part (rf_name (main_file s))) as (B1 & B2 & _). destruct C as [-> | ->]; contradiction. }
    destruct (strrchr dot n) as [[a e]|] eqn:E; [|exact Nn]. destruct (length e =? 4)%nat; [|exact Nn]. apply strrchr_some in E as [E _]. intros J. apply Nn. rewrite E. apply in_or_app. left. exact J. }
  unfold try_base in I. destruct (k =? 1); [contradiction|].
  assert (I2 : In c (main_base s ++ str "-" ++ udec k)) by (rewrite <- (firstn_skipn (Z.to_nat 1023)); apply in_or_app; left; exact I).
  apply in_app_or in I2 as [I2|I2]; [contradiction|]. destruct I2 as [I2|I2]; [destruct C as [-> | ->]; discriminate|].
  pose proof (udec_digits k K) as F. rewrite Forall_forall in F. apply F in I2. destruct C as [-> | ->]; discriminate.
Qed.
Lemma dest_part s k dir v : 0 <= k -> fine v -> last_part (dest dir (try_base (main_base s) k) v) (try_base (main_base s) k ++ [46] ++ ext_of v).
Proof.
  intros K F. destruct (ext_sep v F) as [E1 E2].
  assert (A : forall c, c = 47 \/ c = 92 -> ~ In c (try_base (main_base s) k ++ [46] ++ ext_of v)).
  { intros c C I. apply in_app_or in I as [I|I]; [exact (try_base_sep s k c K C I)|]. destruct I as [I|I]; [destruct C as [-> | ->]; discriminate|]. destruct C as [-> | ->]; contradiction. }
  split; [apply A; auto|]. split; [apply A; auto|]. right. exists dir, 47. split; [auto|reflexivity].
Qed.
Lemma free_base_ends fs dir s set : Forall fine set -> short_names fs ->
  free_base (S (length fs)) fs dir (main_base s) set 1 <> None.
Proof.
  intros Fi Hp H. pose proof (free_base_none _ _ _ _ _ _ H) as B. unfold short_names in Hp. rewrite Forall_forall in Hp, Fi. set (main := main_base s) in *.
  assert (K : (S (length fs) <= length (paths fs))%nat).
  { apply (pigeon (paths fs) (fun j p => In p (paths fs) /\ exists v, fine v /\ p = dest dir (try_base main j) v)).
    - intros i j p I1 J1 (Ip & v & Fv & Ev) (_ & w & Fw & Ew).
      assert (Q : forall n x, 1 <= n -> fine x -> p = dest dir (try_base main n) x -> try_base main n = main ++ suff n).
      { intros n x Hn Fx En. destruct (try_base_cut main n (main_base_len s)) as [Q|Q]; [exact Q|]. pose proof (Hp p Ip) as Sh. rewrite En in Sh. specialize (Sh _ (dest_part s n dir x ltac:(lia) Fx)). fold main in Sh.
        unfold zlen in Sh. rewrite app_length, Q in Sh. lia. }
      rewrite (Q i v I1 Fv Ev) in Ev. rewrite (Q j w J1 Fw Ew) in Ew. rewrite Ev in Ew. unfold dest, dot in Ew. apply app_inv_head in Ew. injection Ew as Ew. rewrite <- !app_assoc in Ew. apply app_inv_head in Ew.
      apply suff_inj; [exact I1|exact J1|]. exact (cut_at_dot _ _ _ _ (suff_nodot i ltac:(lia)) (suff_nodot j ltac:(lia)) Ew).
    - intros j J. specialize (B j ltac:(lia)). apply existsb_exists in B as (v & V & B). unfold blocked in B. apply andb_true_iff in B as [_ B]. apply is_there_iff in B. exists (dest dir (try_base main j) v). split; [exact B|]. split; [exact B|]. exists v. split; [exact (Fi v V)|reflexivity]. }
  unfold paths in K. rewrite map_length in K. lia.
Qed.
