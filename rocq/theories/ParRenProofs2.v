(** Proofs about the renaming by par2-files: the files checked by their hashes. *)
From Coq Require Import String Permutation.
From Verif Require Import Base NumFmt NameModel NameProofs WildModel WebModel RarSetModel RarSetSpec RarSetProofs RarSetProofs3 ParModel ParRenModel ParRenSpec ParRenProofs.
Open Scope list_scope. Open Scope Z_scope.

(** One file: nothing changes on disk, or it gets the name described. *)
Lemma regular_step can md5 dir hs s n : let a := check_regular can md5 dir (hs, s) n in
  described (fst a) = described hs /\ r_damaged (snd a) = r_damaged s /\ r_missed (snd a) = r_missed s /\
  (snd a = s \/ exists c m, look (r_fs s) (at_dir dir n) = Some c /\ says hs (hash16 md5 c) m /\ is_fragment n m = false /\
     ~ In (at_dir dir m) (paths (r_fs s)) /\ can (at_dir dir n) (at_dir dir m) = true /\
     r_fs (snd a) = rename_file can (r_fs s) (at_dir dir n) (at_dir dir m) /\ r_done (snd a) = r_done s ++ [(at_dir dir n, at_dir dir m)]).
Proof.
  intros a. unfold a, check_regular. destruct (look (r_fs s) (at_dir dir n)) as [c|] eqn:L; [|cbn [fst snd]; auto].
  destruct (find_hash (hash16 md5 c) hs) as [[m hs']|] eqn:F; [|cbn [fst snd]; auto]. cbn [fst snd]. split; [eapply found_described, F|].
  destruct (negb _ && negb _) eqn:G; [|auto]. rewrite andb_true_iff, !negb_true_iff in G. destruct G as [G1 G2].
  destruct (do_rename_flags can s (at_dir dir n) (at_dir dir m)) as [D1 D2]. rewrite D1, D2. split; [reflexivity|]. split; [reflexivity|].
  unfold do_rename. rewrite L. destruct (can (at_dir dir n) (at_dir dir m)) eqn:C; [|left; reflexivity]. right. exists c, m.
  cbn [r_fs r_done]. repeat (split; [first [reflexivity|assumption|eapply find_says, F]|]).
  split. { intros I. apply is_there_iff in I. congruence. } repeat split; auto.
Qed.

Definition regs can md5 dir L a := fold_left (check_regular can md5 dir) L a.
Definition fs_of (a : list fhash * rstate) := r_fs (snd a).

Lemma regs_ok can md5 dir : forall L hs s, NoDup (paths (r_fs s)) -> NoDup L -> (forall n, In n L -> In (at_dir dir n) (paths (r_fs s))) ->
  let a := regs can md5 dir L (hs, s) in
  NoDup (paths (fs_of a)) /\ Permutation (contents (r_fs s)) (contents (fs_of a)) /\ described (fst a) = described hs /\
  r_damaged (snd a) = r_damaged s /\ r_missed (snd a) = r_missed s /\
  (forall p, In p (paths (fs_of a)) -> In p (paths (r_fs s)) \/ exists m h, says hs h m /\ p = at_dir dir m) /\
  (forall p c, look (r_fs s) p = Some c -> look (fs_of a) p = Some c \/
     exists n m, p = at_dir dir n /\ In n L /\ says hs (hash16 md5 c) m /\ is_fragment n m = false /\ look (fs_of a) (at_dir dir m) = Some c) /\
  exists l, r_done (snd a) = r_done s ++ l /\ forall e, In e l -> exists n m h, In n L /\ says hs h m /\ is_fragment n m = false /\ e = (at_dir dir n, at_dir dir m).
Proof.
  induction L as [|n L IH]; intros hs s N NL H.
  { unfold regs, fs_of. cbn [fold_left fst snd]. split; [exact N|]. repeat (split; [first [reflexivity|auto]|]). exists []. rewrite app_nil_r. split; [reflexivity|intros e []]. }
  apply NoDup_cons_iff in NL as [N1 NL]. unfold regs. cbn [fold_left]. pose proof (regular_step can md5 dir hs s n) as St. cbv zeta in St.
  destruct (check_regular can md5 dir (hs, s) n) as [hs1 s1]. cbn [fst snd] in St. destruct St as (D & F1 & F2 & St).
  fold (regs can md5 dir L (hs1, s1)). destruct St as [-> | (c & m & Lk & Sy & Fr & Free & C & E & Dn)].
  - specialize (IH hs1 s N NL (fun x X => H x (or_intror X))). cbv zeta in IH. destruct IH as (A1 & A2 & A3 & A4 & A5 & A6 & A7 & l & A8 & A9).
    split; [exact A1|]. split; [exact A2|]. split; [congruence|]. split; [exact A4|]. split; [exact A5|]. split.
    { intros p P. destruct (A6 p P) as [Q|(m & h & Q & ->)]; [auto|]. right. exists m, h. split; [eapply says_eq; [|exact Q]; auto|reflexivity]. }
    split.
    { intros p c P. destruct (A7 p c P) as [Q|(x & m & -> & X & Sy & Fr & Q)]; [auto|]. 
      right. exists x, m. repeat split; auto; [right; exact X|eapply says_eq; [|exact Sy]; auto]. }
    exists l. split; [exact A8|]. intros e I. destruct (A9 e I) as (x & m & h & X & Sy & Fr & ->). exists x, m, h. repeat split; auto; [right; exact X|eapply says_eq; [|exact Sy]; auto].
  - destruct (rename_facts can (r_fs s) (at_dir dir n) (at_dir dir m) N Free) as (R1 & R2 & R3 & R4 & R5). rewrite <- E in R1, R2, R3, R4, R5.
    assert (L1 : look (r_fs s1) (at_dir dir m) = Some c) by (rewrite R5; [exact Lk|exact C|congruence]).
    assert (H1 : forall x, In x L -> In (at_dir dir x) (paths (r_fs s1))).
    { intros x X. assert (I1 : In (at_dir dir x) (paths (r_fs s))) by (apply H; right; exact X). apply is_there_iff. apply is_there_iff in I1. unfold is_there in *. rewrite R4; [exact I1| |].
      - intros Q. apply at_dir_inj in Q. subst x. contradiction.
      - intros Q. apply Free. rewrite <- Q. apply H. right. exact X. }
    specialize (IH hs1 s1 R1 NL H1). cbv zeta in IH. destruct IH as (A1 & A2 & A3 & A4 & A5 & A6 & A7 & l & A8 & A9).
    assert (Lm : look (fs_of (regs can md5 dir L (hs1, s1))) (at_dir dir m) = Some c).
    { destruct (A7 _ _ L1) as [Q|(x & m2 & Q & X & _)]; [exact Q|]. exfalso. apply Free. rewrite Q. apply H. right. exact X. }
    split; [exact A1|]. split; [etransitivity; eassumption|]. split; [congruence|]. split; [congruence|]. split; [congruence|]. split.
    { intros p P. destruct (A6 p P) as [Q|(m2 & h & Q & ->)]; [destruct (R3 p Q) as [Q2|[-> _]]; [auto|right; exists m, (hash16 md5 c); auto]|].
      right. exists m2, h. split; [eapply says_eq; [|exact Q]; auto|reflexivity]. }
    split.
    { intros p c2 P. destruct (list_eq_dec Z.eq_dec p (at_dir dir n)) as [-> |Dp].
      - rewrite Lk in P. injection P as <-. right. exists n, m. repeat split; auto. left. reflexivity.
      - assert (P1 : look (r_fs s1) p = Some c2). { rewrite R4; [exact P|exact Dp|]. intros ->. apply Free. apply is_there_iff. unfold is_there. rewrite P. reflexivity. }
        destruct (A7 p c2 P1) as [Q|(x & m2 & -> & X & Sy2 & Fr2 & Q)]; [auto|].
        right. exists x, m2. repeat split; auto; [right; exact X|eapply says_eq; [|exact Sy2]; auto]. }
    exists ((at_dir dir n, at_dir dir m) :: l). split; [rewrite A8, Dn, <- app_assoc; reflexivity|]. intros e [<- |I].
    { exists n, m, (hash16 md5 c). repeat split; auto. left. reflexivity. }
    destruct (A9 e I) as (x & m2 & h & X & Sy2 & Fr2 & ->). exists x, m2, h. repeat split; auto; [right; exact X|eapply says_eq; [|exact Sy2]; auto].
Qed.

(** A name that is free is given to a file with the hash. *)
Lemma says_det hs h m m' : hashes_differ hs -> says hs h m -> In (m', h) (described hs) -> m = m'.
Proof.
  intros N A B. apply says_in in A. destruct (in_find hs m h N A) as (x & X). destruct (in_find hs m' h N B) as (y & Y). congruence.
Qed.
Lemma names_det hs m h h' : names_differ hs -> In (m, h) (described hs) -> In (m, h') (described hs) -> h = h'.
Proof.
  unfold names_differ. rewrite <- described_names. induction (described hs) as [|[a b] l IH]; intros N A B; [destruct A|]. cbn [map fst] in N. apply NoDup_cons_iff in N as [N1 N2].
  destruct A as [A|A], B as [B|B].
  - congruence.
  - injection A as -> ->. exfalso. apply N1. apply (in_map fst) in B. exact B.
  - injection B as -> ->. exfalso. apply N1. apply (in_map fst) in A. exact A.
  - apply IH; assumption.
Qed.
Lemma differ_eq hs hs' : described hs' = described hs -> (hashes_differ hs -> hashes_differ hs') /\ (names_differ hs -> names_differ hs').
Proof. intros E. unfold hashes_differ, names_differ. rewrite <- !described_hashes, <- !described_names, E. auto. Qed.
Lemma regs_place can md5 dir : (forall a b, can a b = true) -> forall L hs s, NoDup (paths (r_fs s)) -> NoDup L -> (forall n, In n L -> In (at_dir dir n) (paths (r_fs s))) ->
  hashes_differ hs -> names_differ hs -> forall m h n c, In (m, h) (described hs) -> ~ In (at_dir dir m) (paths (r_fs s)) ->
  In n L -> look (r_fs s) (at_dir dir n) = Some c -> h = hash16 md5 c -> is_fragment n m = false ->
  exists n' c', In n' L /\ look (r_fs s) (at_dir dir n') = Some c' /\ h = hash16 md5 c' /\ look (fs_of (regs can md5 dir L (hs, s))) (at_dir dir m) = Some c'.
Proof.
  intros Can. induction L as [|x L IH]; intros hs s N NL H Hd Nd m h n c Im Free In_ Lk Eh Fr; [destruct In_|].
  apply NoDup_cons_iff in NL as [N1 NL]. unfold regs. cbn [fold_left]. pose proof (regular_step can md5 dir hs s x) as St. cbv zeta in St.
  destruct (check_regular can md5 dir (hs, s) x) as [hs1 s1] eqn:K. cbn [fst snd] in St. destruct St as (D & F1 & F2 & St). fold (regs can md5 dir L (hs1, s1)).
  destruct (differ_eq _ _ D) as [Dh Dn].
  destruct St as [-> | (c0 & m0 & Lk0 & Sy & Fr0 & Free0 & C & E & Dn0)].
  - destruct In_ as [-> |In_].
    { (* it would have been renamed *) exfalso. unfold check_regular in K. rewrite Lk in K. destruct (in_find hs m h Hd Im) as (hs' & Fh). rewrite <- Eh, Fh in K.
      assert (T : is_there (r_fs s) (at_dir dir m) = false) by (apply not_true_iff_false; rewrite is_there_iff; exact Free). rewrite T, Fr in K. cbn [negb andb] in K.
      injection K as _ K. apply (f_equal r_done) in K. unfold do_rename in K. rewrite Lk, Can in K. cbn [r_done] in K. apply (f_equal (@length _)) in K. rewrite app_length in K. cbn [length] in K. lia. }
    destruct (IH hs1 s N NL (fun y Y => H y (or_intror Y)) (Dh Hd) (Dn Nd) m h n c ltac:(rewrite D; exact Im) Free In_ Lk Eh Fr) as (n' & c' & A & B & Ch & Dd).
    exists n', c'. repeat split; auto. right. exact A.
  - destruct (rename_facts can (r_fs s) (at_dir dir x) (at_dir dir m0) N Free0) as (R1 & R2 & R3 & R4 & R5). rewrite <- E in R1, R2, R3, R4, R5.
    assert (L1 : look (r_fs s1) (at_dir dir m0) = Some c0) by (rewrite R5; [exact Lk0|exact C|congruence]).
    assert (H1 : forall y, In y L -> look (r_fs s1) (at_dir dir y) = look (r_fs s) (at_dir dir y)).
    { intros y Y. apply R4; [intros Q; apply at_dir_inj in Q; subst y; contradiction|]. intros Q. apply Free0. rewrite <- Q. apply H. right. exact Y. }
    assert (H2 : forall y, In y L -> In (at_dir dir y) (paths (r_fs s1))).
    { intros y Y. assert (I1 : In (at_dir dir y) (paths (r_fs s))) by (apply H; right; exact Y). apply is_there_iff. apply is_there_iff in I1. unfold is_there in *. rewrite (H1 y Y). exact I1. }
    destruct (list_eq_dec Z.eq_dec m0 m) as [-> |Dm].
    + assert (Eh0 : h = hash16 md5 c0) by (apply (names_det hs m); [exact Nd|exact Im|apply says_in, Sy]).
      exists x, c0. split; [left; reflexivity|]. split; [exact Lk0|]. split; [exact Eh0|].
      destruct (regs_ok can md5 dir L hs1 s1 R1 NL H2) as (_ & _ & _ & _ & _ & _ & A7 & _). destruct (A7 _ _ L1) as [Q|(y & m2 & Q & Y & _)]; [exact Q|].
      exfalso. apply Free. rewrite Q. apply H. right. exact Y.
    + assert (Free1 : ~ In (at_dir dir m) (paths (r_fs s1))).
      { intros Q. destruct (R3 _ Q) as [Q2|[Q2 _]]; [exact (Free Q2)|]. apply at_dir_inj in Q2. congruence. }
      destruct In_ as [-> |In_].
      { exfalso. apply Dm. rewrite Lk in Lk0. injection Lk0 as <-. rewrite <- Eh in Sy. exact (says_det hs h m0 m Hd Sy Im). }
      destruct (IH hs1 s1 R1 NL H2 (Dh Hd) (Dn Nd) m h n c ltac:(rewrite D; exact Im) Free1 In_ ltac:(rewrite H1; assumption) Eh Fr) as (n' & c' & A & B & Ch & Dd).
      exists n', c'. rewrite H1 in B by exact A. repeat split; auto. right. exact A.
Qed.

(** A file described counts as found iff some file has its hash. *)
Lemma find_found h hs m hs' : hashes_differ hs -> find_hash h hs = Some (m, hs') ->
  forall e, In e hs' <-> (e = FHash m h true \/ (In e hs /\ h_hash e <> h)).
Proof.
  intros N H. apply find_hash_some in H as (i & x & r & -> & A & B & F & ->). unfold hashes_differ in N. rewrite map_app in N. cbn [map] in N.
  apply NoDup_remove_2 in N. rewrite A in N. rewrite Forall_forall in F. intros e. rewrite !in_app_iff. cbn [In]. split.
  - intros [E|[E|E]]; [right; auto|left; congruence|right]. split; [auto|]. intros Q. apply N. rewrite <- Q. apply in_or_app. right. apply in_map, E.
  - intros [-> |[[E|[E|E]] Q]]; auto. subst x. contradiction.
Qed.
Lemma differ_found h hs m hs' : hashes_differ hs -> find_hash h hs = Some (m, hs') -> hashes_differ hs'.
Proof. intros N H. apply found_described in H. exact (proj1 (differ_eq _ _ H) N). Qed.
Lemma regs_found can md5 dir : forall L hs s, NoDup (paths (r_fs s)) -> NoDup L -> (forall n, In n L -> In (at_dir dir n) (paths (r_fs s))) -> hashes_differ hs ->
  forall m h, In (FHash m h false) (fst (regs can md5 dir L (hs, s))) <->
    (In (FHash m h false) hs /\ forall n c, In n L -> look (r_fs s) (at_dir dir n) = Some c -> hash16 md5 c <> h).
Proof.
  induction L as [|x L IH]; intros hs s N NL H Hd m h.
  { unfold regs. cbn [fold_left fst]. split; [intros I; split; [exact I|intros n c []]|intros [I _]; exact I]. }
  apply NoDup_cons_iff in NL as [N1 NL]. unfold regs. cbn [fold_left]. pose proof (regular_step can md5 dir hs s x) as St. cbv zeta in St.
  destruct (check_regular can md5 dir (hs, s) x) as [hs1 s1] eqn:K. cbn [fst snd] in St. destruct St as (D & F1 & F2 & St). fold (regs can md5 dir L (hs1, s1)).
  destruct (differ_eq _ _ D) as [Dh Dn].
  assert (P : NoDup (paths (r_fs s1)) /\ (forall y, In y L -> look (r_fs s1) (at_dir dir y) = look (r_fs s) (at_dir dir y))).
  { destruct St as [-> | (c0 & m0 & Lk0 & Sy & Fr0 & Free0 & C & E & Dn0)]; [auto|].
    destruct (rename_facts can (r_fs s) (at_dir dir x) (at_dir dir m0) N Free0) as (R1 & R2 & R3 & R4 & R5). rewrite <- E in R1, R4. split; [exact R1|].
    intros y Y. apply R4; [intros Q; apply at_dir_inj in Q; subst y; contradiction|]. intros Q. apply Free0. rewrite <- Q. apply H. right. exact Y. }
  destruct P as [P1 P2].
  assert (H2 : forall y, In y L -> In (at_dir dir y) (paths (r_fs s1))).
  { intros y Y. assert (I1 : In (at_dir dir y) (paths (r_fs s))) by (apply H; right; exact Y). apply is_there_iff. apply is_there_iff in I1. unfold is_there in *. rewrite (P2 y Y). exact I1. }
  rewrite (IH hs1 s1 P1 NL H2 (Dh Hd) m h).
  assert (Hx : In (FHash m h false) hs1 <-> In (FHash m h false) hs /\ forall c, look (r_fs s) (at_dir dir x) = Some c -> hash16 md5 c <> h).
  { unfold check_regular in K. destruct (look (r_fs s) (at_dir dir x)) as [c|] eqn:Lk.
    - destruct (find_hash (hash16 md5 c) hs) as [[m0 hs']|] eqn:Fh.
      + injection K as <- _. rewrite (find_found _ _ _ _ Hd Fh). split.
        * intros [Q|[Q1 Q2]]; [discriminate|]. split; [exact Q1|]. intros c' Q. injection Q as <-. cbn [h_hash] in Q2. auto.
        * intros [Q1 Q2]. right. split; [exact Q1|]. cbn [h_hash]. intros Q. exact (Q2 c eq_refl (eq_sym Q)).
      + injection K as <- _. apply find_hash_none in Fh. rewrite Forall_forall in Fh. split; [|tauto]. intros Q. split; [exact Q|]. intros c' Qc. injection Qc as <-. intros Q3. exact (Fh _ Q (eq_sym Q3)).
    - injection K as <- _. split; [intros Q; split; [exact Q|discriminate]|tauto]. }
  rewrite Hx. split.
  - intros [[A B] C]. split; [exact A|]. intros n c [<- |I] Lk; [exact (B c Lk)|]. apply (C n c I). rewrite P2; assumption.
  - intros [A B]. split; [split; [exact A|intros c Lk; exact (B x c (or_introl eq_refl) Lk)]|]. intros n c I Lk. rewrite P2 in Lk by exact I. exact (B n c (or_intror I) Lk).
Qed.
