(** Proofs about the renaming by par2-files: when par2-files are renamed, what is missing. *)
From Coq Require Import String Permutation.
From Verif Require Import Base NumFmt NameModel NameSpec NameProofs WildModel WebModel InfoModel RarModel RarSetModel RarSetSpec RarSetProofs RarSetProofs2 RarSetProofs3 ParModel ParSpec ParProofs3 ParRenModel ParRenSpec ParRenProofs ParRenProofs2 ParRenProofs3 ParRenProofs4 ParRenProofs5.
Open Scope list_scope. Open Scope Z_scope.

Lemma lower_46 c : lower c = 46 <-> c = 46.
Proof. unfold lower. destruct ((65 <=? c) && (c <=? 90)) eqn:E; [rewrite andb_true_iff, !Z.leb_le in E|]; lia. Qed.
Lemma par_ext_iff n : par_ext n = true <-> exists a, map lower n = a ++ str ".par2".
Proof.
  unfold par_ext. split.
  - destruct (strrchr dot n) as [[a e]|] eqn:E; [|discriminate]. intros H. apply beqb_eq in H. apply strrchr_some in E as [-> _]. exists (map lower a). rewrite map_app, H. reflexivity.
  - intros (a & H). apply split_lower in H as (x & y & -> & _ & H). destruct y as [|c y]; [discriminate|]. cbn [map] in H. change (str ".par2") with (46 :: str "par2") in H. injection H as Hc Hy. apply (proj1 (lower_46 c)) in Hc. subst c.
    unfold dot. rewrite strrchr_app.
    + apply beqb_eq. cbn [map]. rewrite Hy. reflexivity.
    + intros I. apply (in_map lower) in I. rewrite Hy in I. vm_compute in I. intuition discriminate.
Qed.
Lemma ext_parsed n : fits n -> (6 <= length n)%nat -> par_ext n = true -> exists r, parse_par n true = Some r.
Proof.
  intros Fi L H. apply par_ext_iff in H as (a & H). exists (inner a). eapply parse_app; [exact Fi|reflexivity|exact H|]. intros ->. apply (f_equal (@length Z)) in H. rewrite map_length in H. change (length ([] ++ str ".par2")) with 5%nat in H. lia.
Qed.
Lemma base_ext n b : par_base n b -> par_ext n = true /\ (6 <= length n)%nat \/ length n = 5%nat.
Proof.
  intros [ext v E X _|ext E X N _]; unfold same_text in X.
  - left. rewrite !map_app in X. assert (Lx := f_equal (@length Z) X). rewrite !app_length, !map_length in Lx. change (length (str ".vol")) with 4%nat in Lx. change (length (str ".par2")) with 5%nat in Lx. split.
    + apply par_ext_iff. exists (map lower b ++ map lower (str ".vol") ++ map lower v). rewrite E, map_app, X, <- !app_assoc. reflexivity.
    + rewrite E, app_length. lia.
  - left. assert (Lx := f_equal (@length Z) X). rewrite !map_length in Lx. change (length (str ".par2")) with 5%nat in Lx. split.
    + apply par_ext_iff. exists (map lower b). rewrite E, map_app, X. reflexivity.
    + rewrite E, app_length. destruct b; [congruence|]. cbn [length]. lia.
Qed.
Lemma par_ext_base n : fits n -> (6 <= length n)%nat -> (par_ext n = true <-> exists b, par_base n b).
Proof.
  intros Fi L. split.
  - intros H. destruct (ext_parsed n Fi L H) as ([k c] & E). destruct (parsed_base _ _ _ Fi E) as (b & B & _). eauto.
  - intros (b & B). destruct (base_ext n b B) as [[H _]|H]; [exact H|lia].
Qed.
Lemma base_len_ok len0 n b : fits n -> par_base n b -> base_len len0 n = length b.
Proof. intros Fi B. unfold base_len. destruct (base_parsed _ _ Fi B) as (c & ->). reflexivity. Qed.
Lemma same_base len0 n m b b' : fits n -> fits m -> par_base n b -> par_base m b' ->
  (negb (base_len len0 n =? base_len len0 m)%nat || negb (beqb (map lower (firstn (base_len len0 n) n)) (map lower (firstn (base_len len0 n) m))) = false <-> same_text b b').
Proof.
  intros Fn Fm B B'. rewrite (base_len_ok len0 n b Fn B), (base_len_ok len0 m b' Fm B'). rewrite orb_false_iff, !negb_false_iff, Nat.eqb_eq, beqb_eq, (base_prefix n b B). split.
  - intros [L E]. rewrite L, (base_prefix m b' B') in E. exact E.
  - intros E. unfold same_text in E. assert (L : length b = length b') by (apply (f_equal (@length Z)) in E; rewrite !map_length in E; exact E). split; [exact L|]. rewrite L, (base_prefix m b' B'). exact E.
Qed.
Lemma need_rename_ok len0 : forall l, long_enough l -> (need_rename len0 l = false <-> together l).
Proof.
  induction l as [|[n i] l IH]; intros F.
  { split; [intros _; split; [intros n i []|intros n m i b b' []]|reflexivity]. }
  inversion F as [|? ? [Fn Ln] F']; subst. cbn [fst] in Fn, Ln. cbn [need_rename]. rewrite !orb_false_iff, (IH F'). rewrite negb_false_iff, (par_ext_base n Fn Ln). unfold long_enough in F'. rewrite Forall_forall in F'.
  assert (G : forall b, par_base n b -> forall m b', In (m, i) l -> par_base m b' -> (beqb i i && (negb (base_len len0 n =? base_len len0 m)%nat || negb (beqb (map lower (firstn (base_len len0 n) n)) (map lower (firstn (base_len len0 n) m)))) = false <-> same_text b b')).
  { intros b B m b' I B'. rewrite beqb_refl. cbn [andb]. apply same_base; try assumption. apply (F' (m, i) I). }
  split.
  - intros [[(b & B) Ex] [T1 T2]]. split.
    + intros m j [E|I]; [injection E as <- <-; eauto|eauto].
    + assert (S : forall m c c', In (m, i) l -> par_base n c -> par_base m c' -> same_text c c').
      { intros m c c' I C C'. apply (G c C m c' I C'). apply not_true_iff_false. intros Q. rewrite <- not_true_iff_false, existsb_exists in Ex. apply Ex. exists (m, i). auto. }
      intros x y j c c' [Ex1|Ix] [Ey|Iy] C C'.
      * injection Ex1 as <- <-. injection Ey as <-. destruct (base_parsed _ _ Fn C) as (k & K). destruct (base_parsed _ _ Fn C') as (k' & K'). rewrite K in K'. injection K' as L _. rewrite <- (base_prefix _ _ C), <- (base_prefix _ _ C'), L. reflexivity.
      * injection Ex1 as <- <-. exact (S y c c' Iy C C').
      * injection Ey as <- <-. unfold same_text. symmetry. exact (S x c' c Ix C' C).
      * exact (T2 x y j c c' Ix Iy C C').
  - intros [T1 T2]. destruct (T1 n i (or_introl eq_refl)) as (b & B). split; [split|].
    + eauto.
    + apply not_true_iff_false. rewrite existsb_exists. intros ([m j] & I & Q). cbn [fst snd] in Q. apply andb_true_iff in Q as [Q1 Q2]. apply beqb_eq in Q1. subst j. destruct (T1 m i (or_intror I)) as (b' & B').
      apply not_false_iff_true in Q2. apply Q2. rewrite (same_base len0 n m b b'); [|exact Fn|apply (F' (m, i) I)|exact B|exact B']. apply (T2 n m i b b'); [left; reflexivity|right; exact I|exact B|exact B'].
    + split; [intros m j I; apply (T1 m j); right; exact I|]. intros x y j c c' Ix Iy. apply (T2 x y j c c'); right; assumption.
Qed.

(** ** What is missing *)

Lemma missing_ok can md5 ignored dir hs s : NoDup (paths (r_fs s)) -> hashes_differ hs -> (forall e, In e hs -> h_found e = false) ->
  (check_missing ignored (fst (check_regulars can md5 dir hs s)) = true <->
   exists m h, In (m, h) (described hs) /\ ignored m = false /\ forall p n c, file_in dir n p -> look (r_fs s) p = Some c -> ~ starts_with md5 c h).
Proof.
  intros N Hd Hf. unfold check_regulars. fold (regs can md5 dir (listing (r_fs s) dir) (hs, s)).
  assert (HL : forall n, In n (listing (r_fs s) dir) -> In (at_dir dir n) (paths (r_fs s))) by (intros n I; apply in_listing in I; tauto).
  pose proof (regs_found can md5 dir (listing (r_fs s) dir) hs s N (listing_nodup _ _ N) HL Hd) as G. unfold check_missing. rewrite existsb_exists. split.
  - intros ([m h f] & I & Q). cbn [h_found h_name] in Q. rewrite andb_true_iff, !negb_true_iff in Q. destruct Q as [-> Q]. apply G in I as [I A]. exists m, h. split; [apply (in_map (fun e => (h_name e, h_hash e))) in I; exact I|]. split; [exact Q|].
    intros p n c Fi L E. apply (proj1 (file_in_at _ _ _)) in Fi as [-> Sl]. apply (A n c); [apply in_listing; split; [apply is_there_iff; unfold is_there; rewrite L; reflexivity|exact Sl]|exact L|]. symmetry. exact E.
  - intros (m & h & I & Q & A). unfold described in I. apply in_map_iff in I as ([m' h' f] & E & I). cbn [h_name h_hash] in E. injection E as -> ->. pose proof (Hf _ I) as E. cbn [h_found] in E. subst f.
    exists (FHash m h false). split; [|cbn [h_found h_name]; rewrite Q; reflexivity]. apply G. split; [exact I|]. intros n c In_ L E. apply in_listing in In_ as [_ Sl]. apply (A (at_dir dir n) n c); [apply file_in_at; auto|exact L|]. symmetry. exact E.
Qed.
Lemma one_dir_missing can md5 load junk len0 detect ignored dir s s' : NoDup (paths (r_fs s)) -> together (par_infos junk (r_fs s) dir) -> long_enough (par_infos junk (r_fs s) dir) -> r_missed s = false ->
  one_dir can md5 load junk len0 detect ignored dir s = Some s' ->
  (r_missed s' = true <-> detect = true /\
   exists m h, In (m, h) (described (l_hashes (fst (load_all load dir s)))) /\ ignored m = false /\ forall p n c, file_in dir n p -> look (r_fs s) p = Some c -> ~ starts_with md5 c h).
Proof.
  intros N T Le M E. unfold one_dir, check_pars in E. rewrite (proj2 (need_rename_ok len0 _ Le) T) in E.
  pose proof (load_all_ok load dir s) as ((A0 & A1 & _ & _) & _ & _). destruct (load_all load dir s) as [l damaged]. cbn [fst] in *.
  pose proof (missing_ok can md5 ignored dir (l_hashes l) s N A0 A1) as G.
  assert (Ms : r_missed (snd (check_regulars can md5 dir (l_hashes l) s)) = r_missed s).
  { destruct (regs_ok can md5 dir (listing (r_fs s) dir) (l_hashes l) s N (listing_nodup _ _ N)) as (_ & _ & _ & _ & G3 & _); [intros n I; apply in_listing in I; tauto|exact G3]. }
  destruct (check_regulars can md5 dir (l_hashes l) s) as [hs s2]. cbn [fst snd] in *. cbv zeta in E. injection E as <-. rewrite <- G.
  assert (Q : r_missed s2 || (detect && check_missing ignored hs) = true <-> detect = true /\ check_missing ignored hs = true) by (rewrite Ms, M; cbn [orb]; apply andb_true_iff).
  destruct (_ && negb (is_nil (l_bad l))); [|exact Q]. rewrite (proj1 (rename_bad_flags _ _ _)). exact Q.
Qed.
