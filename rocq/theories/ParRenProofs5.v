(** Proofs about the renaming by par2-files: one directory, all directories. *)
From Coq Require Import String Permutation.
From Verif Require Import Base NumFmt NameModel NameSpec NameProofs WildModel WebModel InfoModel RarModel RarSetModel RarSetSpec RarSetProofs RarSetProofs2 RarSetProofs3 ParModel ParRenModel ParRenSpec ParRenProofs ParRenProofs2 ParRenProofs3 ParRenProofs4.
Open Scope list_scope. Open Scope Z_scope.

Lemma remove_incl q fs : incl (remove q fs) fs.
Proof. intros e I. apply filter_In in I as [I _]. exact I. Qed.
Lemma rename_contents can fs a b : incl (contents (rename_file can fs a b)) (contents fs).
Proof.
  unfold rename_file. destruct (look fs a) as [c|] eqn:L; [|apply incl_refl]. destruct (can a b); [|apply incl_refl]. cbn [contents map snd]. apply incl_cons.
  - apply look_in in L. apply (in_map snd) in L. exact L.
  - intros x X. apply in_map_iff in X as (e & <- & X). apply in_map. apply remove_incl in X. apply remove_incl in X. exact X.
Qed.
Lemma moves_contents can dir fs dn fs' dn' : moves can dir fs dn fs' dn' -> incl (contents fs') (contents fs).
Proof. induction 1; [apply incl_refl|]. eapply incl_tran; [eassumption|apply rename_contents]. Qed.
Lemma disk_bytes_iff fs : disk_bytes fs <-> forall c, In c (contents fs) -> bytes c.
Proof. unfold disk_bytes. rewrite Forall_forall. split; [intros H c I; apply in_map_iff in I as (e & <- & I); auto|intros H e I; apply H, in_map, I]. Qed.
Lemma disk_bytes_incl fs fs' : incl (contents fs') (contents fs) -> disk_bytes fs -> disk_bytes fs'.
Proof. rewrite !disk_bytes_iff. auto. Qed.
Lemma described_iff load fs : none_bad_described load fs <-> forall c d n h, In c (contents fs) -> load c = Some d -> In (Some (n, h)) d -> ~ ends_bad (make_valid false n).
Proof.
  unfold none_bad_described. split; intros H.
  - intros c d n h I. apply in_map_iff in I as ([p c'] & E & I). cbn [snd] in E. subst c'. apply (H p c d n h I).
  - intros p c d n h I. apply (H c d n h). apply (in_map snd) in I. exact I.
Qed.

Lemma firstn_bytes k l : bytes l -> bytes (firstn k l).
Proof. intros H. unfold bytes in *. rewrite <- (firstn_skipn k l) in H. apply Forall_app in H as [H _]. exact H. Qed.
Lemma skipn_bytes k l : bytes l -> bytes (skipn k l).
Proof. intros H. unfold bytes in *. rewrite <- (firstn_skipn k l) in H. apply Forall_app in H as [_ H]. exact H. Qed.
Lemma par_set_noslash junk c i : bytes junk -> bytes c -> par_set junk c = Some i -> ~ In 47 i.
Proof.
  intros J C. unfold par_set. cbv zeta. destruct (negb _); [discriminate|]. destruct (_ <? 64); [discriminate|]. destruct (negb _); [discriminate|]. destruct (zlen c <? _); [discriminate|].
  intros H. assert (E : forall x y : list Z, Some x = Some y -> x = y) by (intros x y Q; injection Q; auto). apply E in H. rewrite <- H. apply hex_low_ok. apply firstn_bytes, skipn_bytes, firstn_bytes. apply Forall_app. auto.
Qed.
Lemma infos_noslash junk fs dir n i : bytes junk -> disk_bytes fs -> In (n, i) (par_infos junk fs dir) -> ~ In 47 n /\ ~ In 47 i.
Proof.
  intros J D I. apply par_infos_in in I as (A & c & L & E). split; [exact A|]. apply (par_set_noslash junk c i J); [|exact E]. rewrite disk_bytes_iff in D. apply D. apply look_in in L. apply (in_map snd) in L. exact L.
Qed.

(** ** Phases as moves *)

Lemma rename_pars_moves can dir : forall l s s', (forall n i, In (n, i) l -> ~ In 47 n /\ ~ In 47 i) -> rename_pars can dir l s = Some s' -> moves can dir (r_fs s) (r_done s) (r_fs s') (r_done s').
Proof.
  induction l as [|[n i] l IH]; intros s s' H E; cbn [rename_pars] in E; [injection E as <-; apply Mv_nil|].
  destruct (free_vol _ _ _ _ _) as [q|] eqn:F; [|discriminate]. apply free_vol_some in F as (k & K & -> & _). destruct (H n i (or_introl eq_refl)) as [A B].
  eapply moves_trans; [apply (moves_one can dir s n (vol_name i k)); [exact A|apply vol_noslash; [lia|exact B]]|]. apply IH; [intros x y X; apply H; right; exact X|exact E].
Qed.
Lemma check_pars_moves can junk len0 dir s s' : bytes junk -> disk_bytes (r_fs s) -> check_pars can junk len0 dir s = Some s' -> moves can dir (r_fs s) (r_done s) (r_fs s') (r_done s').
Proof.
  intros J D E. unfold check_pars in E. destruct (need_rename _ _); [|injection E as <-; apply Mv_nil]. eapply rename_pars_moves; [|exact E]. intros n i I. eapply infos_noslash; eassumption.
Qed.
Lemma regs_moves can md5 dir : forall L hs s, (forall n, In n L -> ~ In 47 n) -> (forall m h, In (m, h) (described hs) -> ~ In 47 m) ->
  let a := regs can md5 dir L (hs, s) in moves can dir (r_fs s) (r_done s) (r_fs (snd a)) (r_done (snd a)).
Proof.
  induction L as [|n L IH]; intros hs s A B; [apply Mv_nil|]. unfold regs. cbn [fold_left]. destruct (check_regular can md5 dir (hs, s) n) as [hs1 s1] eqn:E.
  assert (D : described hs1 = described hs) by (pose proof (regular_step can md5 dir hs s n) as St; cbv zeta in St; rewrite E in St; exact (proj1 St)).
  eapply moves_trans; [|apply (IH hs1 s1); [intros x X; apply A; right; exact X|rewrite D; exact B]].
  unfold check_regular in E. destruct (look (r_fs s) (at_dir dir n)); [|injection E as <- <-; apply Mv_nil]. destruct (find_hash _ hs) as [[m hs']|] eqn:F; [|injection E as <- <-; apply Mv_nil].
  injection E as <- <-. destruct (_ && _); [|apply Mv_nil]. apply moves_one; [apply A; left; reflexivity|]. apply find_says in F. apply says_in in F. exact (B _ _ F).
Qed.
Lemma bad_at dir n : bad_name (at_dir dir n) = at_dir dir (n ++ str ".bad").
Proof. unfold bad_name, at_dir. rewrite <- !app_assoc. reflexivity. Qed.
Lemma noslash_bad n : ~ In 47 n -> ~ In 47 (n ++ str ".bad").
Proof. intros N I. apply in_app_or in I as [I|I]; [exact (N I)|]. vm_compute in I. intuition discriminate. Qed.
Lemma rename_bad_moves can dir : forall B s, (forall p, In p B -> exists n, p = at_dir dir n /\ ~ In 47 n) -> let s' := rename_bad can B s in moves can dir (r_fs s) (r_done s) (r_fs s') (r_done s').
Proof.
  induction B as [|p B IH]; intros s H; [apply Mv_nil|]. unfold rename_bad. cbn [fold_left]. fold (rename_bad can B (do_rename can s p (bad_name p))).
  destruct (H p (or_introl eq_refl)) as (n & -> & N). rewrite bad_at. eapply moves_trans; [apply (moves_one can dir s n (n ++ str ".bad")); [exact N|apply noslash_bad, N]|].
  apply IH. intros q Q. apply H. right. exact Q.
Qed.
Lemma rename_bad_flags can : forall B s, r_missed (rename_bad can B s) = r_missed s /\ r_damaged (rename_bad can B s) = r_damaged s.
Proof.
  induction B as [|p B IH]; intros s; [auto|]. unfold rename_bad. cbn [fold_left]. fold (rename_bad can B (do_rename can s p (bad_name p))). destruct (IH (do_rename can s p (bad_name p))) as [A C]. destruct (do_rename_flags can s p (bad_name p)) as [D E]. split; congruence.
Qed.
Lemma read_noslash load fs dir l : read_ok load fs dir l -> (forall m h, In (m, h) (described (l_hashes l)) -> ~ In 47 m) /\ (forall p, In p (l_bad l) -> exists n, p = at_dir dir n /\ ~ In 47 n).
Proof.
  intros (_ & _ & A & B). split.
  - intros m h I. destruct (A m h I) as (p & c & d & n & _ & _ & _ & ->). apply valid_noslash.
  - intros p P. destruct (B p P) as (n & -> & I). exists n. split; [reflexivity|]. apply in_listing in I. tauto.
Qed.
Lemma one_dir_moves can md5 load junk len0 detect ignored dir s : bytes junk -> disk_bytes (r_fs s) -> NoDup (paths (r_fs s)) ->
  exists s', one_dir can md5 load junk len0 detect ignored dir s = Some s' /\ moves can dir (r_fs s) (r_done s) (r_fs s') (r_done s').
Proof.
  intros J D N. unfold one_dir. destruct (check_pars can junk len0 dir s) as [s1|] eqn:E1.
  2:{ exfalso. unfold check_pars in E1. destruct (need_rename _ _); [|discriminate]. destruct (rename_pars_ok can dir (par_infos junk (r_fs s) dir) s N) as (s' & E & _). congruence. }
  pose proof (check_pars_moves _ _ _ _ _ _ J D E1) as M1. destruct (moves_facts _ _ _ _ _ _ M1) as (N1 & _ & _ & _). specialize (N1 N).
  pose proof (load_all_ok load dir s1) as (A1 & _ & _). destruct (load_all load dir s1) as [l damaged]. cbn [fst] in A1. destruct (read_noslash _ _ _ _ A1) as [A2 A3].
  pose proof (regs_moves can md5 dir (listing (r_fs s1) dir) (l_hashes l) s1 ltac:(intros n I; apply in_listing in I; tauto) A2) as M2. cbv zeta in M2. unfold check_regulars. fold (regs can md5 dir (listing (r_fs s1) dir) (l_hashes l, s1)).
  destruct (regs can md5 dir _ _) as [hs s2]. cbn [snd] in M2. cbv zeta. eexists. split; [reflexivity|]. eapply moves_trans; [exact M1|]. eapply moves_trans; [exact M2|].
  destruct (_ && _); [|apply Mv_nil]. apply (rename_bad_moves can dir (l_bad l) (RState (r_fs s2) (r_done s2) damaged _) A3).
Qed.

(** ** Nothing is lost *)

Lemma ends_bad_at dir n : ends_bad (at_dir dir n) -> ends_bad n.
Proof.
  intros (a & E). unfold at_dir in E. rewrite app_assoc in E.
  destruct (Nat.le_gt_cases (length (dir ++ [slash])) (length a)) as [L|L].
  - exists (skipn (length (dir ++ [slash])) a). rewrite <- (firstn_skipn (length (dir ++ [slash])) a) in E. rewrite <- (app_assoc (firstn _ a)) in E.
    apply app_len_eq in E; [tauto|]. rewrite firstn_length. lia.
  - exfalso. assert (E2 := f_equal (fun x => nth (length dir) x 0) E). cbn beta in E2.
    rewrite app_length in L. cbn [length] in L. rewrite app_nth1 in E2 by (rewrite app_length; cbn [length]; lia). rewrite app_nth2 in E2 by lia. rewrite Nat.sub_diag in E2. cbn [nth] in E2. rewrite app_nth2 in E2 by lia.
    remember (length dir - length a)%nat as k eqn:K. do 5 (destruct k as [|k]; [vm_compute in E2; discriminate E2|]). destruct k; vm_compute in E2; discriminate E2.
Qed.
Lemma vol_not_bad set k : ~ ends_bad (vol_name set k).
Proof.
  intros (a & E). unfold vol_name in E. assert (E2 := f_equal (fun x => last x 0) E). cbn beta in E2.
  change (str "+01.PAR2") with (str "+01.PAR" ++ [50]) in E2. change (str ".bad") with (str ".ba" ++ [100]) in E2. rewrite !app_assoc in E2. rewrite !last_last in E2. discriminate.
Qed.
Lemma not_there_dec p fs : {In p (paths fs)} + {~ In p (paths fs)}.
Proof. apply in_dec, list_eq_dec, Z.eq_dec. Qed.
Lemma bad_inj p q : bad_name p = bad_name q -> p = q.
Proof. apply app_inv_tail. Qed.
Lemma bad_differs p : bad_name p <> p.
Proof. intros E. apply (f_equal (@length Z)) in E. unfold bad_name in E. rewrite app_length in E. change (length (str ".bad")) with 4%nat in E. lia. Qed.
Lemma rename_bad_keeps can : forall B s, NoDup (paths (r_fs s)) -> (forall p, In p B -> ~ ends_bad p) -> (forall p, In p B -> ~ In (bad_name p) (paths (r_fs s)) \/ ~ In p (paths (r_fs s))) ->
  Permutation (contents (r_fs s)) (contents (r_fs (rename_bad can B s))).
Proof.
  induction B as [|p B IH]; intros s N Nb H; [reflexivity|]. unfold rename_bad. cbn [fold_left]. set (s1 := do_rename can s p (bad_name p)). fold (rename_bad can B s1).
  pose proof (do_rename_fs can s p (bad_name p)) as Es. fold s1 in Es.
  destruct (not_there_dec p (r_fs s)) as [Ip|Np].
  - destruct (H p (or_introl eq_refl)) as [Free|Q]; [|contradiction].
    destruct (rename_facts can (r_fs s) p (bad_name p) N Free) as (R1 & R2 & R3 & R4 & R5). rewrite <- Es in R1, R2, R3, R4, R5.
    etransitivity; [exact R2|]. apply IH; [exact R1|intros q Q; apply Nb; right; exact Q|].
    intros q Q. destruct (list_eq_dec Z.eq_dec q p) as [-> |D].
    + (* again *) destruct (can p (bad_name p)) eqn:C.
      * right. rewrite Es. intros I. unfold rename_file in I. apply is_there_iff in Ip. unfold is_there in Ip. destruct (look (r_fs s) p); [|discriminate]. rewrite C in I. cbn [paths map fst] in I. destruct I as [I|I]; [exact (bad_differs p I)|].
        change (map fst ?x) with (paths x) in I. apply remove_paths in I as [I _]. apply remove_paths in I as [_ I]. congruence.
      * left. rewrite Es. unfold rename_file. destruct (look (r_fs s) p); [rewrite C|]; exact Free.
    + destruct (H q (or_intror Q)) as [F|F].
      * left. intros I. destruct (R3 _ I) as [I2|[I2 _]]; [exact (F I2)|]. apply bad_inj in I2. exact (D I2).
      * right. intros I. destruct (R3 _ I) as [I2|[I2 _]]; [exact (F I2)|]. apply (Nb q (or_intror Q)). exists p. exact I2.
  - assert (Ef : r_fs s1 = r_fs s). { rewrite Es. unfold rename_file. apply look_none in Np. rewrite Np. reflexivity. }
    rewrite <- Ef. apply IH; [rewrite Ef; exact N|intros q Q; apply Nb; right; exact Q|]. rewrite Ef. intros q Q. apply H. right. exact Q.
Qed.
Lemma one_dir_keeps can md5 load junk len0 detect ignored dir s s' : bytes junk -> disk_bytes (r_fs s) -> NoDup (paths (r_fs s)) -> none_bad (r_fs s) dir -> none_bad_described load (r_fs s) ->
  one_dir can md5 load junk len0 detect ignored dir s = Some s' -> Permutation (contents (r_fs s)) (contents (r_fs s')).
Proof.
  intros J D N Nb Nd E. unfold one_dir in E. destruct (check_pars can junk len0 dir s) as [s1|] eqn:E1; [|discriminate].
  assert (P1 : Permutation (contents (r_fs s)) (contents (r_fs s1)) /\ NoDup (paths (r_fs s1)) /\ forall p, In p (paths (r_fs s1)) -> In p (paths (r_fs s)) \/ exists i k, p = at_dir dir (vol_name i k)).
  { unfold check_pars in E1. destruct (need_rename _ _); [|injection E1 as <-; split; [reflexivity|auto]]. destruct (rename_pars_ok can dir (par_infos junk (r_fs s) dir) s N) as (s2 & E2 & B1 & B2 & _ & _ & B3 & _). rewrite E1 in E2. injection E2 as <-.
    split; [exact B2|]. split; [exact B1|]. intros p P. destruct (B3 p P) as [Q|(n & i & k & _ & _ & Q)]; eauto. }
  destruct P1 as (P1 & N1 & Q1).
  assert (Nb1 : forall n, In n (listing (r_fs s1) dir) -> ~ ends_bad (at_dir dir n)).
  { intros n I B. apply in_listing in I as [I Sl]. destruct (Q1 _ I) as [Q|(i & k & Q)].
    - exact (Nb _ n Q (proj2 (file_in_at dir n _) (conj eq_refl Sl)) B).
    - apply at_dir_inj in Q. subst n. apply ends_bad_at in B. exact (vol_not_bad _ _ B). }
  pose proof (load_all_ok load dir s1) as ((A0 & A1 & A2 & _) & _ & A3). destruct (load_all load dir s1) as [l damaged]. cbn [fst] in *.
  destruct (regs_ok can md5 dir (listing (r_fs s1) dir) (l_hashes l) s1 N1 (listing_nodup _ _ N1)) as (G1 & G2 & _ & _ & _ & G3 & G4 & _). { intros n I. apply in_listing in I. tauto. }
  unfold check_regulars in E. fold (regs can md5 dir (listing (r_fs s1) dir) (l_hashes l, s1)) in E. destruct (regs can md5 dir _ _) as [hs s2]. unfold fs_of in *. cbn [snd fst] in *. cbv zeta in E. injection E as <-.
  etransitivity; [exact P1|]. etransitivity; [exact G2|]. destruct (_ && _); [|reflexivity].
  apply (rename_bad_keeps can (l_bad l) (RState (r_fs s2) _ _ _)); cbn [r_fs]; [exact G1| |].
  - intros p P. destruct (A3 p P) as (n & I & -> & _). apply Nb1, I.
  - intros p P. left. destruct (A3 p P) as (n & I & -> & _). rewrite bad_at. intros Q. 
    assert (B : ends_bad (at_dir dir (n ++ str ".bad"))) by (exists (at_dir dir n); symmetry; apply bad_at).
    destruct (G3 _ Q) as [Q2|(m & h & Sy & Q2)].
    + apply in_listing in I as [_ Sl]. exact (Nb1 _ (proj2 (in_listing _ _ _) (conj Q2 (noslash_bad n Sl))) B).
    + apply at_dir_inj in Q2. subst m. apply says_in in Sy. destruct (A2 _ _ Sy) as (q & c & d & x & Lq & Ld & Ix & Em).
      rewrite described_iff in Nd. apply (Nd c d x h); [|exact Ld|exact Ix|rewrite <- Em; apply ends_bad_at in B; exact B].
      apply look_in in Lq. apply (in_map snd) in Lq. eapply Permutation_in; [symmetry; exact P1|exact Lq].
Qed.
Lemma file_in_dir d1 d2 n m p : file_in d1 n p -> file_in d2 m p -> d1 = d2.
Proof.
  intros [A1 A2] [B1 B2]. rewrite A1 in B1. clear A1. 
  assert (L : length n = length m).
  { apply (f_equal (@rev Z)) in B1. rewrite !rev_app_distr in B1. change (rev (str "/")) with [47] in B1. rewrite <- !app_assoc in B1. cbn [app] in B1.
    assert (G : forall (a b x y : list Z), ~ In 47 a -> ~ In 47 b -> a ++ 47 :: x = b ++ 47 :: y -> a = b).
    { induction a as [|u a IH]; intros [|v b] x y Na Nb E; [reflexivity| | |].
      - injection E as E _. exfalso. apply Nb. left. auto.
      - injection E as E _. exfalso. apply Na. left. auto.
      - injection E as -> E. f_equal. apply (IH b x y); [intros Q; apply Na; right; exact Q|intros Q; apply Nb; right; exact Q|exact E]. }
    apply G in B1; [|rewrite <- in_rev; assumption..]. apply (f_equal (@length Z)) in B1. rewrite !rev_length in B1. exact B1. }
  assert (Ld : length d1 = length d2). { apply (f_equal (@length Z)) in B1. rewrite !app_length in B1. lia. }
  apply app_len_eq in B1; [tauto|exact Ld].
Qed.
Lemma par_rename_ok can md5 load junk len0 detect ignored : forall dirs s, bytes junk -> disk_bytes (r_fs s) -> NoDup (paths (r_fs s)) ->
  exists s', par_rename can md5 load junk len0 detect ignored dirs s = Some s' /\ NoDup (paths (r_fs s')) /\ incl (contents (r_fs s')) (contents (r_fs s)) /\
  (forall p, (forall d n, In d dirs -> ~ file_in d n p) -> look (r_fs s') p = look (r_fs s) p) /\
  exists l, r_done s' = r_done s ++ l /\ forall e, In e l -> exists d n m, In d dirs /\ file_in d n (fst e) /\ file_in d m (snd e).
Proof.
  induction dirs as [|d dirs IH]; intros s J D N; cbn [par_rename].
  { exists s. split; [reflexivity|]. split; [exact N|]. split; [apply incl_refl|]. split; [auto|]. exists []. rewrite app_nil_r. split; [reflexivity|intros e []]. }
  destruct (one_dir_moves can md5 load junk len0 detect ignored d s J D N) as (s1 & E & M). rewrite E. pose proof (moves_contents _ _ _ _ _ _ M) as Ic. destruct (moves_facts _ _ _ _ _ _ M) as (F1 & F2 & F3 & l1 & F4 & F5).
  destruct (IH s1 J (disk_bytes_incl _ _ Ic D) (F1 N)) as (s' & E2 & G1 & G2 & G3 & l2 & G4 & G5). exists s'. split; [exact E2|]. split; [exact G1|]. split; [eapply incl_tran; eassumption|]. split.
  - intros p P. rewrite G3 by (intros x n X; apply P; right; exact X). apply F2. intros n. apply P. left. reflexivity.
  - exists (l1 ++ l2). split; [rewrite G4, F4, app_assoc; reflexivity|]. intros e I. apply in_app_or in I as [I|I].
    + destruct (F5 e I) as (n & m & A & B). exists d, n, m. split; [left; reflexivity|auto].
    + destruct (G5 e I) as (x & n & m & X & A & B). exists x, n, m. split; [right; exact X|auto].
Qed.
Lemma par_rename_keeps can md5 load junk len0 detect ignored : forall dirs s s', bytes junk -> disk_bytes (r_fs s) -> NoDup (paths (r_fs s)) -> NoDup dirs ->
  (forall d, In d dirs -> none_bad (r_fs s) d) -> none_bad_described load (r_fs s) ->
  par_rename can md5 load junk len0 detect ignored dirs s = Some s' -> Permutation (contents (r_fs s)) (contents (r_fs s')).
Proof.
  induction dirs as [|d dirs IH]; intros s s' J D N Nd B Bd E; cbn [par_rename] in E; [injection E as <-; reflexivity|].
  destruct (one_dir_moves can md5 load junk len0 detect ignored d s J D N) as (s1 & E1 & M). rewrite E1 in E. pose proof (moves_contents _ _ _ _ _ _ M) as Ic. destruct (moves_facts _ _ _ _ _ _ M) as (F1 & F2 & F3 & _).
  apply NoDup_cons_iff in Nd as [Nd1 Nd2].
  etransitivity; [eapply one_dir_keeps; [exact J|exact D|exact N|apply B; left; reflexivity|exact Bd|exact E1]|].
  apply (IH s1); [exact J|eapply disk_bytes_incl; eassumption|exact (F1 N)|exact Nd2| | |exact E].
  - intros x X p n P Fi. destruct (F3 p P) as [Q|(m & Q)]; [exact (B x (or_intror X) p n Q Fi)|]. exfalso. apply Nd1. rewrite (file_in_dir d x m n p Q Fi). exact X.
  - rewrite described_iff in *. intros c dd n h I. apply Bd, Ic, I.
Qed.
