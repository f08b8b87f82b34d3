(** Proofs: renaming all files (C150). *)
From Coq Require Import String Permutation.
From Verif Require Import Base NumFmt NameModel NameProofs WildModel RarModel RarSetModel RarSetSpec RarSetProofs3 ParModel ParSpec ParProofs3 ParRenModel ParRenSpec ParRenProofs ParRenProofs3 ParRenProofs4 ParRenProofs5 ParRenProofs6 DRenModel DRenSpec DRenProofs2.
Open Scope list_scope. Open Scope Z_scope.

(** ** Names *)

Lemma all_ok can dir pars hs : forall l s, 1 <= s_vol s -> exists l' s', rename_dfiles can dir pars hs l s = Some (l', s') /\ Forall2 (outcome pars hs) l l'.
Proof.
  induction l as [|f l IH]; intros s V; [exists [], s; split; [reflexivity|constructor]|].
  cbn [rename_dfiles]. destruct (one_ok can dir pars hs f s V) as (f' & s1 & -> & V1 & Se & O). destruct (IH s1 ltac:(lia)) as (l' & s' & -> & F).
  eexists _, _. split; [reflexivity|]. constructor; [|exact F]. split; [exact Se|]. destruct O as [(-> & _ & _ & Q)|(n & N & H & _)]; [left|right; eauto].
  split; [reflexivity|]. intros n N. exact (proj1 (Q n N)).
Qed.

(** ** The disk *)

Lemma free_tail hs dir f l fs : free_targets hs dir (f :: l) fs -> free_targets hs dir l fs.
Proof.
  intros H i g m E D W. destruct (H (S i) g m E D W) as (A & B & C). split; [exact A|]. split; [exact B|]. intros j k Ej Dk Wk.
  specialize (C (S j) k Ej Dk Wk). lia.
Qed.
Lemma there_tail dir f l fs : all_there dir (f :: l) fs -> all_there dir l fs.
Proof.
  intros (N & T). split; [|intros g G; apply T; right; exact G]. cbn [filter] in N. destruct (on_disk f); [|exact N]. cbn [map] in N. apply NoDup_cons_iff in N as [_ N]. exact N.
Qed.
Lemma there_head dir f l fs g : all_there dir (f :: l) fs -> on_disk f = true -> In g l -> on_disk g = true -> f_name g <> f_name f.
Proof.
  intros (N & _) D G Dg E. cbn [filter] in N. rewrite D in N. cbn [map] in N. apply NoDup_cons_iff in N as [N _]. apply N. rewrite <- E. apply in_map, filter_In. auto.
Qed.

Lemma disk_ok can dir pars hs : forall l s l' s', 1 <= s_vol s -> NoDup (paths (s_fs s)) -> free_targets hs dir l (s_fs s) -> all_there dir l (s_fs s) ->
  rename_dfiles can dir pars hs l s = Some (l', s') ->
  NoDup (paths (s_fs s')) /\ Permutation (contents (s_fs s)) (contents (s_fs s')) /\
  (forall p c, look (s_fs s) p = Some c -> (forall f, In f l -> on_disk f = true -> p <> at_dir dir (f_name f)) -> look (s_fs s') p = Some c) /\
  Forall2 (followed can dir pars hs (s_fs s) (s_fs s')) l l'.
Proof.
  induction l as [|f l IH]; intros s l' s' V N F T E.
  - cbn [rename_dfiles] in E. injection E as <- <-. repeat split; auto.
  - cbn [rename_dfiles] in E. destruct (one_ok can dir pars hs f s V) as (f' & s1 & E1 & V1 & _ & O). rewrite E1 in E.
    destruct (rename_dfiles can dir pars hs l s1) as [[r' s2]|] eqn:E2; [|discriminate]. injection E as <- <-.
    pose proof (free_tail _ _ _ _ _ F) as Ft. pose proof (there_tail _ _ _ _ T) as Tt.
    assert (Out : (f' = f /\ forall n, new_of pars hs f n -> on_disk f = true /\ exists b, can (dir ++ str "/" ++ f_name f) b = false) \/ exists n, new_of pars hs f n /\ has_name f n f').
    { destruct O as [(-> & _ & _ & Q)|(n & Nw & H & _)]; [left|right; eauto]. split; [reflexivity|]. intros n Nw. destruct (Q n Nw) as (Df & [Nt|Rf]); [|auto].
      exfalso. apply Nt. apply (proj2 T f (or_introl eq_refl) Df). }
    assert (Stay : s_fs s1 = s_fs s -> (on_disk f = true -> f' = f) ->
      NoDup (paths (s_fs s2)) /\ Permutation (contents (s_fs s)) (contents (s_fs s2)) /\
      (forall p c, look (s_fs s) p = Some c -> (forall g, In g (f :: l) -> on_disk g = true -> p <> at_dir dir (f_name g)) -> look (s_fs s2) p = Some c) /\
      Forall2 (followed can dir pars hs (s_fs s) (s_fs s2)) (f :: l) (f' :: r')).
    { intros Es Ef. rewrite <- Es in *. destruct (IH s1 r' s2 ltac:(lia) N Ft Tt E2) as (A & B & C & D). split; [exact A|]. split; [exact B|].
      split; [intros p c L K; apply C; [exact L|]; intros g G; apply K; right; exact G|]. constructor; [|exact D].
      split; [exact Out|]. intros Df c L. rewrite (Ef Df). change (dir ++ str "/" ++ f_name f) with (at_dir dir (f_name f)) in *. apply C; [exact L|]. intros g G Dg Q. apply at_dir_inj in Q. exact (there_head _ _ _ _ g T Df G Dg (eq_sym Q)). }
    destruct O as [(-> & Es & _ & _)|(n & Nw & (Hn & _) & Fp & _ & [(Df & Es)|(Df & Ia & Ca & Es)])].
    + apply Stay; auto.
    + apply Stay; [exact Es|congruence].
    + clear Stay.
      assert (Fr : ~ In (at_dir dir n) (paths (s_fs s)) /\ forall i g m, nth_error l i = Some g -> on_disk g = true -> wants hs g m -> m <> n).
      { unfold new_of in Nw. destruct (f_par f) eqn:P.
        - split; [apply Fp; reflexivity|]. intros i g m Ei Dg W ->. destruct (Ft i g n Ei Dg W) as (_ & Q & _). apply Q. apply (par_new_ends f). exact (proj2 Nw).
        - destruct (F O f n eq_refl Df Nw) as (Q & _ & U). split; [exact Q|]. intros i g m Ei Dg W ->. specialize (U (S i) g Ei Dg W). discriminate U. }
      destruct Fr as (Fr & Uq). destruct (rename_facts can (s_fs s) (at_dir dir (f_name f)) (at_dir dir n) N Fr) as (R1 & R2 & R3 & R4 & R5). cbv zeta in *. rewrite <- Es in *.
      assert (La : look (s_fs s) (at_dir dir (f_name f)) <> None) by (intros Q; apply look_none in Q; contradiction).
      assert (Ft1 : free_targets hs dir l (s_fs s1)).
      { intros i g m Ei Dg W. destruct (Ft i g m Ei Dg W) as (A & B & C). split; [|split; assumption]. intros Q. destruct (R3 _ Q) as [Q2|(Q2 & _)]; [exact (A Q2)|].
        change (dir ++ str "/" ++ m) with (at_dir dir m) in Q2. apply at_dir_inj in Q2. exact (Uq i g m Ei Dg W Q2). }
      assert (Other : forall g, In g l -> on_disk g = true -> at_dir dir (f_name g) <> at_dir dir (f_name f) /\ at_dir dir (f_name g) <> at_dir dir n).
      { intros g G Dg. split; intros Q.
        - apply at_dir_inj in Q. exact (there_head _ _ _ _ g T Df G Dg Q).
        - apply Fr. rewrite <- Q. destruct T as (_ & T). apply (T g (or_intror G) Dg). }
      assert (Tt1 : all_there dir l (s_fs s1)).
      { destruct Tt as (Tn & Tt). split; [exact Tn|]. intros g G Dg. destruct (Other g G Dg) as (O1 & O2). specialize (Tt g G Dg).
        change (dir ++ str "/" ++ f_name g) with (at_dir dir (f_name g)) in *. 
        destruct (look (s_fs s1) (at_dir dir (f_name g))) as [c|] eqn:Lk; [apply look_in in Lk; apply (in_map fst) in Lk; exact Lk|].
        rewrite R4 in Lk by assumption. apply look_none in Lk. contradiction. }
      destruct (IH s1 r' s2 ltac:(lia) R1 Ft1 Tt1 E2) as (A & B & C & D). split; [exact A|]. split; [rewrite R2; exact B|].
      split.
      * intros p c L K. apply C; [|intros g G; apply K; right; exact G]. rewrite R4; [exact L|apply K; [left; reflexivity|exact Df]|].
        intros ->. apply Fr. apply look_in in L. apply (in_map fst) in L. exact L.
      * constructor.
        -- split; [exact Out|]. intros _ c L. rewrite Hn. change (dir ++ str "/" ++ n) with (at_dir dir n). apply C; [rewrite R5 by assumption; exact L|]. intros g G Dg Q. exact (proj2 (Other g G Dg) (eq_sym Q)).
        -- clear - D R4 Other. induction D as [|g g' l r' Dg D IHD]; [constructor|]. constructor.
           ++ destruct Dg as (Dg1 & Dg). split; [exact Dg1|]. intros Dk c L. apply Dg; [exact Dk|]. destruct (Other g (or_introl eq_refl) Dk) as (O1 & O2). change (dir ++ str "/" ++ f_name g) with (at_dir dir (f_name g)). rewrite R4 by assumption. exact L.
           ++ apply IHD. intros k K Dk. apply Other; [right; exact K|exact Dk].
Qed.

(** ** Whether par2-files are renamed *)

Lemma ends_in_iff suf s : ends_in suf s = true <-> exists a, s = a ++ suf.
Proof.
  unfold ends_in. rewrite andb_true_iff, Nat.leb_le. split.
  - intros (L & E). apply beqb_eq in E. exists (firstn (length s - length suf) s). rewrite <- E at 2. symmetry. apply firstn_skipn.
  - intros (a & ->). rewrite app_length. split; [lia|]. replace (length a + length suf - length suf)%nat with (length a) by lia.
    rewrite skipn_app, skipn_all, Nat.sub_diag. apply beqb_refl.
Qed.
Lemma upto_end a : upto_par2 (a ++ str ".par2") = a ++ str ".par2".
Proof.
  rewrite <- (app_nil_r (str ".par2")) at 1. apply upto_app. intros (x & y & E). destruct x; discriminate E.
Qed.
Lemma parse_same n c : fits n -> ends_in (str ".par2") (map lower n) = true -> parse_par n c = parse_par n true.
Proof.
  intros F E. apply ends_in_iff in E as (a & E). destruct c; [reflexivity|]. unfold parse_par.
  assert (B : buf1k n = n). { unfold buf1k. apply firstn_all2. unfold fits in F. lia. }
  rewrite B, E, upto_end. reflexivity.
Qed.
Lemma ends_par_ext n : ends_in (str ".par2") (map lower n) = true <-> par_ext n = true.
Proof. rewrite ends_in_iff, par_ext_iff. reflexivity. Qed.

Lemma differ_ok : forall l pre, (forall f, In f (pre ++ l) -> fits (f_name f) /\ (6 <= length (f_name f))%nat) ->
  (others_differ pre l = false <->
   (forall f, In f l -> par_ext (f_name f) = true) /\
   (forall a f b, l = a ++ f :: b -> forall g, In g (pre ++ a ++ b) -> f_set g = f_set f -> same_collection (f_name f) (f_name g) false = true)).
Proof.
  induction l as [|f l IH]; intros pre L.
  - split; [|reflexivity]. intros _. split; [intros f []|]. intros a f b E. destruct a; discriminate E.
  - cbn [others_differ]. rewrite !orb_false_iff, negb_false_iff, ends_par_ext.
    rewrite IH by (intros g G; apply L; rewrite <- app_assoc in G; exact G). split.
    + intros ((E1 & E2) & E3 & E4). split; [intros g [<- |G]; auto|]. intros a g b E h H Es. destruct a as [|x a].
      * injection E as <- <-. cbn [app] in H. apply not_false_iff_true. intros Q.
        assert (X : existsb (fun g => beqb (f_set f) (f_set g) && negb (same_collection (f_name f) (f_name g) false)) (pre ++ l) = true).
        { apply existsb_exists. exists h. split; [exact H|]. rewrite Es, beqb_refl, Q. reflexivity. }
        congruence.
      * injection E as <- ->. apply (E4 a g b eq_refl h); [|exact Es]. rewrite <- app_assoc. exact H.
    + intros (H1 & H2). split; [split|split].
      * apply H1. left. reflexivity.
      * apply not_true_iff_false. intros X. apply existsb_exists in X as (h & H & X). apply andb_true_iff in X as (X1 & X2). apply beqb_eq in X1.
        rewrite (H2 [] f l eq_refl h H (eq_sym X1)) in X2. discriminate X2.
      * intros g G. apply H1. right. exact G.
      * intros a g b E h H Es. apply (H2 (f :: a) g b); [rewrite E; reflexivity| |exact Es]. rewrite <- app_assoc in H. exact H.
Qed.

Lemma need_ok l : (forall f, In f l -> f_par f = true -> fits (f_name f) /\ (6 <= length (f_name f))%nat) ->
  (need_pars l = false <-> together (pairs l)).
Proof.
  intros L. unfold pairs. unfold need_pars. rewrite differ_ok by (cbn [app]; intros f G; apply filter_In in G as (G & P); auto).
  set (r := filter f_par l) in *. assert (Lr : forall f, In f r -> fits (f_name f) /\ (6 <= length (f_name f))%nat) by (intros f G; apply filter_In in G as (G & P); auto).
  clearbody r. unfold together. split.
  - intros (H1 & H2). split.
    + intros n i I. apply in_map_iff in I as (f & Q & I). injection Q as <- <-. destruct (Lr f I). apply par_ext_base; auto.
    + intros n m i b b' I J Bn Bm. apply in_map_iff in I as (f & Q & I). injection Q as <- <-. apply in_map_iff in J as (g & Q & J). injection Q as <- Eg.
      destruct (Lr f I) as (Ff & _). destruct (Lr g J) as (Fg & _).
      apply (in_split f) in I as (x & y & ->).
      assert (D : f_name g = f_name f \/ In g (x ++ y)).
      { apply in_app_or in J as [J|[<- |J]]; [right|left; reflexivity|right]; apply in_or_app; auto. }
      destruct D as [D|D].
      * rewrite D in *. apply (same_ok _ _ _ _ Ff Ff Bn Bm). 
        destruct (base_parsed _ _ Ff Bn) as (k & Pk). unfold same_collection. rewrite Pk. rewrite Nat.eqb_refl, beqb_refl. reflexivity.
      * pose proof (H2 x f y eq_refl g D Eg) as Q.
        apply (same_ok _ _ _ _ Ff Fg Bn Bm). unfold same_collection in *.
        rewrite <- (parse_same (f_name f) false Ff), <- (parse_same (f_name g) false Fg); [exact Q| |]; apply ends_par_ext, H1; [rewrite in_app_iff in D; rewrite in_app_iff; cbn; tauto|apply in_or_app; right; left; reflexivity].
  - intros (H1 & H2). assert (Ex : forall f, In f r -> par_ext (f_name f) = true).
    { intros f I. destruct (Lr f I). apply par_ext_base; auto. apply (H1 (f_name f) (f_set f)). apply in_map_iff. eauto. }
    split; [exact Ex|]. intros a f b E g G Es.
    assert (If : In f r) by (rewrite E; apply in_or_app; right; left; reflexivity).
    assert (Ig : In g r) by (cbn [app] in G; rewrite E; apply in_app_iff in G; apply in_or_app; destruct G; [left|right; right]; assumption).
    destruct (Lr f If) as (Ff & _). destruct (Lr g Ig) as (Fg & _).
    destruct (H1 (f_name f) (f_set f) ltac:(apply in_map_iff; eauto)) as (bf & Bf). destruct (H1 (f_name g) (f_set g) ltac:(apply in_map_iff; eauto)) as (bg & Bg).
    pose proof (H2 (f_name f) (f_name g) (f_set f) bf bg ltac:(apply in_map_iff; eauto) ltac:(apply in_map_iff; exists g; rewrite Es; auto) Bf Bg) as Q.
    apply (same_ok _ _ _ _ Ff Fg Bf Bg) in Q. unfold same_collection in *.
    rewrite (parse_same (f_name f) false Ff), (parse_same (f_name g) false Fg); [exact Q| |]; apply ends_par_ext, Ex; assumption.
Qed.

Lemma on_disk_ok f : on_disk f = true <-> lies f.
Proof.
  unfold on_disk, lies. rewrite orb_true_iff. destruct (f_out f) as [o|].
  - rewrite negb_true_iff, <- not_true_iff_false, ends_in_iff. split; intros [H|H]; auto.
    + right. exists o. auto.
    + right. destruct H as (o1 & E & H). injection E as <-. exact H.
  - split; intros [H|H]; auto; [discriminate H|]. destruct H as (o & E & _). discriminate E.
Qed.
