(** Wildcard matching: the verdict. *)
From Verif Require Import Base NumFmt WildModel WildSpec.

Notation G := (glob wild_char).

Lemma Forall2_length {A B} (R : A -> B -> Prop) l l' : Forall2 R l l' -> length l = length l'.
Proof. induction 1; simpl; congruence. Qed.

Lemma match_char m c : lit_match m c || q_match m c = true <-> wild_char m c.
Proof.
  unfold lit_match, q_match, wild_char, lower, lc, digit, is_digit.
  destruct ((65 <=? m) && (m <=? 90)); destruct ((65 <=? c) && (c <=? 90)); lia.
Qed.

Lemma nul_match c : c <> 0 -> lit_match 0 c || q_match 0 c = false.
Proof.
  intros H. unfold lit_match, q_match, lower.
  replace ((65 <=? 0) && (0 <=? 90)) with false by reflexivity.
  replace (0 =? 63) with false by reflexivity. replace (0 =? 35) with false by reflexivity.
  destruct ((65 <=? c) && (c <=? 90)) eqn:E; lia.
Qed.

Lemma glob_star p s : G (42 :: p) s <-> exists a b, s = a ++ b /\ G p b.
Proof.
  split.
  - intros H. remember (42 :: p) as w. revert p Heqw. induction H; intros p0 E; inversion E; subst.
    + exists [], t. auto.
    + destruct (IHglob _ eq_refl) as (a & b & -> & Hb). exists (c :: a), b. auto.
    + congruence.
  - intros (a & b & -> & Hb). induction a as [|c a IH]; simpl; [apply g_skip, Hb | apply g_star, IH].
Qed.

Lemma glob_star_suffix p a b : G (42 :: p) b -> G (42 :: p) (a ++ b).
Proof. intros H. apply glob_star in H as (x & y & -> & H). apply glob_star. exists (a ++ x), y. rewrite app_assoc. auto. Qed.

Lemma glob_inv m p t : m <> 42 -> G (m :: p) t -> exists c r, t = c :: r /\ wild_char m c /\ G p r.
Proof.
  intros Hm H. inversion H as [|? ? H1|? ? ? H1|? ? ? ? H0 H1 H2]; subst; try congruence. eauto.
Qed.

(** A star-free head takes exactly as many characters. *)
Lemma glob_head q p s : Forall (fun m => m <> 42) q -> G (q ++ p) s ->
  exists u v, s = u ++ v /\ Forall2 wild_char q u /\ G p v.
Proof.
  revert s; induction q as [|m q IH]; intros s Hq H; simpl in *.
  - exists [], s. auto.
  - inversion Hq as [|? ? Hm Hq']; subst. apply glob_inv in H as (c & r & -> & Hc & H); [|assumption].
    destruct (IH _ Hq' H) as (u & v & -> & Hu & Hv). exists (c :: u), v. auto.
Qed.

Lemma glob_head_intro q p u v : Forall (fun m => m <> 42) q -> Forall2 wild_char q u -> G p v -> G (q ++ p) (u ++ v).
Proof.
  intros Hq H Hp. induction H as [|m c q u Hm Hu IH]; simpl; [exact Hp|].
  inversion Hq; subst. apply g_char; auto.
Qed.

Fixpoint solid (p : list Z) : nat := match p with [] => O | m :: r => if m =? 42 then solid r else S (solid r) end.
Fixpoint stars (p : list Z) : nat := match p with [] => O | m :: r => if m =? 42 then S (stars r) else stars r end.

Lemma glob_solid p s : G p s -> (solid p <= length s)%nat.
Proof.
  induction 1 as [| | |m p c t Hm Hc H IH]; cbn [solid length] in *; simpl (42 =? 42) in *; cbv iota in *; try lia.
  replace (m =? 42) with false by lia. lia.
Qed.

Lemma solid_app a b : solid (a ++ b) = (solid a + solid b)%nat.
Proof. induction a as [|m a IH]; simpl; [reflexivity|]. destruct (m =? 42); rewrite IH; reflexivity. Qed.
Lemma stars_app a b : stars (a ++ b) = (stars a + stars b)%nat.
Proof. induction a as [|m a IH]; simpl; [reflexivity|]. destruct (m =? 42); rewrite IH; reflexivity. Qed.
Lemma solid_none q : Forall (fun m => m <> 42) q -> solid q = length q /\ stars q = O.
Proof. induction 1 as [|m q Hm H [IH1 IH2]]; [auto|]. simpl. replace (m =? 42) with false by lia. lia. Qed.
Lemma stars_len p : (stars p <= length p)%nat.
Proof. induction p as [|m p IH]; simpl; [lia|]. destruct (m =? 42); lia. Qed.

Lemma skip_stars_nil p : skip_stars p = [] <-> solid p = O.
Proof.
  induction p as [|m p IH]; simpl; [tauto|]. destruct (m =? 42); [exact IH|]. split; discriminate.
Qed.
Lemma glob_all_stars p : solid p = O -> G p [].
Proof.
  induction p as [|m p IH]; simpl; intros H; [constructor|].
  destruct (Z.eqb_spec m 42) as [->|]; [apply g_skip; auto | discriminate].
Qed.

(** Groups: enough of them on the stack. *)
Definition gs_ok (wants : bool) (gs : groups) (qmark : bool) : Prop :=
  wants = true -> (if qmark then 2 <= length gs else 1 <= length gs)%nat.

Lemma close_some pos gs : (1 <= length gs)%nat -> exists g, close_group pos gs = Some g /\ length g = length gs.
Proof. destruct gs as [|[st l] r]; simpl; [lia|]. eauto. Qed.

Lemma wm_end_ok wants pat pos gs qmark star : gs_ok wants gs qmark ->
  exists b g, wm_end wants pat pos gs qmark star = Some (b, g) /\ (b = true <-> solid pat = O).
Proof.
  intros Hg. unfold wm_end.
  assert (C : exists g, (if wants && qmark then close_group pos gs else Some gs) = Some g).
  { destruct wants, qmark; simpl; eauto. specialize (Hg eq_refl). simpl in Hg.
    destruct (close_some pos gs) as (g & E & _); [lia|]. eauto. }
  destruct C as [g ->]. eexists _, _. split; [reflexivity|].
  rewrite <- skip_stars_nil. destruct (skip_stars pat); split; congruence.
Qed.

Lemma phd_42 pat : phd pat = 42 -> exists r, pat = 42 :: r.
Proof. destruct pat as [|p r]; simpl; [discriminate|]. intros ->. eauto. Qed.

Lemma wm_loop_ok wants L : forall fuel pat str pos wpos spos sposn gs qmark star q u str0,
  wpos = q ++ pat -> str0 = u ++ str -> spos = tl str0 ->
  Forall (fun m => m <> 42) q -> Forall2 wild_char q u ->
  gs_ok wants gs qmark -> (length spos <= L)%nat ->
  (stars wpos + length spos * (L + 1) + length str < fuel)%nat ->
  ~ In 0 str ->
  ~ In 0 str0 ->
  exists b g, wm_loop fuel wants pat str pos wpos spos sposn gs qmark star = Some (b, g) /\
    (b = true <-> G (42 :: wpos) str0).
Proof.
  induction fuel as [|f IH]; intros pat str pos wpos spos sposn gs qmark star q u str0
    Hw Hs Hsp Hq Hqu Hg HL Hf Hnul Hnul0; [lia|].
  assert (Lqu : length q = length u) by (eapply Forall2_length; eassumption).
  destruct (solid_none q Hq) as [Sq Stq].
  cbn [wm_loop]. destruct str as [|c s].
  { destruct (wm_end_ok wants pat pos gs qmark star Hg) as (b & g & E & Hb). exists b, g. split; [exact E|].
    rewrite Hb. rewrite app_nil_r in Hs. subst str0. split.
    - intros H0. apply g_skip. subst wpos. rewrite <- (app_nil_r u).
      apply glob_head_intro; auto. apply glob_all_stars, H0.
    - intros H. apply glob_star in H as (a & b' & -> & H). apply glob_solid in H. subst wpos.
      rewrite solid_app in H. rewrite app_length in Lqu. lia. }
  destruct (Z.eqb_spec (phd pat) 42) as [Ep|Ep].
  - (* star *)
    apply phd_42 in Ep as [p' ->]. cbn [tl].
    assert (C : exists g1, (if wants && qmark then close_group pos gs else Some gs) = Some g1
                /\ (wants = true -> (1 <= length g1)%nat)).
    { destruct wants; cbn [andb]; [specialize (Hg eq_refl)|eexists; split; [reflexivity|discriminate]].
      destruct qmark.
      - destruct (close_some pos gs) as (g & E & Le); [lia|]. exists g. split; [exact E|]. lia.
      - eexists. split; [reflexivity|]. lia. }
    destruct C as (g1 & -> & Hg1).
    set (gs2 := if wants && negb star then open_group pos g1 else g1).
    assert (Hg2 : wants = true -> (1 <= length gs2)%nat).
    { intros W. specialize (Hg1 W). unfold gs2. destruct (wants && negb star); simpl; lia. }
    assert (Eq : G (42 :: wpos) str0 <-> G (42 :: p') (c :: s)).
    { subst wpos str0. split; intros H.
      - apply glob_star in H as (a & b & E & H). apply glob_head in H as (x & y & -> & Hx & Hy); [|assumption].
        apply Forall2_length in Hx.
        assert (exists z, c :: s = z ++ y) as [z ->].
        { exists (skipn (length u) (a ++ x)).
          assert (E2 : skipn (length u) (u ++ c :: s) = skipn (length u) ((a ++ x) ++ y))
            by (rewrite E, app_assoc; reflexivity).
          rewrite skipn_app, skipn_all, Nat.sub_diag in E2. simpl in E2. rewrite E2.
          rewrite skipn_app. replace (length u - length (a ++ x))%nat with O; [reflexivity|].
          rewrite app_length. lia. }
        apply glob_star_suffix, Hy.
      - apply g_skip. apply glob_head_intro; auto. }
    destruct p' as [|p0 p'].
    + set (star2 := if wants && negb star then true else star).
      assert (C2 : exists g3, (if wants && star2 then close_group (pos + Z.of_nat (length (c :: s))) gs2 else Some gs2) = Some g3).
      { destruct (wants && star2) eqn:W; [|eauto]. apply andb_true_iff in W as [W _].
        destruct (close_some (pos + Z.of_nat (length (c :: s))) gs2 (Hg2 W)) as (g & E & _). eauto. }
      destruct C2 as [g3 ->]. eexists true, _. split; [reflexivity|]. split; [|reflexivity]. intros _.
      apply Eq. apply glob_star. exists (c :: s), []. rewrite app_nil_r. split; [reflexivity | constructor].
    + assert (Str : (length s <= length spos)%nat).
      { subst spos str0. destruct u as [|x u]; simpl; [lia|]. rewrite app_length. simpl. lia. }
      assert (Hst : stars wpos = S (stars (p0 :: p'))).
      { subst wpos. rewrite stars_app, Stq. simpl. reflexivity. }
      destruct (IH (p0 :: p') (c :: s) pos (p0 :: p') s (pos + 1) gs2
                 (if wants && qmark then false else qmark) (if wants && negb star then true else star)
                 [] [] (c :: s)) as (b & g & E & Hb); auto.
      { intros W. specialize (Hg2 W). subst wants. simpl. destruct qmark; simpl; assumption. }
      { lia. }
      { cbn [length] in *. nia. }
      exists b, g. split; [exact E|]. rewrite Hb, Eq. reflexivity.
  - assert (Hc : c <> 0) by (simpl in Hnul; tauto).
    assert (Hns : ~ In 0 s) by (simpl in Hnul; tauto).
    destruct (lit_match (phd pat) c || q_match (phd pat) c) eqn:M.
    + (* the characters match *)
      destruct pat as [|m p'].
      { cbn [phd] in M. rewrite nul_match in M by assumption. discriminate. }
      cbn [phd tl] in *. apply match_char in M.
      assert (Step : forall gs1 qmark1 star1, gs_ok wants gs1 qmark1 ->
         exists b g, wm_loop f wants p' s (pos + 1) wpos spos sposn gs1 qmark1 star1 = Some (b, g) /\
           (b = true <-> G (42 :: wpos) str0)).
      { intros gs1 qmark1 star1 Hg1.
        apply (IH p' s (pos + 1) wpos spos sposn gs1 qmark1 star1 (q ++ [m]) (u ++ [c]) str0); auto.
        - rewrite <- app_assoc. exact Hw.
        - rewrite <- app_assoc. exact Hs.
        - apply Forall_app. auto.
        - apply Forall2_app; auto.
        - cbn [length] in Hf. lia. }
      destruct (q_match m c) eqn:Q.
      * apply Step. intros W. specialize (Hg W). subst wants. destruct qmark; simpl in *; lia.
      * destruct (lit_match m c) eqn:Lm.
        2:{ exfalso. apply match_char in M. rewrite Lm, Q in M. discriminate. }
        destruct (wants && qmark) eqn:W1.
        { apply andb_true_iff in W1 as [W1 W2]. specialize (Hg W1). rewrite W2 in Hg.
          destruct (close_some pos gs) as (g & -> & Le); [lia|]. apply Step. intros _. simpl. lia. }
        destruct (wants && star) eqn:W2.
        { apply andb_true_iff in W2 as [W2 W3]. specialize (Hg W2).
          destruct (close_some pos gs) as (g & -> & Le); [destruct qmark; lia|].
          apply Step. intros _. rewrite W2 in W1. simpl in W1. rewrite W1 in *. simpl. lia. }
        apply Step, Hg.
    + (* mismatch *)
      apply orb_false_iff in M as [M1 M2]. rewrite M1, M2.
      assert (Hstr0 : exists c0, str0 = c0 :: spos).
      { subst spos str0. destruct u as [|x u]; simpl; eauto. }
      destruct Hstr0 as [c0 Hstr0].
      assert (NotHere : ~ G wpos str0).
      { intros H. subst wpos str0. apply glob_head in H as (x & y & E & Hx & Hy); [|assumption].
        apply Forall2_length in Hx. rewrite Lqu in Hx.
        assert (x = u /\ y = c :: s) as [-> ->].
        { clear - E Hx. revert x E Hx. induction u as [|a u IH]; intros [|b x] E L; simpl in *; try lia; auto.
          inversion E; subst. destruct (IH x H1 ltac:(lia)) as [-> ->]. auto. }
        destruct pat as [|m p']; [inversion Hy|]. simpl in Ep, M1, M2.
        apply glob_inv in Hy as (c' & r & E' & Hc' & _); [|assumption]. inversion E'; subst.
        apply match_char in Hc'. rewrite M1, M2 in Hc'. discriminate. }
      assert (Eq : G (42 :: wpos) str0 <-> G (42 :: wpos) spos).
      { rewrite Hstr0. split; intros H.
        - apply glob_star in H as ([|x a] & b & E & H); simpl in E.
          + exfalso. apply NotHere. rewrite Hstr0, E. exact H.
          + injection E as _ E. rewrite E. apply glob_star. eauto.
        - apply g_star, H. }
      assert (Hlen : (length (c :: s) <= S (length spos))%nat).
      { assert (length str0 = S (length spos)) by (rewrite Hstr0; reflexivity).
        subst str0. rewrite app_length in H. lia. }
      destruct (IH wpos spos sposn wpos (tl spos) (sposn + 1) (if wants && qmark then tl gs else gs)
                 (if wants && qmark then false else qmark) true [] [] spos) as (b & g & E & Hb); auto.
      { intros W. specialize (Hg W). subst wants. destruct qmark; simpl in *; [|assumption].
        destruct gs as [|? [|? ?]]; simpl in *; lia. }
      { destruct spos; simpl in *; lia. }
      { cbn [length] in *. destruct spos as [|x spos']; cbn [tl length] in *; nia. }
      { rewrite Hstr0 in Hnul0. simpl in Hnul0. tauto. }
      { rewrite Hstr0 in Hnul0. simpl in Hnul0. tauto. }
      exists b, g. split; [exact E|]. rewrite Hb, Eq. reflexivity.
Qed.

(** The loop before the first star. *)
Lemma wm_first_ok wants : forall str pat pos gs qmark,
  (wants = true -> qmark = true -> (1 <= length gs)%nat) -> ~ In 0 str ->
  match wm_first wants str pat pos gs qmark with
  | WUB => False
  | WNo => ~ G pat str
  | WRest pat' str' _ gs' qmark' =>
    (G pat str <-> G pat' str') /\ (str' = [] \/ exists r, pat' = 42 :: r) /\
    (wants = true -> qmark' = true -> (1 <= length gs')%nat) /\ ~ In 0 str'
  end.
Proof.
  induction str as [|c s IH]; intros pat pos gs qmark Hg Hn; cbn [wm_first]; cbv zeta.
  { repeat split; auto; tauto. }
  destruct (Z.eqb_spec (phd pat) 42) as [Ep|Ep].
  { repeat split; auto; try tauto. right. apply phd_42, Ep. }
  assert (U : exists gs1 qmark1, wm_upd wants (phd pat) pos gs qmark = Some (gs1, qmark1)
     /\ (wants = true -> qmark1 = true -> (1 <= length gs1)%nat)).
  { unfold wm_upd. destruct wants; cbn [andb]; [|eexists _, _; split; [reflexivity|discriminate]].
    destruct (is_q (phd pat)).
    - destruct qmark; simpl; eexists _, _; (split; [reflexivity|]); intros; auto. simpl. lia.
    - destruct qmark; simpl.
      + destruct (close_some pos gs) as (g & -> & _); [auto|]. eexists _, _. split; [reflexivity|]. discriminate.
      + eexists _, _. split; [reflexivity|]. discriminate. }
  destruct U as (gs1 & qmark1 & -> & Hg1).
  destruct (lit_match (phd pat) c || q_match (phd pat) c) eqn:M; cbn [negb].
  - destruct pat as [|m p'].
    { cbn [phd] in M. rewrite nul_match in M by (simpl in Hn; tauto). discriminate. }
    cbn [phd tl] in *. apply match_char in M.
    specialize (IH p' (pos + 1) gs1 qmark1 Hg1 ltac:(simpl in Hn; tauto)).
    assert (Eq : G (m :: p') (c :: s) <-> G p' s).
    { split; intros H; [apply glob_inv in H as (c' & r & E' & _ & H); [inversion E'; subst; exact H|assumption] | apply g_char; auto]. }
    destruct (wm_first wants s p' (pos + 1) gs1 qmark1); [rewrite Eq; exact IH| |exact IH].
    rewrite Eq. exact IH.
  - destruct pat as [|m p']; intros H; [inversion H|]. simpl in *.
    apply glob_inv in H as (c' & r & E' & Hc' & _); [|assumption]. inversion E'; subst.
    apply match_char in Hc'. congruence.
Qed.

Theorem wild_match_ok wants mask text : ~ In 0 text ->
  exists b g, wild_match wants mask text = Some (b, g) /\ (b = true <-> G mask text).
Proof.
  intros Hn. unfold wild_match.
  assert (F := wm_first_ok wants text mask 0 [] false ltac:(discriminate) Hn).
  destruct (wm_first wants text mask 0 [] false) as [|pat str pos gs qmark|]; [|destruct F as (F1 & F2 & F3 & F4)|contradiction].
  { exists false, []. split; [reflexivity|]. split; [discriminate | contradiction]. }
  assert (C : exists g1, (if wants && qmark then close_group pos gs else Some gs) = Some g1).
  { destruct wants, qmark; simpl; eauto. destruct (close_some pos gs) as (g & -> & _); eauto. }
  destruct C as [g1 ->]. set (qm := if wants && qmark then false else qmark).
  assert (Hqm : wants = true -> qm = false) by (intros ->; unfold qm; destruct qmark; reflexivity).
  assert (Main : exists b g, wm_loop (wm_fuel pat str) wants pat str pos text text 0 g1 qm false = Some (b, g)
                  /\ (b = true <-> G pat str)).
  { destruct F2 as [->|[r ->]].
    - cbn [wm_loop wm_fuel]. unfold wm_end.
      destruct wants; cbn [andb].
      + rewrite (Hqm eq_refl). eexists _, _. split; [reflexivity|].
        assert (S := skip_stars_nil pat). destruct (skip_stars pat).
        * split; [|reflexivity]. intros _. apply glob_all_stars, S. reflexivity.
        * split; [discriminate|]. intros H. apply glob_solid in H. simpl in H.
          assert (solid pat = O) by lia. apply S in H0. discriminate.
      + eexists _, _. split; [reflexivity|].
        assert (S := skip_stars_nil pat). destruct (skip_stars pat).
        * split; [|reflexivity]. intros _. apply glob_all_stars, S. reflexivity.
        * split; [discriminate|]. intros H. apply glob_solid in H. simpl in H.
          assert (solid pat = O) by lia. apply S in H0. discriminate.
    - destruct str as [|c s].
      + unfold wm_fuel. cbn [wm_loop]. unfold wm_end.
        assert (S := skip_stars_nil (42 :: r)).
        assert (X : (match skip_stars (42 :: r) with [] => true | _ => false end = true) <-> G (42 :: r) []).
        { destruct (skip_stars (42 :: r)).
          - split; [|reflexivity]. intros _. apply glob_all_stars, S. reflexivity.
          - split; [discriminate|]. intros H. apply glob_solid in H. cbn [length] in H.
            assert (solid (42 :: r) = O) by lia. apply S in H0. discriminate. }
        destruct wants; cbn [andb]; [rewrite (Hqm eq_refl)|]; (eexists _, _; split; [reflexivity|exact X]).
      + (* first iteration opens the star group *)
        unfold wm_fuel. cbn [wm_loop phd tl]. simpl (42 =? 42). cbv iota.
        assert (C2 : (if wants && qm then close_group pos g1 else Some g1) = Some g1).
        { destruct wants; [rewrite (Hqm eq_refl)|]; reflexivity. }
        rewrite C2. rewrite andb_true_r.
        destruct r as [|p0 r].
        * destruct wants; cbn [andb close_group open_group]; (eexists _, _; split; [reflexivity|]);
            (split; [|reflexivity]); intros _; apply glob_star; exists (c :: s), []; rewrite app_nil_r; split; auto; constructor.
        * eapply (wm_loop_ok wants (length s)) with (q := []) (u := []) (str0 := c :: s); auto.
          { intros W. subst wants. rewrite (Hqm eq_refl). simpl. lia. }
          { assert (A := stars_len (p0 :: r)). cbn [length] in *. nia. } }
  destruct Main as (b & g & -> & Hb). exists b, (rev g). split; [reflexivity|]. rewrite Hb. symmetry. exact F1.
Qed.
