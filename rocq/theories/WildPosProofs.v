(** Wildcard matching: the reported positions. *)
From Verif Require Import Base NumFmt WildModel WildSpec WildProofs.

Definition no_iq (l : list item) : Prop := match l with IQ _ :: _ => False | _ => True end.
Definition after (w : list Z) : list item := match items w with IStar :: l => l | l => l end.

Lemma items_star w : items (42 :: w) = IStar :: after w.
Proof. unfold after. cbn [items]. simpl (42 =? 42). cbv iota. destruct (items w) as [|[]]; reflexivity. Qed.

Lemma after_star w : after (42 :: w) = after w.
Proof. unfold after at 1. rewrite items_star. reflexivity. Qed.

Definition lit (m : Z) : Prop := m <> 42 /\ m <> 63 /\ m <> 35.
Lemma items_lit m w : lit m -> items (m :: w) = ILit m :: items w.
Proof.
  intros (H1 & H2 & H3). cbn [items]. replace (m =? 42) with false by lia.
  replace ((m =? 63) || (m =? 35)) with false by lia. reflexivity.
Qed.
Lemma items_q m w : m = 63 \/ m = 35 ->
  items (m :: w) = match items w with IQ ms :: l => IQ (m :: ms) :: l | l => IQ [m] :: l end.
Proof.
  intros H. cbn [items]. replace (m =? 42) with false by lia.
  replace ((m =? 63) || (m =? 35)) with true by lia. reflexivity.
Qed.

Lemma items_lits q w : Forall lit q -> items (q ++ w) = map ILit q ++ items w.
Proof. induction 1 as [|m q Hm H IH]; [reflexivity|]. cbn [app map]. rewrite items_lit, IH by assumption. reflexivity. Qed.

Lemma after_lits m q w : Forall lit (m :: q) -> after ((m :: q) ++ w) = map ILit (m :: q) ++ items w.
Proof. intros H. unfold after. rewrite items_lits by assumption. reflexivity. Qed.

Lemma division_lits q u is t gs pos : Forall2 (fun m c => lc m = lc c) q u ->
  division (pos + Z.of_nat (length u)) is t gs -> division pos (map ILit q ++ is) (u ++ t) gs.
Proof.
  intros H. revert pos. induction H as [|m c q u Hm H IH]; intros pos D; cbn [map app length] in *.
  - replace (pos + Z.of_nat 0) with pos in D by lia. exact D.
  - apply d_lit; [exact Hm|]. apply IH. replace (pos + 1 + Z.of_nat (length u)) with (pos + Z.of_nat (S (length u))) by lia. exact D.
Qed.

Lemma items_all_stars w : solid w = O -> w <> [] -> items w = [IStar].
Proof.
  induction w as [|m w IH]; [congruence|]. cbn [solid]. destruct (Z.eqb_spec m 42) as [->|]; [|discriminate].
  intros H _. rewrite items_star. f_equal. unfold after. destruct w as [|m' w]; [reflexivity|].
  rewrite IH; [reflexivity|assumption|discriminate].
Qed.

Lemma d_star_nil pos : division pos [IStar] [] [(pos, 0)].
Proof.
  assert (D := d_star pos [] [] [] []). cbn [length app] in D. apply D.
  replace (pos + Z.of_nat 0) with pos by lia. constructor.
Qed.
Lemma d_star_all pos u : division pos [IStar] u [(pos, Z.of_nat (length u))].
Proof. assert (D := d_star pos u [] [] []). rewrite app_nil_r in D. apply D. constructor. Qed.

Definition no_q (w : list Z) : Prop := Forall (fun m => m <> 63 /\ m <> 35) w.

Lemma q_match_false m c : m <> 63 /\ m <> 35 -> q_match m c = false.
Proof. intros H. unfold q_match. lia. Qed.

Lemma lower_lc : lower = lc.
Proof. reflexivity. Qed.

Ltac side := first [assumption | reflexivity | solve [constructor] | discriminate | solve [cbn [length]; lia] | tauto
  | (intros _; split; [reflexivity|discriminate]) | idtac].

Lemma wm_loop_pos : forall fuel pat str pos wpos spos sposn st l g0 star q u str0 a g,
  wpos = q ++ pat -> str0 = u ++ str -> spos = tl str0 -> sposn = a + 1 ->
  pos = a + Z.of_nat (length u) ->
  Forall lit q -> Forall2 (fun m c => lc m = lc c) q u -> no_q pat -> wpos <> [] ->
  st <= a -> (star = true <-> q = []) -> (star = false -> l = a - st) ->
  (phd wpos = 42 -> st = a /\ str0 <> []) -> ~ In 0 str0 ->
  wm_loop fuel true pat str pos wpos spos sposn ((st, l) :: g0) false star = Some (true, g) ->
  exists v w new, str0 = v ++ w /\ division (a + Z.of_nat (length v)) (after wpos) w new /\
    g = rev new ++ (st, a + Z.of_nat (length v) - st) :: g0.
Proof.
  induction fuel as [|f IH]; intros pat str pos wpos spos sposn st l g0 star q u str0 a g
    Hw Hs Hsp Hspn Hpos Hq Hqu Hnq Hne Hst Hstar Hl H42 Hnul; [discriminate|].
  cbn [wm_loop]. destruct str as [|c s].
  { (* end of the text *)
    unfold wm_end. cbn [andb]. destruct (skip_stars pat) eqn:Esk; [|discriminate].
    apply skip_stars_nil in Esk. rewrite app_nil_r in Hs. subst str0.
    destruct q as [|m q].
    - (* impossible: nothing matched since the star *)
      exfalso. simpl in Hw. subst pat. inversion Hqu; subst.
      destruct wpos as [|m w]; [congruence|]. cbn [solid] in Esk.
      destruct (Z.eqb_spec m 42) as [->|]; [|discriminate]. destruct (H42 eq_refl) as [_ []]. reflexivity.
    - assert (star = false) by (destruct star; [destruct Hstar as [Hx _]; discriminate (Hx eq_refl)|reflexivity]).
      subst star. specialize (Hl eq_refl). subst l. cbn [negb andb]. rewrite !andb_true_r.
      destruct pat as [|m' p'].
      + intros E; inversion E; subst. exists [], u, []. split; [reflexivity|]. split.
        * rewrite after_lits by assumption. rewrite <- (app_nil_r u). apply division_lits; [assumption|]. constructor.
        * cbn [rev app length]. f_equal. f_equal. lia.
      + assert (m' = 42) by (cbn [solid] in Esk; destruct (Z.eqb_spec m' 42); [assumption|discriminate]). subst m'.
        cbn [phd]. simpl (42 =? 42). cbv iota. intros E; inversion E; subst.
        exists [], u, [(a + Z.of_nat (length u), 0)]. split; [reflexivity|]. split.
        * rewrite after_lits by assumption.
          assert (D := division_lits (m :: q) u (items (42 :: p')) [] [(a + Z.of_nat (length u), 0)] (a + Z.of_nat (length (@nil Z))) Hqu).
          rewrite app_nil_r in D. apply D.
          rewrite items_all_stars by (assumption || discriminate). cbn [length].
          replace (a + Z.of_nat 0 + Z.of_nat (length u)) with (a + Z.of_nat (length u)) by lia. apply d_star_nil.
        * cbn [rev app length open_group]. unfold open_group. f_equal. f_equal. f_equal. lia. }
  destruct (Z.eqb_spec (phd pat) 42) as [Ep|Ep].
  - apply phd_42 in Ep as [p' ->]. cbn [tl andb].
    assert (Hnq' : no_q p') by (inversion Hnq; assumption).
    destruct q as [|m q].
    + (* another star of the same run *)
      assert (star = true) by (apply Hstar; reflexivity). subst star. cbn [negb]. inversion Hqu; subst.
      destruct (H42 eq_refl) as [-> _].
      destruct p' as [|p0 p'].
      * cbn [close_group]. intros E; inversion E; subst.
        exists (c :: s), [], []. split; [rewrite app_nil_r; reflexivity|]. split.
        { rewrite app_nil_l. rewrite after_star. unfold after. cbn [items]. constructor. }
        cbn [rev app]. f_equal. f_equal. cbn [length]. lia.
      * intros E.
        eapply (IH (p0 :: p') (c :: s) _ (p0 :: p') s _ a l g0 true [] [] (c :: s) a g) in E; side.
        -- destruct E as (v & w & new & E1 & D & Eg). exists v, w, new. split; [exact E1|].
           split; [|exact Eg]. rewrite app_nil_l, after_star. exact D.
    + assert (star = false) by (destruct star; [destruct Hstar as [Hx _]; discriminate (Hx eq_refl)|reflexivity]).
      subst star. specialize (Hl eq_refl). subst l. cbn [negb]. unfold open_group.
      assert (Aft : after wpos = map ILit (m :: q) ++ IStar :: after p').
      { subst wpos. rewrite after_lits by assumption. rewrite items_star. reflexivity. }
      destruct p' as [|p0 p'].
      * cbn [close_group]. intros E; inversion E; subst.
        exists [], (u ++ c :: s), [(a + Z.of_nat (length u), Z.of_nat (length (c :: s)))].
        split; [reflexivity|]. split.
        { rewrite Aft. apply division_lits; [assumption|]. unfold after. cbn [items length].
          replace (a + Z.of_nat 0 + Z.of_nat (length u)) with (a + Z.of_nat (length u)) by lia.
          apply (d_star_all _ (c :: s)). }
        cbn [rev app length]. f_equal. f_equal. f_equal. lia.
      * intros E.
        eapply (IH (p0 :: p') (c :: s) _ (p0 :: p') s _ pos 0 ((st, a - st) :: g0) true [] [] (c :: s) pos g) in E; side.
        -- destruct E as (v & w & new & E1 & D & Eg).
           exists [], str0, ((pos, Z.of_nat (length v)) :: new). split; [reflexivity|]. split.
           ++ rewrite Aft, Hs. apply division_lits; [assumption|]. cbn [length].
              replace (a + Z.of_nat 0 + Z.of_nat (length u)) with pos by lia. rewrite E1. apply d_star. exact D.
           ++ cbn [rev]. rewrite <- app_assoc. cbn [app length]. rewrite Eg.
              f_equal. f_equal; [f_equal; lia|]. f_equal. f_equal. lia.
        -- subst str0. intros Hx. apply Hnul. apply in_or_app. right. exact Hx.
  - assert (Hc : c <> 0).
    { subst str0. intros ->. apply Hnul. apply in_or_app. right. left. reflexivity. }
    assert (Q : q_match (phd pat) c = false).
    { destruct pat as [|m p']; [reflexivity|]. apply q_match_false. inversion Hnq; assumption. }
    rewrite Q. cbn [andb].
    destruct (lit_match (phd pat) c) eqn:M.
    + destruct pat as [|m p'].
      { assert (N := nul_match c Hc). cbn [phd] in M. rewrite M in N. discriminate. }
      cbn [phd tl] in *. unfold lit_match in M. rewrite lower_lc in M. apply Z.eqb_eq in M.
      inversion Hnq as [|? ? Hm Hnq']; subst x l0.
      assert (Next : forall l' star', star' = false -> l' = a - st ->
        wm_loop f true p' s (pos + 1) wpos spos sposn ((st, l') :: g0) false star' = Some (true, g) ->
        exists v w new, str0 = v ++ w /\ division (a + Z.of_nat (length v)) (after wpos) w new /\
          g = rev new ++ (st, a + Z.of_nat (length v) - st) :: g0).
      { intros l' star' -> -> E.
        eapply (IH p' s _ wpos spos sposn st (a - st) g0 false (q ++ [m]) (u ++ [c]) str0 a g) in E; side.
        - rewrite <- app_assoc. exact Hw.
        - rewrite <- app_assoc. exact Hs.
        - rewrite app_length. cbn [length]. lia.
        - apply Forall_app. split; [assumption|]. constructor; [unfold lit; lia | constructor].
        - apply Forall2_app; [assumption|]. constructor; [assumption | constructor].
        - split; [discriminate|]. intros Hx. destruct q; discriminate. }
      destruct star.
      * cbn [close_group]. assert (q = []) by (apply Hstar; reflexivity). subst q. inversion Hqu; subst u.
        intros E. apply (Next _ _ eq_refl) in E; auto. cbn [length] in Hpos. lia.
      * intros E. apply (Next _ _ eq_refl) in E; side.
    + intros E.
      assert (Hstr0 : exists c0, str0 = c0 :: spos).
      { subst spos str0. destruct u as [|x u]; simpl; eauto. }
      destruct Hstr0 as [c0 Hstr0].
      eapply (IH wpos spos _ wpos (tl spos) _ st l g0 true [] [] spos (a + 1) g) in E; side.
      * destruct E as (v & w & new & E1 & D & Eg). exists (c0 :: v), w, new.
        split; [rewrite Hstr0, E1; reflexivity|].
        replace (a + Z.of_nat (length (c0 :: v))) with (a + 1 + Z.of_nat (length v)) by (cbn [length]; lia).
        split; assumption.
      * subst wpos. apply Forall_app. split; [|assumption]. eapply Forall_impl; [|exact Hq]. unfold lit. tauto.
      * intros Hx. exfalso. destruct q as [|m q].
        -- simpl in Hw. subst wpos. contradiction.
        -- subst wpos. simpl in Hx. subst m. inversion Hq as [|? ? Hm _]. unfold lit in Hm. tauto.
      * intros Hx. apply Hnul. rewrite Hstr0. right. exact Hx.
Qed.

(** Everything after the first loop. *)
Lemma wm_second_pos fuel pat str pos gs g w0 s0 n0 : str = [] \/ (exists r, pat = 42 :: r) ->
  no_q pat -> ~ In 0 str ->
  wm_loop fuel true pat str pos w0 s0 n0 gs false false = Some (true, g) ->
  exists new, division pos (items pat) str new /\ g = rev new ++ gs.
Proof.
  intros Hc Hnq Hn. destruct fuel as [|f]; [discriminate|]. cbn [wm_loop].
  destruct str as [|c s].
  - unfold wm_end. cbn [andb negb]. rewrite !andb_true_r.
    destruct (skip_stars pat) eqn:Esk; [|discriminate]. apply skip_stars_nil in Esk.
    destruct pat as [|m p']; intros E; inversion E; subst.
    + exists []. split; [constructor | reflexivity].
    + assert (m = 42) by (cbn [solid] in Esk; destruct (Z.eqb_spec m 42); [assumption|discriminate]). subst m.
      exists [(pos, 0)]. cbn [phd]. simpl (42 =? 42). cbv iota. split; [|reflexivity].
      rewrite items_all_stars by (assumption || discriminate). apply d_star_nil.
  - destruct Hc as [Hc|[r ->]]; [discriminate|]. cbn [phd tl]. simpl (42 =? 42). cbv iota. cbn [andb negb].
    unfold open_group. destruct r as [|p0 r].
    + cbn [close_group]. intros E; inversion E; subst.
      exists [(pos, Z.of_nat (length (c :: s)))]. split; [|reflexivity].
      rewrite items_star. unfold after. cbn [items]. apply d_star_all.
    + intros E.
      eapply (wm_loop_pos f (p0 :: r) (c :: s) pos (p0 :: r) s (pos + 1) pos 0 gs true [] [] (c :: s) pos g) in E; side.
      * destruct E as (v & w & new & E1 & D & Eg).
        exists ((pos, Z.of_nat (length v)) :: new). rewrite items_star, E1. split; [apply d_star, D|].
        cbn [rev]. rewrite <- app_assoc. cbn [app]. rewrite Eg. f_equal. f_equal. f_equal. lia.
      * inversion Hnq; assumption.
Qed.

Lemma q_cases m : is_q m = true -> m = 63 \/ m = 35.
Proof. unfold is_q. lia. Qed.

(** The first loop. *)
Lemma wm_first_pos : forall str pat pos gs qmark pat' str' pos' gs' qm' gs1 r,
  ~ In 0 str ->
  wm_first true str pat pos gs qmark = WRest pat' str' pos' gs' qm' ->
  pat' = [] \/ (exists x, pat' = 42 :: x) ->
  (if qm' then close_group pos' gs' else Some gs') = Some gs1 ->
  division pos' (items pat') str' r ->
  if qmark then forall st l g0, gs = (st, l) :: g0 ->
    exists new ms is' u v, gs1 = rev new ++ (st, pos + Z.of_nat (length u) - st) :: g0 /\
      str = u ++ v /\ Forall2 wild_char ms u /\ division (pos + Z.of_nat (length u)) is' v (new ++ r) /\
      (items pat = IQ ms :: is' \/ (ms = [] /\ items pat = is' /\ no_iq is'))
  else exists new, gs1 = rev new ++ gs /\ division pos (items pat) str (new ++ r).
Proof.
  induction str as [|c s IH]; intros pat pos gs qmark pat' str' pos' gs' qm' gs1 r Hn E Hp Hcl D.
  - cbn [wm_first] in E. inversion E; subst. destruct qm'.
    + intros st l g0 ->. cbn [close_group] in Hcl. inversion Hcl; subst.
      exists [], [], (items pat'), [], []. cbn [rev app length].
      split; [f_equal; f_equal; lia|]. split; [reflexivity|]. split; [constructor|].
      split; [replace (pos' + Z.of_nat 0) with pos' by lia; exact D|].
      right. repeat split. destruct Hp as [->|[x ->]]; [exact I|]. rewrite items_star. exact I.
    + inversion Hcl; subst. exists []. split; [reflexivity|exact D].
  - cbn [wm_first] in E. cbv zeta in E.
    destruct (Z.eqb_spec (phd pat) 42) as [Ep|Ep].
    { inversion E; subst. destruct qm'.
      + intros st l g0 ->. cbn [close_group] in Hcl. inversion Hcl; subst.
        exists [], [], (items pat'), [], (c :: s). cbn [rev app length].
        split; [f_equal; f_equal; lia|]. split; [reflexivity|]. split; [constructor|].
        split; [replace (pos' + Z.of_nat 0) with pos' by lia; exact D|].
        right. repeat split. destruct Hp as [->|[x ->]]; [exact I|]. rewrite items_star. exact I.
      + inversion Hcl; subst. exists []. split; [reflexivity|exact D]. }
    destruct (wm_upd true (phd pat) pos gs qmark) as [[gs2 qm2]|] eqn:U; [|discriminate].
    destruct (lit_match (phd pat) c || q_match (phd pat) c) eqn:M; [|discriminate]. cbn [negb] in E.
    destruct pat as [|m p'].
    { cbn [phd] in M. rewrite nul_match in M by (simpl in Hn; tauto). discriminate. }
    cbn [phd tl] in *. apply match_char in M.
    specialize (IH p' (pos + 1) gs2 qm2 pat' str' pos' gs' qm' gs1 r ltac:(simpl in Hn; tauto) E Hp Hcl D).
    unfold wm_upd in U. cbn [andb] in U.
    destruct (is_q m) eqn:Q.
    + apply q_cases in Q. destruct qmark; cbn [negb] in U; inversion U; subst gs2 qm2.
      * intros st l g0 Eg. destruct (IH st l g0 Eg) as (new & ms & is' & u & v & E1 & E2 & F & D2 & Alt).
        exists new, (m :: ms), is', (c :: u), v. rewrite E2.
        replace (pos + Z.of_nat (length (c :: u))) with (pos + 1 + Z.of_nat (length u)) by (cbn [length]; lia).
        split; [exact E1|]. split; [reflexivity|]. split; [constructor; assumption|]. split; [exact D2|].
        left. rewrite items_q by assumption. destruct Alt as [->|(-> & -> & Nq)]; [reflexivity|].
        destruct is' as [|[]]; try reflexivity. contradiction.
      * destruct (IH pos 0 gs eq_refl) as (new & ms & is' & u & v & E1 & E2 & F & D2 & Alt).
        exists ((pos, Z.of_nat (length (c :: u))) :: new). split.
        -- rewrite E1. cbn [rev]. rewrite <- app_assoc. cbn [app length]. f_equal. f_equal. f_equal. lia.
        -- assert (It : items (m :: p') = IQ (m :: ms) :: is').
           { rewrite items_q by assumption. destruct Alt as [->|(-> & -> & Nq)]; [reflexivity|].
             destruct is' as [|[]]; try reflexivity. contradiction. }
           rewrite It, E2. cbn [app]. change (c :: u ++ v) with ((c :: u) ++ v). apply d_q; [constructor; assumption|].
           replace (pos + Z.of_nat (length (c :: u))) with (pos + 1 + Z.of_nat (length u)) by (cbn [length]; lia).
           exact D2.
    + assert (Lm : lit m) by (unfold is_q in Q; unfold lit; lia).
      assert (Lc : lc m = lc c) by (unfold wild_char in M; unfold lit in Lm; intuition).
      destruct qmark; cbn [negb] in U.
      * destruct gs as [|[st0 l0] g0']; cbn [close_group] in U; inversion U; subst gs2 qm2.
        intros st l g0 Eg. inversion Eg; subst. destruct IH as (new & E1 & D2).
        exists new, [], (ILit m :: items p'), [], (c :: s). cbn [length].
        split; [rewrite E1; f_equal; f_equal; f_equal; lia|]. split; [reflexivity|]. split; [constructor|].
        split; [replace (pos + Z.of_nat 0) with pos by lia; apply d_lit; assumption|].
        right. rewrite items_lit by assumption. repeat split.
      * inversion U; subst gs2 qm2. destruct IH as (new & E1 & D2). exists new. split; [exact E1|].
        rewrite items_lit by assumption. apply d_lit; assumption.
Qed.

Lemma wm_first_rest wants : forall str pat pos gs qmark pat' str' pos' gs' qm',
  wm_first wants str pat pos gs qmark = WRest pat' str' pos' gs' qm' -> exists x, pat = x ++ pat' \/ pat' = [].
Proof.
  induction str as [|c s IH]; intros pat pos gs qmark pat' str' pos' gs' qm' E; cbn [wm_first] in E; cbv zeta in E.
  - inversion E; subst. exists []. auto.
  - destruct (phd pat =? 42); [inversion E; subst; exists []; auto|].
    destruct (wm_upd wants (phd pat) pos gs qmark) as [[gs2 qm2]|]; [|discriminate].
    destruct (negb _); [discriminate|]. apply IH in E as [x [E|E]]; [|exists []; auto].
    destruct pat as [|m p]; cbn [tl] in E.
    + exists []. right. destruct x, pat'; simpl in E; congruence.
    + exists (m :: x). left. rewrite E. reflexivity.
Qed.

(** Masks in which no '?' or '#' follows a '*'. *)
Definition q_before_star (mask : list Z) : Prop :=
  forall a b, mask = a ++ 42 :: b -> no_q b.

Lemma q_before_star_tail x p : q_before_star (x ++ 42 :: p) -> no_q (42 :: p).
Proof. intros H. constructor; [lia|]. exact (H x p eq_refl). Qed.

Theorem wild_positions mask text g : ~ In 0 text -> q_before_star mask ->
  wild_match true mask text = Some (true, g) -> division 0 (items mask) text g.
Proof.
  intros Hn Hq. unfold wild_match.
  assert (F := wm_first_ok true text mask 0 [] false ltac:(discriminate) Hn).
  destruct (wm_first true text mask 0 [] false) as [|pat str pos gs qmark|] eqn:E; [discriminate| |discriminate].
  destruct F as (F1 & F2 & F3 & F4). cbn [andb].
  destruct (if qmark then close_group pos gs else Some gs) as [gs1|] eqn:C; [|discriminate].
  assert (Eqm : (if qmark then false else qmark) = false) by (destruct qmark; reflexivity). rewrite Eqm.
  destruct (wm_loop (wm_fuel pat str) true pat str pos text text 0 gs1 false false) as [[b g']|] eqn:El; [|discriminate].
  intros Eg. inversion Eg; subst b g.
  assert (Hp : pat = [] \/ exists x, pat = 42 :: x).
  { destruct F2 as [->|F2]; [|auto]. destruct pat as [|m p]; [auto|]. right.
    unfold wm_fuel in El. cbn [wm_loop] in El. unfold wm_end in El. cbn [andb] in El. inversion El as [[E1 E2]].
    cbn [skip_stars] in E1. destruct (Z.eqb_spec m 42) as [->|]; [eauto|discriminate]. }
  assert (Hnq : no_q pat).
  { destruct Hp as [->|[x ->]]; [constructor|].
    apply wm_first_rest in E as [y [->|E]]; [|discriminate]. apply (q_before_star_tail y), Hq. }
  apply wm_second_pos in El as (new & D & ->); [|assumption|assumption|assumption].
  destruct (wm_first_pos text mask 0 [] false pat str pos gs qmark gs1 new Hn E Hp C D) as (new2 & -> & D2).
  rewrite app_nil_r, <- rev_app_distr, rev_involutive. exact D2.
Qed.
