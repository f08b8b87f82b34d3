(** Proofs about histories of hand-outs. *)
From Verif Require Import Base FeedModel NextModel NextSpec NextProofs.
Open Scope list_scope. Open Scope Z_scope.

Lemma pick_file_at e ck i n : forall fs j0 cur c, pick_file e ck i n j0 fs cur = Some c ->
  cur = Some c \/ exists m, p_i c = i /\ p_j c = (j0 + m)%nat /\ p_nzb c = n /\ nth_error fs m = Some (p_file c).
Proof.
  induction fs as [|f fs IH]; intros j0 cur c; cbn [pick_file]; [auto|]. intros H. apply IH in H as [H|(m & H1 & H2 & H3 & H4)].
  - destruct (_ && _ && _ && _ && _); [|left; exact H]. injection H as <-. right. exists 0%nat. cbn. rewrite Nat.add_0_r. auto.
  - right. exists (S m). split; [exact H1|]. split; [lia|]. split; assumption.
Qed.
Lemma pick_nzb_at e ck : forall q i0 cur c, pick_nzb e ck i0 q cur = Some c ->
  cur = Some c \/ exists m, p_i c = (i0 + m)%nat /\ nth_error q m = Some (p_nzb c) /\ nth_error (n_files (p_nzb c)) (p_j c) = Some (p_file c).
Proof.
  induction q as [|n q IH]; intros i0 cur c; cbn [pick_nzb]; [auto|]. intros H. apply IH in H as [H|(m & H1 & H2)].
  - destruct (_ && nzb_allowed e n); [|left; exact H]. apply pick_file_at in H as [H|(m & -> & H2 & H3 & H4)]; [left; exact H|].
    right. exists 0%nat. rewrite H3. split; [lia|]. split; [reflexivity|]. rewrite H2. exact H4.
  - right. exists (S m). split; [lia|exact H2].
Qed.
Lemma rel_get q q' i j k : rel q q' -> get_art q i j k = get_art q' i j k.
Proof.
  intros R. unfold get_art. destruct (nth_error q i) as [n|] eqn:E.
  - destruct (rel_at _ _ _ _ R E) as (n' & -> & B). apply bare_inv in B as (B & _). cbn [obind]. rewrite B. reflexivity.
  - destruct (nth_error q' i) as [n'|] eqn:E'; [|reflexivity]. destruct (rel_at _ _ _ _ (rel_sym _ _ R) E') as (n & H & _). congruence.
Qed.
Lemma rel_arts q q' : rel q q' -> all_arts q = all_arts q'.
Proof.
  intros R. unfold all_arts. replace (map n_files q') with (map n_files q); [reflexivity|].
  induction R; [reflexivity|]. cbn [map]. apply bare_inv in H as (-> & _). rewrite IHR. reflexivity.
Qed.
Lemma loop_sound e : forall fuel ck q i j k q', next_loop fuel e ck q = Some (Some (i, j, k), q') ->
  rel q q' /\ exists a, get_art q i j k = Some a /\ a_status a = aiUndefined.
Proof.
  induction fuel as [|fuel IH]; intros ck q i j k q'; cbn [next_loop]; [discriminate|].
  destruct (pick_nzb e ck 0 q None) as [p|] eqn:P; [|discriminate]. apply pick_nzb_at in P as [P|(m & PI & PN & PF)]; [discriminate|].
  cbn [Nat.add] in PI. subst m. set (try_first := _ && _ && _).
  destruct (if try_first then first_article 0 (n_files (p_nzb p)) else None) as [j1|] eqn:FA.
  - intros H. injection H as <- <- <- <-. split; [apply rel_set, PN|]. destruct try_first; [|discriminate].
    destruct (first_article_spec _ _ _ FA) as (m & f & -> & N & _ & (l & a & r & E & L & S & _)). exists a. split; [|exact S].
    unfold get_art. rewrite PN. cbn [obind]. cbn [Nat.add]. rewrite N. cbn [obind]. rewrite E. destruct l; [reflexivity|discriminate].
  - set (q1 := if try_first then _ else q). assert (R1 : rel q q1).
    { unfold q1. destruct try_first; [apply rel_set, PN|apply rel_refl]. }
    assert (FU := first_undefined_spec (f_arts (p_file p)) 0). destruct (first_undefined 0 (f_arts (p_file p))) as [k1|].
    + intros H. injection H as <- <- <- <-. split; [exact R1|]. destruct FU as (l1 & a & r & E & -> & S & _). exists a. split; [|exact S].
      unfold get_art. rewrite PN. cbn [obind]. rewrite PF. cbn [obind]. rewrite E. cbn [Nat.add].
      rewrite nth_error_app2 by lia. rewrite Nat.sub_diag. reflexivity.
    + intros H. apply IH in H as [R2 (a & G & S)]. split; [exact (rel_trans _ _ _ R1 R2)|]. exists a. split; [|exact S]. rewrite (rel_get _ _ _ _ _ R1). exact G.
Qed.
Lemma loop_none e : forall fuel ck q q', next_loop fuel e ck q = Some (None, q') -> rel q q'.
Proof.
  induction fuel as [|fuel IH]; intros ck q q'; cbn [next_loop]; [discriminate|].
  destruct (pick_nzb e ck 0 q None) as [p|] eqn:P; [|intros H; injection H as <-; apply rel_refl]. apply pick_nzb_at in P as [P|(m & PI & PN & PF)]; [discriminate|].
  cbn [Nat.add] in PI. subst m. set (try_first := _ && _ && _).
  destruct (if try_first then first_article 0 (n_files (p_nzb p)) else None); [discriminate|].
  set (q1 := if try_first then _ else q). assert (R1 : rel q q1).
  { unfold q1. destruct try_first; [apply rel_set, PN|apply rel_refl]. }
  destruct (first_undefined 0 _); [discriminate|]. intros H. exact (rel_trans _ _ _ R1 (IH _ _ _ H)).
Qed.

Lemma nth_split_set {A} (l : list A) : forall i x y, nth_error l i = Some x -> exists l1 l2, l = l1 ++ x :: l2 /\ set_nth i y l = l1 ++ y :: l2.
Proof.
  induction l as [|z l IH]; intros [|i] x y H; try discriminate.
  - injection H as ->. exists [], l. split; reflexivity.
  - destruct (IH i x y H) as (l1 & l2 & E1 & E2). exists (z :: l1), l2. cbn [set_nth]. split; [rewrite E1|rewrite E2]; reflexivity.
Qed.
Lemma arts_set q i j k a s : get_art q i j k = Some a -> exists l1 l2, all_arts q = l1 ++ a :: l2 /\ all_arts (set_art q i j k s) = l1 ++ mkArt (a_id a) s :: l2.
Proof.
  unfold get_art, set_art. destruct (nth_error q i) as [n|] eqn:N; [|discriminate]. cbn [obind].
  destruct (nth_error (n_files n) j) as [f|] eqn:F; [|discriminate]. cbn [obind]. intros A. rewrite A.
  set (f' := mkFile _ _ _ _ _ _). set (n' := mkNzb _ _ _ _ _ _ _).
  destruct (nth_split_set q i n n' N) as (q1 & q2 & EQ1 & EQ2). destruct (nth_split_set (n_files n) j f f' F) as (g1 & g2 & EF1 & EF2).
  destruct (nth_split_set (f_arts f) k a (mkArt (a_id a) s) A) as (b1 & b2 & EB1 & EB2).
  unfold all_arts. rewrite EQ2. clear EQ2. rewrite EQ1. rewrite !map_app, !concat_app. cbn [map concat]. rewrite EF1. unfold n'. cbn [n_files]. rewrite EF2.
  repeat (rewrite ?map_app, ?concat_app; cbn [map concat]). unfold f'. cbn [f_arts]. rewrite EB2, EB1.
  exists (concat (map f_arts (concat (map n_files q1))) ++ concat (map f_arts g1) ++ b1),
    (b2 ++ concat (map f_arts g2) ++ concat (map f_arts (concat (map n_files q2)))).
  clear. split; repeat rewrite <- app_assoc; reflexivity.
Qed.

Definition out (l : list seen) (a : Z) : Prop := exists x y, l = x ++ Handed a :: y /\ ~ In (Back a) y.
Definition handed (l : list seen) : list Z := concat (map (fun x => match x with Handed a => [a] | Back _ => [] end) l).
Definition hist_inv (q : list nzb) (l : list seen) : Prop :=
  told_apart q /\ once l /\ forall b, In b (all_arts q) -> a_status b = aiUndefined -> ~ out l (a_id b).
Lemma snoc_inv {A} (l : list A) z x c y : l ++ [z] = x ++ c :: y -> (y = [] /\ z = c /\ l = x) \/ exists y', y = y' ++ [z] /\ l = x ++ c :: y'.
Proof.
  destruct y as [|d y0] using rev_ind.
  - intros H. apply app_inj_tail in H as [-> ->]. left. auto.
  - intros H. right. change (x ++ c :: y0 ++ [d]) with (x ++ (c :: y0) ++ [d]) in H. rewrite app_assoc in H. apply app_inj_tail in H as [H ->].
    exists y0. split; [reflexivity|exact H].
Qed.
Lemma out_snoc l z a : out (l ++ [z]) a -> z <> Handed a -> z <> Back a /\ out l a.
Proof.
  intros (x & y & E & N) NZ. apply snoc_inv in E as [(_ & H & _)|(y' & -> & ->)]; [contradiction|].
  split; [intros ->; apply N, in_or_app; right; left; reflexivity|]. exists x, y'. split; [reflexivity|]. intros I. apply N, in_or_app. left. exact I.
Qed.
Lemma seen_dec (x y : seen) : {x = y} + {x <> y}.
Proof. decide equality; apply Z.eq_dec. Qed.
Lemma once_hand l a : once l -> ~ out l a -> once (l ++ [Handed a]).
Proof.
  intros O N x y z b E. replace (x ++ Handed b :: y ++ Handed b :: z) with ((x ++ Handed b :: y) ++ Handed b :: z) in E by (rewrite <- app_assoc; reflexivity).
  apply snoc_inv in E as [(-> & H & ->)|(z' & -> & ->)].
  - injection H as ->. destruct (in_dec seen_dec (Back b) y) as [I|I]; [exact I|]. exfalso. apply N. exists x, y. split; [reflexivity|exact I].
  - apply (O x y z'). rewrite <- app_assoc. reflexivity.
Qed.
Lemma once_back l a : once l -> once (l ++ [Back a]).
Proof.
  intros O x y z b E. replace (x ++ Handed b :: y ++ Handed b :: z) with ((x ++ Handed b :: y) ++ Handed b :: z) in E by (rewrite <- app_assoc; reflexivity).
  apply snoc_inv in E as [(_ & H & _)|(z' & -> & ->)]; [discriminate|]. apply (O x y z'). rewrite <- app_assoc. reflexivity.
Qed.
Lemma apart_swap l1 a s l2 : map a_id (l1 ++ mkArt (a_id a) s :: l2) = map a_id (l1 ++ a :: l2).
Proof. rewrite !map_app. reflexivity. Qed.
Lemma apart_other l1 a s l2 b : NoDup (map a_id (l1 ++ a :: l2)) -> In b (l1 ++ mkArt (a_id a) s :: l2) ->
  b = mkArt (a_id a) s \/ (In b (l1 ++ a :: l2) /\ a_id b <> a_id a).
Proof.
  intros ND I. rewrite map_app in ND. cbn [map] in ND. apply NoDup_remove in ND as [_ N].
  apply in_app_or in I as [I|[<-|I]]; [right|left; reflexivity|right]; (split; [apply in_or_app; cbn; auto|]); intros E; apply N; rewrite <- E; apply in_or_app;
    [left|right]; apply in_map, I.
Qed.
Lemma step_inv q l v : hist_inv q l ->
  (match v with EvEdit q' => told_apart q' /\ forall a, In a (all_arts q') -> In a (all_arts q) \/ ~ In (a_id a) (handed l) | _ => True end) ->
  let '(q1, s) := ev_step q v in hist_inv q1 (l ++ s).
Proof.
  intros (T & O & U) ED. destruct v as [e|i j k s|q']; cbn [ev_step].
  - unfold next_article. destruct (next_loop _ e [] q) as [[[[[i j] k]|] q1]|] eqn:E.
    + apply loop_sound in E as [R (a & G & S)]. rewrite G.
      assert (G1 : get_art q1 i j k = Some a) by (rewrite <- (rel_get _ _ _ _ _ R); exact G).
      destruct (arts_set q1 i j k a aiRunning G1) as (l1 & l2 & E1 & E2). rewrite <- (rel_arts _ _ R) in E1.
      assert (NA : ~ out l (a_id a)) by (apply U; [rewrite E1; apply in_or_app; right; left; reflexivity|exact S]).
      assert (ND : NoDup (map a_id (l1 ++ a :: l2))) by (rewrite <- E1; exact T).
      split; [unfold told_apart; rewrite E2, apart_swap; exact ND|]. split; [apply once_hand; assumption|].
      intros b IB SB OB. rewrite E2 in IB. apply (apart_other _ _ _ _ _ ND) in IB as [-> |[IB NE]]; [discriminate|].
      apply out_snoc in OB as [_ OB]; [|congruence]. rewrite <- E1 in IB. exact (U b IB SB OB).
    + apply loop_none in E. rewrite app_nil_r. unfold hist_inv, told_apart. rewrite <- (rel_arts _ _ E). split; [exact T|]. split; assumption.
    + rewrite app_nil_r. split; [exact T|]. split; assumption.
  - destruct (get_art q i j k) as [a|] eqn:G; [|rewrite app_nil_r; split; [exact T|]; split; assumption].
    destruct (a_status a) eqn:S; try (rewrite app_nil_r; split; [exact T|]; split; assumption).
    destruct (arts_set q i j k a s G) as (l1 & l2 & E1 & E2).
    assert (ND : NoDup (map a_id (l1 ++ a :: l2))) by (rewrite <- E1; exact T).
    split; [unfold told_apart; rewrite E2, apart_swap; exact ND|]. destruct s; cbn [undefined]; rewrite ?app_nil_r.
    + split; [apply once_back, O|]. intros b IB SB OB. apply out_snoc in OB as [NB OB]; [|discriminate]. rewrite E2 in IB.
      apply (apart_other _ _ _ _ _ ND) in IB as [-> |[IB NE]]; [cbn in NB; congruence|]. rewrite <- E1 in IB. exact (U b IB SB OB).
    + split; [exact O|]. intros b IB SB OB. rewrite E2 in IB. apply (apart_other _ _ _ _ _ ND) in IB as [-> |[IB NE]]; [discriminate|]. rewrite <- E1 in IB. exact (U b IB SB OB).
    + split; [exact O|]. intros b IB SB OB. rewrite E2 in IB. apply (apart_other _ _ _ _ _ ND) in IB as [-> |[IB NE]]; [discriminate|]. rewrite <- E1 in IB. exact (U b IB SB OB).
    + split; [exact O|]. intros b IB SB OB. rewrite E2 in IB. apply (apart_other _ _ _ _ _ ND) in IB as [-> |[IB NE]]; [discriminate|]. rewrite <- E1 in IB. exact (U b IB SB OB).
  - rewrite app_nil_r. destruct ED as [T' ED]. split; [exact T'|]. split; [exact O|]. intros b IB SB OB. destruct (ED b IB) as [I|N]; [exact (U b I SB OB)|].
    apply N. destruct OB as (x & y & -> & _). unfold handed. rewrite map_app, concat_app. apply in_or_app. right. left. reflexivity.
Qed.
Lemma edits_weak : forall ops q u u', (forall x, In x u -> In x u') -> edits_ok q u' ops -> edits_ok q u ops.
Proof.
  induction ops as [|v ops IH]; intros q u u' I H; [exact Logic.I|]. cbn [edits_ok] in *. destruct H as [H1 H2]. split.
  - destruct v; try exact Logic.I. destruct H1 as [T H1]. split; [exact T|]. intros a A. destruct (H1 a A) as [X|X]; [left; exact X|right]. intros Y. exact (X (I _ Y)).
  - destruct (ev_step q v) as [q1 s]. refine (IH _ _ _ _ H2). intros x X. apply in_or_app. apply in_app_or in X as [X|X]; [left; exact X|right; exact (I _ X)].
Qed.
Lemma run_inv : forall ops q l, hist_inv q l -> edits_ok q (handed l) ops -> hist_inv (fst (ev_run q ops)) (l ++ snd (ev_run q ops)).
Proof.
  induction ops as [|v ops IH]; intros q l I E; [cbn; rewrite app_nil_r; exact I|]. cbn [ev_run edits_ok] in *. destruct E as [E1 E2].
  assert (S := step_inv q l v I E1). destruct (ev_step q v) as [q1 s]. specialize (IH q1 (l ++ s) S).
  destruct (ev_run q1 ops) as [q2 s']. cbn [fst snd] in *. rewrite app_assoc. apply IH. refine (edits_weak _ _ _ _ _ E2).
  intros x X. unfold handed in *. rewrite map_app, concat_app in X. apply in_app_or in X. apply in_or_app. tauto.
Qed.
(** No article is handed out again unless it came back to be retried. *)
Theorem handed_once : forall q ops, told_apart q -> edits_ok q [] ops -> once (snd (ev_run q ops)).
Proof.
  intros q ops T E. assert (I : hist_inv q []).
  { split; [exact T|]. split; [|intros b _ _ (x & y & H & _); destruct x; discriminate]. intros x y z a H. destruct x; discriminate. }
  destruct (run_inv ops q [] I E) as (_ & H & _). exact H.
Qed.
