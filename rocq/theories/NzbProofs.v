(** Lemmas about the reading of nzb-files: the calls of the XML parser. *)
From Coq Require Import String.
From Verif Require Import Base NumFmt WildModel WildSpec TextProofs NzbModel NzbSpec.
Open Scope list_scope. Open Scope Z_scope.

(** ** Attributes and numbers *)

Lemma attr_has n v atts : forall d, (forall w, In (n, w) atts -> w = v) ->
  attr n atts d = if existsb (fun x => beqb n (fst x)) atts then Some v else d.
Proof.
  induction atts as [|[m w] atts IH]; intros d H; [reflexivity|]. cbn [attr existsb fst].
  rewrite IH by (intros u I; apply H; right; exact I).
  destruct (beqb n m) eqn:E; [|reflexivity]. apply beqb_eq in E as ->. cbn [orb].
  rewrite (H w) by (left; reflexivity). destruct (existsb _ atts); reflexivity.
Qed.
Lemma attr_ok atts n v d : has_attr atts n v -> attr n atts d = Some v.
Proof.
  intros H. rewrite (attr_has n v) by (intros w I; apply H, I).
  assert (I : In (n, v) atts) by (apply H; reflexivity).
  assert (E : existsb (fun x => beqb n (fst x)) atts = true).
  { apply existsb_exists. exists (n, v). split; [exact I|apply beqb_refl]. }
  rewrite E. reflexivity.
Qed.
Lemma atoll_zdec' x : atoll (zdec x) = x.
Proof. rewrite <- (app_nil_r (zdec x)). apply atoll_zdec. exact I. Qed.
Lemma to_int_id x : - 2 ^ 31 <= x < 2 ^ 31 -> to_int x = x.
Proof. intros H. unfold to_int. rewrite Z.mod_small; lia. Qed.

(** ** Texts *)

Definition nb (c : Z) : bool := negb (is_blank c).
Lemma is_blank_iff c : is_blank c = true <-> blank c.
Proof. unfold is_blank, blank. lia. Qed.
Definition sliced (l : list Z) : Prop :=
  exists b1 w b2, l = b1 ++ w ++ b2 /\ Forall blank b1 /\ Forall (fun c => ~ blank c) w /\ Forall blank b2.

Lemma sliced_tl x l : sliced (x :: l) -> sliced l.
Proof.
  intros (b1 & w & b2 & E & H1 & H2 & H3). destruct b1 as [|c b1].
  - destruct w as [|d w].
    + destruct b2 as [|e b2]; [discriminate|]. injection E as <- ->. exists [], [], b2. inversion H3. auto.
    + injection E as <- ->. exists [], w, b2. inversion H2. auto.
  - injection E as <- ->. exists b1, w, b2. inversion H1. auto.
Qed.
Lemma sliced_skip a b : sliced (a ++ b) -> sliced b.
Proof. induction a as [|x a IH]; intros H; [exact H|]. apply IH, (sliced_tl x), H. Qed.
Lemma sliced_rev l : sliced l -> sliced (rev l).
Proof.
  intros (b1 & w & b2 & -> & H1 & H2 & H3). exists (rev b2), (rev w), (rev b1).
  rewrite !rev_app_distr, app_assoc. repeat split; auto using Forall_rev.
Qed.
Lemma sliced_first a b : sliced (a ++ b) -> sliced a.
Proof.
  intros H. apply sliced_rev in H. rewrite rev_app_distr in H. apply sliced_skip in H.
  apply sliced_rev in H. rewrite rev_involutive in H. exact H.
Qed.

Lemma filter_blank l : Forall blank l -> filter nb l = [].
Proof. induction 1 as [|c l B _ IH]; [reflexivity|]. cbn [filter]. unfold nb. apply is_blank_iff in B. rewrite B. exact IH. Qed.
Lemma filter_word l : Forall (fun c => ~ blank c) l -> filter nb l = l.
Proof.
  induction 1 as [|c l B _ IH]; [reflexivity|]. cbn [filter]. unfold nb at 1.
  destruct (is_blank c) eqn:E; [apply is_blank_iff in E; contradiction|]. cbn [negb]. rewrite IH. reflexivity.
Qed.
Lemma trim_sliced c : sliced c -> trim c = filter nb c.
Proof.
  intros (b1 & w & b2 & -> & H1 & H2 & H3). rewrite !filter_app, (filter_blank b1), (filter_blank b2), (filter_word w), app_nil_r by assumption.
  cbn [app]. apply (trimmed_unique (b1 ++ w ++ b2)); [apply trim_ok|].
  destruct w as [|x w].
  - exists (b1 ++ b2), []. cbn [app]. rewrite app_nil_r. split; [reflexivity|].
    split; [apply Forall_app; split; assumption|]. split; [constructor|]. split; [discriminate|].
    intros c r E. destruct r; discriminate.
  - exists b1, b2. split; [reflexivity|]. split; [exact H1|]. split; [exact H3|]. split.
    + intros c r E. injection E as <- <-. inversion H2; assumption.
    + intros c r E. rewrite E in H2. apply Forall_app in H2 as [_ H2]. inversion H2; assumption.
Qed.
Lemma trims_ok chunks t : text_in chunks t -> Forall (fun c => ~ blank c) t -> concat (map trim chunks) = t.
Proof.
  intros (b1 & b2 & E & H1 & H2) W.
  assert (SL : sliced (concat chunks)) by (exists b1, t, b2; auto).
  assert (X : concat (map trim chunks) = filter nb (concat chunks)).
  { clear E. induction chunks as [|c chunks IH]; [reflexivity|]. cbn [map concat] in *.
    rewrite filter_app, (trim_sliced c) by (apply (sliced_first c (concat chunks)), SL).
    rewrite IH by (apply (sliced_skip c), SL). reflexivity. }
  rewrite X, E, !filter_app, (filter_blank b1), (filter_blank b2), (filter_word t), app_nil_r by assumption. reflexivity.
Qed.

Definition add_text (u : option (list Z)) (t : list Z) : option (list Z) :=
  match t with [] => u | _ => Some (match u with Some v => v | None => [] end ++ t) end.
Definition with_text (u : option (list Z)) (p : np) : np :=
  NP (p_files p) (p_cur p) (p_art p) u (p_pw p) (p_haspw p) (p_next p).
Lemma add_text_app u s t : add_text (add_text u s) t = add_text u (s ++ t).
Proof.
  destruct s as [|x s]; [reflexivity|]. destruct t as [|y t]; [rewrite app_nil_r; reflexivity|].
  cbn [add_text app]. rewrite <- app_assoc. reflexivity.
Qed.
Lemma characters_ok s p : characters s p = with_text (add_text (p_text p) (trim s)) p.
Proof. unfold characters, with_text. destruct (trim s); [destruct p; reflexivity|reflexivity]. Qed.
Lemma run_texts chunks : forall p r,
  ev_run p (map EText chunks ++ r) = ev_run (with_text (add_text (p_text p) (concat (map trim chunks))) p) r.
Proof.
  induction chunks as [|c chunks IH]; intros p r.
  - cbn. destruct p; reflexivity.
  - cbn [map app ev_run ev_step]. rewrite characters_ok, IH. unfold with_text. cbn [p_text p_files p_cur p_art p_pw p_haspw p_next].
    rewrite add_text_app. reflexivity.
Qed.

(** ** Slots *)

Lemma nth_set_slot k x : forall l j, nth j (set_slot k x l) None = if (j =? k)%nat then x else nth j l None.
Proof.
  induction k as [|k IH]; intros [|y l] [|j]; cbn [set_slot nth Nat.eqb]; try reflexivity.
  - destruct j; reflexivity.
  - rewrite IH. destruct j; reflexivity.
  - rewrite IH. reflexivity.
Qed.
Lemma length_set_slot k x : forall l, length (set_slot k x l) = Nat.max (S k) (length l).
Proof. induction k as [|k IH]; intros [|y l]; cbn [set_slot length]; try rewrite IH; cbn [length]; lia. Qed.
Lemma set_slot_twice k x y : forall l, set_slot k x (set_slot k y l) = set_slot k x l.
Proof. induction k as [|k IH]; intros [|z l]; cbn [set_slot]; try rewrite IH; reflexivity. Qed.

Lemma kept_from_in l : forall m n a, In (n, a) (kept_from m l) <-> exists k, n = m + Z.of_nat k /\ nth k l None = Some a.
Proof.
  induction l as [|x l IH]; intros m n a.
  - split; [intros []|]. intros (k & _ & E). destruct k; discriminate.
  - cbn [kept_from]. split.
    + destruct x as [b|].
      * intros [E|I].
        -- injection E as <- <-. exists O. split; [lia|reflexivity].
        -- apply IH in I as (k & -> & E). exists (S k). split; [lia|exact E].
      * intros I. apply IH in I as (k & -> & E). exists (S k). split; [lia|exact E].
    + intros (k & -> & E). destruct k as [|k].
      * cbn [nth] in E. subst x. left. f_equal. lia.
      * assert (I : In (m + Z.of_nat (S k), a) (kept_from (m + 1) l)) by (apply IH; exists k; split; [lia|exact E]).
        destruct x; [right|]; exact I.
Qed.
Lemma kept_from_inc l : forall m, increasing (map fst (kept_from m l)) /\ forall y, In y (map fst (kept_from m l)) -> m <= y.
Proof.
  induction l as [|x l IH]; intros m; [split; [constructor|intros y []]|]. destruct (IH (m + 1)) as [I L].
  destruct x as [b|]; cbn [kept_from map fst].
  - split.
    + constructor; [|exact I]. intros y Y. apply L in Y. lia.
    + intros y [<- | Y]; [lia|]. apply L in Y. lia.
  - split; [exact I|]. intros y Y. apply L in Y. lia.
Qed.

Definition art_of (s : sseg) : nart := NArt (s_bytes s) (Some ([60] ++ s_msg s ++ [62])).
Definition put_seg (l : list (option nart)) (s : sseg) : list (option nart) :=
  set_slot (Z.to_nat (s_num s - 1)) (Some (art_of s)) l.

Lemma segs_nth ss : Forall (fun s => 1 <= s_num s) ss -> forall l k,
  (exists g, last_seg (Z.of_nat k + 1) ss g /\ nth k (fold_left put_seg ss l) None = Some (art_of g)) \/
  ((forall t, In t ss -> s_num t <> Z.of_nat k + 1) /\ nth k (fold_left put_seg ss l) None = nth k l None).
Proof.
  induction 1 as [|s ss N _ IH]; intros l k.
  - right. split; [intros t []|reflexivity].
  - cbn [fold_left]. destruct (IH (put_seg l s) k) as [(g & (l1 & l2 & E & En & Hl) & Hg) | (Hn & Hg)].
    + left. exists g. split; [|exact Hg]. exists (s :: l1), l2. rewrite E. auto.
    + assert (X : nth k (put_seg l s) None = if (k =? Z.to_nat (s_num s - 1))%nat then Some (art_of s) else nth k l None) by apply nth_set_slot.
      rewrite X in Hg. clear X. destruct (Nat.eqb_spec k (Z.to_nat (s_num s - 1))) as [K|K].
      * left. exists s. split; [|exact Hg]. exists [], ss. split; [reflexivity|]. split; [lia|exact Hn].
      * right. split; [|exact Hg]. intros t [<- | T]; [lia|apply Hn, T].
Qed.
Lemma last_seg_unique n ss g h : last_seg n ss g -> last_seg n ss h -> g = h.
Proof.
  intros (l1 & l2 & E & En & H) (m1 & m2 & F & Fn & K). rewrite E in F. clear E. revert m1 F.
  induction l1 as [|x l1 IH]; intros [|y m1] F; cbn [app] in F; injection F as F1 F2.
  - exact F1.
  - exfalso. apply (H h); [rewrite F2; apply in_or_app; right; left; reflexivity|exact Fn].
  - exfalso. apply (K g); [rewrite <- F2; apply in_or_app; right; left; reflexivity|exact En].
  - apply (IH m1 F2).
Qed.
Lemma segs_length ss : Forall (fun s => 1 <= s_num s) ss -> forall l,
  Z.of_nat (length (fold_left put_seg ss l)) = Z.max (Z.of_nat (length l)) (fold_right Z.max 0 (map s_num ss)).
Proof.
  induction 1 as [|s ss N _ IH]; intros l; cbn [fold_left map fold_right]; [lia|].
  rewrite IH. unfold put_seg. rewrite length_set_slot. lia.
Qed.

(** ** Elements *)

Ltac pcbn := cbn [p_files p_cur p_art p_text p_pw p_haspw p_next nf_id nf_subject nf_time nf_groups nf_slots set_slots with_text].

Ltac pcbnin H := cbn [p_files p_cur p_art p_text p_pw p_haspw p_next nf_id nf_subject nf_time nf_groups nf_slots set_slots with_text] in H.

Lemma special_dec n : (beqb n (str "file") = false /\ beqb n (str "segment") = false /\ beqb n (str "group") = false) <-> ~ special n.
Proof. unfold special. rewrite !beqb_neq. tauto. Qed.

(** Fillers leave files, current file and article alone. *)
Definition same_but_text (p q : np) : Prop :=
  p_files q = p_files p /\ p_cur q = p_cur p /\ p_art q = p_art p /\ p_next q = p_next p.
Lemma filler_step e p : filler e -> exists q, ev_step p e = Some q /\ same_but_text p q.
Proof.
  destruct e as [n a|n|s]; intros F; cbn [ev_step filler] in *.
  - apply special_dec in F as (F1 & F2 & F3). eexists. split; [reflexivity|].
    unfold start_element. rewrite F1, F2. destruct (beqb n (str "meta")); [destruct a|]; repeat split.
  - apply special_dec in F as (F1 & F2 & F3). unfold end_element. rewrite F1, F2, F3.
    destruct (beqb n (str "meta") && p_haspw p); eexists; (split; [reflexivity|repeat split]).
  - eexists. split; [reflexivity|]. rewrite characters_ok. repeat split.
Qed.

Lemma seg_run s es p f r : seg_ok s -> seg_events s es -> p_cur p = Some f ->
  exists q, ev_run p (es ++ r) = ev_run q r /\ p_files q = p_files p /\ p_next q = p_next p /\ p_art q = PNull /\
    p_cur q = Some (set_slots (put_seg (nf_slots f) s) f).
Proof.
  intros (N & B & (W0 & W) & L) (atts & chunks & -> & A1 & A2 & T) C.
  cbn [app ev_run ev_step]. unfold start_element. pcbn.
  change (beqb (str "segment") (str "file")) with false. change (beqb (str "segment") (str "segment")) with true. cbn iota.
  rewrite C, (attr_ok _ _ _ _ A1), (attr_ok _ _ _ _ A2), !atoll_zdec', !to_int_id by lia.
  replace (0 <? s_num s) with true by lia.
  rewrite <- app_assoc, run_texts, (trims_ok _ _ T W). pcbn. cbn [app ev_run ev_step].
  unfold end_element. pcbn.
  change (beqb (str "segment") (str "file")) with false. change (beqb (str "segment") (str "group")) with false.
  change (beqb (str "segment") (str "segment")) with true. cbn iota.
  destruct (add_text None (s_msg s)) as [t|] eqn:Et; [|destruct (s_msg s); [contradiction|discriminate]].
  assert (t = s_msg s) as -> by (destruct (s_msg s); [contradiction|]; injection Et as <-; reflexivity).
  rewrite nth_set_slot, Nat.eqb_refl. cbn [na_size]. rewrite set_slot_twice.
  eexists. split; [reflexivity|]. pcbn. do 3 (split; [reflexivity|]). unfold put_seg, art_of.
  rewrite firstn_all2 by (cbn [length]; rewrite app_length; cbn [length]; lia). reflexivity.
Qed.
Lemma group_run g es p f r : word_ok g -> group_events g es -> p_cur p = Some f ->
  exists q, ev_run p (es ++ r) = ev_run q r /\ p_files q = p_files p /\ p_next q = p_next p /\ p_art q = p_art p /\
    p_cur q = Some (NFile (nf_id f) (nf_subject f) (nf_time f) (nf_groups f ++ [Some g]) (nf_slots f)).
Proof.
  intros (W0 & W) (atts & chunks & -> & T) C.
  cbn [app ev_run ev_step]. unfold start_element. pcbn.
  change (beqb (str "group") (str "file")) with false. change (beqb (str "group") (str "segment")) with false.
  change (beqb (str "group") (str "meta")) with false. cbn iota.
  rewrite <- app_assoc, run_texts, (trims_ok _ _ T W). pcbn. cbn [app ev_run ev_step].
  unfold end_element. pcbn.
  change (beqb (str "group") (str "file")) with false. change (beqb (str "group") (str "group")) with true. cbn iota.
  rewrite C. destruct (add_text None g) as [t|] eqn:Et; [|destruct g; [contradiction|discriminate]].
  assert (t = g) as -> by (destruct g; [contradiction|]; injection Et as <-; reflexivity).
  eexists. split; [reflexivity|]. pcbn. repeat split.
Qed.

Lemma body_run es gs ss : body es gs ss -> Forall seg_ok ss -> Forall word_ok gs -> forall p f r, p_cur p = Some f ->
  exists q, ev_run p (es ++ r) = ev_run q r /\ p_files q = p_files p /\ p_next q = p_next p /\
    p_cur q = Some (NFile (nf_id f) (nf_subject f) (nf_time f) (nf_groups f ++ map Some gs) (fold_left put_seg ss (nf_slots f))).
Proof.
  induction 1 as [|e es gs ss F B IH|s e1 es gs ss E B IH|g e1 es gs ss E B IH]; intros SO GO p f r C.
  - exists p. cbn. rewrite app_nil_r. repeat split; auto. rewrite C. destruct f; reflexivity.
  - destruct (filler_step e p F) as (q & S1 & S2 & S3 & S4 & S5). cbn [app ev_run]. rewrite S1.
    destruct (IH SO GO q f r) as (q' & H1 & H2 & H3 & H4); [congruence|]. exists q'. repeat split; congruence.
  - apply Forall_cons_iff in SO as [S0 SO].
    destruct (seg_run s e1 p f (es ++ r) S0 E C) as (q & R1 & R2 & R3 & _ & R5). rewrite <- app_assoc, R1.
    destruct (IH SO GO q _ r R5) as (q' & H1 & H2 & H3 & H4). exists q'. repeat split; try congruence.
    rewrite H4. reflexivity.
  - apply Forall_cons_iff in GO as [G0 GO].
    destruct (group_run g e1 p f (es ++ r) G0 E C) as (q & R1 & R2 & R3 & _ & R5). rewrite <- app_assoc, R1.
    destruct (IH SO GO q _ r R5) as (q' & H1 & H2 & H3 & H4). exists q'. repeat split; try congruence.
    rewrite H4. pcbn. cbn [map]. rewrite <- app_assoc. reflexivity.
Qed.

Lemma entry_ok f nf : file_ok f -> nf_subject nf = Some (s_subject f) -> nf_time nf = s_date f -> nf_groups nf = map Some (s_groups f) ->
  nf_slots nf = fold_left put_seg (s_segs f) [] -> entry f nf.
Proof.
  intros (SO & _ & _) H1 H2 H3 H4.
  assert (N : Forall (fun s => 1 <= s_num s) (s_segs f)).
  { eapply Forall_impl; [|exact SO]. intros s (X & _). lia. }
  unfold entry. do 3 (split; [assumption|]). unfold kept. split; [apply kept_from_inc|]. split.
  - intros n a. rewrite kept_from_in, H4. split.
    + intros (k & -> & E). destruct (segs_nth _ N [] k) as [(g & Lg & G) | (_ & G)].
      * exists g. split; [replace (1 + Z.of_nat k) with (Z.of_nat k + 1) by lia; exact Lg|]. unfold art_of in G. congruence.
      * rewrite G in E. destruct k; discriminate.
    + intros (g & Lg & ->). exists (Z.to_nat (n - 1)).
      assert (P : 1 <= n).
      { destruct Lg as (l1 & l2 & E & <- & _). rewrite E in N. apply Forall_app in N as [_ N]. inversion N; assumption. }
      split; [lia|]. destruct (segs_nth _ N [] (Z.to_nat (n - 1))) as [(h & Lh & G) | (Hn & _)].
      * replace (Z.of_nat (Z.to_nat (n - 1)) + 1) with n in Lh by lia. rewrite G, (last_seg_unique _ _ _ _ Lh Lg). reflexivity.
      * exfalso. destruct Lg as (l1 & l2 & E & En & _). apply (Hn g); [rewrite E; apply in_or_app; right; left; reflexivity|lia].
  - rewrite H4, (segs_length _ N). cbn [length]. assert (0 <= fold_right Z.max 0 (map s_num (s_segs f))); [|lia].
    generalize (map s_num (s_segs f)). intros l. induction l; cbn [fold_right]; lia.
Qed.

Lemma put_has ss : ss <> [] -> Forall (fun s => 1 <= s_num s) ss -> forall l,
  existsb (fun x => match x with Some _ => true | None => false end) (fold_left put_seg ss l) = true.
Proof.
  intros NE N l. destruct (exists_last NE) as (ss' & s & ->).
  rewrite fold_left_app. cbn [fold_left]. unfold put_seg at 1. apply existsb_exists. exists (Some (art_of s)). split; [|reflexivity].
  set (k := Z.to_nat (s_num s - 1)).
  assert (X := nth_set_slot k (Some (art_of s)) (fold_left put_seg ss' l) k). rewrite Nat.eqb_refl in X.
  assert (Y := nth_In (set_slot k (Some (art_of s)) (fold_left put_seg ss' l)) None (n := k)). rewrite X in Y. apply Y.
  rewrite length_set_slot. lia.
Qed.

Lemma doc_run es fs : doc es fs -> Forall file_ok fs -> forall p, p_cur p = None -> p_art p = PNull ->
  exists q new, ev_run p es = Some q /\ p_files q = p_files p ++ new /\ p_cur q = None /\
    Forall2 entry (filter (fun f => nonempty (s_segs f)) fs) new.
Proof.
  induction 1 as [|e es fs F D IH|atts b f es fs A1 A2 B D IH]; intros OK p C PN.
  - exists p, []. rewrite app_nil_r. cbn. auto.
  - destruct (filler_step e p F) as (q & S1 & S2 & S3 & S4 & S5). cbn [ev_run]. rewrite S1.
    destruct (IH OK q) as (q' & new & H1 & H2 & H3 & H4); [congruence|congruence|]. exists q', new. repeat split; congruence.
  - apply Forall_cons_iff in OK as [OK0 OK]. assert (OK1 := OK0). destruct OK1 as (SO & GO & DO).
    cbn [ev_run ev_step]. unfold start_element. pcbn. change (beqb (str "file") (str "file")) with true. cbn iota.
    rewrite (attr_ok _ _ _ _ A1), (attr_ok _ _ _ _ A2), atoll_zdec', to_int_id by lia.
    match goal with |- context [ev_run ?p0 (b ++ _)] => destruct (body_run b _ _ B SO GO p0 _ (EEnd (str "file") :: es) eq_refl) as (q & R1 & R2 & R3 & R4) end.
    cbv zeta. rewrite R1. cbn [ev_run ev_step]. unfold end_element. change (beqb (str "file") (str "file")) with true. cbn iota.
    rewrite R4. pcbn. pcbnin R4.
    match goal with |- context [add_file ?g _] => set (nf := g) end.
    match goal with |- context [ev_run ?p1 es] => destruct (IH OK p1 eq_refl eq_refl) as (q' & new & H1 & H2 & H3 & H4) end.
    pcbnin H2. rewrite R2 in H2. pcbnin H2.
    assert (HA : has_article nf = nonempty (s_segs f)).
    { unfold has_article, nf. pcbn. destruct (s_segs f) as [|s ss] eqn:E; [reflexivity|]. cbn [nonempty].
      apply put_has; [discriminate|]. eapply Forall_impl; [|exact SO]. intros s' (X & _). lia. }
    exists q', ((if has_article nf then [nf] else []) ++ new). split; [exact H1|]. split; [|split; [exact H3|]].
    + rewrite H2. unfold add_file. destruct (has_article nf); [rewrite <- app_assoc|]; reflexivity.
    + cbn [filter]. rewrite HA. destruct (nonempty (s_segs f)); [|exact H4].
      constructor; [|exact H4]. apply entry_ok; auto.
Qed.

Lemma read_ok es fs id : doc es fs -> Forall file_ok fs ->
  exists p, ev_run (np0 id) es = Some p /\ Forall2 entry (filter (fun f => nonempty (s_segs f)) fs) (p_files p).
Proof.
  intros D OK. destruct (doc_run es fs D OK (np0 id) eq_refl eq_refl) as (q & new & H1 & H2 & _ & H4).
  exists q. split; [exact H1|]. rewrite H2. exact H4.
Qed.
