(** Lemmas about the reading of nzb-files: undefined behaviour, names. *)
From Coq Require Import String.
From Verif Require Import Base NumFmt WildModel WildSpec CodecModel TextProofs NzbModel NzbSpec NzbProofs.
Open Scope list_scope. Open Scope Z_scope.

(** ** Documents which are read in a defined way *)

Definition with_ids (f : nfile) : Prop := forall k a, nth k (nf_slots f) None = Some a -> na_id a <> None.
Definition all_but (k : nat) (f : nfile) : Prop :=
  (forall j a, j <> k -> nth j (nf_slots f) None = Some a -> na_id a <> None) /\ nth k (nf_slots f) None <> None.
Definition at_place (pl : place) (p : np) : Prop :=
  Forall with_ids (p_files p) /\
  match pl with
  | Outside => p_cur p = None /\ p_art p = PNull
  | InFile => exists f, p_cur p = Some f /\ p_art p = PNull /\ with_ids f
  | InSeg b => exists f, p_cur p = Some f /\ (p_art p = PNull /\ with_ids f \/ exists k, p_art p = PSlot k /\ all_but k f) /\
                         (b = true -> p_text p <> None)
  end.

Lemma not_seg_text pl p q : (forall b, pl <> InSeg b) -> same_but_text p q -> at_place pl p -> at_place pl q.
Proof.
  intros N (S1 & S2 & S3 & _) (A & B). unfold at_place. rewrite S1. split; [exact A|].
  destruct pl as [| |b]; [| |exfalso; exact (N b eq_refl)]; rewrite S2, S3; exact B.
Qed.
Lemma seg_place b b' p q : same_but_text p q -> (b' = true -> p_text q <> None) -> at_place (InSeg b) p -> at_place (InSeg b') q.
Proof.
  intros (S1 & S2 & S3 & _) T (A & f & C & D & _). split; [rewrite S1; exact A|]. exists f. rewrite S2, S3. auto.
Qed.
Lemma group_start a p : same_but_text p (start_element (str "group") a p).
Proof. unfold start_element. cbn. repeat split. Qed.
Lemma end_text n p q : ~ special n -> ev_step p (EEnd n) = Some q -> p_text q = p_text p.
Proof.
  intros F E. apply special_dec in F as (F1 & F2 & F3). cbn [ev_step] in E. unfold end_element in E. rewrite F1, F2, F3 in E.
  destruct (beqb n (str "meta") && p_haspw p); injection E as <-; reflexivity.
Qed.
Lemma with_ids_ext f g : nf_slots g = nf_slots f -> with_ids f -> with_ids g.
Proof. intros E H k a. rewrite E. apply H. Qed.
Lemma trim_blank s : Forall blank s -> trim s = [].
Proof.
  intros H. rewrite trim_sliced; [apply filter_blank, H|]. exists s, [], []. rewrite app_nil_r. auto.
Qed.
Lemma trim_word s : nonblank s -> trim s <> [].
Proof.
  intros H E. assert (T := trim_ok s). rewrite E in T. destruct T as (a & b & X & Ha & Hb & _ & _). cbn [app] in X.
  apply Exists_exists in H as (c & I & N). rewrite X in I. apply in_app_or in I as [I | I].
  - rewrite Forall_forall in Ha. exact (N (Ha c I)).
  - rewrite Forall_forall in Hb. exact (N (Hb c I)).
Qed.

Lemma tame_run pl es : tame pl es -> forall p, at_place pl p -> exists q, ev_run p es = Some q /\ Forall with_ids (p_files q).
Proof.
  induction 1 as [pl|pl s es N T IH|b s es B T IH|b s es B T IH|pl n a es F N T IH|b n a es F T IH|pl n es F T IH
    |pl a es N T IH|pl es N T IH|a es T IH|es T IH|a es T IH|es T IH|a es T IH|es T IH]; intros p AP.
  - exists p. split; [reflexivity|apply AP].
  - apply IH. apply (not_seg_text pl p); [exact N| |exact AP]. rewrite characters_ok. repeat split.
  - apply IH. rewrite characters_ok, (trim_blank s B). cbn [add_text]. apply (seg_place b b p); [repeat split| |exact AP].
    destruct AP as (_ & f & _ & _ & X). exact X.
  - apply IH. rewrite characters_ok. apply (seg_place b true p); [repeat split| |exact AP].
    intros _. cbn [with_text p_text]. assert (X := trim_word s B). destruct (trim s); [contradiction|discriminate].
  - destruct (filler_step (EStart n a) p F) as (q & S1 & S2). cbn [ev_run]. rewrite S1. apply IH. exact (not_seg_text pl p q N S2 AP).
  - destruct (filler_step (EStart n a) p F) as (q & S1 & S2). cbn [ev_run]. rewrite S1. apply IH.
    apply (seg_place b false p q S2); [discriminate|exact AP].
  - destruct (filler_step (EEnd n) p F) as (q & S1 & S2). cbn [ev_run]. rewrite S1. apply IH.
    assert (TX := end_text n p q F S1). destruct pl as [| |b].
    + apply (not_seg_text Outside p q); [discriminate|exact S2|exact AP].
    + apply (not_seg_text InFile p q); [discriminate|exact S2|exact AP].
    + apply (seg_place b b p q S2); [|exact AP]. rewrite TX. destruct AP as (_ & f & _ & _ & X). exact X.
  - cbn [ev_run ev_step]. apply IH. apply (not_seg_text pl p); [exact N|apply group_start|exact AP].
  - cbn [ev_run ev_step]. unfold end_element. change (beqb (str "group") (str "file")) with false. change (beqb (str "group") (str "group")) with true. cbn iota.
    destruct AP as (A & B). destruct pl as [| |b]; [| |exfalso; exact (N b eq_refl)].
    + destruct B as [C D]. rewrite C. apply IH. split; [exact A|]. auto.
    + destruct B as (f & C & D & W). rewrite C. apply IH. split; [exact A|]. eexists. split; [reflexivity|]. split; [exact D|].
      exact (with_ids_ext f _ eq_refl W).
  - cbn [ev_run ev_step]. apply IH. destruct AP as (A & C & D). unfold start_element. change (beqb (str "file") (str "file")) with true.
    pcbn. rewrite C, D. cbn iota. split; [exact A|]. pcbn. eexists. split; [reflexivity|]. split; [reflexivity|].
    intros k x E. destruct a; destruct k; discriminate E.
  - cbn [ev_run ev_step]. unfold end_element. change (beqb (str "file") (str "file")) with true. cbn iota.
    destruct AP as (A & f & C & D & W). rewrite C. apply IH. split; pcbn; [|auto].
    unfold add_file. destruct (has_article f); [apply Forall_app; split; [exact A|repeat constructor; exact W]|exact A].
  - cbn [ev_run ev_step]. apply IH. destruct AP as (A & C & D). unfold start_element.
    change (beqb (str "segment") (str "file")) with false. change (beqb (str "segment") (str "segment")) with true. cbn iota. pcbn. rewrite C.
    split; [exact A|]. auto.
  - cbn [ev_run ev_step]. unfold end_element. change (beqb (str "segment") (str "file")) with false. change (beqb (str "segment") (str "group")) with false.
    change (beqb (str "segment") (str "segment")) with true. cbn iota. assert (AP' := AP). destruct AP as (A & C & D). rewrite C. apply IH, AP'.
  - cbn [ev_run ev_step]. apply IH. destruct AP as (A & f & C & D & W). unfold start_element.
    change (beqb (str "segment") (str "file")) with false. change (beqb (str "segment") (str "segment")) with true. cbn iota. pcbn. rewrite C.
    destruct a as [a|]; [|split; [exact A|exists f; pcbn; split; [reflexivity|split; [left; auto|discriminate]]]].
    match goal with |- at_place _ (if ?c then _ else _) => destruct c end;
      [|split; [exact A|exists f; pcbn; split; [reflexivity|split; [left; auto|discriminate]]]].
    split; [exact A|]. pcbn. eexists. split; [reflexivity|]. split; [right|discriminate]. eexists. split; [reflexivity|]. split; pcbn.
    + intros j x J. rewrite nth_set_slot. destruct (Nat.eqb_spec j (Z.to_nat (match attr (str "number") a None with Some v => to_int (atoll v) | None => -1 end - 1))); [contradiction|]. apply W.
    + rewrite nth_set_slot, Nat.eqb_refl. discriminate.
  - cbn [ev_run ev_step]. unfold end_element. change (beqb (str "segment") (str "file")) with false. change (beqb (str "segment") (str "group")) with false.
    change (beqb (str "segment") (str "segment")) with true. cbn iota. destruct AP as (A & f & C & D & X). rewrite C.
    specialize (X eq_refl). destruct (p_text p) as [t|] eqn:ET; [|contradiction]. destruct D as [(D & W) | (k & D & W1 & W2)].
    + rewrite D. apply IH. split; [exact A|]. exists f. auto.
    + rewrite D. apply IH. split; [exact A|]. pcbn. eexists. split; [reflexivity|]. split; [reflexivity|]. intros j x. pcbn. rewrite nth_set_slot.
      destruct (Nat.eqb_spec j k) as [J|J]; [|apply W1, J].
      destruct (nth k (nf_slots f) None) as [y|]; [|contradiction]. intros E. injection E as <-. discriminate.
Qed.

Lemma tame_ok es id : tame Outside es -> exists p, ev_run (np0 id) es = Some p /\ Forall with_ids (p_files p).
Proof. intros T. apply (tame_run Outside es T). split; [constructor|]. split; reflexivity. Qed.

(** ** The subject without counter *)

Lemma c_string_app s r : nonul s -> c_string (s ++ 0 :: r) = s.
Proof.
  induction s as [|x s IH]; intros N; [reflexivity|]. cbn [app c_string].
  destruct (Z.eqb_spec x 0) as [->|_]; [exfalso; apply N; left; reflexivity|]. rewrite IH; [reflexivity|]. intros I. apply N. right. exact I.
Qed.
Lemma c_string_nonul s : nonul s -> c_string s = s.
Proof.
  induction s as [|x s IH]; intros N; [reflexivity|]. cbn [c_string].
  destruct (Z.eqb_spec x 0) as [->|_]; [exfalso; apply N; left; reflexivity|]. rewrite IH; [reflexivity|]. intros I. apply N. right. exact I.
Qed.
Lemma c_string_no0 s : nonul (c_string s).
Proof.
  induction s as [|x s IH]; [intros []|]. cbn [c_string]. destruct (Z.eqb_spec x 0) as [E|E]; [intros []|]. intros [I | I]; [congruence|exact (IH I)].
Qed.
Lemma nonul_app a b : nonul (a ++ b) <-> nonul a /\ nonul b.
Proof. unfold nonul. rewrite in_app_iff. tauto. Qed.

Lemma sbuf_ok s : (length s <= Z.to_nat 1023)%nat -> exists z, sbuf s = s ++ 0 :: z /\ Forall (eq 0) z /\ length (sbuf s) = bsize.
Proof.
  intros L. unfold sbuf. rewrite firstn_all2 by exact L. unfold bsize.
  exists (repeat 0 (Z.to_nat 1024 - length s - 1)). split; [|split].
  - f_equal. assert (X : (Z.to_nat 1024 - length s)%nat = S (Z.to_nat 1024 - length s - 1)) by lia.
    remember (Z.to_nat 1024 - length s - 1)%nat as k eqn:K. rewrite X. reflexivity.
  - apply Forall_forall. intros x I. apply repeat_spec in I. auto.
  - rewrite app_length, repeat_length. lia.
Qed.

Definition isdig (c : Z) : bool := (48 <=? c) && (c <=? 57).
Lemma isdig_iff c : isdig c = true <-> digit c.
Proof. unfold isdig, digit. lia. Qed.
Lemma don_iff c : c <> 0 -> digit_or_nul c = isdig c.
Proof. unfold digit_or_nul, isdig. lia. Qed.

(** The loop going back, on a prefix of the buffer. *)
Lemma back_ok l r : nonul l -> l <> [] -> exists pre x d,
  l = pre ++ x :: d /\ Forall digit d /\ back (l ++ r) (length l - 1) = length pre /\ (~ digit x \/ pre = []).
Proof.
  revert r. induction l as [|y l IH] using rev_ind; intros r N NE; [contradiction|]. clear NE.
  apply nonul_app in N as [N Ny]. rewrite app_length. cbn [length]. replace (length l + 1 - 1)%nat with (length l) by lia.
  rewrite <- app_assoc. cbn [app].
  assert (NT : nth (length l) (l ++ y :: r) 0 = y).
  { rewrite app_nth2 by lia. rewrite Nat.sub_diag. reflexivity. }
  assert (Y0 : y <> 0) by (intros E; apply Ny; left; auto).
  destruct (isdig y) eqn:D.
  - destruct l as [|z l'].
    + exists [], y, []. split; [reflexivity|]. split; [constructor|]. split; [|right; reflexivity]. cbn [length app] in *. cbn [back].
      rewrite NT. destruct (digit_or_nul y); reflexivity.
    + destruct (IH (y :: r) N ltac:(discriminate)) as (pre & x & d & E & F & B & G).
      exists pre, x, (d ++ [y]). split; [rewrite E, <- app_assoc; reflexivity|].
      split; [apply Forall_app; split; [exact F|repeat constructor; apply isdig_iff, D]|]. split; [|exact G].
      cbn [length] in *. replace (S (length l') - 1)%nat with (length l') in B by lia.
      assert (X : back ((z :: l') ++ y :: r) (S (length l')) = back ((z :: l') ++ y :: r) (length l')).
      { cbn [back]. rewrite NT, (don_iff y Y0), D. reflexivity. }
      rewrite X. exact B.
  - exists l, y, []. split; [reflexivity|]. split; [constructor|]. split.
    + unfold back. destruct (length l) eqn:EL; rewrite NT, (don_iff y Y0), D; reflexivity.
    + left. intros X. apply isdig_iff in X. congruence.
Qed.

Lemma last_nondigit a x d b y e : a ++ x :: d = b ++ y :: e -> Forall digit d -> Forall digit e -> ~ digit x -> ~ digit y ->
  a = b /\ x = y /\ d = e.
Proof.
  revert b. induction a as [|z a IH]; intros [|w b] E D F X Y; cbn [app] in E; injection E as E1 E2.
  - auto.
  - exfalso. subst d. apply Forall_app in D as [_ D]. inversion D. contradiction.
  - exfalso. subst e. apply Forall_app in F as [_ F]. inversion F. contradiction.
  - destruct (IH b E2 D F X Y) as (-> & -> & ->). subst. auto.
Qed.
Lemma suffixed_inj t t' s : suffixed t s -> suffixed t' s -> t = t'.
Proof.
  intros (d1 & d2 & D1 & D2 & E) (e1 & e2 & F1 & F2 & E'). rewrite E in E'. clear E.
  assert (X : forall u v w, u ++ str " yEnc (" ++ v ++ [47] ++ w ++ [41] = ((u ++ str " yEnc (" ++ v) ++ 47 :: w) ++ [41]).
  { intros. rewrite <- !app_assoc. reflexivity. }
  rewrite !X in E'. apply app_inj_tail in E' as [E' _].
  apply last_nondigit in E' as (E' & _ & _); [|assumption|assumption|unfold digit; lia|unfold digit; lia].
  change (str " yEnc (") with (str " yEnc " ++ [40]) in E'. rewrite <- !app_assoc in E'.
  rewrite (app_assoc t), (app_assoc t') in E'.
  apply last_nondigit in E' as (E' & _ & _); [|assumption|assumption|unfold digit; lia|unfold digit; lia].
  apply app_inv_tail in E'. exact E'.
Qed.
Lemma core_unique s t t' : core s t -> core s t' -> t = t'.
Proof.
  intros [(N & H) | (-> & H)] [(N' & H') | (-> & H')]; auto.
  - exact (suffixed_inj _ _ _ H H').
  - exfalso. exact (H' t N H).
  - exfalso. exact (H t' N' H').
Qed.

(** What remains of the subject in the buffer. *)
Definition strip_result (s : list Z) : Prop :=
  exists t junk, core s t /\ strip_yenc s = Some (t ++ 0 :: junk) /\ length (t ++ 0 :: junk) = bsize /\ ~ In 34 junk.

Lemma zeros_no z : Forall (eq 0) z -> ~ In 34 z.
Proof. intros F I. rewrite Forall_forall in F. apply F in I. lia. Qed.

Lemma strip_ok s : nonul s -> (length s <= Z.to_nat 1023)%nat -> ~ odd_subject s -> strip_result s.
Proof.
  intros N L O. destruct (sbuf_ok s L) as (z & B & Z0 & LB).
  assert (KEEP : (forall u, u <> [] -> ~ suffixed u s) -> strip_yenc s = Some (sbuf s) -> strip_result s).
  { intros NS E. exists s, z. split; [right; auto|]. split; [rewrite E, B; reflexivity|]. split; [rewrite <- B; exact LB|].
    exact (zeros_no z Z0). }
  unfold strip_result, strip_yenc in KEEP. unfold strip_result, strip_yenc.
  cbv zeta in *. rewrite B in *. rewrite (c_string_app s z N) in *. 
  destruct (length s) as [|m] eqn:LS; [exfalso; apply O; left; destruct s; [reflexivity|discriminate]|].
  destruct (@exists_last _ s) as (s1 & x & E); [intros ->; discriminate|]. subst s. rewrite app_length in LS. cbn [length] in LS.
  assert (M : m = length s1) by lia. subst m.
  assert (NT : nth (length s1) ((s1 ++ [x]) ++ 0 :: z) 0 = x).
  { rewrite <- app_assoc, app_nth2 by lia. rewrite Nat.sub_diag. reflexivity. }
  rewrite NT in *. apply nonul_app in N as [N1 Nx].
  destruct (Z.eqb_spec x 41) as [->|NX]; cbn [negb] in *.
  2:{ apply KEEP; [|reflexivity]. intros u _ (d1 & d2 & _ & _ & E). rewrite !app_assoc in E. apply app_inj_tail in E as [_ E]. congruence. }
  destruct (length s1) as [|m1] eqn:L1; [exfalso; apply O; right; left; destruct s1; [reflexivity|discriminate]|].
  assert (NE1 : s1 <> []) by (intros ->; discriminate).
  destruct (back_ok s1 ([41] ++ 0 :: z) N1 NE1) as (pre & y & d2 & E1 & D2 & B1 & Y).
  rewrite <- app_assoc in *. rewrite L1 in B1. replace (S m1 - 1)%nat with m1 in B1 by lia. rewrite B1 in *.
  assert (NTy : nth (length pre) (s1 ++ [41] ++ 0 :: z) 0 = y).
  { rewrite E1, <- app_assoc, app_nth2 by lia. rewrite Nat.sub_diag. reflexivity. }
  rewrite NTy in *.
  assert (SUF : forall u, suffixed u (s1 ++ [41]) -> exists d1, Forall digit d1 /\ y = 47 /\ pre = u ++ str " yEnc (" ++ d1).
  { intros u (d1 & d2' & F1 & F2 & E).
    assert (X : u ++ str " yEnc (" ++ d1 ++ [47] ++ d2' ++ [41] = ((u ++ str " yEnc (" ++ d1) ++ 47 :: d2') ++ [41]) by (rewrite <- !app_assoc; reflexivity).
    rewrite X in E. apply app_inj_tail in E as [E _]. rewrite E1 in E. exists d1. split; [exact F1|].
    destruct Y as [Y|Y].
    - apply last_nondigit in E as (E & Ey & _); [|assumption|assumption|assumption|unfold digit; lia]. auto.
    - destruct (isdig y) eqn:Dy.
      + exfalso. subst pre. cbn [app] in E. assert (F : Forall digit (y :: d2)) by (constructor; [apply isdig_iff, Dy|exact D2]).
        rewrite E in F. apply Forall_app in F as [_ F]. inversion F as [|? ? G]. unfold digit in G. lia.
      + assert (Yn : ~ digit y) by (intros K; apply isdig_iff in K; congruence).
        apply last_nondigit in E as (E & Ey & _); [|assumption|assumption|assumption|unfold digit; lia]. auto. }
  clear NTy. destruct (Z.eqb_spec y 47) as [Ey|NY]; [subst y|]; cbn [negb] in *.
  2:{ apply KEEP; [|reflexivity]. intros u _ SU. destruct (SUF u SU) as (d1 & _ & K & _). congruence. }
  destruct (length pre) as [|q1] eqn:LP.
  { exfalso. apply O. right. right. exists d2. split; [exact D2|]. rewrite E1. destruct pre; [reflexivity|discriminate]. }
  assert (NEP : pre <> []) by (intros ->; discriminate).
  assert (Np : nonul pre) by (rewrite E1 in N1; apply nonul_app in N1; tauto).
  destruct (back_ok pre ((47 :: d2) ++ [41] ++ 0 :: z) Np NEP) as (pre2 & w & d1 & E2 & D1 & B2 & W).
  assert (RW : s1 ++ [41] ++ 0 :: z = pre ++ (47 :: d2) ++ [41] ++ 0 :: z) by (rewrite E1, <- app_assoc; reflexivity).
  rewrite RW in *. rewrite LP in B2. replace (S q1 - 1)%nat with q1 in B2 by lia. rewrite B2 in *.
  set (buf := pre ++ (47 :: d2) ++ [41] ++ 0 :: z) in *.
  assert (BUF : buf = pre2 ++ w :: d1 ++ (47 :: d2) ++ [41] ++ 0 :: z) by (unfold buf; rewrite E2, <- app_assoc; reflexivity).
  destruct ((6 <? length pre2)%nat && beqb (firstn 7 (skipn (length pre2 - 6) buf)) (str " yEnc (")) eqn:CH.
  - apply andb_true_iff in CH as [C1 C2]. apply beqb_eq in C2. apply Nat.ltb_lt in C1.
    set (t := firstn (length pre2 - 6) pre2).
    assert (P2 : pre2 = t ++ skipn (length pre2 - 6) pre2) by (unfold t; symmetry; apply firstn_skipn).
    set (v := skipn (length pre2 - 6) pre2) in *.
    assert (LV : length v = 6%nat) by (unfold v; rewrite skipn_length; lia).
    assert (LT : length t = (length pre2 - 6)%nat) by (unfold t; rewrite firstn_length; lia).
    assert (VV : v = str " yEnc " /\ w = 40).
    { rewrite BUF in C2. rewrite skipn_app in C2. replace (length pre2 - 6 - length pre2)%nat with 0%nat in C2 by lia. cbn [skipn] in C2.
      fold v in C2. rewrite firstn_app, LV, (firstn_all2 v) in C2 by lia. change (firstn (7 - 6) (w :: d1 ++ (47 :: d2) ++ [41] ++ 0 :: z)) with [w] in C2.
      change (str " yEnc (") with (str " yEnc " ++ [40]) in C2. apply app_inj_tail in C2. exact C2. }
    destruct VV as [VV ->].
    exists t, (str "yEnc (" ++ d1 ++ (47 :: d2) ++ [41] ++ 0 :: z).
    assert (BT : buf = t ++ 32 :: str "yEnc (" ++ d1 ++ (47 :: d2) ++ [41] ++ 0 :: z).
    { rewrite BUF, P2, VV, <- app_assoc. reflexivity. }
    split; [|split; [|split]].
    + left. split; [intros X; rewrite X in LT; cbn [length] in LT; lia|]. exists d1, d2. split; [exact D1|]. split; [exact D2|].
      rewrite E1, E2, P2, VV. rewrite <- !app_assoc. reflexivity.
    + rewrite BT. rewrite firstn_app, LT, Nat.sub_diag. cbn [firstn]. rewrite app_nil_r, (firstn_all2 t) by lia.
      rewrite skipn_app, skipn_all2 by lia. rewrite LT. replace (length pre2 - 5 - (length pre2 - 6))%nat with 1%nat by lia. reflexivity.
    + rewrite <- LB, BT, !app_length. reflexivity.
    + assert (ND : forall d, Forall digit d -> ~ In 34 d) by (intros d F I; rewrite Forall_forall in F; apply F in I; unfold digit in I; lia).
      intros I. apply in_app_or in I as [I | I]; [cbn in I; lia|]. apply in_app_or in I as [I | I]; [exact (ND d1 D1 I)|].
      destruct I as [I | I]; [lia|]. apply in_app_or in I as [I | I]; [exact (ND d2 D2 I)|].
      destruct I as [I | [I | I]]; [lia|lia|exact (zeros_no z Z0 I)].
  - apply KEEP; [|reflexivity]. intros u NU SU. destruct (SUF u SU) as (f1 & F1 & _ & P).
    change (str " yEnc (") with (str " yEnc " ++ [40]) in P. rewrite <- app_assoc in P. cbn [app] in P. rewrite app_assoc in P.
    assert (WN : ~ digit w).
    { destruct W as [W|W]; [exact W|]. subst pre2. cbn [app] in E2. intros DW. rewrite P in E2.
      assert (F : Forall digit (w :: d1)) by (constructor; assumption). rewrite <- E2 in F. apply Forall_app in F as [_ F]. inversion F as [|? ? G].
      unfold digit in G. lia. }
    rewrite E2 in P. apply last_nondigit in P as (P & -> & _); [|assumption|assumption|assumption|unfold digit; lia].
    apply andb_false_iff in CH as [CH|CH].
    + apply Nat.ltb_ge in CH. rewrite P, app_length in CH. cbn in CH. destruct u; [contradiction|cbn in CH; lia].
    + apply beqb_neq in CH. apply CH. rewrite BUF, P, app_length. change (length (str " yEnc ")) with 6%nat.
      replace (length u + 6 - 6)%nat with (length u) by lia. rewrite <- app_assoc, skipn_app, skipn_all2, Nat.sub_diag by lia. reflexivity.
Qed.
