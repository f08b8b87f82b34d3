From Coq Require Import String.
From Verif Require Import Base NumFmt YencModel YencSpec YencProofs CrcModel CrcSpec CrcProofs
  DecoderModel DecoderSpec.

(** ** C strings without NUL *)
Definition nonul (l : list Z) : Prop := Forall (fun c => c <> 0) l.

Lemma nonul_app a b : nonul (a ++ b) <-> nonul a /\ nonul b.
Proof. apply Forall_app. Qed.

Lemma cstr_id l : nonul l -> cstr l = l.
Proof.
  induction l as [|c t IH]; intros H; [reflexivity|]. inversion H; subst. cbn [cstr].
  replace (c =? 0) with false by lia. rewrite IH by assumption. reflexivity.
Qed.

Lemma strncpy_pad_id l : nonul l -> strncpy_pad l = l.
Proof.
  induction l as [|c t IH]; intros H; [reflexivity|]. inversion H; subst. cbn [strncpy_pad].
  replace (c =? 0) with false by lia. rewrite IH by assumption. reflexivity.
Qed.

Definition nolf (l : list Z) : Prop := Forall (fun c => c <> 10) l.

Lemma find_nl_none l : nonul l -> find_nl l = None -> nolf l.
Proof.
  induction l as [|c t IH]; intros Hn Hf; [constructor|].
  inversion Hn; subst. cbn [find_nl] in Hf.
  destruct (c =? 10) eqn:E; [discriminate|]. replace (c =? 0) with false in Hf by lia.
  destruct (find_nl t) as [[a b]|] eqn:Et; [discriminate|].
  constructor; [lia | apply IH; auto].
Qed.

Lemma find_nl_some l a b : find_nl l = Some (a, b) ->
  l = a ++ b /\ exists a0, a = a0 ++ [10] /\ nolf a0.
Proof.
  revert a b; induction l as [|c t IH]; intros a b H; [discriminate|].
  cbn [find_nl] in H. destruct (c =? 10) eqn:E.
  - inversion H; subst. split; [reflexivity|]. exists []. apply Z.eqb_eq in E as ->.
    split; [reflexivity|constructor].
  - destruct (c =? 0); [discriminate|]. destruct (find_nl t) as [[x y]|] eqn:Et; [|discriminate].
    inversion H; subst. destruct (IH x b eq_refl) as (-> & a0 & -> & Hlf).
    split; [reflexivity|]. exists (c :: a0). split; [reflexivity|]. constructor; [lia|exact Hlf].
Qed.

Lemma prefixb_line p a0 r : nolf p -> prefixb p ((a0 ++ [10]) ++ r) = prefixb p (a0 ++ [10]).
Proof.
  revert a0; induction p as [|x p IH]; intros a0 Hp; [reflexivity|].
  inversion Hp; subst. destruct a0 as [|y a0]; cbn [app prefixb].
  - replace (x =? 10) with false by lia. reflexivity.
  - rewrite IH by assumption. reflexivity.
Qed.

Lemma prefixb_more p l r : prefixb p l = true -> prefixb p (l ++ r) = true.
Proof.
  intros H. apply prefixb_iff in H as [t ->]. rewrite <- app_assoc. apply prefixb_app.
Qed.

(** A key without LF found in a line is found at the same place in any
    continuation. *)
Lemma strstr_app l p s r : strstr l p = Some s -> (exists l0, l = l0 ++ [10]) -> nolf p ->
  strstr (l ++ r) p = Some (s ++ r).
Proof.
  intros H [l0 ->] Hp. revert s H; induction l0 as [|c t IH]; intros s H.
  - cbn [app strstr] in *.
    destruct (prefixb p [10]) eqn:E.
    + inversion H; subst. change (10 :: r) with ([10] ++ r). rewrite (prefixb_more _ _ _ E). reflexivity.
    + destruct (prefixb p []) eqn:E2; [|discriminate].
      destruct p; [discriminate E | discriminate E2].
  - rewrite <- !app_comm_cons in *. cbn [strstr] in *.
    destruct (prefixb p (c :: (t ++ [10]))) eqn:E.
    + inversion H; subst. change (c :: ((t ++ [10]) ++ r)) with ((c :: (t ++ [10])) ++ r).
      rewrite (prefixb_more _ _ _ E). reflexivity.
    + change (c :: ((t ++ [10]) ++ r)) with (((c :: t) ++ [10]) ++ r).
      rewrite prefixb_line by assumption.
      rewrite <- app_comm_cons. rewrite E. apply IH, H.
Qed.

Lemma strstr_suffix l p s : strstr l p = Some s -> exists u t, l = u ++ s /\ s = p ++ t.
Proof.
  revert s; induction l as [|c l IH]; intros s H; cbn [strstr] in H.
  - destruct (prefixb p []) eqn:E; [|discriminate]. inversion H; subst.
    apply prefixb_iff in E as [t E]. exists [], t. auto.
  - destruct (prefixb p (c :: l)) eqn:E.
    + inversion H; subst. apply prefixb_iff in E as [t E]. exists [], t. auto.
    + destruct (IH _ H) as (u & t & -> & ->). exists (c :: u), t. auto.
Qed.

Lemma skipn_app_exact {A} (p t : list A) : skipn (length p) (p ++ t) = t.
Proof. induction p; simpl; auto. Qed.

Lemma line_suffix (l0 u s : list Z) : l0 ++ [10] = u ++ s -> s <> [] -> exists s0, s = s0 ++ [10].
Proof.
  intros H Hs. destruct (exists_last Hs) as (s0 & x & ->).
  rewrite app_assoc in H. apply app_inj_tail in H as [_ <-]. exists s0; reflexivity.
Qed.

(** What a field of a line looks like. *)
Lemma field_app key l0 t r : nolf key -> key <> [] -> field key (l0 ++ [10]) = Some t ->
  (exists t0, t = t0 ++ [10]) /\ 
  exists s, strstr ((l0 ++ [10]) ++ r) key = Some s /\ skipn (length key) s = t ++ r.
Proof.
  unfold field. intros Hk Hne H. destruct (strstr (l0 ++ [10]) key) as [s|] eqn:E; [|discriminate].
  assert (E' := strstr_app _ _ _ r E (ex_intro _ l0 eq_refl) Hk).
  apply strstr_suffix in E as (u & t1 & E & ->). rewrite skipn_app_exact in H.
  inversion H; subst t1. clear H. split.
  - rewrite app_assoc in E. destruct t as [|x t'].
    + exfalso. rewrite app_nil_r in E.
      destruct (line_suffix _ _ _ E Hne) as (s0 & ->).
      unfold nolf in Hk. rewrite Forall_app in Hk. destruct Hk as [_ Hk]. inversion Hk; congruence.
    + apply (line_suffix _ _ _ E). discriminate.
  - exists ((key ++ t) ++ r). split; [exact E'|].
    rewrite <- app_assoc. apply skipn_app_exact.
Qed.

Lemma pdigits_line a t0 r : pdigits a ((t0 ++ [10]) ++ r) = pdigits a (t0 ++ [10]).
Proof.
  revert a; induction t0 as [|c t IH]; intros a; [reflexivity|].
  rewrite <- !app_comm_cons. cbn [pdigits]. destruct (is_digit c); [apply IH|reflexivity].
Qed.

Lemma phex_line a t0 r : phex a ((t0 ++ [10]) ++ r) = phex a (t0 ++ [10]).
Proof.
  revert a; induction t0 as [|c t IH]; intros a; [reflexivity|].
  rewrite <- !app_comm_cons. cbn [phex]. destruct (hexval c); [apply IH|reflexivity].
Qed.

Lemma upto_eol_line t0 r : nonul t0 -> upto_eol ((t0 ++ [10]) ++ r) = until_eol (t0 ++ [10]).
Proof.
  induction t0 as [|c t IH]; intros Hn; [reflexivity|].
  inversion Hn; subst. rewrite <- !app_comm_cons. cbn [upto_eol until_eol].
  replace (c =? 0) with false by lia. cbn [orb].
  destruct ((c =? 10) || (c =? 13)); [reflexivity|]. f_equal. apply IH; assumption.
Qed.

Lemma num_field_app key l0 v r : nolf key -> key <> [] -> num_field key (l0 ++ [10]) = Some v ->
  exists s, strstr ((l0 ++ [10]) ++ r) key = Some s /\ atoll (skipn (length key) s) = v.
Proof.
  unfold num_field. intros Hk Hne H.
  destruct (field key (l0 ++ [10])) as [[|c t]|] eqn:E; try discriminate.
  destruct (is_digit c) eqn:Ed; [|discriminate]. match type of H with Some ?x = Some _ =>
    assert (Hv : v = x) by congruence end. clear H. subst v.
  destruct (field_app _ _ _ r Hk Hne E) as ([t0 Et] & s & Hs & Hsk).
  exists s. split; [exact Hs|]. rewrite Hsk. rewrite <- app_comm_cons, atoll_digit by assumption.
  rewrite app_comm_cons, Et. apply pdigits_line.
Qed.

Lemma hexval_bounds c v : hexval c = Some v -> 0 <= v < 16.
Proof.
  unfold hexval, is_digit. destruct ((48 <=? c) && (c <=? 57)) eqn:E1; [intros H; inversion H; lia|].
  destruct ((97 <=? c) && (c <=? 102)) eqn:E2; [intros H; inversion H; lia|].
  destruct ((65 <=? c) && (c <=? 70)) eqn:E3; [intros H; inversion H; lia|discriminate].
Qed.

Lemma phex_mono l : forall a, 0 <= a -> a <= phex a l.
Proof.
  induction l as [|c l IH]; intros a Ha; cbn [phex]; [lia|].
  destruct (hexval c) as [v|] eqn:E; [|lia].
  apply hexval_bounds in E. specialize (IH (a * 16 + v) ltac:(lia)). lia.
Qed.

Lemma strtoul16_plain c x t : is_hex c = true -> x <> 120 -> x <> 88 ->
  phex 0 (c :: x :: t) < 2 ^ 32 -> strtoul16 (c :: x :: t) mod 2 ^ 32 = phex 0 (c :: x :: t).
Proof.
  intros Hc Hx1 Hx2 Hv. unfold strtoul16.
  assert (Hs : is_space c = false /\ c <> 45 /\ c <> 43).
  { unfold is_hex, hexval, is_digit in Hc. unfold is_space.
    destruct ((48 <=? c) && (c <=? 57)) eqn:E1; [lia|].
    destruct ((97 <=? c) && (c <=? 102)) eqn:E2; [lia|].
    destruct ((65 <=? c) && (c <=? 70)) eqn:E3; [lia|discriminate]. }
  destruct Hs as (Hs & H45 & H43).
  cbn [skip_space]. rewrite Hs.
  replace (c =? 45) with false by lia. replace (c =? 43) with false by lia.
  assert (E2 : match t with
      | [] => c :: x :: t
      | c0 :: t0 => if (c =? 48) && ((x =? 120) || (x =? 88)) &&
          match hexval c0 with Some _ => true | None => false end then c0 :: t0 else c :: x :: t
      end = c :: x :: t).
  { destruct t; [reflexivity|]. replace (x =? 120) with false by lia.
    replace (x =? 88) with false by lia. rewrite andb_false_r. reflexivity. }
  assert (H0 := phex_mono (c :: x :: t) 0 ltac:(lia)).
  destruct t as [|c0 t0].
  - rewrite Z.min_l by (change (2 ^ 64) with (2 ^ 32 * 2 ^ 32); lia). apply Z.mod_small. lia.
  - rewrite E2. rewrite Z.min_l by (change (2 ^ 64) with (2 ^ 32 * 2 ^ 32); lia). apply Z.mod_small. lia.
Qed.

Lemma hex_field_app key l0 v r : nolf key -> key <> [] -> hex_field key (l0 ++ [10]) = Some v ->
  exists s, strstr ((l0 ++ [10]) ++ r) key = Some s /\
    strtoul16 (skipn (length key) s) mod 2 ^ 32 = v.
Proof.
  unfold hex_field. intros Hk Hne H.
  destruct (field key (l0 ++ [10])) as [[|c [|x t]]|] eqn:E; try discriminate.
  destruct (is_hex c && negb (x =? 120) && negb (x =? 88)) eqn:Ec; [|discriminate].
  cbv zeta in H. destruct (phex 0 (c :: x :: t) <? 2 ^ 32) eqn:Ev; [|discriminate].
  match type of H with Some ?x = Some _ =>
    assert (Hv : v = x) by congruence end. clear H. subst v.
  destruct (field_app _ _ _ r Hk Hne E) as ([t0 Et] & s & Hs & Hsk).
  exists s. split; [exact Hs|]. rewrite Hsk.
  assert (Ep : phex 0 ((c :: x :: t) ++ r) = phex 0 (c :: x :: t)) by (rewrite Et; apply phex_line).
  rewrite <- Ep. rewrite <- !app_comm_cons in *. apply strtoul16_plain.
  - destruct (is_hex c); [reflexivity|discriminate].
  - lia.
  - lia.
  - rewrite Ep. lia.
Qed.

(** ** Refinement relation *)
Definition body_of (m : amode) : bool := match m with MBody _ => true | _ => false end.
Definition eof_of (m : amode) : bool := match m with MEof => true | _ => false end.

Record rel (cc : bool) (A : art) (m : amode) (d : dec) : Prop := {
  r_cc : crccheck d = cc;
  r_fmt : fmt d = if a_beg A then efYenc else efUnknown;
  r_beg : mbegin d = a_beg A;
  r_part : mpart d = a_beg A;
  r_end : mend d = a_fin A;
  r_hcrc : hascrc d = a_fin A;
  r_body : mbody d = body_of m;
  r_eof : meof d = eof_of m;
  r_crc : expcrc d = a_crc A;
  r_bp : beginpos d = a_bp A;
  r_ep : endpos d = a_ep A;
  r_size : msize d = a_size A;
  r_es : endsize d = a_es A;
  r_out : outsize d = Z.of_nat (length (a_out A));
  r_creg : crcreg d = if cc then crc_reg 0xFFFFFFFF (a_out A) else 0xFFFFFFFF;
  r_name : fname d = a_name A;
  r_bytes : bytes_ok (a_out A);
  r_yst : match m with MBody s => yst d = s | _ => a_nbody A = false -> yst d = S_CRLF end;
  r_nb : body_of m = true -> a_nbody A = true /\ a_beg A = true;
  r_nb2 : a_nbody A = false -> a_out A = []
}.

Lemma rel_linebuf cc A m d l : rel cc A m d -> rel cc A m (set_linebuf d l).
Proof. intros []. constructor; simpl; assumption. Qed.

Lemma ystep_bytes s c : bytes_ok (fst (fst (ystep s c))).
Proof.
  assert (H : forall z, is_byte (z mod 256)) by (intros z; unfold is_byte; lia).
  unfold ystep. destruct s;
    repeat match goal with |- context [if ?b then _ else _] => destruct b end;
    simpl; repeat constructor; auto; apply H.
Qed.

Lemma yrun_bytes s l : bytes_ok (d_out (yrun s l)).
Proof.
  revert s; induction l as [|c l IH]; intros s; [constructor|].
  rewrite yrun_cons. assert (Hb := ystep_bytes s c).
  destruct (ystep s c) as [[o s'] e]. simpl in Hb. destruct (e =? 0).
  - unfold pre; simpl. apply bytes_ok_app. split; [exact Hb | apply IH].
  - exact Hb.
Qed.

Lemma ystep_code s c : let '(_, _, e) := ystep s c in e = 0 \/ e = 1 \/ e = 2.
Proof.
  unfold ystep. destruct s;
    repeat match goal with |- context [if ?b then _ else _] => destruct b end; auto.
Qed.

Lemma yrun_code s l : d_code (yrun s l) = 0 \/ d_code (yrun s l) = 1 \/ d_code (yrun s l) = 2.
Proof.
  revert s; induction l as [|c l IH]; intros s; [left; reflexivity|].
  rewrite yrun_cons. assert (Hc := ystep_code s c).
  destruct (ystep s c) as [[o s'] e]. destruct (e =? 0) eqn:E; [apply IH | exact Hc].
Qed.

(** ** The strict reader on whole pieces *)
Lemma astep_err l A : fold_left astep l (A, MErr) = (A, MErr).
Proof. induction l; simpl; auto. Qed.
Lemma astep_eof l A : fold_left astep l (A, MEof) = (A, MEof).
Proof. induction l; simpl; auto. Qed.

Lemma aread_nolf l A p : nolf l ->
  fold_left astep l (A, MLine p) = (A, MLine (p ++ l)).
Proof.
  revert p; induction l as [|c l IH]; intros p Hl; [rewrite app_nil_r; reflexivity|].
  inversion Hl; subst. cbn [fold_left astep].
  replace (c =? 10) with false by lia.
  rewrite IH by assumption. rewrite <- app_assoc. reflexivity.
Qed.

Lemma aread_line l0 A p : nolf l0 ->
  fold_left astep (l0 ++ [10]) (A, MLine p) = on_line A (p ++ l0 ++ [10]).
Proof.
  intros Hl. rewrite fold_left_app, aread_nolf by assumption.
  cbn [fold_left astep]. simpl (10 =? 10). cbn iota.
  rewrite app_assoc. reflexivity.
Qed.

Lemma add_out_app A a b : add_out (add_out A a) b = add_out A (a ++ b).
Proof. unfold add_out; simpl. rewrite app_assoc. reflexivity. Qed.

Lemma add_out_nil A : add_out A [] = A.
Proof. destruct A; unfold add_out; simpl. rewrite app_nil_r. reflexivity. Qed.

Lemma aread_body l : forall A s,
  fold_left astep l (A, MBody s) =
  (let r := yrun s l in
   let A' := add_out A (d_out r) in
   if d_code r =? 0 then (A', MBody (d_state r))
   else if d_code r =? 1 then fold_left astep (d_rest r) (A', MLine [61; 121])
   else (A', MEof)).
Proof.
  induction l as [|c l IH]; intros A s.
  { simpl. rewrite add_out_nil. reflexivity. }
  cbn [fold_left astep].
  rewrite yrun_cons. assert (Hc := ystep_code s c). destruct (ystep s c) as [[o s'] e].
  destruct (e =? 0) eqn:E.
  - rewrite IH. cbv zeta. unfold pre. cbn [d_code d_out d_state d_rest].
    rewrite add_out_app. reflexivity.
  - cbv zeta. cbn [d_code d_out d_state d_rest]. rewrite E.
    destruct (e =? 1) eqn:E1; [reflexivity|]. apply astep_eof.
Qed.

Lemma yrun_suffix s l : exists u, l = u ++ d_rest (yrun s l).
Proof.
  revert s; induction l as [|c l IH]; intros s; [exists []; reflexivity|].
  rewrite yrun_cons. destruct (ystep s c) as [[o s'] e]. destruct (e =? 0).
  - destruct (IH s') as [u Hu]. exists (c :: u). simpl. rewrite Hu at 1. reflexivity.
  - exists [c]. reflexivity.
Qed.

Lemma nolf_lit (p : list Z) : forallb (fun c => negb (c =? 10)) p = true -> nolf p.
Proof.
  intros H. rewrite forallb_forall in H. apply Forall_forall. intros x Hx.
  specialize (H x Hx). lia.
Qed.

Definition line_dec (d : dec) (s : list Z) (len : Z) : dec :=
  match fmt d with efUnknown => set_fmt d (detect_format s len) | _ => d end.

Lemma prefixb_len p l : prefixb p l = true -> (length p <= length l)%nat.
Proof. intros H. apply prefixb_iff in H as [t ->]. rewrite app_length. lia. Qed.

Ltac cbnp := cbn [crccheck fmt mbegin mpart mbody mend hascrc expcrc beginpos endpos msize endsize
  outsize meof yst crcreg fname linebuf a_beg a_nbody a_fin a_name a_size a_bp a_ep a_es a_crc a_out
  set_fmt set_linebuf set_eof add_out body_of eof_of].

Lemma on_line_step cc A d l0 rest A' m' :
  rel cc A (MLine []) d -> nolf l0 -> nonul l0 ->
  on_line A (l0 ++ [10]) = (A', m') -> m' <> MErr -> m' <> MEof ->
  let s := (l0 ++ [10]) ++ rest in
  let d1 := line_dec d s (Z.of_nat (length (l0 ++ [10]))) in
  a_out A' = a_out A /\ (a_nbody A = true -> a_nbody A' = true) /\
  (m' = MLine [] /\ a_nbody A' = a_nbody A \/
   m' = MBody S_CRLF /\ a_nbody A = false /\ a_nbody A' = true /\ (6 <= length l0)%nat) /\
  (fmt d1 = efYenc /\ rel cc A' m' (process_yenc d1 s) \/
   fmt d1 = efUnknown /\ m' = MLine [] /\ rel cc A' m' d1).
Proof.
  intros HR Hlf Hnn Hon Herr Heof s d1.
  assert (HR0 := HR).
  destruct HR as [Hcc Hfmt Hbeg Hpart Hend Hhc Hbody Heo Hcrc Hbp Hep Hsz Hes Hout Hcreg Hname Hby Hyst Hnb Hnb2].
  unfold on_line in Hon.
  destruct (prefixb [46; 13] (l0 ++ [10])) eqn:Edot; [inversion Hon; congruence|].
  destruct (prefixb (str "=ybegin ") (l0 ++ [10])) eqn:Ebeg.
  { (* =ybegin *)
    destruct (a_beg A) eqn:Eab; [inversion Hon; congruence|].
    destruct (field (str " name=") (l0 ++ [10])) as [n|] eqn:En; [|inversion Hon; congruence].
    destruct (num_field (str " size=") (l0 ++ [10])) as [sz|] eqn:Es; [|inversion Hon; congruence].
    destruct (field (str " part=") (l0 ++ [10])) as [pt|] eqn:Ep; [|inversion Hon; congruence].
    inversion Hon; subst A' m'. clear Hon. cbn [a_out a_nbody].
    split; [reflexivity|]. split; [auto|]. split; [left; auto|]. left.
    assert (Ebs : prefixb (str "=ybegin ") s = true).
    { unfold s. rewrite prefixb_line; [exact Ebeg | apply nolf_lit; reflexivity]. }
    assert (Ed1 : d1 = set_fmt d efYenc).
    { unfold d1, line_dec. rewrite Hfmt. unfold detect_format. rewrite Ebs. reflexivity. }
    rewrite Ed1. split; [reflexivity|].
    unfold process_yenc. rewrite Ebs.
    destruct (field_app _ _ _ rest (nolf_lit (str " name=") eq_refl) ltac:(discriminate) En)
      as ([n0 ->] & sn & Hsn & Hskn).
    destruct (num_field_app _ _ _ rest (nolf_lit (str " size=") eq_refl) ltac:(discriminate) Es)
      as (ss & Hss & Hvs).
    destruct (field_app _ _ _ rest (nolf_lit (str " part=") eq_refl) ltac:(discriminate) Ep)
      as (_ & sp & Hsp & _).
    fold s in Hsn, Hss, Hsp. rewrite Hsn, Hss, Hsp. cbn [is_some].
    assert (Hn0 : nonul n0).
    { unfold field in En. destruct (strstr (l0 ++ [10]) (str " name=")) as [q|] eqn:Eq; [|discriminate].
      apply strstr_suffix in Eq as (u & t & E1 & ->).
      rewrite skipn_app_exact in En. assert (t = n0 ++ [10]) by congruence. subst t.
      assert (Hall : nonul (l0 ++ [10])) by (apply nonul_app; split; [assumption|repeat constructor; discriminate]).
      rewrite E1 in Hall. rewrite !nonul_app in Hall. tauto. }
    change (length (str " name=")) with 6%nat in Hskn. change (length (str " size=")) with 6%nat in Hvs.
    constructor; cbnp; auto.
    - rewrite Hskn. apply upto_eol_line, Hn0.
    - discriminate. }
  destruct (a_beg A) eqn:Eab; cbn [negb] in Hon.
  2:{ (* before =ybegin *)
    destruct (prefixb [77] (l0 ++ [10]) || prefixb (str "begin ") (l0 ++ [10])) eqn:Eux;
      [inversion Hon; congruence|].
    inversion Hon; subst A' m'. clear Hon.
    split; [reflexivity|]. split; [auto|]. split; [left; auto|]. right.
    apply orb_false_iff in Eux as [E77 Ebg].
    assert (Ef : detect_format s (Z.of_nat (length (l0 ++ [10]))) = efUnknown).
    { unfold detect_format. unfold s at 1. rewrite prefixb_line by (apply nolf_lit; reflexivity). rewrite Ebeg.
      unfold s at 4. rewrite prefixb_line by (apply nolf_lit; reflexivity). rewrite Ebg.
      replace (nth 0 s 0 =? 77) with false.
      - rewrite andb_false_r. reflexivity.
      - unfold s. destruct l0 as [|c l0]; [reflexivity|]. cbn [app nth]. cbn [app prefixb] in E77.
        rewrite andb_true_r in E77. rewrite Z.eqb_sym. symmetry. exact E77. }
    unfold d1, line_dec. rewrite Hfmt, Ef.
    split; [reflexivity|]. split; [reflexivity|].
    constructor; cbnp; auto; rewrite ?Eab; auto. }
  assert (Ed1 : d1 = d) by (unfold d1, line_dec; rewrite Hfmt; reflexivity).
  rewrite Ed1.
  assert (Ebs : prefixb (str "=ybegin ") s = false).
  { unfold s. rewrite prefixb_line; [exact Ebeg | apply nolf_lit; reflexivity]. }
  destruct (prefixb (str "=ypart ") (l0 ++ [10])) eqn:Eyp.
  { destruct (a_nbody A) eqn:Enb; [inversion Hon; congruence|].
    destruct (num_field (str " begin=") (l0 ++ [10])) as [b|] eqn:Eb; [|inversion Hon; congruence].
    destruct (num_field (str " end=") (l0 ++ [10])) as [e|] eqn:Ee; [|inversion Hon; congruence].
    inversion Hon; subst A' m'. clear Hon. cbn [a_out a_nbody].
    split; [reflexivity|]. split; [auto|]. split.
    { right. repeat split; auto. apply prefixb_len in Eyp. rewrite app_length in Eyp. simpl in Eyp. lia. }
    left. split; [exact Hfmt|].
    unfold process_yenc. rewrite Ebs.
    assert (Eps : prefixb (str "=ypart ") s = true).
    { unfold s. rewrite prefixb_line; [exact Eyp | apply nolf_lit; reflexivity]. }
    rewrite Eps.
    destruct (num_field_app _ _ _ rest (nolf_lit (str " begin=") eq_refl) ltac:(discriminate) Eb)
      as (sb & Hsb & Hvb).
    destruct (num_field_app _ _ _ rest (nolf_lit (str " end=") eq_refl) ltac:(discriminate) Ee)
      as (se & Hse & Hve).
    fold s in Hsb, Hse. rewrite Hsb, Hse.
    constructor; cbnp; rewrite ?Eab; auto. }
  assert (Eps : prefixb (str "=ypart ") s = false).
  { unfold s. rewrite prefixb_line; [exact Eyp | apply nolf_lit; reflexivity]. }
  destruct (prefixb (str "=yend ") (l0 ++ [10])) eqn:Eye.
  { destruct (a_fin A) eqn:Efin; [inversion Hon; congruence|].
    destruct (num_field (str " size=") (l0 ++ [10])) as [sz|] eqn:Es; [|inversion Hon; congruence].
    destruct (hex_field (str " pcrc32=") (l0 ++ [10])) as [h|] eqn:Eh; [|inversion Hon; congruence].
    inversion Hon; subst A' m'. clear Hon. cbn [a_out a_nbody].
    split; [reflexivity|]. split; [auto|]. split; [left; auto|].
    left. split; [exact Hfmt|].
    unfold process_yenc. rewrite Ebs, Eps.
    assert (Ees : prefixb (str "=yend ") s = true).
    { unfold s. rewrite prefixb_line; [exact Eye | apply nolf_lit; reflexivity]. }
    rewrite Ees. rewrite Hpart.
    destruct (num_field_app _ _ _ rest (nolf_lit (str " size=") eq_refl) ltac:(discriminate) Es)
      as (ss & Hss & Hvs).
    destruct (hex_field_app _ _ _ rest (nolf_lit (str " pcrc32=") eq_refl) ltac:(discriminate) Eh)
      as (sh & Hsh & Hvh).
    fold s in Hss, Hsh. rewrite Hsh, Hss.
    constructor; cbnp; rewrite ?Eab; auto. }
  inversion Hon; subst A' m'. clear Hon.
  split; [reflexivity|]. split; [auto|]. split; [left; auto|].
  left. split; [exact Hfmt|].
  unfold process_yenc. rewrite Ebs, Eps.
  assert (Ees : prefixb (str "=yend ") s = false).
  { unfold s. rewrite prefixb_line; [exact Eye | apply nolf_lit; reflexivity]. }
  rewrite Ees. exact HR0.
Qed.

Lemma decode_yenc_ok cc A d s src :
  rel cc A (MBody s) d -> nonul src ->
  let r := yrun s src in
  let '(d', out) := decode_yenc d src in
  out = d_out r /\
  (d_code r = 0 -> rel cc (add_out A out) (MBody (d_state r)) d' /\ mbody d' = true) /\
  (d_code r <> 0 -> (forall p, rel cc (add_out A out) (MLine p) d') /\ mbody d' = false /\
     linebuf d' = (if d_code r =? 1 then [61; 121] else [46; 13; 10]) ++ d_rest r).
Proof.
  intros HR Hnn r.
  destruct HR as [Hcc Hfmt Hbeg Hpart Hend Hhc Hbody Heo Hcrc Hbp Hep Hsz Hes Hout Hcreg Hname Hby Hyst Hnb Hnb2].
  unfold decode_yenc. rewrite decode_scalar_spec. rewrite Hyst. fold r.
  destruct (Hnb eq_refl) as [Hn1 Hn2].
  assert (Hob : bytes_ok (d_out r)) by apply yrun_bytes.
  assert (Hco : outsize d + Z.of_nat (length (d_out r)) = Z.of_nat (length (a_out A ++ d_out r))).
  { rewrite app_length, Hout. lia. }
  assert (Hcr : (if crccheck d then crc_slice 0 (crcreg d) (d_out r) else crcreg d)
     = if cc then crc_reg 0xFFFFFFFF (a_out A ++ d_out r) else 0xFFFFFFFF).
  { rewrite Hcc, Hcreg. destruct cc; [|reflexivity].
    rewrite crc_slice_ok; [|apply u32_crc_reg; [apply u32_ones|assumption]|assumption].
    symmetry. apply crc_reg_app. }
  assert (Hbb : bytes_ok (a_out A ++ d_out r)) by (apply bytes_ok_app; auto).
  split; [reflexivity|]. split; intros Hc.
  - rewrite Hc. cbn [Z.eqb negb]. split; [|exact Hbody].
    constructor; cbnp; rewrite ?Hc; auto.
    intros H; rewrite H in Hn1; discriminate.
  - replace (d_code r =? 0) with false by lia. cbn [negb]. split; [|split].
    + intros p. constructor; cbnp; auto; try (intros H; rewrite H in Hn1; discriminate).
    + reflexivity.
    + destruct (yrun_suffix s src) as [u Hu]. fold r in Hu.
      assert (Hr : nonul (d_rest r)).
      { rewrite Hu in Hnn. apply nonul_app in Hnn. tauto. }
      cbn. destruct (d_rest r) as [|x t] eqn:Ex; [rewrite app_nil_r; reflexivity|].
      unfold append_buf. rewrite strncpy_pad_id by assumption. reflexivity.
Qed.

Definition lbuf_ok (m : amode) (d : dec) : Prop :=
  match m with MLine p => linebuf d = p /\ nonul p /\ nolf p | _ => True end.

Lemma firstn_overwrite buf out : firstn (length out) (overwrite buf out) = out.
Proof. unfold overwrite. rewrite firstn_app, firstn_all, Nat.sub_diag. simpl. apply app_nil_r. Qed.

Lemma fold_astep_line a b A : nolf a ->
  fold_left astep (a ++ b) (A, MLine []) = fold_left astep b (A, MLine a).
Proof. intros H. rewrite fold_left_app, aread_nolf by assumption. reflexivity. Qed.

Lemma line_loop_ok cc f : forall A d line outlen buf segs A' m',
  (length line < f)%nat -> nonul line -> rel cc A (MLine []) d ->
  fold_left astep line (A, MLine []) = (A', m') -> m' <> MErr ->
  (a_nbody A = false -> outlen = 0) ->
  let r := line_loop f d line outlen buf segs in
  db_ok r = true /\ rel cc A' m' (db_dec r) /\ lbuf_ok m' (db_dec r) /\
  exists new, a_out A' = a_out A ++ new /\ concat (db_segs r) = concat segs ++ new /\
    (a_nbody A = true -> new = [] /\ db_len r = outlen /\ db_buf r = buf) /\
    (a_nbody A = false -> db_len r = Z.of_nat (length new) /\ firstn (length new) (db_buf r) = new).
Proof.
  induction f as [|f IH]; intros A d line outlen buf segs A' m' Hf Hnn HR Hread Herr Hol; [lia|].
  cbn [line_loop].
  destruct (find_nl line) as [[l rest]|] eqn:Efn.
  2:{ (* no complete line left *)
    assert (Hlf := find_nl_none _ Hnn Efn).
    rewrite aread_nolf in Hread by assumption. cbn [app] in Hread. inversion Hread; subst A' m'.
    rewrite cstr_id by assumption.
    assert (E : (match line with [] => mkDB (set_linebuf d []) outlen buf segs true
       | _ :: _ => mkDB (set_linebuf d line) outlen buf segs true end)
       = mkDB (set_linebuf d line) outlen buf segs true) by (destruct line; reflexivity).
    rewrite E. cbn [db_ok db_dec db_segs db_len db_buf].
    split; [reflexivity|]. split; [|split].
    - apply rel_linebuf. destruct HR; constructor; auto.
    - simpl. auto.
    - exists []. rewrite !app_nil_r. split; [reflexivity|]. split; [reflexivity|]. split; [auto|].
      intros H. split; [simpl; auto | reflexivity]. }
  destruct (find_nl_some _ _ _ Efn) as (-> & l0 & -> & Hlf).
  rewrite cstr_id by assumption.
  apply nonul_app in Hnn as [Hnl Hnr]. apply nonul_app in Hnl as [Hn0 _].
  rewrite fold_left_app in Hread. rewrite aread_line in Hread by assumption. cbn [app] in Hread.
  destruct (on_line A (l0 ++ [10])) as [A1 m1] eqn:Eon.
  assert (Edot : (nth 0 ((l0 ++ [10]) ++ rest) 0 =? 46) && (nth 1 ((l0 ++ [10]) ++ rest) 0 =? 13)
                 = prefixb [46; 13] (l0 ++ [10])).
  { destruct l0 as [|c [|c1 l0]]; cbn [app nth prefixb].
    - reflexivity.
    - rewrite (Z.eqb_sym c 46). destruct (46 =? c); reflexivity.
    - rewrite (Z.eqb_sym c 46), (Z.eqb_sym c1 13), andb_true_r. reflexivity. }
  rewrite Edot.
  destruct (prefixb [46; 13] (l0 ++ [10])) eqn:Ed.
  { (* end of article *)
    unfold on_line in Eon. rewrite Ed in Eon. inversion Eon; subst A1 m1.
    rewrite astep_eof in Hread. inversion Hread; subst A' m'.
    cbn [db_ok db_dec db_segs db_len db_buf].
    split; [reflexivity|]. split; [|split; [exact I|]].
    - apply rel_linebuf. destruct HR; constructor; cbnp; auto.
    - exists []. rewrite !app_nil_r. split; [reflexivity|]. split; [reflexivity|]. split; [auto|].
      intros H. split; [simpl; auto | reflexivity]. }
  assert (Hm1e : m1 <> MErr) by (intros ->; rewrite astep_err in Hread; inversion Hread; congruence).
  assert (Hm1f : m1 <> MEof).
  { intros ->. unfold on_line in Eon. rewrite Ed in Eon.
    repeat match type of Eon with
    | (if ?b then _ else _) = _ => destruct b
    | (match ?x with _ => _ end) = _ => destruct x
    end; discriminate. }
  assert (Hstep := on_line_step cc A d l0 rest A1 m1 HR Hlf Hn0 Eon Hm1e Hm1f). cbv zeta in Hstep.
  destruct Hstep as (Ho1 & Hnb1 & Hm1 & Hd1).
  fold (line_dec d ((l0 ++ [10]) ++ rest) (Z.of_nat (length (l0 ++ [10])))).
  set (d1 := line_dec d ((l0 ++ [10]) ++ rest) (Z.of_nat (length (l0 ++ [10])))) in *.
  assert (Hlen : (length rest < f)%nat).
  { rewrite !app_length in Hf. simpl in Hf. lia. }
  destruct Hd1 as [[Hfy HRy]|(Hfu & -> & HRu)].
  2:{ rewrite Hfu.
      specialize (IH A1 d1 rest outlen buf segs A' m' Hlen Hnr HRu Hread Herr).
      destruct Hm1 as [[_ Hnb]|[Hx _]]; [|discriminate].
      rewrite Hnb, Ho1 in IH. apply IH, Hol. }
  rewrite Hfy.
  set (d2 := process_yenc d1 ((l0 ++ [10]) ++ rest)) in *.
  destruct Hm1 as [[-> Hnb]|(-> & Hnbf & Hnbt & Hl6)].
  { replace (mbody d2) with false by (symmetry; apply (r_body _ _ _ _ HRy)).
    specialize (IH A1 d2 rest outlen buf segs A' m' Hlen Hnr HRy Hread Herr).
    rewrite Hnb, Ho1 in IH. apply IH, Hol. }
  (* the body starts *)
  replace (mbody d2) with true by (symmetry; apply (r_body _ _ _ _ HRy)).
  assert (Hdy := decode_yenc_ok cc A1 d2 S_CRLF rest HRy Hnr). cbv zeta in Hdy.
  destruct (decode_yenc d2 rest) as [d3 out]. destruct Hdy as (-> & H0 & H1).
  rewrite aread_body in Hread. cbv zeta in Hread.
  set (r := yrun S_CRLF rest) in *.
  destruct (Z.eq_dec (d_code r) 0) as [Ec|Ec].
  { rewrite Ec in Hread. cbn [Z.eqb] in Hread. inversion Hread; subst A' m'.
    destruct (H0 Ec) as [HR3 Hb3]. rewrite Hb3. cbn [db_ok db_dec db_segs db_len db_buf].
    split; [reflexivity|]. split; [apply rel_linebuf, HR3|]. split; [exact I|].
    exists (d_out r). split; [cbn; rewrite Ho1; reflexivity|].
    split; [rewrite concat_app; simpl; rewrite app_nil_r; reflexivity|].
    split; [intros; congruence|]. intros _. split; [reflexivity|]. apply firstn_overwrite. }
  destruct (H1 Ec) as (HR3 & Hb3 & Hlb). rewrite Hb3.
  replace (d_code r =? 0) with false in Hread by lia.
  assert (Hsuf := yrun_suffix S_CRLF rest). fold r in Hsuf. destruct Hsuf as [u Hu].
  assert (Hnrest : nonul (d_rest r)).
  { rewrite Hu in Hnr. apply nonul_app in Hnr. tauto. }
  assert (Hlr : (length (d_rest r) <= length rest)%nat).
  { apply (f_equal (@length Z)) in Hu. rewrite app_length in Hu. lia. }
  assert (Hread2 : fold_left astep (linebuf d3) (add_out A1 (d_out r), MLine []) = (A', m')).
  { rewrite Hlb. destruct (d_code r =? 1) eqn:E1.
    - rewrite fold_astep_line; [exact Hread|]. repeat constructor; discriminate.
    - rewrite <- Hread. rewrite fold_left_app.
      change (fold_left astep [46; 13; 10] (add_out A1 (d_out r), MLine []))
        with (add_out A1 (d_out r), MEof). apply astep_eof. }
  assert (Hnn3 : nonul (linebuf d3)).
  { rewrite Hlb. apply nonul_app. split; [|assumption].
    destruct (d_code r =? 1); repeat constructor; discriminate. }
  assert (Hlen3 : (length (linebuf d3) < f)%nat).
  { rewrite Hlb. rewrite app_length. rewrite !app_length in Hf. cbn [length] in Hf.
    destruct (d_code r =? 1); cbn [length]; lia. }
  specialize (IH (add_out A1 (d_out r)) d3 (linebuf d3) (Z.of_nat (length (d_out r)))
    (overwrite buf (d_out r)) (segs ++ [d_out r]) A' m' Hlen3 Hnn3 (HR3 []) Hread2 Herr).
  cbn [a_nbody a_out add_out] in IH. rewrite Hnbt in IH.
  destruct IH as (Hok & HRf & Hlbf & new & Hon & Hsg & Hnew & _); [intros; discriminate|].
  destruct (Hnew eq_refl) as (-> & Hlenr & Hbufr).
  split; [exact Hok|]. split; [exact HRf|]. split; [exact Hlbf|].
  exists (d_out r). split; [rewrite Hon, app_nil_r, Ho1; reflexivity|].
  split; [rewrite Hsg, app_nil_r, concat_app; simpl; rewrite app_nil_r; reflexivity|].
  split; [intros; congruence|]. intros _. rewrite Hlenr, Hbufr.
  split; [reflexivity|]. apply firstn_overwrite.
Qed.

Lemma decode_buffer_ok cc A m d c A' m' :
  nonul c -> rel cc A m d -> lbuf_ok m d -> m <> MErr -> m <> MEof ->
  fold_left astep c (A, m) = (A', m') -> m' <> MErr ->
  let r := decode_buffer d c in
  db_ok r = true /\ rel cc A' m' (db_dec r) /\ lbuf_ok m' (db_dec r) /\
  exists new, a_out A' = a_out A ++ new /\ concat (db_segs r) = new /\
    firstn (Z.to_nat (db_len r)) (db_buf r) = new.
Proof.
  intros Hnn HR Hlb Herr Heof Hread Herr'. unfold decode_buffer.
  destruct m as [p|s| |]; try congruence.
  - (* line mode *)
    rewrite (r_body _ _ _ _ HR). cbn [body_of andb].
    destruct Hlb as (Hlb & Hnp & Hlp). rewrite Hlb.
    unfold append_buf. rewrite strncpy_pad_id by assumption.
    assert (Hread2 : fold_left astep (p ++ c) (A, MLine []) = (A', m')).
    { rewrite fold_astep_line by assumption. exact Hread. }
    assert (HR' : rel cc A (MLine []) (set_linebuf d (p ++ c))).
    { apply rel_linebuf. destruct HR; constructor; auto. }
    assert (Hall := line_loop_ok cc (S (length (p ++ c))) A (set_linebuf d (p ++ c)) (p ++ c) 0 c []
      A' m' ltac:(lia) ltac:(apply nonul_app; auto) HR' Hread2 Herr' ltac:(auto)).
    cbv zeta in Hall. destruct Hall as (Hok & HRf & Hlbf & new & Hon & Hsg & Ht & Hff).
    split; [exact Hok|]. split; [exact HRf|]. split; [exact Hlbf|].
    exists new. split; [exact Hon|]. split; [exact Hsg|].
    destruct (a_nbody A).
    + destruct (Ht eq_refl) as (-> & Hl & _). rewrite Hl. reflexivity.
    + destruct (Hff eq_refl) as (Hl & Hfirst). rewrite Hl, Nat2Z.id. exact Hfirst.
  - (* body mode *)
    destruct (r_nb _ _ _ _ HR eq_refl) as [Hn1 Hn2].
    rewrite (r_body _ _ _ _ HR), (r_fmt _ _ _ _ HR), Hn2. cbn [body_of andb].
    assert (Hdy := decode_yenc_ok cc A d s c HR Hnn). cbv zeta in Hdy.
    destruct (decode_yenc d c) as [d3 out]. destruct Hdy as (-> & H0 & H1).
    rewrite aread_body in Hread. cbv zeta in Hread.
    set (r := yrun s c) in *.
    destruct (Z.eq_dec (d_code r) 0) as [Ec|Ec].
    { rewrite Ec in Hread. cbn [Z.eqb] in Hread. inversion Hread; subst A' m'.
      destruct (H0 Ec) as [HR3 Hb3]. rewrite Hb3. cbn [db_ok db_dec db_segs db_len db_buf].
      split; [reflexivity|]. split; [exact HR3|]. split; [exact I|].
      exists (d_out r). split; [reflexivity|]. split; [simpl; apply app_nil_r|].
      rewrite Nat2Z.id. apply firstn_overwrite. }
    destruct (H1 Ec) as (HR3 & Hb3 & Hlb3). rewrite Hb3.
    replace (d_code r =? 0) with false in Hread by lia.
    assert (Hsuf := yrun_suffix s c). fold r in Hsuf. destruct Hsuf as [u Hu].
    assert (Hnrest : nonul (d_rest r)).
    { rewrite Hu in Hnn. apply nonul_app in Hnn. tauto. }
    assert (Hread2 : fold_left astep (linebuf d3) (add_out A (d_out r), MLine []) = (A', m')).
    { rewrite Hlb3. destruct (d_code r =? 1) eqn:E1.
      - rewrite fold_astep_line; [exact Hread|]. repeat constructor; discriminate.
      - rewrite <- Hread. rewrite fold_left_app.
        change (fold_left astep [46; 13; 10] (add_out A (d_out r), MLine []))
          with (add_out A (d_out r), MEof). apply astep_eof. }
    assert (Hnn3 : nonul (linebuf d3)).
    { rewrite Hlb3. apply nonul_app. split; [|assumption].
      destruct (d_code r =? 1); repeat constructor; discriminate. }
    assert (Hall := line_loop_ok cc (S (length (linebuf d3))) (add_out A (d_out r)) d3 (linebuf d3)
      (Z.of_nat (length (d_out r))) (overwrite c (d_out r)) [d_out r]
      A' m' ltac:(lia) Hnn3 (HR3 []) Hread2 Herr').
    cbn [a_nbody a_out add_out] in Hall. rewrite Hn1 in Hall.
    destruct Hall as (Hok & HRf & Hlbf & new & Hon & Hsg & Hnew & _); [intros; discriminate|].
    destruct (Hnew eq_refl) as (-> & Hlenr & Hbufr).
    split; [exact Hok|]. split; [exact HRf|]. split; [exact Hlbf|].
    exists (d_out r). split; [rewrite Hon, app_nil_r; reflexivity|].
    split; [rewrite Hsg; simpl; rewrite !app_nil_r; reflexivity|].
    rewrite Hlenr, Hbufr, Nat2Z.id. apply firstn_overwrite.
Qed.

Lemma download_ok cc chunks : forall A m d A' m',
  nonul (concat chunks) -> rel cc A m d -> lbuf_ok m d -> m <> MErr ->
  fold_left astep (concat chunks) (A, m) = (A', m') -> m' <> MErr ->
  let '(d', w, segs, ok) := download d chunks in
  ok = true /\ rel cc A' m' d' /\ a_out A' = a_out A ++ w /\ concat segs = w.
Proof.
  induction chunks as [|c cs IH]; intros A m d A' m' Hnn HR Hlb Herr Hread Herr'.
  - simpl in Hread. inversion Hread; subst. simpl. destruct (meof d);
      (split; [reflexivity|]; split; [exact HR|]; rewrite app_nil_r; auto).
  - cbn [concat] in *. apply nonul_app in Hnn as [Hnc Hncs].
    rewrite fold_left_app in Hread.
    cbn [download]. rewrite (r_eof _ _ _ _ HR).
    destruct m as [p|s| |]; try congruence.
    3:{ cbn [eof_of]. rewrite !astep_eof in Hread. inversion Hread; subst.
        split; [reflexivity|]. split; [exact HR|]. rewrite app_nil_r; auto. }
    + destruct (fold_left astep c (A, MLine p)) as [A1 m1] eqn:E1.
      assert (Hm1 : m1 <> MErr) by (intros ->; rewrite astep_err in Hread; inversion Hread; congruence).
      assert (H1 := decode_buffer_ok cc A (MLine p) d c A1 m1 Hnc HR Hlb Herr ltac:(discriminate) E1 Hm1).
      cbv zeta in H1. destruct H1 as (Hok1 & HR1 & Hlb1 & new & Hon & Hsg & Hw).
      specialize (IH A1 m1 _ A' m' Hncs HR1 Hlb1 Hm1 Hread Herr').
      cbn [eof_of]. destruct (download (db_dec (decode_buffer d c)) cs) as [[[d' ws] ss] ok].
      destruct IH as (-> & HRf & Hof & Hsf). rewrite Hok1, Hw.
      split; [reflexivity|]. split; [exact HRf|]. split; [rewrite Hof, Hon, app_assoc; reflexivity|].
      rewrite concat_app, Hsg, Hsf. reflexivity.
    + destruct (fold_left astep c (A, MBody s)) as [A1 m1] eqn:E1.
      assert (Hm1 : m1 <> MErr) by (intros ->; rewrite astep_err in Hread; inversion Hread; congruence).
      assert (H1 := decode_buffer_ok cc A (MBody s) d c A1 m1 Hnc HR Hlb Herr ltac:(discriminate) E1 Hm1).
      cbv zeta in H1. destruct H1 as (Hok1 & HR1 & Hlb1 & new & Hon & Hsg & Hw).
      specialize (IH A1 m1 _ A' m' Hncs HR1 Hlb1 Hm1 Hread Herr').
      cbn [eof_of]. destruct (download (db_dec (decode_buffer d c)) cs) as [[[d' ws] ss] ok].
      destruct IH as (-> & HRf & Hof & Hsf). rewrite Hok1, Hw.
      split; [reflexivity|]. split; [exact HRf|]. split; [rewrite Hof, Hon, app_assoc; reflexivity|].
      rewrite concat_app, Hsg, Hsf. reflexivity.
Qed.

Lemma rel_init cc : rel cc art0 (MLine []) (dec_init cc).
Proof. constructor; cbnp; auto; try discriminate; try (destruct cc; reflexivity). constructor. Qed.

Definition status_of (v : verdict) : dstatus :=
  match v with
  | VNone => dsUnknownError | VIncomplete => dsArticleIncomplete | VSize => dsInvalidSize
  | VCrc => dsCrcError | VFinished => dsFinished end.

Lemma check_ok cc A m d : rel cc A m d -> check d = status_of (judge cc A).
Proof.
  intros HR. unfold check, judge.
  rewrite (r_fmt _ _ _ _ HR), (r_beg _ _ _ _ HR), (r_end _ _ _ _ HR), (r_part _ _ _ _ HR),
    (r_hcrc _ _ _ _ HR), (r_cc _ _ _ _ HR), (r_es _ _ _ _ HR), (r_out _ _ _ _ HR),
    (r_crc _ _ _ _ HR), (r_creg _ _ _ _ HR).
  destruct (a_beg A); [|reflexivity]. cbn [negb].
  destruct (a_fin A); [|reflexivity]. cbn [negb andb orb].
  destruct (a_es A =? Z.of_nat (length (a_out A))); [|reflexivity]. cbn [negb].
  destruct cc; cbn [andb]; [|reflexivity].
  unfold crc_finish. fold (crc32 (a_out A)).
  destruct (a_crc A =? crc32 (a_out A)); reflexivity.
Qed.

(** The article decoder, fed with any chunks, computes what the byte-at-a-time
    reader computes on the whole stream. *)
Lemma decoder_refines cc chunks A m :
  ~ In 0 (concat chunks) -> aread (concat chunks) = (A, m) -> m <> MErr ->
  let '(d, w, segs, ok) := download (dec_init cc) chunks in
  ok = true /\ w = a_out A /\ meof d = eof_of m /\ check d = status_of (judge cc A) /\
  fname d = a_name A /\ msize d = a_size A /\ beginpos d = a_bp A /\ endpos d = a_ep A.
Proof.
  intros Hnn Hread Herr.
  assert (Hnn' : nonul (concat chunks)).
  { apply Forall_forall. intros x Hx ->. contradiction. }
  assert (H := download_ok cc chunks art0 (MLine []) (dec_init cc) A m Hnn' (rel_init cc)
    ltac:(simpl; repeat split; constructor) ltac:(discriminate) Hread Herr).
  destruct (download (dec_init cc) chunks) as [[[d w] segs] ok].
  destruct H as (-> & HR & Hout & Hsg). simpl in Hout.
  split; [reflexivity|]. split; [auto|]. split; [apply (r_eof _ _ _ _ HR)|].
  split; [apply (check_ok _ _ _ _ HR)|].
  split; [apply (r_name _ _ _ _ HR)|]. split; [apply (r_size _ _ _ _ HR)|].
  split; [apply (r_bp _ _ _ _ HR) | apply (r_ep _ _ _ _ HR)].
Qed.
