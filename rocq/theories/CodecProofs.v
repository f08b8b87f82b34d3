From Coq Require Import String.
From Verif Require Import Base NumFmt CodecModel CodecSpec.

(** ** In-place decoding equals pure decoding *)

Definition frugal (step : list Z -> sres) : Prop :=
  forall s out k, step s = SOut out k -> (length out <= k <= length s)%nat /\ (1 <= k)%nat.

Lemma xml_frugal : frugal xml_step.
Proof.
  intros s out k. unfold xml_step. destruct s as [|c t]; [discriminate|].
  destruct (c =? 38); [|intros E; inversion E; subst; simpl; lia].
  Ltac pfx := match goal with |- context [prefixb ?p ?t] =>
     let E := fresh in let H := fresh in destruct (prefixb p t) eqn:E;
     [apply prefixb_iff in E as (? & ->); intros H; inversion H; subst; simpl; lia|] end.
  do 5 pfx.
  destruct t as [|d u]; [discriminate|]. destruct (d =? 35).
  - destruct (Nat.eqb_spec (ent_run u) (length u)) as [E|E]; [discriminate|].
    assert (ent_run u <= length u)%nat.
    { clear. induction u as [|c u IH]; simpl; [lia|]. destruct (is_digit c || (c =? 59)); lia. }
    intros E2; inversion E2; subst. simpl. lia.
  - intros E; inversion E; subst; simpl; lia.
Qed.

Lemma json_frugal : frugal json_step.
Proof.
  intros s out k. unfold json_step. destruct s as [|c t]; [discriminate|].
  destruct (c =? 92); [|intros E; inversion E; subst; simpl; lia].
  destruct t as [|d u]; [discriminate|].
  destruct (d =? 117) eqn:Eu.
  - apply Z.eqb_eq in Eu; subst d. simpl Z.eqb. cbv iota.
    destruct (Nat.ltb_spec (length u) 4); [discriminate|]. intros E; inversion E; subst; simpl; lia.
  - intros E. repeat match type of E with context [if ?b then _ else _] => destruct b end;
      inversion E; subst; simpl; lia.
Qed.

Lemma url_frugal : frugal url_step.
Proof.
  intros s out k. unfold url_step. destruct s as [|c t]; [discriminate|].
  destruct (c =? 37); [|intros E; inversion E; subst; simpl; lia].
  destruct t as [|a [|b t]]; try discriminate. intros E; inversion E; subst; simpl; lia.
Qed.

Lemma ent_frugal : frugal ent_step.
Proof.
  intros s out k. unfold ent_step. destruct s as [|c t]; [discriminate|].
  destruct (c =? 38); [|intros E; inversion E; subst; simpl; lia].
  destruct (skipn (name_run t) t) as [|e r] eqn:E; [discriminate|].
  assert (L : (name_run t < length t)%nat).
  { assert (length (skipn (name_run t) t) = S (length r)) by (rewrite E; reflexivity).
    rewrite skipn_length in H. lia. }
  destruct (e =? 59); intros E2; inversion E2; subst; simpl; lia.
Qed.

Lemma unq_frugal : frugal unq_step.
Proof.
  intros s out k. unfold unq_step. destruct s as [|c t]; [discriminate|].
  destruct (c =? 34); [discriminate|].
  destruct (c =? 92); intros E; inversion E; subst; simpl; lia.
Qed.

Definition no_nul (l : list Z) : Prop := Forall (fun c => c <> 0) l.

Lemma c_string_app s r : no_nul s -> c_string (s ++ 0 :: r) = s.
Proof.
  induction s as [|c t IH]; intros H; [reflexivity|]. inversion H; subst. simpl.
  replace (c =? 0) with false by lia. f_equal. auto.
Qed.

Lemma has_nul_app s r : has_nul (s ++ 0 :: r) = true.
Proof. induction s as [|c t IH]; simpl; [reflexivity|]. rewrite IH. apply orb_true_r. Qed.

Lemma no_nul_skipn k s : no_nul s -> no_nul (skipn k s).
Proof. intros H. rewrite <- (firstn_skipn k s) in H. apply Forall_app in H. tauto. Qed.

(** Decoding in place: at any moment the memory is: [done] (already written),
    stale bytes, the unread string, NUL, and what lies behind. *)
Lemma inplace_ok step : frugal step -> forall fuel done stale s junk,
  no_nul s ->
  inplace step fuel (done ++ stale ++ s ++ 0 :: junk) (length done + length stale) (length done)
  = match decode step fuel s with
    | Some out => Some (done ++ out ++ 0 :: skipn (length out + 1) (stale ++ s ++ 0 :: junk))
    | None => None
    end.
Proof.
  intros Hf. induction fuel as [|f IH]; intros done stale s junk Hs; [reflexivity|].
  cbn [inplace decode].
  assert (Hsk : skipn (length done + length stale) (done ++ stale ++ s ++ 0 :: junk) = s ++ 0 :: junk).
  { rewrite app_assoc. rewrite <- app_length. rewrite skipn_app, skipn_all, Nat.sub_diag. reflexivity. }
  rewrite Hsk, has_nul_app, c_string_app by assumption. cbn [negb].
  assert (Hw : forall bs, write_at (done ++ stale ++ s ++ 0 :: junk) (length done) bs
                = done ++ bs ++ skipn (length bs) (stale ++ s ++ 0 :: junk)).
  { intros bs. unfold write_at. rewrite firstn_app, firstn_all, Nat.sub_diag. simpl firstn. rewrite app_nil_r.
    f_equal. f_equal. rewrite skipn_app. rewrite skipn_all2 by lia.
    replace (length done + length bs - length done)%nat with (length bs) by lia. reflexivity. }
  destruct (step s) as [|out k|] eqn:Est; [| |reflexivity].
  - rewrite Hw. reflexivity.
  - destruct (Hf _ _ _ Est) as [[H1 H2] H3]. rewrite Hw.
    set (x := firstn k s). assert (Hx : s = x ++ skipn k s) by (symmetry; apply firstn_skipn).
    assert (Lx : length x = k) by (unfold x; apply firstn_length_le; lia).
    assert (E1 : stale ++ s ++ 0 :: junk = (stale ++ x) ++ skipn k s ++ 0 :: junk).
    { rewrite Hx at 1. rewrite <- !app_assoc. reflexivity. }
    assert (E2 : skipn (length out) (stale ++ s ++ 0 :: junk)
                 = skipn (length out) (stale ++ x) ++ skipn k s ++ 0 :: junk).
    { rewrite E1, skipn_app. replace (length out - length (stale ++ x))%nat with 0%nat
        by (rewrite app_length; lia). reflexivity. }
    rewrite E2.
    assert (L2 : (length (skipn (length out) (stale ++ x)) = length stale + k - length out)%nat).
    { rewrite skipn_length, app_length, Lx. reflexivity. }
    specialize (IH (done ++ out) (skipn (length out) (stale ++ x)) (skipn k s) junk
      (no_nul_skipn k s Hs)).
    rewrite app_length, L2 in IH.
    replace (length done + length out + (length stale + k - length out))%nat
      with (length done + length stale + k)%nat in IH by lia.
    rewrite <- !app_assoc in IH. rewrite IH.
    destruct (decode step f (skipn k s)) as [r|]; [|reflexivity].
    rewrite <- !app_assoc. do 5 f_equal.
    rewrite app_length.
    rewrite E1. set (A := stale ++ x). set (B := skipn k s ++ 0 :: junk).
    replace (length out + length r + 1)%nat with (length r + 1 + length out)%nat by lia.
    assert (LA : (length out <= length A)%nat) by (unfold A; rewrite app_length; lia).
    rewrite <- (firstn_skipn (length out) A) at 2. rewrite <- app_assoc.
    rewrite (skipn_app _ (firstn _ _)).
    rewrite (skipn_all2 (firstn (length out) A)) by (rewrite firstn_length; lia).
    rewrite firstn_length_le by exact LA.
    replace (length r + 1 + length out - length out)%nat with (length r + 1)%nat by lia. reflexivity.
Qed.

(** Fuel: the string length plus one always suffices. *)
Lemma decode_fuel step : frugal step -> forall fuel1 fuel2 s,
  (length s < fuel1)%nat -> (length s < fuel2)%nat -> decode step fuel1 s = decode step fuel2 s.
Proof.
  intros Hf. induction fuel1 as [|f1 IH]; intros [|f2] s H1 H2; try lia. cbn [decode].
  destruct (step s) as [|out k|] eqn:E; try reflexivity.
  destruct (Hf _ _ _ E) as [[? ?] ?].
  rewrite (IH f2); [reflexivity|..]; rewrite skipn_length; lia.
Qed.

(** Output never longer than the input. *)
Lemma decode_len step : frugal step -> forall fuel s out, decode step fuel s = Some out ->
  (length out <= length s)%nat.
Proof.
  intros Hf. induction fuel as [|f IH]; intros s out; [discriminate|]. cbn [decode].
  destruct (step s) as [|o k|] eqn:E; [intros H; inversion H; simpl; lia| |discriminate].
  destruct (Hf _ _ _ E) as [[? ?] ?].
  destruct (decode step f (skipn k s)) as [r|] eqn:Er; [|discriminate].
  intros H2; inversion H2; subst. apply IH in Er. rewrite skipn_length in Er. rewrite app_length. lia.
Qed.

(** Whole run on a buffer. *)
Lemma inplace_buffer step s junk : frugal step -> no_nul s ->
  inplace step (S (length s)) (s ++ 0 :: junk) 0 0
  = match decode step (S (length s)) s with
    | Some out => Some (out ++ 0 :: skipn (length out + 1) (s ++ 0 :: junk))
    | None => None
    end.
Proof. intros Hf Hs. exact (inplace_ok step Hf (S (length s)) [] [] s junk Hs). Qed.

Lemma skipn_skipn {A} (i j : nat) : forall l : list A, skipn i (skipn j l) = skipn (i + j) l.
Proof.
  induction j as [|j IH]; intros l; [rewrite Nat.add_0_r; reflexivity|].
  rewrite Nat.add_succ_r. destruct l as [|x l]; [rewrite !skipn_nil; reflexivity|]. cbn [skipn]. apply IH.
Qed.

(** The bytes behind the terminator are never touched. *)
Lemma inplace_behind step s junk mem : frugal step -> no_nul s ->
  inplace step (S (length s)) (s ++ 0 :: junk) 0 0 = Some mem ->
  length mem = length (s ++ 0 :: junk) /\ skipn (S (length s)) mem = junk.
Proof.
  intros Hf Hs. rewrite inplace_buffer by assumption.
  destruct (decode step (S (length s)) s) as [out|] eqn:E; [|discriminate].
  intros H; inversion H; subst. apply decode_len in E; [|assumption].
  assert (L : length (out ++ 0 :: skipn (length out + 1) (s ++ 0 :: junk)) = length (s ++ 0 :: junk)).
  { rewrite app_length. cbn [length]. rewrite skipn_length, app_length. simpl. lia. }
  split; [exact L|].
  rewrite skipn_app. rewrite skipn_all2 by lia. cbn [app].
  replace (S (length s) - length out)%nat with (S (length s - length out)) by lia.
  cbn [skipn]. rewrite skipn_skipn.
  replace (length s - length out + (length out + 1))%nat with (length s + 1)%nat by lia.
  rewrite skipn_app, skipn_all2 by lia. replace (length s + 1 - length s)%nat with 1%nat by lia. reflexivity.
Qed.

(** ** UTF-8 *)

Lemma cont_byte x : 0 <= x < 64 -> (Z.land (0x80 + x) 0xc0 =? 0x80) = true.
Proof.
  intros H.
  assert (S : forallb (fun b => if (128 <=? b) && (b <? 192) then Z.land b 0xc0 =? 0x80 else true) all_bytes = true)
    by (vm_compute; reflexivity).
  assert (B := byte_sweep _ S (0x80 + x)). cbv beta in B.
  replace ((128 <=? 128 + x) && (128 + x <? 192)) with true in B by lia.
  apply B. unfold is_byte. lia.
Qed.

Lemma utf_masks : 0x7ff = Z.ones 11 /\ 0x3f = Z.ones 6 /\ 0xffff = Z.ones 16 /\ 0xfff = Z.ones 12
  /\ 0x1fffff = Z.ones 21 /\ 0x3ffff = Z.ones 18.
Proof. repeat split. Qed.

Ltac masks :=
  change 0x7ff with (Z.ones 11); change 0x3f with (Z.ones 6); change 0xffff with (Z.ones 16);
  change 0xfff with (Z.ones 12); change 0x1fffff with (Z.ones 21); change 0x3ffff with (Z.ones 18);
  rewrite ?Z.land_ones, ?Z.shiftl_mul_pow2 by lia.

Lemma utf_next_utf8 cp r : scalar cp -> 0x80 <= cp ->
  exists b rest, utf8 cp = b :: rest /\ 0x80 < b < 256 /\ utf_next b (rest ++ r) = Some (cp, r).
Proof.
  intros [H1 H2] H. unfold utf8. replace (cp <? 0x80) with false by lia.
  destruct (Z.ltb_spec cp 0x800) as [L1|L1].
  { eexists _, _. split; [reflexivity|]. split; [lia|]. unfold utf_next.
    rewrite !Z.shiftr_div_pow2 by lia. cbn [app]. rewrite cont_byte by lia.
    replace ((192 + cp / 64) / 2 ^ 5 =? 6) with true by (change (2^5) with 32; lia). cbn [andb].
    f_equal. f_equal. masks. change (2^6) with 64. change (2^11) with 2048. lia. }
  destruct (Z.ltb_spec cp 0x10000) as [L2|L2].
  { eexists _, _. split; [reflexivity|]. split; [lia|]. unfold utf_next.
    rewrite !Z.shiftr_div_pow2 by lia. cbn [app]. rewrite cont_byte by lia.
    replace ((224 + cp / 4096) / 2 ^ 5 =? 6) with false by (change (2^5) with 32; lia).
    replace ((224 + cp / 4096) / 2 ^ 4 =? 14) with true by (change (2^4) with 16; lia). cbn [andb].
    f_equal. f_equal. masks. change (2^6) with 64. change (2^12) with 4096. change (2^16) with 65536.
    lia. }
  { eexists _, _. split; [reflexivity|]. split; [lia|]. unfold utf_next.
    rewrite !Z.shiftr_div_pow2 by lia. cbn [app]. rewrite cont_byte by lia.
    replace ((240 + cp / 262144) / 2 ^ 5 =? 6) with false by (change (2^5) with 32; lia).
    replace ((240 + cp / 262144) / 2 ^ 4 =? 14) with false by (change (2^4) with 16; lia).
    replace ((240 + cp / 262144) / 2 ^ 3 =? 30) with true by (change (2^3) with 8; lia). cbn [andb].
    f_equal. f_equal. masks. change (2^6) with 64. change (2^12) with 4096. change (2^18) with 262144.
    change (2^21) with 2097152. lia. }
Qed.

(** ** Hexadecimal *)

Lemma hexval_digit v : 0 <= v < 16 -> hexval (hexdigit v) = Some v.
Proof. intros H. apply hexval_hexdigit; exact H. Qed.

Lemma hexnum_hex4 n : 0 <= n < 2 ^ 16 -> hexnum (hex4 n) = Some n.
Proof.
  intros H. unfold hexnum, hex4. cbn [fold_left]. rewrite !hexval_digit by (apply Z.mod_pos_bound; lia).
  f_equal. change (2^12) with 4096. change (2^8) with 256. change (2^4) with 16. change (2^16) with 65536 in H. lia.
Qed.

Lemma hexnum_hex6 n : 0 <= n < 2 ^ 24 -> hexnum (hex6 n) = Some n.
Proof.
  intros H. unfold hexnum, hex6, hex4. cbn [app fold_left].
  rewrite !hexval_digit by (apply Z.mod_pos_bound; lia).
  f_equal. change (2^12) with 4096. change (2^8) with 256. change (2^4) with 16.
  change (2^20) with 1048576. change (2^16) with 65536. change (2^24) with 16777216 in H. lia.
Qed.

Lemma hexdigit_range v : 0 <= v < 16 -> 48 <= hexdigit v <= 102 /\ hexdigit v <> 59 /\ hexdigit v <> 60.
Proof. unfold hexdigit. intros H. destruct (Z.ltb_spec v 10); lia. Qed.

(** ** XML encoding read by a standard reader *)

Lemma upto_semi_app a r : ~ In 59 a -> upto_semi (a ++ 59 :: r) = Some (a, r).
Proof.
  induction a as [|c t IH]; intros H; [reflexivity|]. simpl in *.
  replace (c =? 59) with false by lia. rewrite IH by tauto. reflexivity.
Qed.

Definition xml_image (cp : Z) : Z := if xml_char cp then cp else 46.

Lemma hex6_nosemi n : ~ In 59 (hex6 n).
Proof.
  unfold hex6, hex4. cbn [app In]. intros H.
  assert (P : forall v, hexdigit (v mod 16) <> 59)
    by (intros v; apply hexdigit_range; apply Z.mod_pos_bound; lia).
  intuition (eapply P; eassumption).
Qed.

Ltac xml_ent name v :=
  cbn [Nat.add]; lazymatch goal with |- _ => idtac end.

Lemma xml_parse_ent name v g r : entity name = Some v -> ~ In 59 name ->
  xml_parse (S g) (38 :: name ++ 59 :: r) = match xml_parse g r with Some x => Some (v :: x) | None => None end.
Proof. intros He Hn. cbn [xml_parse]. simpl Z.eqb. cbv iota. rewrite upto_semi_app, He by assumption. reflexivity. Qed.

Lemma xml_encode_step f cp r : scalar cp ->
  exists out, xml_encode_go (S f) (utf8 cp ++ r) = out ++ xml_encode_go f r /\ (1 <= length out)%nat /\
    forall g t, xml_parse (S g) (out ++ t)
      = match xml_parse g t with Some x => Some (xml_image cp :: x) | None => None end.
Proof.
  intros Hcp.
  assert (D : cp < 0x80 \/ 0x80 <= cp) by lia. destruct D as [D|D].
  - unfold utf8. replace (cp <? 0x80) with true by lia. cbn [app xml_encode_go].
    assert (HI : 32 <= cp -> xml_image cp = cp).
    { intros H. unfold xml_image, xml_char. replace ((0x20 <=? cp) && (cp <=? 0xD7FF)) with true by lia.
      rewrite !orb_true_r. reflexivity. }
    Ltac ent_case HI := match goal with |- context [if ?b then str ?x ++ _ else _] =>
      let E := fresh in destruct b eqn:E;
      [apply Z.eqb_eq in E; subst; exists (str x); split; [reflexivity|split; [simpl; lia|]];
       intros g t; rewrite HI by lia;
       match goal with |- xml_parse _ (str ?y ++ _) = _ =>
         let v := eval vm_compute in (removelast (tl (str y))) in
         change (str y ++ t) with (38 :: v ++ 59 :: t) end;
       apply xml_parse_ent; [reflexivity | simpl; intuition discriminate]|] end.
    do 5 ent_case HI.
    destruct ((cp <? 0x20) || (0x80 <? cp)) eqn:E.
    + assert (Hlt : 0 < cp < 32) by (destruct Hcp; lia).
      assert (En : utf_next cp r = Some (cp, r)).
      { unfold utf_next. rewrite !Z.shiftr_div_pow2 by lia.
        replace (cp / 2 ^ 5 =? 6) with false by (change (2^5) with 32; lia).
        replace (cp / 2 ^ 4 =? 14) with false by (change (2^4) with 16; lia).
        replace (cp / 2 ^ 3 =? 30) with false by (change (2^3) with 8; lia). reflexivity. }
      rewrite En. eexists. split; [reflexivity|]. unfold xml_image. destruct (xml_char cp).
      * split; [rewrite !app_length; simpl; lia|]. intros g t.
        change ((str "&#x" ++ hex6 cp ++ [59]) ++ t) with (38 :: (35 :: 120 :: hex6 cp) ++ 59 :: t).
        apply xml_parse_ent; [|simpl; intros [Hx|[Hx|Hx]]; try discriminate; eapply hex6_nosemi; exact Hx].
        unfold entity. simpl beqb. cbv iota. simpl Z.eqb. cbn [andb]. apply hexnum_hex6.
        change (2^24) with 16777216. lia.
      * split; [simpl; lia|]. intros g t. reflexivity.
    + exists [cp]. split; [reflexivity|]. split; [simpl; lia|]. intros g t. cbn [app xml_parse].
      rewrite HI by lia. replace (cp =? 38) with false by lia.
      replace ((cp <? 32) || (127 <? cp) || (cp =? 60) || (cp =? 62) || (cp =? 34) || (cp =? 39)) with false by lia.
      reflexivity.
  - destruct (utf_next_utf8 cp r Hcp D) as (b & rest & -> & Hb & En).
    cbn [app xml_encode_go].
    replace (b =? 60) with false by lia. replace (b =? 62) with false by lia.
    replace (b =? 38) with false by lia. replace (b =? 39) with false by lia.
    replace (b =? 34) with false by lia. replace ((b <? 0x20) || (0x80 <? b)) with true by lia.
    rewrite En. eexists. split; [reflexivity|]. unfold xml_image. destruct (xml_char cp).
    + split; [rewrite !app_length; simpl; lia|]. intros g t.
      change ((str "&#x" ++ hex6 cp ++ [59]) ++ t) with (38 :: (35 :: 120 :: hex6 cp) ++ 59 :: t).
      apply xml_parse_ent; [|simpl; intros [Hx|[Hx|Hx]]; try discriminate; eapply hex6_nosemi; exact Hx].
      unfold entity. simpl beqb. cbv iota. simpl Z.eqb. cbn [andb]. apply hexnum_hex6.
      destruct Hcp. change (2^24) with 16777216. lia.
    + split; [simpl; lia|]. intros g t. reflexivity.
Qed.

Lemma utf8_nonempty cp : (1 <= length (utf8 cp))%nat.
Proof. unfold utf8. repeat match goal with |- context [if ?b then _ else _] => destruct b end; simpl; lia. Qed.

Lemma xml_encode_ok cps : Forall scalar cps ->
  xml_parse (S (length (xml_encode (utf8s cps)))) (xml_encode (utf8s cps)) = Some (map xml_image cps).
Proof.
  intros H. unfold xml_encode.
  assert (G : forall cps, Forall scalar cps -> forall f g, (length (utf8s cps) <= f)%nat ->
    (length (xml_encode_go f (utf8s cps)) < g)%nat ->
    xml_parse g (xml_encode_go f (utf8s cps)) = Some (map xml_image cps)).
  { clear. induction cps as [|cp cps IH]; intros H f g Hf Hg.
    - destruct f; destruct g; simpl in *; try lia; reflexivity.
    - inversion H; subst. unfold utf8s in *. cbn [map concat] in *.
      assert (L := utf8_nonempty cp). rewrite app_length in Hf.
      destruct f as [|f]; [lia|].
      destruct (xml_encode_step f cp (concat (map utf8 cps)) H2) as (out & E & Lo & P).
      rewrite E in *. rewrite app_length in Hg. destruct g as [|g]; [lia|].
      rewrite P, IH; [reflexivity|assumption|lia|lia]. }
  apply G; auto.
Qed.

(** ** JSON encoding read by a standard reader *)

Definition json_image (cp : Z) : Z := if cp <=? 0xFFFF then cp else 46.

Lemma json_parse_u g n t : 0 <= n < 2 ^ 16 ->
  json_parse (S g) ((92 :: 117 :: hex4 n) ++ t)
  = match json_parse g t with Some x => Some (n :: x) | None => None end.
Proof.
  intros H. cbn [json_parse app hex4]. simpl (92 =? 92). simpl (117 =? 117). cbv iota.
  fold (hex4 n). rewrite hexnum_hex4 by assumption. reflexivity.
Qed.

Lemma json_encode_step f cp r : scalar cp ->
  exists out, json_encode_go (S f) (utf8 cp ++ r) = out ++ json_encode_go f r /\ (1 <= length out)%nat /\
    forall g t, json_parse (S g) (out ++ t)
      = match json_parse g t with Some x => Some (json_image cp :: x) | None => None end.
Proof.
  intros Hcp.
  assert (R : 0 <= json_image cp < 2 ^ 16).
  { unfold json_image. destruct Hcp. change (2^16) with 65536. destruct (Z.leb_spec cp 0xFFFF); lia. }
  assert (D : cp < 0x80 \/ 0x80 <= cp) by lia. destruct D as [D|D].
  - unfold utf8. replace (cp <? 0x80) with true by lia. cbn [app json_encode_go].
    assert (HI : json_image cp = cp) by (unfold json_image; replace (cp <=? 0xFFFF) with true by lia; reflexivity).
    Ltac esc_case HI := match goal with |- context [if ?b then 92 :: ?x :: _ else _] =>
      let E := fresh in destruct b eqn:E;
      [apply Z.eqb_eq in E; subst; exists [92; x]; split; [reflexivity|split; [simpl; lia|]];
       intros g t; rewrite HI; reflexivity|] end.
    do 8 esc_case HI.
    destruct ((cp <? 0x20) || (0x80 <? cp)) eqn:E.
    + assert (Hlt : 0 < cp < 32) by (destruct Hcp; lia).
      assert (En : utf_next cp r = Some (cp, r)).
      { unfold utf_next. rewrite !Z.shiftr_div_pow2 by lia.
        replace (cp / 2 ^ 5 =? 6) with false by (change (2^5) with 32; lia).
        replace (cp / 2 ^ 4 =? 14) with false by (change (2^4) with 16; lia).
        replace (cp / 2 ^ 3 =? 30) with false by (change (2^3) with 8; lia). reflexivity. }
      rewrite En. exists (92 :: 117 :: hex4 (json_image cp)). split; [reflexivity|].
      split; [simpl; lia|]. intros g t. apply json_parse_u, R.
    + exists [cp]. split; [reflexivity|]. split; [simpl; lia|]. intros g t. cbn [app json_parse].
      rewrite HI. replace (cp =? 92) with false by lia.
      replace ((cp <? 32) || (127 <? cp) || (cp =? 34)) with false by lia. reflexivity.
  - destruct (utf_next_utf8 cp r Hcp D) as (b & rest & -> & Hb & En).
    cbn [app json_encode_go].
    replace (b =? 34) with false by lia. replace (b =? 92) with false by lia.
    replace (b =? 47) with false by lia. replace (b =? 8) with false by lia.
    replace (b =? 12) with false by lia. replace (b =? 10) with false by lia.
    replace (b =? 13) with false by lia. replace (b =? 9) with false by lia.
    replace ((b <? 0x20) || (0x80 <? b)) with true by lia.
    rewrite En. exists (92 :: 117 :: hex4 (json_image cp)). split; [reflexivity|].
    split; [simpl; lia|]. intros g t. apply json_parse_u, R.
Qed.

Lemma json_encode_ok cps : Forall scalar cps ->
  json_parse (S (length (json_encode (utf8s cps)))) (json_encode (utf8s cps)) = Some (map json_image cps).
Proof.
  intros H. unfold json_encode.
  assert (G : forall cps, Forall scalar cps -> forall f g, (length (utf8s cps) <= f)%nat ->
    (length (json_encode_go f (utf8s cps)) < g)%nat ->
    json_parse g (json_encode_go f (utf8s cps)) = Some (map json_image cps)).
  { clear. induction cps as [|cp cps IH]; intros H f g Hf Hg.
    - destruct f; destruct g; simpl in *; try lia; reflexivity.
    - inversion H; subst. unfold utf8s in *. cbn [map concat] in *.
      assert (L := utf8_nonempty cp). rewrite app_length in Hf.
      destruct f as [|f]; [lia|].
      destruct (json_encode_step f cp (concat (map utf8 cps)) H2) as (out & E & Lo & P).
      rewrite E in *. rewrite app_length in Hg. destruct g as [|g]; [lia|].
      rewrite P, IH; [reflexivity|assumption|lia|lia]. }
  apply G; auto.
Qed.

(** Exactness inside the Basic Multilingual Plane. *)
Lemma json_image_bmp cps : Forall (fun c => c <= 0xFFFF) cps -> map json_image cps = cps.
Proof.
  induction cps as [|c t IH]; intros H; [reflexivity|]. inversion H; subst. cbn [map].
  unfold json_image at 1. replace (c <=? 0xFFFF) with true by lia. f_equal. auto.
Qed.

Lemma xml_image_ok cps : Forall (fun c => xml_char c = true) cps -> map xml_image cps = cps.
Proof.
  induction cps as [|c t IH]; intros H; [reflexivity|]. inversion H as [|? ? Hc Ht]; subst. cbn [map].
  unfold xml_image at 1. rewrite Hc. f_equal. auto.
Qed.

(** ** Sizes *)

Lemma xml_encode_size f : forall s, bytes_ok s -> Z.of_nat (length (xml_encode_go f s)) <= xml_reqsize s.
Proof.
  assert (N : forall s, 0 <= xml_reqsize s).
  { induction s as [|c t IH]; cbn [xml_reqsize]; [lia|].
    repeat match goal with |- context [if ?b then _ else _] => destruct b end; lia. }
  assert (M : forall c r cp r', utf_next c r = Some (cp, r') -> xml_reqsize r' <= xml_reqsize r).
  { assert (T : forall x r, xml_reqsize r <= xml_reqsize (x :: r)).
    { intros x r. cbn [xml_reqsize].
      repeat match goal with |- context [if ?b then _ else _] => destruct b end; lia. }
    intros c r cp r' E. unfold utf_next in E.
    repeat match type of E with context [if ?b then _ else _] => destruct b end.
    - destruct r as [|a r]; inversion E; subst. apply T.
    - destruct r as [|a [|b r]]; inversion E; subst. etransitivity; [apply T|apply T].
    - destruct r as [|a [|b [|d r]]]; inversion E; subst.
      etransitivity; [apply T|]. etransitivity; [apply T|apply T].
    - inversion E; subst. lia. }
  assert (MB : forall c r cp r', bytes_ok r -> utf_next c r = Some (cp, r') -> bytes_ok r').
  { intros c r cp r' Hb E. unfold utf_next in E.
    repeat match type of E with context [if ?b then _ else _] => destruct b end.
    - destruct r as [|a r]; inversion E; subst. inversion Hb; assumption.
    - destruct r as [|a [|b r]]; inversion E; subst. inversion Hb as [|? ? ? Hb2]; inversion Hb2; assumption.
    - destruct r as [|a [|b [|d r]]]; inversion E; subst.
      inversion Hb as [|? ? ? Hb2]; inversion Hb2 as [|? ? ? Hb3]; inversion Hb3; assumption.
    - inversion E; subst; assumption. }
  induction f as [|f IH]; intros s Hb; [simpl; apply N|].
  destruct s as [|c t]; [simpl; lia|]. inversion Hb as [|? ? Hc Ht]; subst. unfold is_byte in Hc.
  cbn [xml_encode_go]. specialize (N t).
  destruct (c =? 60) eqn:E1.
  { rewrite app_length. specialize (IH t Ht). cbn [xml_reqsize]. rewrite E1, orb_true_r. simpl length. lia. }
  destruct (c =? 62) eqn:E2.
  { rewrite app_length. specialize (IH t Ht). cbn [xml_reqsize]. rewrite E2. cbn [orb]. match goal with |- context [length (str ?a)] => change (length (str a)) with (Z.to_nat (Z.of_nat (length (str a)))); let v := eval vm_compute in (Z.of_nat (length (str a))) in change (Z.of_nat (length (str a))) with v end. lia. }
  destruct (c =? 38) eqn:E3.
  { rewrite app_length. specialize (IH t Ht). cbn [xml_reqsize]. rewrite E1, E2, E3. cbn [orb]. match goal with |- context [length (str ?a)] => change (length (str a)) with (Z.to_nat (Z.of_nat (length (str a)))); let v := eval vm_compute in (Z.of_nat (length (str a))) in change (Z.of_nat (length (str a))) with v end. lia. }
  destruct (c =? 39) eqn:E4.
  { rewrite app_length. specialize (IH t Ht). cbn [xml_reqsize]. rewrite E1, E2, E3, E4. cbn [orb]. match goal with |- context [length (str ?a)] => change (length (str a)) with (Z.to_nat (Z.of_nat (length (str a)))); let v := eval vm_compute in (Z.of_nat (length (str a))) in change (Z.of_nat (length (str a))) with v end. lia. }
  destruct (c =? 34) eqn:E5.
  { rewrite app_length. specialize (IH t Ht). cbn [xml_reqsize]. rewrite E1, E2, E3, E4, E5. cbn [orb]. match goal with |- context [length (str ?a)] => change (length (str a)) with (Z.to_nat (Z.of_nat (length (str a)))); let v := eval vm_compute in (Z.of_nat (length (str a))) in change (Z.of_nat (length (str a))) with v end. lia. }
  destruct ((c <? 0x20) || (0x80 <? c)) eqn:E6.
  - cbn [xml_reqsize]. rewrite E1, E2, E3, E4, E5. cbn [orb].
    replace ((c <? 0x20) || (0x80 <=? c)) with true by lia.
    destruct (utf_next c t) as [[cp r]|] eqn:E; [|cbn [length]; lia].
    specialize (IH r (MB _ _ _ _ Ht E)). specialize (M _ _ _ _ E).
    rewrite app_length. destruct (xml_char cp); simpl length; lia.
  - cbn [xml_reqsize length]. specialize (IH t Ht).
    repeat match goal with |- context [if ?b then _ else _] => destruct b end; lia.
Qed.

Lemma json_encode_size f : forall s, bytes_ok s -> Z.of_nat (length (json_encode_go f s)) <= json_reqsize s.
Proof.
  assert (N : forall s, 0 <= json_reqsize s).
  { induction s as [|c t IH]; cbn [json_reqsize]; [lia|].
    repeat match goal with |- context [if ?b then _ else _] => destruct b end; lia. }
  assert (T : forall x r, json_reqsize r <= json_reqsize (x :: r)).
  { intros x r. cbn [json_reqsize].
    repeat match goal with |- context [if ?b then _ else _] => destruct b end; lia. }
  assert (M : forall c r cp r', utf_next c r = Some (cp, r') ->
     json_reqsize r' <= json_reqsize r /\ (bytes_ok r -> bytes_ok r')).
  { intros c r cp r' E. unfold utf_next in E.
    repeat match type of E with context [if ?b then _ else _] => destruct b end.
    - destruct r as [|a r]; inversion E; subst. split; [apply T|]. intros Hb; inversion Hb; assumption.
    - destruct r as [|a [|b r]]; inversion E; subst. split; [etransitivity; [apply T|apply T]|].
      intros Hb. inversion Hb as [|? ? ? Hb2]; inversion Hb2; assumption.
    - destruct r as [|a [|b [|d r]]]; inversion E; subst.
      split; [etransitivity; [apply T|]; etransitivity; [apply T|apply T]|].
      intros Hb. inversion Hb as [|? ? ? Hb2]; inversion Hb2 as [|? ? ? Hb3]; inversion Hb3; assumption.
    - inversion E; subst; split; [lia|auto]. }
  induction f as [|f IH]; intros s Hb; [simpl; apply N|].
  destruct s as [|c t]; [simpl; lia|]. inversion Hb as [|? ? Hc Ht]; subst. unfold is_byte in Hc.
  cbn [json_encode_go]. assert (Nt := N t). assert (It := IH t Ht).
  cbn [json_reqsize].
  destruct (c =? 34) eqn:E1; [cbn [orb]; simpl length; lia|].
  destruct (c =? 92) eqn:E2; [cbn [orb]; simpl length; lia|].
  destruct (c =? 47) eqn:E3; [cbn [orb]; simpl length; lia|].
  destruct (c =? 8) eqn:E4; [cbn [orb]; simpl length; lia|].
  destruct (c =? 12) eqn:E5; [cbn [orb]; simpl length; lia|].
  destruct (c =? 10) eqn:E6; [cbn [orb]; simpl length; lia|].
  destruct (c =? 13) eqn:E7; [cbn [orb]; simpl length; lia|].
  destruct (c =? 9) eqn:E8; [cbn [orb]; simpl length; lia|].
  cbn [orb].
  destruct ((c <? 0x20) || (0x80 <? c)) eqn:E9.
  - replace ((c <? 0x20) || (0x80 <=? c)) with true by lia.
    destruct (utf_next c t) as [[cp r]|] eqn:E; [|cbn [length]; lia].
    destruct (M _ _ _ _ E) as [M1 M2]. specialize (IH r (M2 Ht)).
    cbn [length]. rewrite app_length. simpl (length (hex4 _)). lia.
  - cbn [length]. destruct ((c <? 0x20) || (0x80 <=? c)); lia.
Qed.

Lemma url_encode_size s : Z.of_nat (length (url_encode s)) <= url_reqsize s.
Proof.
  induction s as [|c t IH]; cbn [url_encode url_reqsize]; [simpl; lia|].
  destruct (c =? 32); [rewrite app_length|]; simpl length; lia.
Qed.

Lemma latin1_size s : (length (latin1_to_utf8 s) <= 2 * length s)%nat.
Proof. induction s as [|c t IH]; simpl; [lia|]. destruct (c <? 128); simpl; lia. Qed.

Lemma latin1_ok s : bytes_ok s -> latin1_to_utf8 s = utf8s s.
Proof.
  induction s as [|c t IH]; intros H; [reflexivity|]. inversion H as [|? ? Hc Ht]; subst.
  unfold is_byte in Hc. cbn [latin1_to_utf8]. rewrite IH by assumption. unfold utf8s. cbn [map concat].
  generalize (concat (map utf8 t)). intros r. unfold utf8. change 0x80 with 128. destruct (Z.ltb_spec c 128) as [L|L]; [reflexivity|].
  replace (c <? 0x800) with true by lia. masks. change (2^6) with 64. cbn [app].
  f_equal; [|f_equal; lia]. destruct (Z.ltb_spec 0xbf c); lia.
Qed.
