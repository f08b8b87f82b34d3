From Coq Require Import String.
From Verif Require Import Base NumFmt CodecModel CodecSpec CodecProofs.

(** ** Round trips through the built-in decoders *)

Lemma decode_cons step f s out k r : step s = SOut out k -> decode step f (skipn k s) = Some r ->
  decode step (S f) s = Some (out ++ r).
Proof. intros E H. cbn [decode]. rewrite E, H. reflexivity. Qed.

Lemma decode_out step f s out k rest r : step s = SOut out k -> skipn k s = rest ->
  decode step f rest = Some r -> decode step (S f) s = Some (out ++ r).
Proof. intros E <- H. eapply decode_cons; eassumption. Qed.

Lemma xml_roundtrip s : Forall (fun c => 32 <= c < 128) s -> xml_decode (xml_encode s) = Some s.
Proof.
  intros H. unfold xml_decode, xml_encode.
  assert (G : forall s, Forall (fun c => 32 <= c < 128) s -> forall f g, (length s <= f)%nat ->
     (length (xml_encode_go f s) < g)%nat -> decode xml_step g (xml_encode_go f s) = Some s).
  { clear. induction s as [|c t IH]; intros H f g Hf Hg.
    - destruct f, g; simpl in *; try lia; reflexivity.
    - inversion H as [|? ? Hc Ht]; subst. destruct f as [|f]; [simpl in Hf; lia|].
      destruct g as [|g]; [lia|]. cbn [length] in Hf. cbn [xml_encode_go] in *.
      Ltac dcase IH := match goal with |- context [if ?b then str ?x ++ _ else _] =>
        let E := fresh in destruct b eqn:E;
        [ apply Z.eqb_eq in E; subst; rewrite app_length in *;
          match goal with |- decode _ _ (_ ++ xml_encode_go ?f ?t) = Some (?c :: _) =>
            change (c :: t) with ([c] ++ t); eapply decode_out; [reflexivity|reflexivity|apply IH; [assumption|lia|simpl in *; lia]] end |] end.
      do 5 dcase IH.
      replace ((c <? 0x20) || (0x80 <? c)) with false in * by lia.
      change (c :: t) with ([c] ++ t). eapply (decode_out _ _ _ [c] 1); [|reflexivity|apply IH; [assumption|lia|simpl in *; lia]].
      cbn [xml_step]. replace (c =? 38) with false by lia. reflexivity. }
  apply G; auto.
Qed.

Definition json_plain (c : Z) : Prop := 32 <= c < 128 \/ c = 8 \/ c = 9 \/ c = 10 \/ c = 12 \/ c = 13.

Lemma json_roundtrip s : Forall json_plain s -> json_decode (json_encode s) = Some s.
Proof.
  intros H. unfold json_decode, json_encode.
  assert (G : forall s, Forall json_plain s -> forall f g, (length s <= f)%nat ->
     (length (json_encode_go f s) < g)%nat -> decode json_step g (json_encode_go f s) = Some s).
  { clear. induction s as [|c t IH]; intros H f g Hf Hg.
    - destruct f, g; simpl in *; try lia; reflexivity.
    - inversion H as [|? ? Hc Ht]; subst. destruct f as [|f]; [simpl in Hf; lia|].
      destruct g as [|g]; [lia|]. cbn [length] in Hf. cbn [json_encode_go] in *. cbv zeta in *.
      Ltac jcase IH := match goal with |- context [if ?b then 92 :: ?x :: _ else _] =>
        let E := fresh in destruct b eqn:E;
        [ apply Z.eqb_eq in E; subst;
          match goal with |- decode _ _ (_ :: _ :: json_encode_go ?f ?t) = Some (?c :: _) =>
            change (c :: t) with ([c] ++ t); eapply decode_out; [reflexivity|reflexivity|apply IH; [assumption|lia|simpl in *; lia]] end |] end.
      do 8 jcase IH.
      assert (32 <= c < 128) by (unfold json_plain in Hc; lia).
      replace ((c <? 0x20) || (0x80 <? c)) with false in * by lia.
      change (c :: t) with ([c] ++ t). eapply (decode_out _ _ _ [c] 1); [|reflexivity|apply IH; [assumption|lia|simpl in *; lia]].
      cbn [json_step]. replace (c =? 92) with false by lia. reflexivity. }
  apply G; auto.
Qed.

Lemma url_roundtrip s : Forall (fun c => c <> 37) s -> url_decode (url_encode s) = Some s.
Proof.
  intros H. unfold url_decode.
  assert (G : forall s, Forall (fun c => c <> 37) s -> forall g, (length (url_encode s) < g)%nat ->
     decode url_step g (url_encode s) = Some s).
  { clear. induction s as [|c t IH]; intros H g Hg.
    - destruct g; simpl in *; try lia; reflexivity.
    - inversion H as [|? ? Hc Ht]; subst. destruct g as [|g]; [lia|]. cbn [url_encode] in *.
      destruct (c =? 32) eqn:E.
      + apply Z.eqb_eq in E; subst. rewrite app_length in Hg.
        change (32 :: t) with ([32] ++ t). eapply decode_out; [reflexivity|reflexivity|apply IH; [assumption|simpl in *; lia]].
      + change (c :: t) with ([c] ++ t). eapply (decode_out _ _ _ [c] 1); [|reflexivity|apply IH; [assumption|simpl in *; lia]].
        cbn [url_step]. replace (c =? 37) with false by lia. reflexivity. }
  apply G; auto.
Qed.

(** ** When the decoders are safe *)

Lemma suffix_of_skipn (P : list Z -> Prop) c k s :
  (forall u v, s = u ++ c :: v -> P v) -> forall u v, skipn k s = u ++ c :: v -> P v.
Proof.
  intros H u v E. apply (H (firstn k s ++ u)). rewrite <- app_assoc, <- E. symmetry. apply firstn_skipn.
Qed.

(** A decoder whose step is defined on every suffix is defined. *)
Lemma decode_safe step (c : Z) (P : list Z -> Prop) : frugal step ->
  (forall s, (forall u v, s = u ++ c :: v -> P v) -> step s <> SUB) ->
  forall s, (forall u v, s = u ++ c :: v -> P v) -> decode step (S (length s)) s <> None.
Proof.
  intros Hf Hstep.
  assert (G : forall f s, (length s < f)%nat -> (forall u v, s = u ++ c :: v -> P v) -> decode step f s <> None).
  { induction f as [|f IH]; intros s L Hs; [lia|]. cbn [decode].
    destruct (step s) as [|out k|] eqn:E; [discriminate| |exfalso; eapply Hstep; eassumption].
    destruct (Hf _ _ _ E) as [[? ?] ?].
    assert (H2 : decode step f (skipn k s) <> None).
    { apply IH; [rewrite skipn_length; lia|]. apply suffix_of_skipn. exact Hs. }
    destruct (decode step f (skipn k s)); [discriminate|congruence]. }
  intros s Hs. apply G; [lia|exact Hs].
Qed.

Lemma ent_run_full u : ent_run u = length u -> Forall (fun c => is_digit c || (c =? 59) = true) u.
Proof.
  induction u as [|c u IH]; intros H; [constructor|]. cbn [ent_run] in H.
  destruct (is_digit c || (c =? 59)) eqn:E; [|discriminate]. constructor; [exact E|]. apply IH.
  simpl in H. lia.
Qed.

Lemma name_run_full u : skipn (name_run u) u = [] ->
  Forall (fun c => is_alpha c || is_digit c || (c =? 35) = true) u.
Proof.
  induction u as [|c u IH]; intros H; [constructor|]. cbn [name_run] in H.
  destruct (is_alpha c || is_digit c || (c =? 35)) eqn:E; [|discriminate]. constructor; [exact E|]. apply IH.
  exact H.
Qed.

Lemma url_safe s : (forall u v, s = u ++ 37 :: v -> (2 <= length v)%nat) -> url_decode s <> None.
Proof.
  apply (decode_safe url_step 37 (fun v => (2 <= length v)%nat)); [apply url_frugal|].
  intros [|c t] H; [discriminate|]. cbn [url_step]. destruct (Z.eqb_spec c 37) as [->|]; [|discriminate].
  specialize (H [] t eq_refl). destruct t as [|a [|b t]]; simpl in H; try lia. discriminate.
Qed.

Lemma json_safe s :
  (forall u v, s = u ++ 92 :: v -> v <> [] /\ (forall w, v = 117 :: w -> (4 <= length w)%nat)) ->
  json_decode s <> None.
Proof.
  apply (decode_safe json_step 92 (fun v => v <> [] /\ (forall w, v = 117 :: w -> (4 <= length w)%nat)));
    [apply json_frugal|].
  intros [|c t] H; [discriminate|]. cbn [json_step]. destruct (Z.eqb_spec c 92) as [->|]; [|discriminate].
  destruct (H [] t eq_refl) as [H1 H2]. destruct t as [|d u]; [congruence|].
  destruct (Z.eqb_spec d 117) as [->|].
  - specialize (H2 u eq_refl). simpl. replace (length u <? 4)%nat with false by lia. discriminate.
  - repeat match goal with |- context [if ?b then _ else _] => destruct b end; discriminate.
Qed.

Lemma xml_safe s :
  (forall u v, s = u ++ 38 :: v -> v <> [] /\
     (forall w, v = 35 :: w -> Exists (fun c => is_digit c || (c =? 59) = false) w)) ->
  xml_decode s <> None.
Proof.
  apply (decode_safe xml_step 38 (fun v => v <> [] /\
     (forall w, v = 35 :: w -> Exists (fun c => is_digit c || (c =? 59) = false) w)));
    [apply xml_frugal|].
  intros [|c t] H; [discriminate|]. cbn [xml_step]. destruct (Z.eqb_spec c 38) as [->|]; [|discriminate].
  destruct (H [] t eq_refl) as [H1 H2].
  repeat match goal with |- context [prefixb ?p ?t] => destruct (prefixb p t); [discriminate|] end.
  destruct t as [|d u]; [congruence|].
  destruct (Z.eqb_spec d 35) as [->|]; [|discriminate].
  specialize (H2 u eq_refl).
  destruct (Nat.eqb_spec (ent_run u) (length u)) as [E|E]; [|discriminate].
  apply ent_run_full in E. apply Exists_exists in H2 as (x & Hx & Hf).
  rewrite Forall_forall in E. specialize (E x Hx). congruence.
Qed.

Lemma ent_safe s :
  (forall u v, s = u ++ 38 :: v ->
     Exists (fun c => is_alpha c || is_digit c || (c =? 35) = false) v) ->
  remove_entities s <> None.
Proof.
  apply (decode_safe ent_step 38 (Exists (fun c => is_alpha c || is_digit c || (c =? 35) = false)));
    [apply ent_frugal|].
  intros [|c t] H; [discriminate|]. cbn [ent_step]. destruct (Z.eqb_spec c 38) as [->|]; [|discriminate].
  specialize (H [] t eq_refl).
  destruct (skipn (name_run t) t) as [|e r] eqn:E.
  - apply name_run_full in E. apply Exists_exists in H as (x & Hx & Hf).
    rewrite Forall_forall in E. specialize (E x Hx). congruence.
  - destruct (e =? 59); discriminate.
Qed.

Lemma unquote_safe s : http_unquote s <> None.
Proof.
  destruct s as [|c t]; [discriminate|]. unfold http_unquote. destruct (c =? 34); [|discriminate].
  apply (decode_safe unq_step 0 (fun _ => True)); [apply unq_frugal| |auto].
  intros [|x u] _; [discriminate|]. cbn [unq_step].
  destruct (x =? 34); [discriminate|]. destruct (x =? 92); discriminate.
Qed.

(** Unquoting a quoted string without backslashes. *)
Lemma unquote_plain s r : Forall (fun c => c <> 34 /\ c <> 92) s ->
  http_unquote (34 :: s ++ 34 :: r) = Some s.
Proof.
  intros H. unfold http_unquote. simpl (34 =? 34). cbv iota.
  assert (G : forall f s, Forall (fun c => c <> 34 /\ c <> 92) s -> (length s < f)%nat ->
     decode unq_step f (s ++ 34 :: r) = Some s).
  { clear. induction f as [|f IH]; intros s H L; [lia|].
    destruct s as [|c t]; [reflexivity|]. inversion H as [|? ? [H1 H2] Ht]; subst.
    change (c :: t) with ([c] ++ t) at 2. eapply (decode_out _ _ _ [c] 1); [|reflexivity|apply IH; [assumption|simpl in L; lia]].
    cbn [app unq_step]. replace (c =? 34) with false by lia. replace (c =? 92) with false by lia. reflexivity. }
  apply G; [assumption|]. rewrite app_length. simpl. lia.
Qed.

(** ** JSON scanner *)

(** No escape immediately followed by another escape. *)
Fixpoint no_adjacent (ts : list jtok) : Prop :=
  match ts with
  | JEsc _ :: ((JEsc _ :: _) as t) => False
  | _ :: t => no_adjacent t
  | [] => True
  end.

Lemma json_scan_string ts : forall f n rest, Forall jtok_ok ts -> no_adjacent ts ->
  (length (concat (map jtok_text ts)) < f)%nat ->
  json_scan f true (concat (map jtok_text ts) ++ 34 :: rest) n
  = Some (n + Z.of_nat (length (concat (map jtok_text ts))) + 1).
Proof.
  assert (G : forall m ts, (length ts <= m)%nat -> forall f n rest, Forall jtok_ok ts -> no_adjacent ts ->
    (length (concat (map jtok_text ts)) < f)%nat ->
    json_scan f true (concat (map jtok_text ts) ++ 34 :: rest) n
    = Some (n + Z.of_nat (length (concat (map jtok_text ts))) + 1)).
  { induction m as [|m IH]; intros [|t ts'] Hm f n rest Hok Hadj Hf; cbn [length] in Hm; try lia.
    - destruct f as [|f]; [simpl in Hf; lia|]. simpl. f_equal. lia.
    - destruct f as [|f]; [simpl in Hf; lia|]. simpl. f_equal. lia.
    - inversion Hok as [|? ? Ht Hts]; subst. destruct f as [|f]; [lia|].
      destruct t as [c|c]; cbn [map concat jtok_text app] in *.
      + destruct Ht as (H1 & H2 & H3). cbn [json_scan].
        replace (c =? 92) with false by lia. replace (c =? 34) with false by lia. cbn [andb negb].
        rewrite IH; [|lia|assumption|exact Hadj|simpl in Hf; lia].
        f_equal. cbn [length]. lia.
      + cbn [json_scan]. simpl (92 =? 92). cbv iota.
        destruct ts' as [|t2 ts2].
        * cbn [map concat app]. simpl. f_equal; lia.
        * destruct t2 as [d|d]; [|elim Hadj].
          inversion Hts as [|? ? Hd Hts2]; subst. destruct Hd as (H1 & H2 & H3).
          cbn [map concat jtok_text app] in *.
          replace (d =? 34) with false by lia. cbn [andb negb].
          rewrite IH; [|simpl in Hm; lia|assumption|exact Hadj|simpl in *; lia].
          f_equal. cbn [length]. lia. }
  intros f n rest. apply (G (length ts)). lia.
Qed.

Lemma json_next_string ws ts rest : Forall (fun c => json_ws c = true) ws ->
  Forall jtok_ok ts -> no_adjacent ts ->
  json_next_value (ws ++ jstring ts ++ rest) = Some (Z.of_nat (length ws), Z.of_nat (length (jstring ts))).
Proof.
  intros Hws Hok Hadj. unfold json_next_value.
  assert (E : forall n, skip_ws (ws ++ jstring ts ++ rest) n = (jstring ts ++ rest, n + Z.of_nat (length ws))).
  { induction Hws as [|c l Hc Hl IH]; intros n; cbn [app skip_ws length].
    - simpl. f_equal. lia.
    - rewrite Hc, IH. f_equal. lia. }
  rewrite E, Z.add_0_l. unfold jstring. cbn [app]. simpl (34 =? 34). cbv iota.
  rewrite <- app_assoc. cbn [app].
  rewrite json_scan_string by (assumption || (rewrite app_length; simpl; lia)).
  f_equal. f_equal. cbn [length]. rewrite app_length. cbn [length]. lia.
Qed.

(** Numbers and literals. *)
Lemma json_next_plain ws tok rest : Forall (fun c => json_ws c = true) ws ->
  Forall (fun c => json_delim c = false /\ c <> 92 /\ c <> 34) tok -> tok <> [] ->
  json_ws (hd 0 tok) = false ->
  (match rest with [] => True | c :: _ => json_delim c = true end) ->
  json_next_value (ws ++ tok ++ rest) = Some (Z.of_nat (length ws), Z.of_nat (length tok)).
Proof.
  intros Hws Htok Hne Hhd Hrest. unfold json_next_value.
  assert (E : forall n, skip_ws (ws ++ tok ++ rest) n = (tok ++ rest, n + Z.of_nat (length ws))).
  { induction Hws as [|c l Hc Hl IH]; intros n; cbn [app skip_ws length].
    - destruct tok as [|c t]; [congruence|]. cbn [app skip_ws hd] in *. rewrite Hhd. f_equal. simpl. lia.
    - rewrite Hc, IH. f_equal. lia. }
  rewrite E, Z.add_0_l. destruct tok as [|c t]; [congruence|].
  cbn [app]. pose proof (Forall_inv Htok) as (_ & _ & Hq). replace (c =? 34) with false by lia.
  change (c :: t ++ rest) with ((c :: t) ++ rest).
  assert (G : forall tok f n, Forall (fun c => json_delim c = false /\ c <> 92 /\ c <> 34) tok ->
     (length tok < f)%nat -> json_scan f false (tok ++ rest) n = Some (n + Z.of_nat (length tok))).
  { clear - Hrest. induction tok as [|c t IH]; intros f n H L; destruct f as [|f]; try (simpl in L; lia).
    - cbn [app json_scan]. destruct rest as [|d r]; [f_equal; simpl; lia|].
      destruct (Z.eqb_spec d 92) as [->|]; [discriminate|].
      cbn [andb]. rewrite Hrest. cbn [negb andb]. f_equal. simpl. lia.
    - inversion H as [|? ? (H1 & H2 & H3) Ht]; subst. cbn [app json_scan].
      replace (c =? 92) with false by lia. cbn [andb]. rewrite H1. cbn [negb andb].
      rewrite IH; [f_equal; cbn [length]; lia|assumption|simpl in L; lia]. }
  rewrite G; [reflexivity|assumption|rewrite app_length; simpl; lia].
Qed.

(** ** Base64 *)

Lemma b64_go_filter l : forall q, b64_go q l = b64_go q (filter b64_char l).
Proof.
  induction l as [|c t IH]; intros q; [reflexivity|]. cbn [b64_go filter].
  destruct (b64_char c) eqn:E; [|apply IH]. cbn [b64_go]. rewrite E.
  destruct q as [|x [|y [|z [|w q]]]]; rewrite IH; reflexivity.
Qed.

Lemma b64_digit_ok v : 0 <= v < 64 ->
  b64_char (b64_digit v) = true /\ b64_val (b64_digit v) = v /\ b64_digit v <> 61.
Proof.
  intros H.
  assert (S : forallb (fun b => if b <? 64 then b64_char (b64_digit b) && (b64_val (b64_digit b) =? b)
     && negb (b64_digit b =? 61) else true) all_bytes = true) by (vm_compute; reflexivity).
  assert (B := byte_sweep _ S v). cbv beta in B. replace (v <? 64) with true in B by lia.
  assert (is_byte v) by (unfold is_byte; lia). specialize (B H0).
  apply andb_true_iff in B as [B B3]. apply andb_true_iff in B as [B1 B2].
  split; [exact B1|]. split; lia.
Qed.

Lemma lor_step x y : 0 <= x -> 0 <= y < 64 -> Z.lor (x * 64) y = x * 64 + y.
Proof.
  intros Hx Hy. change 64 with (2 ^ 6) in *. rewrite <- Z.shiftl_mul_pow2 by lia.
  symmetry. apply Z.add_nocarry_lxor in Hy as _ || idtac.
  rewrite <- Z.lxor_lor.
  - apply Z.add_nocarry_lxor. apply Z.bits_inj'. intros n Hn. rewrite Z.land_spec, Z.bits_0.
    destruct (Z.lt_ge_cases n 6).
    + rewrite Z.shiftl_spec_low by lia. reflexivity.
    + rewrite (Z.bits_above_log2 y n); [apply andb_false_r|lia|].
      destruct (Z.eq_dec y 0) as [->|]; [simpl; lia|].
      apply Z.log2_lt_pow2; [lia|]. apply Z.lt_le_trans with (2 ^ 6); [lia|]. apply Z.pow_le_mono_r; lia.
  - apply Z.bits_inj'. intros n Hn. rewrite Z.land_spec, Z.bits_0.
    destruct (Z.lt_ge_cases n 6).
    + rewrite Z.shiftl_spec_low by lia. reflexivity.
    + rewrite (Z.bits_above_log2 y n); [apply andb_false_r|lia|].
      destruct (Z.eq_dec y 0) as [->|]; [simpl; lia|].
      apply Z.log2_lt_pow2; [lia|]. apply Z.lt_le_trans with (2 ^ 6); [lia|]. apply Z.pow_le_mono_r; lia.
Qed.

Lemma sh6 x : 0 <= x < 2 ^ 26 -> u32w (Z.shiftl x 6) = x * 64.
Proof. intros H. unfold u32w. rewrite Z.shiftl_mul_pow2 by lia. change (2^26) with 67108864 in H. change (2^6) with 64. change (2^32) with 4294967296. lia. Qed.

Lemma acc1 v0 v1 : 0 <= v0 < 64 -> 0 <= v1 < 64 ->
  u32w (Z.shiftl (Z.lor (u32w (Z.shiftl v0 6)) v1) 6) = (v0 * 64 + v1) * 64.
Proof.
  intros. rewrite (sh6 v0) by (change (2^26) with 67108864; lia). rewrite lor_step by lia.
  apply sh6. change (2^26) with 67108864; lia.
Qed.

Lemma acc2 n v : 0 <= n < 4096 -> 0 <= v < 64 -> u32w (Z.shiftl (Z.lor (n * 64) v) 6) = (n * 64 + v) * 64.
Proof. intros. rewrite lor_step by lia. apply sh6. change (2^26) with 67108864; lia. Qed.

Lemma acc3 n v : 0 <= n < 262144 -> 0 <= v < 64 -> u32w (Z.shiftl (Z.lor (n * 64) v) 6) = (n * 64 + v) * 64.
Proof. intros. rewrite lor_step by lia. apply sh6. change (2^26) with 67108864; lia. Qed.

Lemma b64_quartet3 a b c : is_byte a -> is_byte b -> is_byte c ->
  b64_quartet (b64_digit (a / 4)) (b64_digit (a mod 4 * 16 + b / 16))
    (b64_digit (b mod 16 * 4 + c / 64)) (b64_digit (c mod 64)) = [a; b; c].
Proof.
  unfold is_byte. intros Ha Hb Hc. unfold b64_quartet.
  destruct (b64_digit_ok (a / 4)) as (_ & V0 & _); [lia|].
  destruct (b64_digit_ok (a mod 4 * 16 + b / 16)) as (_ & V1 & _); [lia|].
  destruct (b64_digit_ok (b mod 16 * 4 + c / 64)) as (_ & V2 & _); [lia|].
  destruct (b64_digit_ok (c mod 64)) as (_ & V3 & N); [lia|].
  replace (b64_digit (c mod 64) =? 61) with false by lia.
  rewrite V0, V1, V2, V3. rewrite Z.lor_0_l. cbv zeta.
  rewrite (acc1 (a / 4)) by lia. rewrite acc2 by lia. rewrite acc3 by lia.
  set (n := ((a / 4 * 64 + (a mod 4 * 16 + b / 16)) * 64 + (b mod 16 * 4 + c / 64)) * 64 + c mod 64).
  assert (En : n = a * 65536 + b * 256 + c) by (unfold n; lia).
  rewrite En. unfold u32w. rewrite Z.shiftl_mul_pow2, !Z.shiftr_div_pow2 by lia.
  change (2^2) with 4. change (2^32) with 4294967296. change (2^24) with 16777216.
  change (2^16) with 65536. change (2^8) with 256.
  replace ((a * 65536 + b * 256 + c) * 64 * 4 mod 4294967296) with ((a * 65536 + b * 256 + c) * 256) by lia.
  repeat f_equal; lia.
Qed.

Lemma b64_quartet1 a : is_byte a ->
  b64_quartet (b64_digit (a / 4)) (b64_digit (a mod 4 * 16)) 61 61 = [a].
Proof.
  unfold is_byte. intros Ha. unfold b64_quartet. simpl (61 =? 61). cbv iota.
  destruct (b64_digit_ok (a / 4)) as (_ & V0 & _); [lia|].
  destruct (b64_digit_ok (a mod 4 * 16)) as (_ & V1 & _); [lia|].
  rewrite V0, V1. rewrite Z.lor_0_l. cbv zeta.
  rewrite (acc1 (a / 4)) by lia.
  unfold u32w. rewrite Z.shiftl_mul_pow2, !Z.shiftr_div_pow2 by lia.
  change (2^14) with 16384. change (2^32) with 4294967296. change (2^24) with 16777216.
  repeat f_equal; lia.
Qed.

Lemma b64_quartet2 a b : is_byte a -> is_byte b ->
  b64_quartet (b64_digit (a / 4)) (b64_digit (a mod 4 * 16 + b / 16)) (b64_digit (b mod 16 * 4)) 61 = [a; b].
Proof.
  unfold is_byte. intros Ha Hb. unfold b64_quartet. simpl (61 =? 61). cbv iota.
  destruct (b64_digit_ok (a / 4)) as (_ & V0 & _); [lia|].
  destruct (b64_digit_ok (a mod 4 * 16 + b / 16)) as (_ & V1 & _); [lia|].
  destruct (b64_digit_ok (b mod 16 * 4)) as (_ & V2 & N); [lia|].
  replace (b64_digit (b mod 16 * 4) =? 61) with false by lia.
  rewrite V0, V1, V2. rewrite Z.lor_0_l. cbv zeta.
  rewrite (acc1 (a / 4)) by lia. rewrite acc2 by lia.
  unfold u32w. rewrite Z.shiftl_mul_pow2, !Z.shiftr_div_pow2 by lia.
  change (2^8) with 256. change (2^32) with 4294967296. change (2^24) with 16777216. change (2^16) with 65536.
  repeat f_equal; lia.
Qed.

Lemma base64_roundtrip data : bytes_ok data -> decode_base64 (base64 data) = data.
Proof.
  unfold decode_base64.
  assert (G : forall n data, (length data <= n)%nat -> bytes_ok data -> b64_go [] (base64 data) = data).
  { induction n as [|n IH]; intros [|a [|b [|c t]]] L H; simpl length in L; try lia; try reflexivity.
    - inversion H as [|? ? Ha _]; subst. cbn [base64 b64_go].
      assert (Ha' := Ha). unfold is_byte in Ha'.
      rewrite (proj1 (b64_digit_ok (a / 4) ltac:(lia))), (proj1 (b64_digit_ok (a mod 4 * 16) ltac:(lia))).
      simpl (b64_char 61). cbv iota. rewrite b64_quartet1 by assumption. reflexivity.
    - inversion H as [|? ? Ha H2]; subst. inversion H2 as [|? ? Hb _]; subst. cbn [base64 b64_go].
      assert (Ha' := Ha). assert (Hb' := Hb). unfold is_byte in Ha', Hb'.
      rewrite (proj1 (b64_digit_ok (a / 4) ltac:(lia))), (proj1 (b64_digit_ok (a mod 4 * 16 + b / 16) ltac:(lia))),
        (proj1 (b64_digit_ok (b mod 16 * 4) ltac:(lia))).
      simpl (b64_char 61). cbv iota. rewrite b64_quartet2 by assumption. reflexivity.
    - inversion H as [|? ? Ha H2]; subst. inversion H2 as [|? ? Hb H3]; subst. inversion H3 as [|? ? Hc H4]; subst.
      cbn [base64 b64_go].
      assert (Ha' := Ha). assert (Hb' := Hb). assert (Hc' := Hc). unfold is_byte in Ha', Hb', Hc'.
      rewrite (proj1 (b64_digit_ok (a / 4) ltac:(lia))), (proj1 (b64_digit_ok (a mod 4 * 16 + b / 16) ltac:(lia))),
        (proj1 (b64_digit_ok (b mod 16 * 4 + c / 64) ltac:(lia))), (proj1 (b64_digit_ok (c mod 64) ltac:(lia))).
      rewrite b64_quartet3 by assumption. rewrite IH by (assumption || lia). reflexivity. }
  intros H. apply (G (length data)); [lia|assumption].
Qed.

(** Characters outside the alphabet (line breaks, blanks) are ignored. *)
Lemma base64_roundtrip_junk data text : bytes_ok data -> filter b64_char text = base64 data ->
  decode_base64 text = data.
Proof. intros H E. unfold decode_base64. rewrite b64_go_filter, E. apply base64_roundtrip, H. Qed.

Lemma base64_len text : 4 * Z.of_nat (length (decode_base64 text)) <= 3 * Z.of_nat (length text).
Proof.
  unfold decode_base64.
  assert (G : forall l q, (length q <= 3)%nat ->
     (4 * length (b64_go q l) <= 3 * (length l + length q))%nat).
  { induction l as [|c t IH]; intros q Hq; [simpl; lia|]. cbn [b64_go].
    destruct (b64_char c).
    2:{ specialize (IH q Hq). simpl. lia. }
    assert (Q : forall a b c d, (length (b64_quartet a b c d) <= 3)%nat).
    { intros. unfold b64_quartet. destruct (d =? 61); [destruct (c0 =? 61)|]; simpl; lia. }
    destruct q as [|x [|y [|z [|w q]]]]; cbn [length] in Hq; try lia.
    - specialize (IH [c] ltac:(simpl; lia)). simpl in *. lia.
    - specialize (IH [c; x] ltac:(simpl; lia)). simpl in *. lia.
    - specialize (IH [c; x; y] ltac:(simpl; lia)). simpl in *. lia.
    - rewrite app_length. specialize (Q z y x c). specialize (IH [] ltac:(simpl; lia)).
      change (length (c :: t)) with (S (length t)). change (length [x; y; z]) with 3%nat. change (length (@nil Z)) with 0%nat in IH. lia. }
  specialize (G text [] ltac:(simpl; lia)). simpl (length []) in G. lia.
Qed.

(** ** 64-bit halves *)

Lemma split_join x : - 2 ^ 63 <= x < 2 ^ 63 ->
  join_int64 (fst (split_int64 x)) (snd (split_int64 x)) = x.
Proof.
  intros H. unfold split_int64, join_int64, to_int64. cbn [fst snd].
  change 0xFFFFFFFF with (Z.ones 32). rewrite Z.land_ones, Z.shiftl_mul_pow2, Z.shiftr_div_pow2 by lia.
  change (2^32) with 4294967296 in *. change (2^63) with 9223372036854775808 in *. change (2^64) with 18446744073709551616 in *.
  lia.
Qed.

Lemma split_halves x : let '(h, l) := split_int64 x in 0 <= h < 2 ^ 32 /\ 0 <= l < 2 ^ 32.
Proof.
  unfold split_int64. change 0xFFFFFFFF with (Z.ones 32). rewrite Z.land_ones by lia.
  split; apply Z.mod_pos_bound; lia.
Qed.

Lemma join_split hi lo : 0 <= hi < 2 ^ 32 -> 0 <= lo < 2 ^ 32 -> split_int64 (join_int64 hi lo) = (hi, lo).
Proof.
  intros H1 H2. unfold split_int64, join_int64, to_int64.
  change 0xFFFFFFFF with (Z.ones 32). rewrite Z.land_ones, Z.shiftl_mul_pow2, Z.shiftr_div_pow2 by lia.
  change (2^32) with 4294967296 in *. change (2^63) with 9223372036854775808 in *. change (2^64) with 18446744073709551616 in *.
  f_equal; lia.
Qed.

Lemma json_ws_spec c : json_ws c = true <-> before_value c.
Proof. unfold json_ws, before_value. cbn [In]. lia. Qed.
Lemma json_delim_spec c : json_delim c = true <-> after_value c.
Proof. unfold json_delim, after_value. cbn [In]. lia. Qed.
Lemma json_next_string' ws ts rest : Forall before_value ws -> Forall jtok_ok ts -> no_adjacent ts ->
  json_next_value (ws ++ jstring ts ++ rest) = Some (Z.of_nat (length ws), Z.of_nat (length (jstring ts))).
Proof.
  intros W. apply json_next_string. eapply Forall_impl; [|exact W]. intros c H. apply json_ws_spec, H.
Qed.
Lemma json_next_plain' ws tok rest : Forall before_value ws ->
  Forall (fun c => ~ after_value c /\ c <> 92 /\ c <> 34) tok -> tok <> [] -> ~ before_value (hd 0 tok) ->
  (match rest with [] => True | c :: _ => after_value c end) ->
  json_next_value (ws ++ tok ++ rest) = Some (Z.of_nat (length ws), Z.of_nat (length tok)).
Proof.
  intros W F N B R. apply json_next_plain; [| |exact N| |].
  - eapply Forall_impl; [|exact W]. intros c H. apply json_ws_spec, H.
  - eapply Forall_impl; [|exact F]. intros c [H H']. split; [|exact H'].
    destruct (json_delim c) eqn:E; [apply json_delim_spec in E; contradiction|reflexivity].
  - destruct (json_ws (hd 0 tok)) eqn:E; [apply json_ws_spec in E; contradiction|reflexivity].
  - destruct rest; [exact I|]. apply json_delim_spec, R.
Qed.
