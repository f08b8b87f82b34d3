From Coq Require Import String.
From Verif Require Import Base NumFmt YencModel YencSpec YencProofs CrcModel CrcSpec CrcProofs
  DecoderModel DecoderSpec DecoderProofs.

(** ** The article of the test server, read by the strict reader *)

Lemma strstr_skip u l h p : Forall (fun c => c <> h) u -> strstr (u ++ l) (h :: p) = strstr l (h :: p).
Proof.
  induction u as [|c u IH]; intros H; [reflexivity|].
  inversion H; subst. cbn [app strstr prefixb]. replace (h =? c) with false by lia. apply IH; assumption.
Qed.

Lemma zdec_chars n : Forall (fun c => c = 45 \/ is_digit c = true) (zdec n).
Proof.
  unfold zdec. destruct (n <? 0) eqn:E.
  - constructor; [auto|]. eapply Forall_impl; [|apply udec_digits; lia]. simpl; auto.
  - eapply Forall_impl; [|apply udec_digits; lia]. simpl; auto.
Qed.

Lemma zdec_no n h : h <> 45 -> is_digit h = false -> Forall (fun c => c <> h) (zdec n).
Proof.
  intros H1 H2. eapply Forall_impl; [|apply zdec_chars].
  intros c [->|Hc]; congruence.
Qed.

Lemma zdec_pos n : 0 <= n -> exists c t, zdec n = c :: t /\ is_digit c = true.
Proof. intros H. unfold zdec. replace (n <? 0) with false by lia. apply udec_cons, H. Qed.

Lemma hex8_chars n : Forall (fun c => is_hex c = true) (hex8 n).
Proof.
  assert (H : forall v, is_hex (hexdigit (v mod 16)) = true).
  { intros v. unfold is_hex. rewrite hexval_hexdigit; [reflexivity|]. apply Z.mod_pos_bound. lia. }
  unfold hex8. repeat (apply Forall_cons; [apply H|]). apply Forall_nil.
Qed.

Lemma num_field_here key l u n r :
  strstr l key = Some (key ++ zdec n ++ r) -> u = r -> 0 <= n -> nondigit_head r ->
  num_field key l = Some n.
Proof.
  intros Hs _ Hn Hr. unfold num_field, field. rewrite Hs, skipn_app_exact.
  destruct (zdec_pos n Hn) as (c & t & E & Hd).
  rewrite E. rewrite <- app_comm_cons. rewrite Hd. rewrite app_comm_cons, <- E. f_equal.
  unfold zdec. replace (n <? 0) with false by lia. apply pdigits_udec; assumption.
Qed.

Definition clean_name (name : list Z) : Prop := Forall (fun c => c <> 0 /\ c <> 10 /\ c <> 13) name.

Lemma until_eol_name name r : clean_name name -> until_eol (name ++ 13 :: r) = name.
Proof.
  induction name as [|c t IH]; intros H; [reflexivity|].
  inversion H as [|? ? (H0 & H1 & H2) Ht]; subst. cbn [app until_eol].
  replace ((c =? 10) || (c =? 13)) with false by lia. f_equal. apply IH, Ht.
Qed.

Ltac lit s := let v := eval vm_compute in (str s) in change (str s) with v in *.

Definition head1 part fs name : list Z :=
  str "=ybegin part=" ++ zdec part ++ str " line=128 size=" ++ zdec fs ++ str " name=" ++ name ++ [13].
Definition head2 offset size : list Z :=
  str "=ypart begin=" ++ zdec (offset + 1) ++ str " end=" ++ zdec (offset + size) ++ [13].
Definition tail1 size crc : list Z :=
  str "=yend size=" ++ zdec size ++ str " part=0 pcrc32=" ++ hex8 crc ++ [13].

Ltac nosp := apply zdec_no; [lia | reflexivity].

Lemma head1_fields part fs name : 0 <= fs -> clean_name name ->
  let l := head1 part fs name ++ [10] in
  field (str " name=") l = Some (name ++ [13; 10]) /\
  num_field (str " size=") l = Some fs /\ (exists t, field (str " part=") l = Some t) /\
  prefixb [46; 13] l = false /\ prefixb (str "=ybegin ") l = true.
Proof.
  intros Hfs Hn l.
  assert (El : l = str "=ybegin part=" ++ zdec part ++ str " line=128 size=" ++ zdec fs ++
     str " name=" ++ name ++ [13; 10]).
  { unfold l, head1. rewrite <- !app_assoc. reflexivity. }
  assert (S1 : strstr l (str " size=") = Some (str " size=" ++ zdec fs ++ str " name=" ++ name ++ [13; 10])).
  { rewrite El. cbn [str app strstr prefixb]. simpl.
    rewrite strstr_skip by nosp. simpl. reflexivity. }
  assert (S2 : strstr l (str " name=") = Some (str " name=" ++ name ++ [13; 10])).
  { rewrite El. simpl.
    rewrite strstr_skip by nosp. simpl. rewrite strstr_skip by nosp. simpl. reflexivity. }
  assert (S3 : exists t, strstr l (str " part=") = Some t).
  { rewrite El. simpl. eexists; reflexivity. }
  split; [|split; [|split; [|split]]].
  - unfold field. rewrite S2, skipn_app_exact. reflexivity.
  - eapply num_field_here; [exact S1 | reflexivity | exact Hfs | reflexivity].
  - destruct S3 as [t S3]. unfold field. rewrite S3. eexists; reflexivity.
  - rewrite El. reflexivity.
  - rewrite El. reflexivity.
Qed.

Lemma head2_fields offset size : 0 <= offset -> 0 <= size ->
  let l := head2 offset size ++ [10] in
  num_field (str " begin=") l = Some (offset + 1) /\ num_field (str " end=") l = Some (offset + size) /\
  prefixb [46; 13] l = false /\ prefixb (str "=ybegin ") l = false /\ prefixb (str "=ypart ") l = true.
Proof.
  intros Ho Hs l.
  assert (El : l = str "=ypart begin=" ++ zdec (offset + 1) ++ str " end=" ++ zdec (offset + size) ++ [13; 10]).
  { unfold l, head2. rewrite <- !app_assoc. reflexivity. }
  assert (S1 : strstr l (str " begin=") = Some (str " begin=" ++ zdec (offset + 1) ++ str " end=" ++ zdec (offset + size) ++ [13; 10])).
  { rewrite El. simpl. reflexivity. }
  assert (S2 : strstr l (str " end=") = Some (str " end=" ++ zdec (offset + size) ++ [13; 10])).
  { rewrite El. simpl. rewrite strstr_skip by nosp. simpl. reflexivity. }
  repeat split.
  - eapply num_field_here; [exact S1 | reflexivity | lia | reflexivity].
  - eapply num_field_here; [exact S2 | reflexivity | lia | reflexivity].
Qed.

Lemma tail1_fields size crc : 0 <= size -> 0 <= crc < 2 ^ 32 ->
  let l := tail1 size crc ++ [10] in
  num_field (str " size=") l = Some size /\ hex_field (str " pcrc32=") l = Some crc /\
  prefixb [46; 13] l = false /\ prefixb (str "=ybegin ") l = false /\
  prefixb (str "=ypart ") l = false /\ prefixb (str "=yend ") l = true.
Proof.
  intros Hs Hc l.
  assert (El : l = str "=yend size=" ++ zdec size ++ str " part=0 pcrc32=" ++ hex8 crc ++ [13; 10]).
  { unfold l, tail1. rewrite <- !app_assoc. reflexivity. }
  assert (S1 : strstr l (str " size=") = Some (str " size=" ++ zdec size ++ str " part=0 pcrc32=" ++ hex8 crc ++ [13; 10])).
  { rewrite El. reflexivity. }
  assert (S2 : strstr l (str " pcrc32=") = Some (str " pcrc32=" ++ hex8 crc ++ [13; 10])).
  { rewrite El. simpl.
    rewrite strstr_skip by nosp. reflexivity. }
  split; [|split; [|repeat split]].
  - eapply num_field_here; [exact S1 | reflexivity | lia | reflexivity].
  - unfold hex_field, field. rewrite S2, skipn_app_exact.
    assert (Hch := hex8_chars crc).
    assert (Hv := phex_hex8 crc [13; 10] Hc eq_refl).
    destruct (hex8 crc) as [|c [|x t]] eqn:E; [discriminate E | discriminate E |].
    rewrite <- !app_comm_cons in *. assert (Hc1 := Forall_inv Hch). assert (Hx1 := Forall_inv (Forall_inv_tail Hch)). simpl in Hc1, Hx1.
    rewrite Hc1.
    assert (x <> 120 /\ x <> 88) as [Hx2 Hx3].
    { split; intros ->; discriminate Hx1. }
    replace (x =? 120) with false by lia. replace (x =? 88) with false by lia. cbn [negb andb].
    cbv zeta. rewrite Hv. replace (crc <? 2 ^ 32) with true by lia. reflexivity.
Qed.

Lemma nolf_app a b : nolf (a ++ b) <-> nolf a /\ nolf b.
Proof. apply Forall_app. Qed.

Lemma hex8_no n h : is_hex h = false -> Forall (fun c => c <> h) (hex8 n).
Proof. intros H. eapply Forall_impl; [|apply hex8_chars]. intros c Hc ->. congruence. Qed.

Lemma head1_nolf part fs name : clean_name name -> nolf (head1 part fs name).
Proof.
  intros Hn. unfold head1. rewrite !nolf_app.
  repeat split; try (apply nolf_lit; reflexivity); try (apply zdec_no; [lia|reflexivity]).
  eapply Forall_impl; [|exact Hn]. simpl; tauto.
Qed.
Lemma head2_nolf o s : nolf (head2 o s).
Proof.
  unfold head2. rewrite !nolf_app.
  repeat split; try (apply nolf_lit; reflexivity); try (apply zdec_no; [lia|reflexivity]).
Qed.
Lemma tail1_nolf s c : nolf (tail1 s c).
Proof.
  unfold tail1. rewrite !nolf_app.
  repeat split; try (apply nolf_lit; reflexivity); try (apply zdec_no; [lia|reflexivity]);
    apply hex8_no; reflexivity.
Qed.

Lemma nonul_lit (p : list Z) : forallb (fun c => negb (c =? 0)) p = true -> nonul p.
Proof.
  intros H. rewrite forallb_forall in H. apply Forall_forall. intros x Hx.
  specialize (H x Hx). lia.
Qed.

Lemma article_split part fs offset name data :
  article part fs offset name data =
  (head1 part fs name ++ [10]) ++ (head2 offset (Z.of_nat (length data)) ++ [10]) ++
  yenc_body data ++ (tail1 (Z.of_nat (length data)) (crc32 data) ++ [10]) ++ [46; 13; 10]
  \/ ~ bytes_ok data.
Proof.
  destruct (Forall_dec is_byte (fun b => match Z_le_dec 0 b, Z_lt_dec b 256 with
     | left H1, left H2 => left (conj H1 H2)
     | right H1, _ => right (fun H => H1 (proj1 H))
     | _, right H2 => right (fun H => H2 (proj2 H)) end) data) as [Hb|Hb]; [left|right; exact Hb].
  unfold article, article_head, article_tail, head1, head2, tail1.
  unfold crc_finish. rewrite crc_slice_ok; [|apply u32_ones|exact Hb].
  fold (crc32 data). rewrite <- !app_assoc. reflexivity.
Qed.

Lemma article_nonul part fs offset name data : bytes_ok data -> clean_name name ->
  ~ In 0 (article part fs offset name data).
Proof.
  intros Hb Hn. destruct (article_split part fs offset name data) as [E|E]; [|contradiction].
  rewrite E. clear E.
  assert (H : nonul ((head1 part fs name ++ [10]) ++ (head2 offset (Z.of_nat (length data)) ++ [10]) ++
    yenc_body data ++ (tail1 (Z.of_nat (length data)) (crc32 data) ++ [10]) ++ [46; 13; 10])).
  { unfold head1, head2, tail1. rewrite !nonul_app.
    repeat split; try (apply nonul_lit; reflexivity); try (apply zdec_no; [lia|reflexivity]);
      try (apply hex8_no; reflexivity).
    - eapply Forall_impl; [|exact Hn]. simpl; tauto.
    - apply Forall_forall. intros x Hx ->. revert Hx. apply yenc_no_nul, Hb. }
  intros Hin. unfold nonul in H. rewrite Forall_forall in H. exact (H 0 Hin eq_refl).
Qed.

Lemma article_aread part fs offset name data :
  bytes_ok data -> clean_name name -> 0 <= fs -> 0 <= offset ->
  aread (article part fs offset name data) =
  (mkArt true true true name fs (offset + 1) (offset + Z.of_nat (length data))
     (Z.of_nat (length data)) (crc32 data) data, MEof).
Proof.
  intros Hb Hn Hfs Ho. destruct (article_split part fs offset name data) as [E|E]; [|contradiction].
  rewrite E. clear E. unfold aread.
  set (n := Z.of_nat (length data)). assert (Hnn : 0 <= n) by lia.
  destruct (head1_fields part fs name Hfs Hn) as (F1 & F2 & [pt F3] & F4 & F5).
  destruct (head2_fields offset n Ho Hnn) as (G1 & G2 & G3 & G4 & G5).
  assert (Hcrc : 0 <= crc32 data < 2 ^ 32).
  { apply (u32_lxor (crc_reg 0xFFFFFFFF data) 0xFFFFFFFF); [|apply u32_ones].
    apply u32_crc_reg; [apply u32_ones | exact Hb]. }
  destruct (tail1_fields n (crc32 data) Hnn Hcrc) as (T1 & T2 & T3 & T4 & T5 & T6).
  rewrite fold_left_app, aread_line by (apply head1_nolf, Hn). cbn [app].
  unfold on_line at 1. rewrite F4, F5. cbn [a_beg art0]. rewrite F1, F2, F3.
  cbn [a_nbody a_fin a_bp a_ep a_es a_crc a_out art0].
  rewrite fold_left_app, aread_line by apply head2_nolf. cbn [app].
  unfold on_line at 1. rewrite G3, G4, G5. cbn [a_beg negb a_nbody]. rewrite G1, G2.
  cbn [a_nbody a_fin a_bp a_ep a_es a_crc a_out a_name a_size].
  rewrite aread_body.
  assert (Et : tail1 n (crc32 data) = 61 :: 121 :: skipn 2 (tail1 n (crc32 data))) by reflexivity.
  assert (Ey : yrun S_CRLF (yenc_body data ++ (tail1 n (crc32 data) ++ [10]) ++ [46; 13; 10])
     = mkD 1 data S_NONE ((skipn 2 (tail1 n (crc32 data)) ++ [10]) ++ [46; 13; 10])).
  { rewrite <- decode_scalar_spec. unfold yenc_body.
    exact (yenc_roundtrip_end 128 data ((skipn 2 (tail1 n (crc32 data)) ++ [10]) ++ [46; 13; 10]) Hb). }
  rewrite Ey. cbv zeta. cbn [d_code d_out d_state d_rest]. simpl (1 =? 0). simpl (1 =? 1). cbn iota.
  rewrite fold_left_app.
  rewrite aread_line.
  2:{ assert (Hlf := tail1_nolf n (crc32 data)). rewrite Et in Hlf. inversion Hlf as [|? ? _ H1].
      inversion H1; assumption. }
  change ([61; 121] ++ skipn 2 (tail1 n (crc32 data)) ++ [10]) with (tail1 n (crc32 data) ++ [10]).
  unfold on_line. rewrite T3, T4. cbn [a_beg negb add_out]. rewrite T5, T6. cbn [a_fin]. rewrite T1, T2.
  cbn [a_beg a_nbody a_fin a_bp a_ep a_es a_crc a_out a_name a_size app].
  rewrite (until_eol_name name [10] Hn). reflexivity.
Qed.

(** End to end: any article of the test server, received in any chunks, is
    decoded to exactly the segment and accepted. *)
Lemma article_roundtrip cc part fs offset name data chunks :
  bytes_ok data -> clean_name name -> 0 <= fs -> 0 <= offset ->
  concat chunks = article part fs offset name data ->
  let '(d, w, _, ok) := download (dec_init cc) chunks in
  ok = true /\ w = data /\ meof d = true /\ check d = dsFinished /\
  fname d = name /\ msize d = fs /\ beginpos d = offset + 1 /\
  endpos d = offset + Z.of_nat (length data).
Proof.
  intros Hb Hn Hfs Ho Hch.
  assert (H := fun A => decoder_refines cc chunks A MEof).
  rewrite Hch in H. specialize (H _ (article_nonul part fs offset name data Hb Hn)
    (article_aread part fs offset name data Hb Hn Hfs Ho) ltac:(discriminate)).
  destruct (download (dec_init cc) chunks) as [[[d w] segs] ok].
  destruct H as (H1 & H2 & H3 & H4 & H5 & H6 & H7 & H8).
  repeat split; auto. rewrite H4. unfold judge. cbn [a_beg a_fin a_es a_out a_crc negb].
  rewrite !Z.eqb_refl. cbn [negb]. rewrite andb_false_r. reflexivity.
Qed.
