From Coq Require Import String.
From Verif Require Import Base NumFmt YencModel YencSpec YencProofs CrcModel CrcSpec CrcProofs
  DecoderModel DecoderSpec DecoderProofs.

(** What the decoder has counted and checksummed, for any input at all. *)
Definition counted (d : dec) (acc : list Z) : Prop :=
  outsize d = Z.of_nat (length acc) /\ bytes_ok acc /\
  (crccheck d = true -> crcreg d = crc_reg 0xFFFFFFFF acc).

Lemma counted_same d d' acc : outsize d' = outsize d -> crccheck d' = crccheck d ->
  crcreg d' = crcreg d -> counted d acc -> counted d' acc.
Proof. unfold counted. intros -> -> ->. auto. Qed.

Lemma process_yenc_counted d s acc : counted d acc -> counted (process_yenc d s) acc.
Proof.
  intros H. unfold process_yenc.
  destruct (prefixb (str "=ybegin ") s); [eapply counted_same; [..|exact H]; reflexivity|].
  destruct (prefixb (str "=ypart ") s); [eapply counted_same; [..|exact H]; reflexivity|].
  destruct (prefixb (str "=yend ") s); [|exact H].
  destruct (strstr s (if mpart d then str " pcrc32=" else str " crc32="));
    (eapply counted_same; [..|exact H]; reflexivity).
Qed.

Lemma decode_ux_counted d s len acc : counted d acc -> counted (fst (decode_ux d s len)) acc.
Proof.
  intros H. unfold decode_ux.
  destruct (negb (mbody d) && prefixb (str "begin ") s);
    [eapply counted_same; [..|exact H]; reflexivity|].
  cbv zeta.
  destruct (negb (mbody d) && ((len =? 62) || (len =? 63))
                 && ((nth 62 s 0 =? 10) || (nth 62 s 0 =? 13)) && (nth 0 s 0 =? 77));
  repeat match goal with |- context [if ?b then _ else _] => destruct b end;
    simpl; (eapply counted_same; [..|exact H]; reflexivity).
Qed.

Lemma decode_yenc_counted d src acc : counted d acc ->
  let '(d', out) := decode_yenc d src in counted d' (acc ++ out).
Proof.
  intros (Hs & Hb & Hc). unfold decode_yenc. rewrite decode_scalar_spec.
  assert (Hob : bytes_ok (d_out (yrun (yst d) src))) by apply yrun_bytes.
  set (r := yrun (yst d) src) in *.
  split; [|split].
  - cbn [outsize]. rewrite app_length, Hs. lia.
  - apply bytes_ok_app; auto.
  - cbn [crccheck crcreg]. intros Hcc. rewrite Hcc, Hc by assumption.
    rewrite crc_slice_ok; [|apply u32_crc_reg; [apply u32_ones|assumption]|assumption].
    symmetry. apply crc_reg_app.
Qed.

Lemma line_loop_counted f : forall d line outlen buf segs acc,
  counted d (acc ++ concat segs) ->
  let r := line_loop f d line outlen buf segs in counted (db_dec r) (acc ++ concat (db_segs r)).
Proof.
  induction f as [|f IH]; intros d line outlen buf segs acc H; [exact H|].
  cbn [line_loop].
  destruct (find_nl line) as [[l rest]|].
  2:{ destruct (cstr line); (eapply counted_same; [..|exact H]; reflexivity). }
  destruct ((nth 0 (cstr line) 0 =? 46) && (nth 1 (cstr line) 0 =? 13));
    [eapply counted_same; [..|exact H]; reflexivity|].
  cbv zeta.
  set (d1 := match fmt d with efUnknown => set_fmt d (detect_format (cstr line) (Z.of_nat (length l)))
             | _ => d end).
  assert (H1 : counted d1 (acc ++ concat segs)).
  { unfold d1. destruct (fmt d); [eapply counted_same; [..|exact H]; reflexivity | exact H | exact H]. }
  destruct (fmt d1).
  - apply IH, H1.
  - assert (H2 := process_yenc_counted d1 (cstr line) _ H1).
    destruct (mbody (process_yenc d1 (cstr line))); [|apply IH, H2].
    assert (H3 := decode_yenc_counted _ rest _ H2).
    destruct (decode_yenc (process_yenc d1 (cstr line)) rest) as [d3 out].
    assert (H4 : counted d3 (acc ++ concat (segs ++ [out]))).
    { rewrite concat_app. simpl. rewrite app_nil_r, app_assoc. exact H3. }
    destruct (mbody d3); [eapply counted_same; [..|exact H4]; reflexivity | apply IH, H4].
  - assert (H2 := decode_ux_counted d1 (cstr line) (Z.of_nat (length l)) _ H1).
    destruct (decode_ux d1 (cstr line) (Z.of_nat (length l))) as [d2 n]. apply IH, H2.
Qed.

Lemma decode_buffer_counted d c acc : counted d acc ->
  let r := decode_buffer d c in counted (db_dec r) (acc ++ concat (db_segs r)).
Proof.
  intros H. unfold decode_buffer.
  destruct (mbody d && match fmt d with efYenc => true | _ => false end).
  - assert (H3 := decode_yenc_counted d c _ H). destruct (decode_yenc d c) as [d1 out].
    assert (H4 : counted d1 (acc ++ concat [out])) by (simpl; rewrite app_nil_r; exact H3).
    destruct (mbody d1); [exact H4|]. apply line_loop_counted. exact H4.
  - apply line_loop_counted. simpl. rewrite app_nil_r.
    eapply counted_same; [..|exact H]; reflexivity.
Qed.

Lemma download_counted chunks : forall d acc, counted d acc ->
  let '(d', _, segs, _) := download d chunks in counted d' (acc ++ concat segs).
Proof.
  induction chunks as [|c cs IH]; intros d acc H; cbn [download].
  - destruct (meof d); simpl; rewrite app_nil_r; exact H.
  - destruct (meof d); [simpl; rewrite app_nil_r; exact H|].
    assert (H1 := decode_buffer_counted d c acc H). cbv zeta in H1.
    specialize (IH _ _ H1). destruct (download (db_dec (decode_buffer d c)) cs) as [[[d' ws] ss] ok].
    rewrite concat_app, app_assoc. exact IH.
Qed.

Lemma counted_init cc : counted (dec_init cc) [].
Proof. split; [reflexivity|]. split; [constructor|]. reflexivity. Qed.

(** Accepted yEnc articles: markers seen, size and checksum agree with all
    decoded bytes. *)
Lemma accepted_sound cc chunks :
  let '(d, _, segs, _) := download (dec_init cc) chunks in
  fmt d = efYenc -> check d = dsFinished ->
  mbegin d = true /\ mend d = true /\
  endsize d = Z.of_nat (length (concat segs)) /\
  (mpart d = false -> msize d = Z.of_nat (length (concat segs))) /\
  (crccheck d = true -> hascrc d = true -> expcrc d = crc32 (concat segs)).
Proof.
  assert (H := download_counted chunks (dec_init cc) [] (counted_init cc)).
  destruct (download (dec_init cc) chunks) as [[[d w] segs] ok]. simpl in H.
  destruct H as (Hs & Hb & Hc). unfold check. intros -> Hck.
  destruct (mbegin d); [|discriminate]. cbn [negb] in Hck.
  destruct (mend d); [|discriminate]. cbn [negb] in Hck.
  destruct ((negb (mpart d) && negb (msize d =? endsize d)) || negb (endsize d =? outsize d)) eqn:E;
    [discriminate|].
  apply orb_false_iff in E as [E1 E2]. apply negb_false_iff, Z.eqb_eq in E2.
  rewrite Hs in E2.
  repeat split; auto.
  - intros Hp. rewrite Hp in E1. cbn [negb andb] in E1. apply negb_false_iff, Z.eqb_eq in E1. congruence.
  - intros Hcc Hh. rewrite Hcc, Hh in Hck. cbn [andb] in Hck.
    destruct (expcrc d =? crc_finish (crcreg d)) eqn:Ee; [|discriminate].
    apply Z.eqb_eq in Ee. rewrite Ee, (Hc Hcc). reflexivity.
Qed.

(** crccheck never changes. *)
Lemma line_loop_cc f : forall d line outlen buf segs,
  crccheck (db_dec (line_loop f d line outlen buf segs)) = crccheck d.
Proof.
  induction f as [|f IH]; intros d line outlen buf segs; [reflexivity|].
  cbn [line_loop]. destruct (find_nl line) as [[l rest]|]; [|destruct (cstr line); reflexivity].
  destruct ((nth 0 (cstr line) 0 =? 46) && (nth 1 (cstr line) 0 =? 13)); [reflexivity|].
  cbv zeta.
  set (d1 := match fmt d with efUnknown => set_fmt d (detect_format (cstr line) (Z.of_nat (length l)))
             | _ => d end).
  assert (H1 : crccheck d1 = crccheck d) by (unfold d1; destruct (fmt d); reflexivity).
  rewrite <- H1.
  assert (Hp : forall x s, crccheck (process_yenc x s) = crccheck x).
  { intros x s. unfold process_yenc.
    repeat match goal with |- context [if prefixb ?a ?b then _ else _] => destruct (prefixb a b); try reflexivity end.
    destruct (strstr s (if mpart x then str " pcrc32=" else str " crc32=")); reflexivity. }
  destruct (fmt d1).
  - apply IH.
  - destruct (mbody (process_yenc d1 (cstr line))); [|rewrite IH; apply Hp].
    assert (Hd : crccheck (fst (decode_yenc (process_yenc d1 (cstr line)) rest)) = crccheck d1).
    { unfold decode_yenc. cbn [fst crccheck]. apply Hp. }
    destruct (decode_yenc (process_yenc d1 (cstr line)) rest) as [d3 out].
    destruct (mbody d3); [exact Hd | rewrite IH; exact Hd].
  - assert (Hu : crccheck (fst (decode_ux d1 (cstr line) (Z.of_nat (length l)))) = crccheck d1).
    { unfold decode_ux.
      destruct (negb (mbody d1) && prefixb (str "begin ") (cstr line)); [reflexivity|]. cbv zeta.
      repeat match goal with |- context [if ?b then _ else _] => destruct b end; reflexivity. }
    destruct (decode_ux d1 (cstr line) (Z.of_nat (length l))) as [d2 n]. rewrite IH. exact Hu.
Qed.

Lemma download_cc chunks : forall d, crccheck (fst (fst (fst (download d chunks)))) = crccheck d.
Proof.
  induction chunks as [|c cs IH]; intros d; cbn [download]; destruct (meof d); try reflexivity.
  assert (H : crccheck (db_dec (decode_buffer d c)) = crccheck d).
  { unfold decode_buffer. destruct (mbody d && match fmt d with efYenc => true | _ => false end).
    - assert (Hd : crccheck (fst (decode_yenc d c)) = crccheck d) by reflexivity.
      destruct (decode_yenc d c) as [d1 out]. destruct (mbody d1); [exact Hd|].
      rewrite line_loop_cc. exact Hd.
    - rewrite line_loop_cc. reflexivity. }
  specialize (IH (db_dec (decode_buffer d c))).
  destruct (download (db_dec (decode_buffer d c)) cs) as [[[d' ws] ss] ok]. simpl in *. congruence.
Qed.

Lemma accepted_sound_cc chunks :
  let '(d, _, segs, _) := download (dec_init true) chunks in
  fmt d = efYenc -> check d = dsFinished ->
  mbegin d = true /\ mend d = true /\
  endsize d = Z.of_nat (length (concat segs)) /\
  (mpart d = false -> msize d = Z.of_nat (length (concat segs))) /\
  (hascrc d = true -> expcrc d = crc32 (concat segs)).
Proof.
  assert (H := accepted_sound true chunks). assert (Hcc := download_cc chunks (dec_init true)).
  destruct (download (dec_init true) chunks) as [[[d w] segs] ok]. simpl in Hcc.
  intros Hf Hc. destruct (H Hf Hc) as (H1 & H2 & H3 & H4 & H5). repeat split; auto.
Qed.

(** Acceptance is exactly these conditions. *)
Lemma accepted_iff cc chunks :
  let '(d, _, segs, _) := download (dec_init cc) chunks in
  fmt d = efYenc ->
  (check d = dsFinished <->
   (mbegin d = true /\ mend d = true /\
    endsize d = Z.of_nat (length (concat segs)) /\
    (mpart d = false -> msize d = Z.of_nat (length (concat segs))) /\
    (cc = true -> hascrc d = true -> expcrc d = crc32 (concat segs)))).
Proof.
  assert (H := download_counted chunks (dec_init cc) [] (counted_init cc)).
  assert (Hcc := download_cc chunks (dec_init cc)).
  destruct (download (dec_init cc) chunks) as [[[d w] segs] ok]. simpl in H, Hcc.
  destruct H as (Hs & Hb & Hc). rewrite Hcc in Hc. unfold check. intros ->. rewrite Hs, Hcc.
  assert (Hcr : cc = true -> crc_finish (crcreg d) = crc32 (concat segs)).
  { intros E. rewrite (Hc E). reflexivity. }
  destruct (mbegin d); cbn [negb]; [|split; [discriminate|intros (? & _); discriminate]].
  destruct (mend d); cbn [negb]; [|split; [discriminate|intros (_ & ? & _); discriminate]].
  destruct (endsize d =? Z.of_nat (length (concat segs))) eqn:E1; cbn [negb].
  2:{ rewrite orb_true_r. apply Z.eqb_neq in E1. split; [discriminate|]. intros (_ & _ & ? & _). contradiction. }
  apply Z.eqb_eq in E1. rewrite orb_false_r.
  destruct (negb (mpart d) && negb (msize d =? endsize d)) eqn:E2.
  { apply andb_true_iff in E2 as [E2 E3]. apply negb_true_iff in E2, E3. apply Z.eqb_neq in E3.
    split; [discriminate|]. intros (_ & _ & ? & Hm & _). specialize (Hm E2). congruence. }
  assert (Hm : mpart d = false -> msize d = Z.of_nat (length (concat segs))).
  { intros Hp. rewrite Hp in E2. cbn [negb andb] in E2. apply negb_false_iff, Z.eqb_eq in E2. congruence. }
  destruct cc; cbn [andb].
  2:{ split; [|reflexivity]. intros _. repeat split; auto. discriminate. }
  rewrite (Hcr eq_refl).
  destruct (hascrc d); cbn [andb].
  2:{ split; [|reflexivity]. intros _. repeat split; auto. discriminate. }
  destruct (expcrc d =? crc32 (concat segs)) eqn:E3; cbn [negb].
  - apply Z.eqb_eq in E3. split; [|reflexivity]. intros _. repeat split; auto.
  - apply Z.eqb_neq in E3. split; [discriminate|]. intros (_ & _ & _ & _ & Hx). elim E3; auto.
Qed.
