(** C05, C48-C51: the article decoder. *)
From Coq Require Import String.
From Verif Require Import Base NumFmt YencModel YencSpec CrcModel CrcSpec DecoderModel DecoderSpec
  DecoderProofs ArticleProofs AcceptProofs RawProofs RetryProofs.

(** C05. For any received buffers whatsoever, an article taken for yEnc is
    accepted if and only if the header and the end marker were seen, the number of
    decoded bytes is the announced one, and the announced checksum (if checking
    is on) is the CRC-32 of the decoded bytes. [segs] are the byte runs that
    came out of the yEnc decoder. *)
Theorem C05_accepted_iff : forall cc chunks,
  let '(d, _, segs, _) := download (dec_init cc) chunks in
  fmt d = efYenc ->
  (check d = dsFinished <->
   (mbegin d = true /\ mend d = true /\
    endsize d = Z.of_nat (length (concat segs)) /\
    (mpart d = false -> msize d = Z.of_nat (length (concat segs))) /\
    (cc = true -> hascrc d = true -> expcrc d = crc32 (concat segs)))).
Proof. exact accepted_iff. Qed.
Print Assumptions C05_accepted_iff.

Definition crlf : list Z := [13; 10].
Definition small_article : list Z := article 1 4 0 (str "a.bin") [1; 2; 3; 4].

Example C05_nonvacuous :
  let '(d, w, segs, ok) := download (dec_init true) [firstn 60 small_article; skipn 60 small_article] in
  fmt d = efYenc /\ check d = dsFinished /\ hascrc d = true /\ concat segs = [1; 2; 3; 4] /\ ok = true.
Proof. vm_compute. repeat split. Qed.

Example C05_nonvacuous_rejected :
  let bad := article_head 1 4 0 (str "a.bin") 4 ++ yenc_body [1; 2; 3; 5]
             ++ article_tail 4 (crc32 [1; 2; 3; 4]) ++ [46; 13; 10] in
  let '(d, _, _, _) := download (dec_init true) [bad] in
  fmt d = efYenc /\ check d = dsCrcError.
Proof. vm_compute. repeat split. Qed.

(** The accepted bytes need not be the bytes handed to the file writer: an article
    with two bodies received in one buffer is accepted (size and CRC of all four
    bytes agree) but only the bytes of the last body are written
    (Decoder.cpp:108 assigns instead of adding and writes at the buffer start). *)
Theorem C05_written_is_decoded_refuted : exists chunks,
  let '(d, w, segs, ok) := download (dec_init true) chunks in
  ok = true /\ fmt d = efYenc /\ check d = dsFinished /\ hascrc d = true /\
  expcrc d = crc32 (concat segs) /\ w <> concat segs.
Proof.
  exists [str "=ybegin part=1 line=128 size=4 name=a" ++ crlf ++ str "=ypart begin=1 end=4" ++ crlf
    ++ yenc_body [1; 2] ++ str "=ypart begin=1 end=4" ++ crlf ++ yenc_body [3; 4]
    ++ str "=yend size=4 pcrc32=" ++ hex8 (crc32 [1; 2; 3; 4]) ++ crlf ++ [46; 13; 10]].
  vm_compute. repeat split; discriminate.
Qed.
Print Assumptions C05_written_is_decoded_refuted.

(** C48. For NUL-free well-formed multi-part articles the decoder fed with any
    chunks computes what the byte-at-a-time reader computes on the whole stream:
    written bytes, end of article, verdict, name, size and position. *)
Theorem C48_decoder_chunk_independent : forall cc chunks A m,
  ~ In 0 (concat chunks) -> aread (concat chunks) = (A, m) -> m <> MErr ->
  let '(d, w, segs, ok) := download (dec_init cc) chunks in
  ok = true /\ w = a_out A /\ meof d = eof_of m /\ check d = status_of (judge cc A) /\
  fname d = a_name A /\ msize d = a_size A /\ beginpos d = a_bp A /\ endpos d = a_ep A.
Proof. exact decoder_refines. Qed.
Print Assumptions C48_decoder_chunk_independent.

(** Every article of the built-in server is in that class and comes out right. *)
Theorem C48_article_roundtrip : forall cc part fs offset name data chunks,
  bytes_ok data -> clean_name name -> 0 <= fs -> 0 <= offset ->
  concat chunks = article part fs offset name data ->
  let '(d, w, _, ok) := download (dec_init cc) chunks in
  ok = true /\ w = data /\ meof d = true /\ check d = dsFinished /\
  fname d = name /\ msize d = fs /\ beginpos d = offset + 1 /\
  endpos d = offset + Z.of_nat (length data).
Proof. exact article_roundtrip. Qed.
Print Assumptions C48_article_roundtrip.

Example C48_nonvacuous :
  snd (aread small_article) = MEof /\ a_out (fst (aread small_article)) = [1; 2; 3; 4] /\
  existsb (Z.eqb 0) small_article = false.
Proof. vm_compute. repeat split. Qed.

(** Outside that class it is false. A single-part article whose "=yend" line has a
    "part=" field is accepted or rejected depending on whether the header arrives
    in the same buffer as the trailer (ProcessYenc searches past the line end). *)
Theorem C48_single_part_refuted : exists stream k,
  let one := download (dec_init true) [stream] in
  let two := download (dec_init true) [firstn k stream; skipn k stream] in
  ~ In 0 stream /\ check (fst (fst (fst one))) = dsInvalidSize /\
  check (fst (fst (fst two))) = dsFinished /\ snd (fst (fst two)) = [1; 2].
Proof.
  exists (str "=ybegin line=128 size=2 name=a" ++ crlf ++ yenc_body [1; 2]
    ++ str "=yend size=2 part=1 crc32=" ++ hex8 (crc32 [1; 2]) ++ crlf ++ [46; 13; 10]), 33%nat.
  split; [|vm_compute; repeat split].
  intros H. vm_compute in H. repeat (destruct H as [H|H]; [discriminate|]). exact H.
Qed.
Print Assumptions C48_single_part_refuted.

(** A raw NUL in the body (a yEnc poster that does not escape it) destroys the rest of the
    buffer when it arrives together with the header, and is harmless otherwise. *)
Theorem C48_nul_byte_refuted : exists stream k,
  let one := download (dec_init true) [stream] in
  let two := download (dec_init true) [firstn k stream; skipn k stream] in
  check (fst (fst (fst one))) = dsArticleIncomplete /\
  check (fst (fst (fst two))) = dsFinished /\ snd (fst (fst two)) = [214; 2].
Proof.
  exists (str "=ybegin part=1 line=128 size=2 name=a" ++ crlf ++ str "=ypart begin=1 end=2" ++ crlf
    ++ [0; 44] ++ crlf ++ str "=yend size=2 pcrc32=" ++ hex8 (crc32 [214; 2]) ++ crlf ++ [46; 13; 10]), 61%nat.
  vm_compute. repeat split.
Qed.
Print Assumptions C48_nul_byte_refuted.

(** C49. After [Clear] the decoder still remembers the format of the previous attempt:
    a good article is rejected when retried after a broken connection. *)
Definition with_crc_check (d : dec) : dec :=
  mkDec (fmt d) (mbegin d) (mpart d) (mbody d) (mend d) (hascrc d) (expcrc d) (beginpos d)
    (endpos d) (msize d) (endsize d) (outsize d) (meof d) true (yst d) (crcreg d) (fname d) (linebuf d).

Theorem C49_retry_refuted : exists attempt1 attempt2,
  let d1 := fst (fst (fst (download (dec_init true) attempt1))) in
  meof d1 = false /\
  (let r := download (with_crc_check (dec_clear d1)) attempt2 in
   check (fst (fst (fst r))) = dsNoBinaryData /\ snd (fst (fst r)) = []) /\
  (let r := download (dec_init true) attempt2 in
   check (fst (fst (fst r))) = dsFinished /\ snd (fst (fst r)) = [1; 2; 3; 4]).
Proof. exists [str "begin 644 x" ++ crlf], [small_article]. vm_compute. repeat split. Qed.
Print Assumptions C49_retry_refuted.

(** What does hold: the format is the only thing that survives. *)
Theorem C49_clear_partial : forall d, with_crc_check (dec_clear d) = set_fmt (dec_init true) (fmt d).
Proof. reflexivity. Qed.
Print Assumptions C49_clear_partial.

(** A good yEnc article is accepted whatever came before, unless an earlier attempt was taken for UUEncode. *)
Theorem C49_retry_partial : forall d part fs offset name data chunks,
  fmt d <> efUx -> bytes_ok data -> clean_name name -> 0 <= fs -> 0 <= offset ->
  concat chunks = article part fs offset name data ->
  let '(d', w, _, ok) := download (with_crc_check (dec_clear d)) chunks in
  ok = true /\ w = data /\ meof d' = true /\ check d' = dsFinished /\
  fname d' = name /\ msize d' = fs /\ beginpos d' = offset + 1 /\
  endpos d' = offset + Z.of_nat (length data).
Proof.
  intros d part fs offset name data chunks F. apply (retry_ok true (fmt d) part fs offset name data chunks). destruct (fmt d); [left|right|congruence]; reflexivity.
Qed.
Print Assumptions C49_retry_partial.

Example C49_retry_ex :
  let d1 := fst (fst (fst (download (dec_init true) [str "=ybegin part=1 line=128 size=4 name=a" ++ crlf ++ str "=ypart begin=1"]))) in
  fmt d1 = efYenc /\ meof d1 = false /\
  check (fst (fst (fst (download (with_crc_check (dec_clear d1)) [small_article])))) = dsFinished.
Proof. vm_compute. repeat split. Qed.

(** C50. UUEncoded articles: the bytes handed to the writer are not the decoded ones. "#86)C"
    is the UUEncode line of "abc"; what is written is the start of the received
    buffer. *)
Theorem C50_uudecode_refuted : exists stream,
  let '(d, w, _, ok) := download (dec_init true) [stream] in
  ok = true /\ fmt d = efUx /\ check d = dsFinished /\
  stream = str "begin 644 a" ++ crlf ++ str "#86)C" ++ crlf ++ str "`" ++ crlf ++ str "end" ++ crlf ++ [46; 13; 10] /\
  w = str "beg" /\ w <> str "abc".
Proof.
  exists (str "begin 644 a" ++ crlf ++ str "#86)C" ++ crlf ++ str "`" ++ crlf ++ str "end" ++ crlf ++ [46; 13; 10]).
  vm_compute. repeat split. discriminate.
Qed.
Print Assumptions C50_uudecode_refuted.

(** C51. Raw mode: the end of article is missed when it arrives in small pieces. *)
Theorem C51_raw_eof_refuted : exists chunks,
  snd (process_raw (0, false) (concat chunks)) = true /\ has_term (concat chunks) /\
  snd (raw_run (0, false) chunks) = false.
Proof. exists [[65; 13]; [10]; [46; 13; 10]]. split; [vm_compute; reflexivity|].
  split; [exists [65], []; reflexivity | vm_compute; reflexivity]. Qed.
Print Assumptions C51_raw_eof_refuted.

(** What holds without condition: EOF is reported only if the terminator was received. *)
Theorem C51_raw_eof_sound : forall chunks,
  snd (raw_run (0, false) chunks) = true -> has_term (concat chunks).
Proof. exact raw_eof_sound. Qed.
Print Assumptions C51_raw_eof_sound.

(** And it is reported whenever every buffer except the last has at least four
    bytes and the stream has no NUL. Missing for the full property: shorter
    buffers and NUL bytes (refuted above). *)
Theorem C51_raw_eof_partial : forall chunks last,
  Forall (fun c => (4 <= length c)%nat) chunks -> ~ In 0 (concat chunks ++ last) ->
  (snd (raw_run (0, false) (chunks ++ [last])) = true <-> has_term (concat chunks ++ last)).
Proof. exact raw_eof_ok. Qed.
Print Assumptions C51_raw_eof_partial.

Example C51_nonvacuous :
  snd (raw_run (0, false) [[65; 66; 13; 10; 46; 13]; [10]]) = true /\ snd (raw_run (0, false) [[65; 66; 13; 10; 46]; [65; 10]]) = false.
Proof. vm_compute. repeat split. Qed.
