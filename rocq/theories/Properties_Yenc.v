(** C01-C04: yEnc coding and CRC-32. *)
From Verif Require Import Base YencModel YencSpec YencProofs CrcModel CrcSpec CrcProofs.

(** C01. Encoding then decoding returns the data, for every line width; the decoder
    stops exactly at the "=y" trailer and leaves the rest of the input unread. *)
Theorem C01_yenc_roundtrip : forall width data trailer, bytes_ok data ->
  decode_scalar S_CRLF (yenc_bytes width 0 data ++ 61 :: 121 :: trailer)
  = mkD 1 data S_NONE trailer.
Proof. exact yenc_roundtrip_end. Qed.
Print Assumptions C01_yenc_roundtrip.

Example C01_nonvacuous :
  bytes_ok [0; 214; 4; 19; 22; 223; 255] /\
  yenc_bytes 2 0 [214; 4] = [61; 64; 13; 10; 46; 46; 13; 10].
Proof. split; [repeat constructor; unfold is_byte; lia | reflexivity]. Qed.

(** The encoded stream never contains NUL (so C string handling is harmless). *)
Theorem C01_encoded_no_nul : forall width data, bytes_ok data -> ~ In 0 (yenc_bytes width 0 data).
Proof. intros width data H. exact (yenc_no_nul width data 0 H). Qed.
Print Assumptions C01_encoded_no_nul.

(** C02. Any chunking decodes like the whole, including the verdict, the carried
    state and the unread remainder; and decoding is the byte-at-a-time machine. *)
Theorem C02_chunk_independent : forall st chunks,
  feed st chunks = decode_scalar st (concat chunks).
Proof. exact feed_decode. Qed.
Print Assumptions C02_chunk_independent.

Theorem C02_decoder_is_byte_machine : forall st src, decode_scalar st src = yrun st src.
Proof. exact decode_scalar_spec. Qed.
Print Assumptions C02_decoder_is_byte_machine.

Example C02_nonvacuous :
  feed S_CRLF [[50; 13]; [10]; []; [46]; [46; 61]; [74; 13; 10; 61]; [121; 5]; [6]]
  = mkD 1 [8; 4; 224] S_NONE [5; 6].
Proof. vm_compute. reflexivity. Qed.

(** C03. *)
Theorem C03_crc_slicing : forall us, Forall (fun u => bytes_ok (snd u)) us ->
  crc_finish (crc_updates crc_init us) = crc32 (concat (map snd us)).
Proof. exact crc_incremental. Qed.
Print Assumptions C03_crc_slicing.

Example C03_nonvacuous :
  Forall (fun u : Z * list Z => bytes_ok (snd u)) [(3, [49; 50; 51; 52; 53]); (0, [54; 55; 56; 57])] /\
  crc32 [49; 50; 51; 52; 53; 54; 55; 56; 57] = 0xCBF43926.
Proof. split; [repeat constructor; unfold is_byte; simpl; lia | vm_compute; reflexivity]. Qed.

(** C04. *)
Theorem C04_crc_combine : forall a b,
  bytes_ok a -> bytes_ok b -> Z.of_nat (length b) < 2 ^ 32 ->
  crc_combine (crc32 a) (crc32 b) (Z.of_nat (length b)) = crc32 (a ++ b).
Proof. exact combine_ok. Qed.
Print Assumptions C04_crc_combine.

Theorem C04_crc_of_file : forall parts,
  parts <> [] -> Forall bytes_ok parts -> Forall (fun p => Z.of_nat (length p) < 2 ^ 32) parts ->
  combine_all true 0 (map (fun p => (crc32 p, Z.of_nat (length p))) parts) = crc32 (concat parts).
Proof. exact combine_file. Qed.
Print Assumptions C04_crc_of_file.

Example C04_nonvacuous :
  crc_combine (crc32 [49; 50; 51; 52]) (crc32 [53; 54; 55; 56; 57]) 5 = 0xCBF43926.
Proof. vm_compute. reflexivity. Qed.
