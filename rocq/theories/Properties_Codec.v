(** C06-C11, C15, C16, C52, C53: text codecs, JSON scanner, Base64, calendar. *)
From Coq Require Import String.
From Verif Require Import Base NumFmt CodecModel CodecSpec CodecProofs CodecProofs2.
From Verif Require Import CalendarModel CalendarSpec CalendarProofs.

(** The characters XML 1.0 allows in a document (production [2] Char). *)
Definition xml_legal (c : Z) : Prop :=
  c = 9 \/ c = 10 \/ c = 13 \/ 32 <= c <= 0xD7FF \/ 0xE000 <= c <= 0xFFFD \/ 0x10000 <= c <= 0x10FFFF.

Ltac each := vm_compute str; repeat (first [apply Forall_nil | apply Forall_cons]);
  unfold scalar, xml_legal, is_byte, jtok_ok, bytes_ok in *; try lia.

(** ** C06: XML *)

(** Every text of characters legal in XML, given in UTF-8, is encoded so that a strict
    reader (which rejects raw markup, quotes, control and non-ASCII bytes) returns it. *)
Theorem C06_xml_encode_standard : forall cps, Forall scalar cps -> Forall xml_legal cps ->
  xml_parse (S (length (xml_encode (utf8s cps)))) (xml_encode (utf8s cps)) = Some cps.
Proof.
  intros cps H L. rewrite (xml_encode_ok cps H). f_equal. apply xml_image_ok.
  eapply Forall_impl; [|exact L]. intros c Hc. unfold xml_legal in Hc. unfold xml_char. lia.
Qed.
Print Assumptions C06_xml_encode_standard.

(** Any text at all: characters not legal in XML come back as a dot. *)
Theorem C06_xml_encode_any : forall cps, Forall scalar cps ->
  exists out, xml_parse (S (length (xml_encode (utf8s cps)))) (xml_encode (utf8s cps)) = Some out /\
    Forall2 (fun c o => (xml_legal c -> o = c) /\ (~ xml_legal c -> o = 46)) cps out.
Proof.
  intros cps H. exists (map xml_image cps). split; [apply xml_encode_ok, H|].
  clear H. induction cps as [|c t IH]; [constructor|]. cbn [map]. constructor; [|exact IH].
  unfold xml_legal, xml_image, xml_char.
  destruct ((c =? 0x9) || (c =? 0xA) || (c =? 0xD) || ((0x20 <=? c) && (c <=? 0xD7FF))
    || ((0xE000 <=? c) && (c <=? 0xFFFD)) || ((0x10000 <=? c) && (c <=? 0x10FFFF))) eqn:E; split; intros; lia.
Qed.
Print Assumptions C06_xml_encode_any.

(** The program's own decoder: exact for printable ASCII. Missing from the full
    statement [xml_decode (xml_encode s) = Some s]: characters above 127, for which it
    is false (next theorem). *)
Theorem C06_xml_roundtrip_partial : forall s, Forall (fun c => 32 <= c < 128) s ->
  xml_decode (xml_encode s) = Some s.
Proof. exact xml_roundtrip. Qed.
Print Assumptions C06_xml_roundtrip_partial.

(** "é" is written as "&#x0000e9;", which the decoder reads as NUL followed by "x0000e9;". *)
Theorem C06_xml_roundtrip_refuted : exists cps,
  Forall scalar cps /\ Forall xml_legal cps /\
  xml_decode (xml_encode (utf8s cps)) = Some (0 :: str "x0000e9;") /\
  xml_decode (xml_encode (utf8s cps)) <> Some (utf8s cps).
Proof.
  exists [0xE9]. split; [each|]. split; [each|]. split; [vm_compute; reflexivity|]. vm_compute. discriminate.
Qed.
Print Assumptions C06_xml_roundtrip_refuted.

Example C06_nonvacuous :
  Forall scalar [60; 0xE9; 0x20AC; 0x1F600; 10] /\ Forall xml_legal [60; 0xE9; 0x20AC; 0x1F600; 10] /\
  xml_encode (utf8s [60; 0xE9; 0x20AC; 0x1F600; 10]) = str "&lt;&#x0000e9;&#x0020ac;&#x01f600;&#x00000a;" /\
  xml_decode (xml_encode (str "a<b & ""c""")) = Some (str "a<b & ""c""").
Proof.
  split; [each|]. split; [each|]. split; vm_compute; reflexivity.
Qed.

(** ** C07: JSON *)

Theorem C07_json_encode_standard : forall cps, Forall scalar cps -> Forall (fun c => c <= 0xFFFF) cps ->
  json_parse (S (length (json_encode (utf8s cps)))) (json_encode (utf8s cps)) = Some cps.
Proof. intros cps H L. rewrite (json_encode_ok cps H). f_equal. apply json_image_bmp, L. Qed.
Print Assumptions C07_json_encode_standard.

(** Any text: legal JSON, characters beyond the Basic Multilingual Plane become dots. *)
Theorem C07_json_encode_any : forall cps, Forall scalar cps ->
  json_parse (S (length (json_encode (utf8s cps)))) (json_encode (utf8s cps))
  = Some (map (fun c => if c <=? 0xFFFF then c else 46) cps).
Proof. exact json_encode_ok. Qed.
Print Assumptions C07_json_encode_any.

(** The full statement (no loss) is false: emoji are lost. *)
Theorem C07_json_lossless_refuted : exists cps, Forall scalar cps /\
  json_parse (S (length (json_encode (utf8s cps)))) (json_encode (utf8s cps)) = Some [46] /\ cps <> [46].
Proof. exists [0x1F600]. split; [each|]. split; [vm_compute; reflexivity | discriminate]. Qed.
Print Assumptions C07_json_lossless_refuted.

(** The program's own decoder inverts the encoder on printable ASCII and the short
    escapes. Missing from the full statement: other control characters and non-ASCII
    text, for which it is false (next theorem). *)
Theorem C07_json_roundtrip_partial : forall s,
  Forall (fun c => 32 <= c < 128 \/ c = 8 \/ c = 9 \/ c = 10 \/ c = 12 \/ c = 13) s ->
  json_decode (json_encode s) = Some s.
Proof. exact json_roundtrip. Qed.
Print Assumptions C07_json_roundtrip_partial.

(** Control character 1 followed by 'a' is written "\u0001a"; the decoder reads the
    number with strtol, which takes the 'a' as a fifth digit: the result is 0x1a, 'a'. *)
Theorem C07_json_roundtrip_refuted : exists s, Forall (fun c => 0 < c < 128) s /\
  json_decode (json_encode s) = Some [26; 97] /\ s = [1; 97].
Proof. exists [1; 97]. split; [each|]. split; vm_compute; reflexivity. Qed.
Print Assumptions C07_json_roundtrip_refuted.

Example C07_nonvacuous :
  Forall scalar [34; 0xE9; 9; 92] /\ json_encode (utf8s [34; 0xE9; 9; 92]) = str "\""\u00e9\t\\" /\
  json_decode (json_encode (str "a/b""c")) = Some (str "a/b""c").
Proof. split; [each|]. split; vm_compute; reflexivity. Qed.

(** ** C08: URL *)

(** Missing from the full statement: texts containing '%' (next theorem). *)
Theorem C08_url_roundtrip_partial : forall s, Forall (fun c => c <> 37) s ->
  url_decode (url_encode s) = Some s.
Proof. exact url_roundtrip. Qed.
Print Assumptions C08_url_roundtrip_partial.

Theorem C08_url_roundtrip_refuted : exists s, Forall (fun c => 32 <= c < 127) s /\
  url_decode (url_encode s) = Some (str "A") /\ s = str "%41".
Proof. exists (str "%41"). split; [each|]. split; vm_compute; reflexivity. Qed.
Print Assumptions C08_url_roundtrip_refuted.

(** The encoded form never contains a blank, but other unprintable bytes pass. *)
Theorem C08_url_no_blank : forall s, ~ In 32 (url_encode s).
Proof.
  induction s as [|c t IH]; [simpl; tauto|]. cbn [url_encode].
  destruct (Z.eqb_spec c 32); simpl; intuition lia.
Qed.
Print Assumptions C08_url_no_blank.

Theorem C08_url_printable_refuted : exists s, In 10 (url_encode s) /\ In 200 (url_encode s).
Proof. exists [10; 200]. simpl. tauto. Qed.
Print Assumptions C08_url_printable_refuted.

Example C08_nonvacuous : Forall (fun c => c <> 37) (str "a b&c d") /\ url_encode (str "a b&c d") = str "a%20b&c%20d".
Proof. split; [each | reflexivity]. Qed.

(** ** C09: in-place decoders *)

Definition decoder_step (step : list Z -> sres) : Prop :=
  step = xml_step \/ step = json_step \/ step = url_step \/ step = ent_step \/ step = unq_step.

Lemma decoder_frugal step : decoder_step step -> frugal step.
Proof.
  intros [->|[->|[->|[->| ->]]]];
    [apply xml_frugal|apply json_frugal|apply url_frugal|apply ent_frugal|apply unq_frugal].
Qed.

(** No decoder writes behind the terminating NUL: whatever follows is unchanged. *)
Theorem C09_no_write_behind : forall step s junk mem, decoder_step step -> Forall (fun c => c <> 0) s ->
  inplace step (S (length s)) (s ++ 0 :: junk) 0 0 = Some mem ->
  length mem = length (s ++ 0 :: junk) /\ skipn (S (length s)) mem = junk.
Proof. intros step s junk mem H. exact (inplace_behind step s junk mem (decoder_frugal step H)). Qed.
Print Assumptions C09_no_write_behind.

(** The buffer afterwards holds the decoded text and a NUL, whatever followed the
    string: overwriting the input while reading it loses nothing. *)
Theorem C09_inplace_is_pure : forall step s junk, decoder_step step -> Forall (fun c => c <> 0) s ->
  inplace step (S (length s)) (s ++ 0 :: junk) 0 0
  = match decode step (S (length s)) s with
    | Some out => Some (out ++ 0 :: skipn (length out + 1) (s ++ 0 :: junk))
    | None => None
    end.
Proof. intros step s junk H. exact (inplace_buffer step s junk (decoder_frugal step H)). Qed.
Print Assumptions C09_inplace_is_pure.

(** HttpUnquote never over-reads. *)
Theorem C09_unquote_safe : forall s, http_unquote s <> None.
Proof. exact unquote_safe. Qed.
Print Assumptions C09_unquote_safe.

(** The other decoders are safe on strings without truncated escapes. Missing from the
    full statement (forall s, decoder s <> None): exactly those strings (next theorems). *)
Theorem C09_url_safe_partial : forall s,
  (forall u v, s = u ++ 37 :: v -> (2 <= length v)%nat) -> url_decode s <> None.
Proof. exact url_safe. Qed.
Print Assumptions C09_url_safe_partial.

Theorem C09_json_safe_partial : forall s,
  (forall u v, s = u ++ 92 :: v -> v <> [] /\ (forall w, v = 117 :: w -> (4 <= length w)%nat)) ->
  json_decode s <> None.
Proof. exact json_safe. Qed.
Print Assumptions C09_json_safe_partial.

Theorem C09_xml_safe_partial : forall s,
  (forall u v, s = u ++ 38 :: v -> v <> [] /\
     (forall w, v = 35 :: w -> Exists (fun c => is_digit c || (c =? 59) = false) w)) ->
  xml_decode s <> None.
Proof. exact xml_safe. Qed.
Print Assumptions C09_xml_safe_partial.

Theorem C09_entities_safe_partial : forall s,
  (forall u v, s = u ++ 38 :: v ->
     Exists (fun c => is_alpha c || is_digit c || (c =? 35) = false) v) ->
  remove_entities s <> None.
Proof. exact ent_safe. Qed.
Print Assumptions C09_entities_safe_partial.

(** Over-reads: a trailing '%' in a URL, a trailing '\' in a JSON string, a legal
    trailing numeric entity in XML, a trailing "&amp" for XmlRemoveEntities. *)
Theorem C09_over_read_refuted :
  (exists s, Forall (fun c => c <> 0) s /\ url_decode s = None) /\
  (exists s, Forall (fun c => c <> 0) s /\ json_decode s = None) /\
  (exists s, Forall (fun c => c <> 0) s /\ xml_decode s = None) /\
  (exists s, Forall (fun c => c <> 0) s /\ remove_entities s = None).
Proof.
  split; [|split; [|split]].
  - exists (str "a%"). split; [each | reflexivity].
  - exists (str "a\"). split; [each | reflexivity].
  - exists (str "a&#65;"). split; [each | reflexivity].
  - exists (str "a&amp"). split; [each | reflexivity].
Qed.
Print Assumptions C09_over_read_refuted.

Example C09_nonvacuous :
  inplace url_step 9 (str "a%20b%2F" ++ [0; 7; 7]) 0 0 = Some (str "a b/" ++ 0 :: str "%2F" ++ [0; 7; 7]).
Proof. vm_compute. reflexivity. Qed.

(** ** C10: JSON value scanner *)

(** Strings in which no escape directly follows another escape. Missing from the full
    statement: adjacent escapes, for which it is false (next theorem). *)
Theorem C10_json_string_partial : forall ws ts rest, Forall before_value ws ->
  Forall jtok_ok ts -> no_adjacent ts ->
  json_next_value (ws ++ jstring ts ++ rest) = Some (Z.of_nat (length ws), Z.of_nat (length (jstring ts))).
Proof. exact json_next_string'. Qed.
Print Assumptions C10_json_string_partial.

(** A string made of an escaped backslash and an escaped quote is cut one character
    before its end; a string of two escaped backslashes runs over its closing quote
    into the following text. *)
Theorem C10_json_string_refuted :
  (exists ts rest, Forall jtok_ok ts /\
     json_next_value (jstring ts ++ rest) = Some (0, Z.of_nat (length (jstring ts)) - 1)) /\
  (exists ts rest, Forall jtok_ok ts /\
     exists n, json_next_value (jstring ts ++ rest) = Some (0, n) /\ Z.of_nat (length (jstring ts)) < n).
Proof.
  split.
  - exists [JEsc 92; JEsc 34], (str ", 1"). split; [each|]. vm_compute. reflexivity.
  - exists [JEsc 92; JEsc 92], (str ", ""b"""). split; [each|].
    eexists. split; [vm_compute; reflexivity | vm_compute; reflexivity].
Qed.
Print Assumptions C10_json_string_refuted.

Theorem C10_json_plain : forall ws tok rest, Forall before_value ws ->
  Forall (fun c => ~ after_value c /\ c <> 92 /\ c <> 34) tok -> tok <> [] ->
  ~ before_value (hd 0 tok) ->
  (match rest with [] => True | c :: _ => after_value c end) ->
  json_next_value (ws ++ tok ++ rest) = Some (Z.of_nat (length ws), Z.of_nat (length tok)).
Proof. exact json_next_plain'. Qed.
Print Assumptions C10_json_plain.

Example C10_nonvacuous :
  no_adjacent [JPlain 97; JEsc 34; JPlain 98; JEsc 92] /\
  json_next_value (str " ,""a\""b\\"", 5") = Some (2, 8) /\ json_next_value (str ": 123]") = Some (2, 3).
Proof. repeat split. Qed.

(** ** C11: Base64 *)

Theorem C11_base64_roundtrip : forall data text, bytes_ok data ->
  filter b64_char text = base64 data -> decode_base64 text = data.
Proof. exact base64_roundtrip_junk. Qed.
Print Assumptions C11_base64_roundtrip.

Theorem C11_base64_length : forall text,
  4 * Z.of_nat (length (decode_base64 text)) <= 3 * Z.of_nat (length text).
Proof. exact base64_len. Qed.
Print Assumptions C11_base64_length.

Example C11_nonvacuous :
  base64 (str "user:pass") = str "dXNlcjpwYXNz" /\ base64 (str "ab") = str "YWI=" /\
  filter b64_char (str "dXNl cjpw" ++ [13; 10] ++ str "YXNz") = base64 (str "user:pass") /\
  decode_base64 (str "dXNl cjpw" ++ [13; 10] ++ str "YXNz") = str "user:pass".
Proof. vm_compute. repeat split. Qed.

(** ** C15: calendar *)

(** The n-th day after 1970-01-01, at any time of day. *)
Theorem C15_timegm_epoch : forall n h mi s,
  timegm (tm_of (date_after n) h mi s) = 86400 * Z.of_nat n + 3600 * h + 60 * mi + s.
Proof. exact date_after_timegm. Qed.
Print Assumptions C15_timegm_epoch.

(** The day after any valid date from year 1 on is 86400 seconds later. *)
Theorem C15_timegm_next_day : forall x h mi s, valid x ->
  timegm (tm_of (next_day x) h mi s) = timegm (tm_of x h mi s) + 86400.
Proof. exact next_day_timegm. Qed.
Print Assumptions C15_timegm_next_day.

(** Different moments give different numbers: the conversion has an inverse. *)
Theorem C15_timegm_injective : forall a b h mi s h' mi' s', valid a -> valid b ->
  0 <= h < 24 -> 0 <= mi < 60 -> 0 <= s < 60 -> 0 <= h' < 24 -> 0 <= mi' < 60 -> 0 <= s' < 60 ->
  timegm (tm_of a h mi s) = timegm (tm_of b h' mi' s') -> a = b /\ h = h' /\ mi = mi' /\ s = s'.
Proof. exact timegm_inj. Qed.
Print Assumptions C15_timegm_injective.

(** Every non-negative number of seconds is hit by a valid moment. *)
Theorem C15_timegm_onto : forall t, 0 <= t -> exists x h mi s, valid x /\
  0 <= h < 24 /\ 0 <= mi < 60 /\ 0 <= s < 60 /\ timegm (tm_of x h mi s) = t.
Proof.
  intros t H. exists (date_after (Z.to_nat (t / 86400))), (t mod 86400 / 3600), (t mod 3600 / 60), (t mod 60).
  split; [apply date_after_valid|]. rewrite date_after_timegm. rewrite Z2Nat.id by lia. lia.
Qed.
Print Assumptions C15_timegm_onto.

(** Months outside 0..11 carry into the year; days outside the month are added. *)
Theorem C15_month_carry : forall y mon d h mi s,
  timegm (mkTm y mon d h mi s) = timegm (mkTm (y + mon / 12) (mon mod 12) d h mi s).
Proof. exact timegm_month_carry. Qed.
Print Assumptions C15_month_carry.

Theorem C15_day_carry : forall y mon d h mi s k,
  timegm (mkTm y mon (d + k) h mi s) = timegm (mkTm y mon d h mi s) + 86400 * k.
Proof. exact timegm_day_carry. Qed.
Print Assumptions C15_day_carry.

Example C15_nonvacuous :
  valid (2024, 2, 29) /\ next_day (2024, 2, 29) = (2024, 3, 1) /\ next_day (1900, 2, 28) = (1900, 3, 1) /\
  timegm (tm_of (2024, 2, 29) 12 0 0) = 1709208000 /\ date_after (Z.to_nat 789) = (1972, 2, 29).
Proof. split; [cbn; lia|]. vm_compute. repeat split. Qed.

(** ** C16: 64-bit halves *)

Theorem C16_split_join : forall x, - 2 ^ 63 <= x < 2 ^ 63 ->
  join_int64 (fst (split_int64 x)) (snd (split_int64 x)) = x.
Proof. exact split_join. Qed.
Print Assumptions C16_split_join.

Theorem C16_join_split : forall hi lo, 0 <= hi < 2 ^ 32 -> 0 <= lo < 2 ^ 32 ->
  split_int64 (join_int64 hi lo) = (hi, lo).
Proof. exact join_split. Qed.
Print Assumptions C16_join_split.

Theorem C16_halves_in_range : forall x, let '(h, l) := split_int64 x in 0 <= h < 2 ^ 32 /\ 0 <= l < 2 ^ 32.
Proof. exact split_halves. Qed.
Print Assumptions C16_halves_in_range.

Example C16_nonvacuous : split_int64 (-1) = (0xFFFFFFFF, 0xFFFFFFFF) /\ split_int64 0x123456789A = (0x12, 0x3456789A).
Proof. vm_compute. repeat split. Qed.

(** ** C52: the encoders stay inside the buffer they reserve *)

Theorem C52_encoders_fit : forall s, bytes_ok s ->
  Z.of_nat (length (xml_encode s)) <= xml_reqsize s /\
  Z.of_nat (length (json_encode s)) <= json_reqsize s /\
  Z.of_nat (length (url_encode s)) <= url_reqsize s /\
  (length (latin1_to_utf8 s) <= 2 * length s)%nat.
Proof.
  intros s H. split; [apply xml_encode_size, H|]. split; [apply json_encode_size, H|].
  split; [apply url_encode_size | apply latin1_size].
Qed.
Print Assumptions C52_encoders_fit.

Example C52_nonvacuous : bytes_ok [200; 60; 5] /\ xml_reqsize [200; 60; 5] = 27.
Proof. split; [each | vm_compute; reflexivity]. Qed.

(** ** C53: Latin-1 to UTF-8 *)

Theorem C53_latin1 : forall s, bytes_ok s -> latin1_to_utf8 s = utf8s s.
Proof. exact latin1_ok. Qed.
Print Assumptions C53_latin1.

Example C53_nonvacuous : bytes_ok [0xFF; 0xC0; 0x80; 65] /\ latin1_to_utf8 [0xFF; 0x80; 65] = [0xC3; 0xBF; 0xC2; 0x80; 65].
Proof. split; [each | vm_compute; reflexivity]. Qed.
