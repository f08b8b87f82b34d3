(** Model of the text encoders and decoders of daemon/util/Util.cpp
    ([WebUtil]). Strings are the bytes before the NUL, bytes are unsigned. *)
From Coq Require Import String.
From Verif Require Import Base NumFmt.

(** ** Encoders *)

(** daemon/util/Util.cpp:791-817 (XmlEncode) and 1078-1104 (JsonEncode): the
    UTF-8 reader. [ch] is the current byte, [rest] the bytes after it. Result
    [None]: the string ended inside a sequence ("goto BreakLoop"). *)
Definition utf_next (ch : Z) (rest : list Z) : option (Z * list Z) :=
  let cont b := Z.land b 0xc0 =? 0x80 in
  let p1 := match rest with b :: _ => b | [] => 0 end in
  if (Z.shiftr ch 5 =? 0x6) && cont p1 then
    match rest with
    | b :: r => Some (Z.land (Z.shiftl ch 6) 0x7ff + Z.land b 0x3f, r)
    | [] => None
    end
  else if (Z.shiftr ch 4 =? 0xe) && cont p1 then
    match rest with
    | b :: c :: r => Some (Z.land (Z.shiftl ch 12) 0xffff + Z.land (Z.shiftl b 6) 0xfff
                           + Z.land c 0x3f, r)
    | _ => None
    end
  else if (Z.shiftr ch 3 =? 0x1e) && cont p1 then
    match rest with
    | b :: c :: d :: r => Some (Z.land (Z.shiftl ch 18) 0x1fffff + Z.land (Z.shiftl b 12) 0x3ffff
                                + Z.land (Z.shiftl c 6) 0xfff + Z.land d 0x3f, r)
    | _ => None
    end
  else Some (ch, rest).

(** printf "%04x" for values below 2^16 and "%06x" for values below 2^24. *)
Definition hex4 (n : Z) : list Z :=
  [hexdigit (n / 2^12 mod 16); hexdigit (n / 2^8 mod 16); hexdigit (n / 2^4 mod 16); hexdigit (n mod 16)].
Definition hex6 (n : Z) : list Z :=
  [hexdigit (n / 2^20 mod 16); hexdigit (n / 2^16 mod 16)] ++ hex4 n.

(** daemon/util/Util.cpp:820-823. *)
Definition xml_char (cp : Z) : bool :=
  (cp =? 0x9) || (cp =? 0xA) || (cp =? 0xD) || ((0x20 <=? cp) && (cp <=? 0xD7FF))
  || ((0xE000 <=? cp) && (cp <=? 0xFFFD)) || ((0x10000 <=? cp) && (cp <=? 0x10FFFF)).

(** daemon/util/Util.cpp:763-851, [XmlEncode] (the copy loop). The fuel is the
    length of the string. *)
Fixpoint xml_encode_go (fuel : nat) (s : list Z) : list Z :=
  match fuel, s with
  | S f, ch :: rest =>
    if ch =? 60 then str "&lt;" ++ xml_encode_go f rest
    else if ch =? 62 then str "&gt;" ++ xml_encode_go f rest
    else if ch =? 38 then str "&amp;" ++ xml_encode_go f rest
    else if ch =? 39 then str "&apos;" ++ xml_encode_go f rest
    else if ch =? 34 then str "&quot;" ++ xml_encode_go f rest
    else if (ch <? 0x20) || (0x80 <? ch) then
      match utf_next ch rest with
      | None => []
      | Some (cp, r) =>
        (if xml_char cp then str "&#x" ++ hex6 cp ++ [59] else [46]) ++ xml_encode_go f r
      end
    else ch :: xml_encode_go f rest
  | _, _ => []
  end.
Definition xml_encode (s : list Z) : list Z := xml_encode_go (length s) s.

(** daemon/util/Util.cpp:735-761: the size reserved for the result. *)
Fixpoint xml_reqsize (s : list Z) : Z :=
  match s with
  | [] => 0
  | ch :: t =>
    1 + (if (ch =? 62) || (ch =? 60) then 4 else if ch =? 38 then 5
         else if (ch =? 39) || (ch =? 34) then 6
         else if (ch <? 0x20) || (0x80 <=? ch) then 10 else 0) + xml_reqsize t
  end.

(** daemon/util/Util.cpp:1034-1125, [JsonEncode] (the copy loop). *)
Fixpoint json_encode_go (fuel : nat) (s : list Z) : list Z :=
  match fuel, s with
  | S f, ch :: rest =>
    let esc c := 92 :: c :: json_encode_go f rest in
    if ch =? 34 then esc 34 else if ch =? 92 then esc 92 else if ch =? 47 then esc 47
    else if ch =? 8 then esc 98 else if ch =? 12 then esc 102 else if ch =? 10 then esc 110
    else if ch =? 13 then esc 114 else if ch =? 9 then esc 116
    else if (ch <? 0x20) || (0x80 <? ch) then
      match utf_next ch rest with
      | None => []
      | Some (cp, r) =>
        92 :: 117 :: hex4 (if cp <=? 0xFFFF then cp else 46) ++ json_encode_go f r
      end
    else ch :: json_encode_go f rest
  | _, _ => []
  end.
Definition json_encode (s : list Z) : list Z := json_encode_go (length s) s.

(** daemon/util/Util.cpp:1008-1032: the size reserved for the result. *)
Fixpoint json_reqsize (s : list Z) : Z :=
  match s with
  | [] => 0
  | ch :: t =>
    1 + (if (ch =? 34) || (ch =? 92) || (ch =? 47) || (ch =? 8) || (ch =? 12) || (ch =? 10)
            || (ch =? 13) || (ch =? 9) then 1
         else if (ch <? 0x20) || (0x80 <=? ch) then 6 else 0) + json_reqsize t
  end.

(** daemon/util/Util.cpp:1298-1335, [UrlEncode], and the size it reserves. *)
Fixpoint url_encode (s : list Z) : list Z :=
  match s with
  | [] => []
  | ch :: t => if ch =? 32 then str "%20" ++ url_encode t else ch :: url_encode t
  end.
Fixpoint url_reqsize (s : list Z) : Z :=
  match s with [] => 0 | ch :: t => 1 + (if ch =? 32 then 3 else 0) + url_reqsize t end.

(** daemon/util/Util.cpp:1337-1357, [Latin1ToUtf8]. *)
Fixpoint latin1_to_utf8 (s : list Z) : list Z :=
  match s with
  | [] => []
  | ch :: t =>
    if ch <? 128 then ch :: latin1_to_utf8 t
    else (0xc2 + (if 0xbf <? ch then 1 else 0)) :: (Z.land ch 0x3f + 0x80) :: latin1_to_utf8 t
  end.

(** ** In-place decoders

    Each decoder is a loop over a read pointer [p] and a write pointer
    [output] in the same buffer. One iteration is a function of the C string at
    [p]: stop, write some bytes and advance [p], or undefined behaviour. *)
Inductive sres := SStop | SOut (out : list Z) (k : nat) | SUB.

(** [strtol(s, nullptr, 16)] on a 64-bit long. *)
Definition strtol16 (l : list Z) : Z :=
  let s := skip_space l in
  let '(neg, s1) := match s with
                    | c :: t => if c =? 45 then (true, t)
                                else if c =? 43 then (false, t) else (false, s)
                    | [] => (false, s) end in
  let s2 := match s1 with
            | z :: x :: c :: t =>
              if (z =? 48) && ((x =? 120) || (x =? 88)) && match hexval c with Some _ => true | None => false end
              then c :: t else s1
            | _ => s1 end in
  let v := phex 0 s2 in
  if neg then Z.max (- v) (- 2 ^ 63) else Z.min v (2 ^ 63 - 1).

(** Length of the leading run of digits and semicolons. *)
Fixpoint ent_run (l : list Z) : nat :=
  match l with
  | c :: t => if is_digit c || (c =? 59) then S (ent_run t) else O
  | [] => O
  end.

(** daemon/util/Util.cpp:854-913, [XmlDecode]. At line 896 [strchr] also finds
    the terminating NUL, so the loop runs past the end of the string when the
    entity is the end of the string. *)
Definition xml_step (s : list Z) : sres :=
  match s with
  | [] => SStop
  | c :: t =>
    if c =? 38 then
      if prefixb (str "lt;") t then SOut [60] 4
      else if prefixb (str "gt;") t then SOut [62] 4
      else if prefixb (str "amp;") t then SOut [38] 5
      else if prefixb (str "apos;") t then SOut [39] 6
      else if prefixb (str "quot;") t then SOut [34] 6
      else match t with
        | [] => SUB                       (* copies the NUL and steps over it *)
        | d :: u =>
          if d =? 35 then
            let n := ent_run u in
            if (n =? length u)%nat then SUB
            else SOut [atoll u mod 256] (2 + n)
          else SOut [c; d] 2
        end
    else SOut [c] 1
  end.

(** daemon/util/Util.cpp:1127-1185, [JsonDecode]. *)
Definition json_step (s : list Z) : sres :=
  match s with
  | [] => SStop
  | c :: t =>
    if c =? 92 then
      match t with
      | [] => SUB                          (* copies the NUL and steps over it *)
      | d :: u =>
        if d =? 98 then SOut [8] 2 else if d =? 102 then SOut [12] 2
        else if d =? 110 then SOut [10] 2 else if d =? 114 then SOut [13] 2
        else if d =? 116 then SOut [9] 2
        else if d =? 117 then
          if (length u <? 4)%nat then SUB else SOut [strtol16 u mod 256] 6
        else SOut [d] 2
      end
    else SOut [c] 1
  end.

(** daemon/util/Util.cpp:1266-1296, [UrlDecode]. *)
Definition url_hex (c : Z) : Z := match hexval c with Some v => v | None => 0 end.
Definition url_step (s : list Z) : sres :=
  match s with
  | [] => SStop
  | c :: t =>
    if c =? 37 then
      match t with
      | a :: b :: _ => SOut [(url_hex a * 16 + url_hex b) mod 256] 3
      | _ => SUB
      end
    else SOut [c] 1
  end.

(** Length of the leading run of letters, digits and '#' ([isalpha] in the "C"
    locale). *)
Definition is_alpha (c : Z) : bool := ((65 <=? c) && (c <=? 90)) || ((97 <=? c) && (c <=? 122)).
Fixpoint name_run (l : list Z) : nat :=
  match l with
  | c :: t => if is_alpha c || is_digit c || (c =? 35) then S (name_run t) else O
  | [] => O
  end.

(** daemon/util/Util.cpp:972-1004, [XmlRemoveEntities]; [strchr] at line 983 again
    finds the NUL. *)
Definition ent_step (s : list Z) : sres :=
  match s with
  | [] => SStop
  | c :: t =>
    if c =? 38 then
      let n := name_run t in
      match skipn n t with
      | [] => SUB
      | e :: _ => if e =? 59 then SOut [32] (n + 2) else SOut [c] 1
      end
    else SOut [c] 1
  end.

(** daemon/util/Util.cpp:1237-1264, [HttpUnquote], the loop after the opening
    quote. A backslash copies the next byte but does not step over it. When the
    backslash is last, the NUL is copied. *)
Definition unq_step (s : list Z) : sres :=
  match s with
  | [] => SStop
  | c :: t =>
    if c =? 34 then SStop
    else if c =? 92 then SOut [match t with d :: _ => d | [] => 0 end] 1
    else SOut [c] 1
  end.

(** The C string in a buffer. *)
Fixpoint c_string (l : list Z) : list Z :=
  match l with
  | [] => []
  | c :: t => if c =? 0 then [] else c :: c_string t
  end.

Fixpoint has_nul (l : list Z) : bool :=
  match l with [] => false | c :: t => (c =? 0) || has_nul t end.

(** Writing bytes at an index. *)
Definition write_at (mem : list Z) (o : nat) (bs : list Z) : list Z :=
  firstn o mem ++ bs ++ skipn (o + length bs) mem.

(** The loop on the memory itself. [None]: undefined behaviour (a read at or
    past a position where no NUL follows inside the buffer, [SUB]) or fuel exhausted. *)
Fixpoint inplace (step : list Z -> sres) (fuel : nat) (mem : list Z) (p o : nat) : option (list Z) :=
  match fuel with
  | O => None
  | S f =>
    if negb (has_nul (skipn p mem)) then None else
    match step (c_string (skipn p mem)) with
    | SUB => None
    | SStop => Some (write_at mem o [0])
    | SOut out k => inplace step f (write_at mem o out) (p + k) (o + length out)
    end
  end.

(** The same loop as a pure function of the string. *)
Fixpoint decode (step : list Z -> sres) (fuel : nat) (s : list Z) : option (list Z) :=
  match fuel with
  | O => None
  | S f =>
    match step s with
    | SUB => None
    | SStop => Some []
    | SOut out k =>
      match decode step f (skipn k s) with Some r => Some (out ++ r) | None => None end
    end
  end.

Definition xml_decode (s : list Z) : option (list Z) := decode xml_step (S (length s)) s.
Definition json_decode (s : list Z) : option (list Z) := decode json_step (S (length s)) s.
Definition url_decode (s : list Z) : option (list Z) := decode url_step (S (length s)) s.
Definition remove_entities (s : list Z) : option (list Z) := decode ent_step (S (length s)) s.
Definition http_unquote (s : list Z) : option (list Z) :=
  match s with
  | c :: t => if c =? 34 then decode unq_step (S (length t)) t else Some s
  | [] => Some s
  end.

(** ** JSON value scanner *)

(** daemon/util/Util.cpp:1199-1235, [JsonNextValue]. Result: start offset and length. *)
Definition json_ws (c : Z) : bool :=
  (c =? 32) || (c =? 44) || (c =? 91) || (c =? 123) || (c =? 58) || (c =? 13) || (c =? 10)
  || (c =? 9) || (c =? 12).
Definition json_delim (c : Z) : bool :=
  (c =? 32) || (c =? 44) || (c =? 93) || (c =? 125) || (c =? 13) || (c =? 10) || (c =? 9) || (c =? 12).

Fixpoint skip_ws (l : list Z) (n : Z) : list Z * Z :=
  match l with
  | c :: t => if json_ws c then skip_ws t (n + 1) else (l, n)
  | [] => ([], n)
  end.

(** The loop at lines 1215-1231: [l] is the string at [pend], [n] = [pend - pstart];
    [ch] is the head of [l]. [None]: nullptr. *)
Fixpoint json_scan (fuel : nat) (isstr : bool) (l : list Z) (n : Z) : option Z :=
  match fuel with
  | O => None
  | S f =>
    match l with
    | [] => Some n
    | c0 :: t0 =>
      let next l' n' :=
        match l' with
        | [] => Some n'
        | c :: t =>
          if isstr && (c =? 34) then Some (n' + 1)
          else if negb isstr && json_delim c then Some n'
          else json_scan f isstr t (n' + 1)
        end in
      if c0 =? 92 then
        match t0 with
        | _ :: ((_ :: _) as t2) => next t2 (n + 2)
        | _ => None
        end
      else next l n
    end
  end.

Definition json_next_value (l : list Z) : option (Z * Z) :=
  let '(s, n) := skip_ws l 0 in
  match s with
  | [] => None
  | c :: t =>
    let r := if c =? 34 then json_scan (S (length t)) true t 1
             else json_scan (S (length s)) false s 0 in
    match r with Some len => Some (n, len) | None => None end
  end.

(** ** Base64 *)

(** daemon/util/Util.cpp:143-158, BASE64_DEALPHABET. *)
Definition b64_tab : list Z :=
  [0;0;0;0;0;0;0;0;0;0; 0;0;0;0;0;0;0;0;0;0; 0;0;0;0;0;0;0;0;0;0; 0;0;0;0;0;0;0;0;0;0;
   0;0;0;62;0;0;0;63;52;53; 54;55;56;57;58;59;60;61;0;0; 0;61;0;0;0;0;1;2;3;4;
   5;6;7;8;9;10;11;12;13;14; 15;16;17;18;19;20;21;22;23;24; 25;0;0;0;0;0;0;26;27;28;
   29;30;31;32;33;34;35;36;37;38; 39;40;41;42;43;44;45;46;47;48; 49;50;51;0;0;0;0;0].
Definition b64_val (c : Z) : Z := nth (Z.to_nat c) b64_tab 0.

(** daemon/util/Util.cpp:160-205, [DecodeByteQuartet]; [uint32] arithmetic. *)
Definition u32w (x : Z) : Z := x mod 2 ^ 32.
Definition b64_quartet (a b c d : Z) : list Z :=
  let sh x n := u32w (Z.shiftl x n) in
  let byte x n := Z.shiftr x n mod 256 in
  if d =? 61 then
    if c =? 61 then
      let x := sh (Z.lor 0 (b64_val a)) 6 in
      let x := sh (Z.lor x (b64_val b)) 6 in
      let x := sh x 14 in
      [byte x 24]
    else
      let x := sh (Z.lor 0 (b64_val a)) 6 in
      let x := sh (Z.lor x (b64_val b)) 6 in
      let x := sh (Z.lor x (b64_val c)) 6 in
      let x := sh x 8 in
      [byte x 24; byte x 16]
  else
    let x := sh (Z.lor 0 (b64_val a)) 6 in
    let x := sh (Z.lor x (b64_val b)) 6 in
    let x := sh (Z.lor x (b64_val c)) 6 in
    let x := sh (Z.lor x (b64_val d)) 6 in
    let x := sh x 2 in
    [byte x 24; byte x 16; byte x 8].

(** daemon/util/Util.cpp:704-712: accepted characters. *)
Definition b64_char (c : Z) : bool :=
  ((48 <=? c) && (c <=? 57)) || ((65 <=? c) && (c <=? 90)) || ((97 <=? c) && (c <=? 122))
  || (c =? 43) || (c =? 47) || (c =? 61).

(** daemon/util/Util.cpp:694-727, [DecodeBase64]; [q] is ByteQuartet reversed. *)
Fixpoint b64_go (q : list Z) (l : list Z) : list Z :=
  match l with
  | [] => []
  | c :: t =>
    if b64_char c then
      match q with
      | [z; y; x] => b64_quartet x y z c ++ b64_go [] t
      | _ => b64_go (c :: q) t
      end
    else b64_go q t
  end.
Definition decode_base64 (l : list Z) : list Z := b64_go [] l.

(** ** 64-bit split and join *)

(** daemon/util/Util.cpp:128-137. [int64] values are in [-2^63, 2^63). *)
Definition to_int64 (x : Z) : Z := (x + 2 ^ 63) mod 2 ^ 64 - 2 ^ 63.
Definition join_int64 (hi lo : Z) : Z := to_int64 (Z.shiftl hi 32 + lo).
Definition split_int64 (x : Z) : Z * Z :=
  (Z.shiftr x 32 mod 2 ^ 32, Z.land (x mod 2 ^ 64) 0xFFFFFFFF).
