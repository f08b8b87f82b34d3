(** Model of daemon/nntp/Decoder.cpp: the article decoder. *)
From Coq Require Import String.
From Verif Require Import Base NumFmt YencModel CrcModel.

(** daemon/nntp/Decoder.h:40-45, [EFormat]. *)
Inductive efmt := efUnknown | efYenc | efUx.

(** daemon/nntp/Decoder.h:30-38, [EStatus]. *)
Inductive dstatus := dsUnknownError | dsFinished | dsArticleIncomplete | dsCrcError
  | dsInvalidSize | dsNoBinaryData.

(** daemon/nntp/Decoder.h:63-83, the fields of [Decoder] (the raw mode is
    modelled separately by [process_raw]). The article file name is kept as the raw
    bytes; its conversion with [Latin1ToUtf8] is not modelled. [m_lineBuf] is the
    content up to [m_length]; the byte after it is the NUL written by [Append].
    [m_crc] is called [hascrc]. *)
Record dec := mkDec {
  fmt : efmt; mbegin : bool; mpart : bool; mbody : bool; mend : bool; hascrc : bool;
  expcrc : Z; beginpos : Z; endpos : Z; msize : Z; endsize : Z; outsize : Z;
  meof : bool; crccheck : bool; yst : ystate; crcreg : Z;
  fname : list Z; linebuf : list Z }.

(** daemon/nntp/Decoder.cpp:27-55: constructor / [Clear] on a new object, then
    [SetCrcCheck]. *)
Definition dec_init (cc : bool) : dec :=
  mkDec efUnknown false false false false false 0 0 0 0 0 0 false cc S_CRLF crc_init [] [].

(** daemon/nntp/Decoder.cpp:35-55, [Clear]: [m_format] is not reset. *)
Definition dec_clear (d : dec) : dec :=
  mkDec (fmt d) false false false false false 0 0 0 0 0 0 false false S_CRLF crc_init [] [].

Definition set_fmt d f := mkDec f (mbegin d) (mpart d) (mbody d) (mend d) (hascrc d)
  (expcrc d) (beginpos d) (endpos d) (msize d) (endsize d) (outsize d) (meof d) (crccheck d)
  (yst d) (crcreg d) (fname d) (linebuf d).
Definition set_linebuf d l := mkDec (fmt d) (mbegin d) (mpart d) (mbody d) (mend d) (hascrc d)
  (expcrc d) (beginpos d) (endpos d) (msize d) (endsize d) (outsize d) (meof d) (crccheck d)
  (yst d) (crcreg d) (fname d) l.
Definition set_eof d := mkDec (fmt d) (mbegin d) (mpart d) (mbody d) (mend d) (hascrc d)
  (expcrc d) (beginpos d) (endpos d) (msize d) (endsize d) (outsize d) true (crccheck d)
  (yst d) (crcreg d) (fname d) (linebuf d).

(** A C string in a buffer ends at the first NUL. *)
Fixpoint cstr (l : list Z) : list Z :=
  match l with
  | [] => []
  | c :: t => if c =? 0 then [] else c :: cstr t
  end.

(** [strncpy(dst, src, len)]: bytes up to the first NUL, then zeros. *)
Fixpoint strncpy_pad (l : list Z) : list Z :=
  match l with
  | [] => []
  | c :: t => if c =? 0 then map (fun _ => 0) l else c :: strncpy_pad t
  end.

(** daemon/util/NString.cpp:356-370, [StringBuilder::Append] with [len > 0]. *)
Definition append_buf (buf l : list Z) : list Z := buf ++ strncpy_pad l.

(** [strchr(line, '\n')]: the line including the LF and the bytes after it. *)
Fixpoint find_nl (l : list Z) : option (list Z * list Z) :=
  match l with
  | [] => None
  | c :: t =>
    if c =? 10 then Some ([c], t)
    else if c =? 0 then None
    else match find_nl t with Some (a, b) => Some (c :: a, b) | None => None end
  end.

(** Bytes up to NUL, LF or CR (the file name loops, lines 184 and 339). *)
Fixpoint upto_eol (l : list Z) : list Z :=
  match l with
  | [] => []
  | c :: t => if (c =? 0) || (c =? 10) || (c =? 13) then [] else c :: upto_eol t
  end.

(** daemon/nntp/Decoder.cpp:154-168: file mode of a "begin" line. *)
Fixpoint octal_mode (l : list Z) : bool :=
  match l with
  | [] => true
  | c :: t => if c =? 32 then true
              else if (c <? 48) || (55 <? c) then false else octal_mode t
  end.

(** daemon/nntp/Decoder.cpp:140-172, [DetectFormat]; [s] is the C string
    starting at the line (it is not cut at the end of the line), [len] the
    length of the line. *)
Definition detect_format (s : list Z) (len : Z) : efmt :=
  if prefixb (str "=ybegin ") s then efYenc
  else if ((len =? 62) || (len =? 63)) && ((nth 62 s 0 =? 10) || (nth 62 s 0 =? 13))
          && (nth 0 s 0 =? 77) then efUx
  else if prefixb (str "begin ") s && octal_mode (skipn 6 s) then efUx
  else efUnknown.

Definition is_some {A} (o : option A) : bool := match o with Some _ => true | None => false end.

(** daemon/nntp/Decoder.cpp:174-235, [ProcessYenc]. [s] is the C string that
    starts at the line; [strstr] therefore searches beyond the end of the line. *)
Definition process_yenc (d : dec) (s : list Z) : dec :=
  if prefixb (str "=ybegin ") s then
    let fn := match strstr s (str " name=") with
              | Some pb => upto_eol (skipn 6 pb) | None => fname d end in
    let sz := match strstr s (str " size=") with
              | Some pb => atoll (skipn 6 pb) | None => msize d end in
    let part := is_some (strstr s (str " part=")) in
    mkDec (fmt d) true part (if part then mbody d else true) (mend d) (hascrc d) (expcrc d)
      (if part then beginpos d else 1) (if part then endpos d else sz) sz (endsize d)
      (outsize d) (meof d) (crccheck d) (yst d) (crcreg d) fn (linebuf d)
  else if prefixb (str "=ypart ") s then
    let bp := match strstr s (str " begin=") with
              | Some pb => atoll (skipn 7 pb) | None => beginpos d end in
    let ep := match strstr s (str " end=") with
              | Some pb => atoll (skipn 5 pb) | None => endpos d end in
    mkDec (fmt d) (mbegin d) true true (mend d) (hascrc d) (expcrc d)
      bp ep (msize d) (endsize d)
      (outsize d) (meof d) (crccheck d) (yst d) (crcreg d) (fname d) (linebuf d)
  else if prefixb (str "=yend ") s then
    let '(hc, ec) :=
      match strstr s (if mpart d then str " pcrc32=" else str " crc32=") with
      | Some pb => (true, strtoul16 (skipn (if mpart d then 8 else 7) pb) mod 2 ^ 32)
      | None => (hascrc d, expcrc d) end in
    let es := match strstr s (str " size=") with
              | Some pb => atoll (skipn 6 pb) | None => endsize d end in
    mkDec (fmt d) (mbegin d) (mpart d) (mbody d) true hc ec
      (beginpos d) (endpos d) (msize d) es
      (outsize d) (meof d) (crccheck d) (yst d) (crcreg d) (fname d) (linebuf d)
  else d.

(** daemon/nntp/Decoder.cpp:237-270, [DecodeYenc]; [src] are the [len] bytes at
    [buffer]. Result: new state and the bytes written to [outbuf]. The buffer
    alignment passed to the CRC is 0 (irrelevant, see C03). When [src] lies inside
    [m_lineBuf] the final [Append] copies between overlapping areas downwards;
    it is modelled as an ordinary copy. *)
Definition decode_yenc (d : dec) (src : list Z) : dec * list Z :=
  let r := decode_scalar (yst d) src in
  let out := d_out r in
  let ended := negb (d_code r =? 0) in
  let lb := if ended then
              let base := if d_code r =? 1 then [61; 121] else [46; 13; 10] in
              match d_rest r with [] => base | _ => append_buf base (d_rest r) end
            else linebuf d in
  (mkDec (fmt d) (mbegin d) (mpart d) (if ended then false else mbody d) (mend d) (hascrc d)
     (expcrc d) (beginpos d) (endpos d) (msize d) (endsize d)
     (outsize d + Z.of_nat (length out)) (meof d) (crccheck d) (d_state r)
     (if crccheck d then crc_slice 0 (crcreg d) out else crcreg d) (fname d) lb,
   out).

(** daemon/nntp/Decoder.cpp:322, [UU_DECODE_CHAR]. *)
Definition uu_char (c : Z) : Z := if c =? 96 then 0 else (c - 32) mod 64.

(** daemon/nntp/Decoder.cpp:324-389, [DecodeUx]: flags and the returned length.
    The decoded bytes are written over the line itself, inside [m_lineBuf], and
    never read again, so they are not part of the model state. *)
Definition decode_ux (d : dec) (s : list Z) (len : Z) : dec * Z :=
  let setbody d := mkDec (fmt d) (mbegin d) (mpart d) true (mend d) (hascrc d)
      (expcrc d) (beginpos d) (endpos d) (msize d) (endsize d) (outsize d) (meof d) (crccheck d)
      (yst d) (crcreg d) (fname d) (linebuf d) in
  if negb (mbody d) && prefixb (str "begin ") s then
    let fix skipmode l := match l with
        | [] => []
        | c :: t => if (c =? 32) || (c =? 10) || (c =? 13) then t else skipmode t end in
    let d1 := setbody d in
    (mkDec (fmt d1) (mbegin d1) (mpart d1) (mbody d1) (mend d1) (hascrc d1)
      (expcrc d1) (beginpos d1) (endpos d1) (msize d1) (endsize d1) (outsize d1) (meof d1)
      (crccheck d1) (yst d1) (crcreg d1) (upto_eol (skipmode (skipn 6 s))) (linebuf d1), 0)
  else
    let d1 := if negb (mbody d) && ((len =? 62) || (len =? 63))
                 && ((nth 62 s 0 =? 10) || (nth 62 s 0 =? 13)) && (nth 0 s 0 =? 77)
              then setbody d else d in
    let d2 := if mbody d1 && (prefixb (str "end ") s || (nth 0 s 0 =? 96)) then
                mkDec (fmt d1) (mbegin d1) (mpart d1) (mbody d1) true (hascrc d1)
      (expcrc d1) (beginpos d1) (endpos d1) (msize d1) (endsize d1) (outsize d1) (meof d1)
      (crccheck d1) (yst d1) (crcreg d1) (fname d1) (linebuf d1)
              else d1 in
    if mbody d2 && negb (mend d2) then
      let eff := uu_char (nth 0 s 0) in
      (d2, if len <? eff then 0 else eff)
    else (d2, 0).

(** [DecodeBuffer] result: new state, returned length, content of the caller's
    buffer afterwards. [db_segs] is a ghost: the byte runs produced by the
    successive [DecodeYenc] calls. [db_ok = false] only if the fuel ran out. *)
Record dbres := mkDB { db_dec : dec; db_len : Z; db_buf : list Z; db_segs : list (list Z); db_ok : bool }.

Definition overwrite (buf out : list Z) : list Z := out ++ skipn (length out) buf.

(** daemon/nntp/Decoder.cpp:86-137: the line loop of [DecodeBuffer]; [line] is
    the part of [m_lineBuf] from the pointer [line] on. Line 108 assigns
    (does not add) [outlen] and writes at the start of [buffer]. *)
Fixpoint line_loop (fuel : nat) (d : dec) (line : list Z) (outlen : Z) (buf : list Z)
    (segs : list (list Z)) : dbres :=
  match fuel with
  | O => mkDB d outlen buf segs false
  | S f =>
    match find_nl line with
    | None =>
      match cstr line with
      | [] => mkDB (set_linebuf d []) outlen buf segs true
      | _ => mkDB (set_linebuf d line) outlen buf segs true
      end
    | Some (l, rest) =>
      let s := cstr line in
      if (nth 0 s 0 =? 46) && (nth 1 s 0 =? 13) then
        mkDB (set_linebuf (set_eof d) []) outlen buf segs true
      else
        let len := Z.of_nat (length l) in
        let d1 := match fmt d with efUnknown => set_fmt d (detect_format s len) | _ => d end in
        match fmt d1 with
        | efYenc =>
          let d2 := process_yenc d1 s in
          if mbody d2 then
            let '(d3, out) := decode_yenc d2 rest in
            let outlen' := Z.of_nat (length out) in
            let buf' := overwrite buf out in
            if mbody d3 then mkDB (set_linebuf d3 []) outlen' buf' (segs ++ [out]) true
            else line_loop f d3 (linebuf d3) outlen' buf' (segs ++ [out])
          else line_loop f d2 rest outlen buf segs
        | efUx =>
          let '(d2, n) := decode_ux d1 s len in
          line_loop f d2 rest (outlen + n) buf segs
        | efUnknown => line_loop f d1 rest outlen buf segs
        end
    end
  end.

(** daemon/nntp/Decoder.cpp:63-138, [DecodeBuffer] for a non-empty buffer, not in
    raw mode. *)
Definition decode_buffer (d : dec) (buffer : list Z) : dbres :=
  if mbody d && match fmt d with efYenc => true | _ => false end then
    let '(d1, out) := decode_yenc d buffer in
    let n := Z.of_nat (length out) in
    let buf := overwrite buffer out in
    if mbody d1 then mkDB d1 n buf [out] true
    else line_loop (S (length (linebuf d1))) d1 (linebuf d1) n buf [out]
  else
    let lb := append_buf (linebuf d) buffer in
    line_loop (S (length lb)) (set_linebuf d lb) lb 0 buffer [].

(** daemon/nntp/ArticleDownloader.cpp:340-388: the download loop. Each received
    buffer is decoded; the first [len] bytes of the buffer are written; the loop
    ends at EOF. Result: decoder, written bytes, decoded runs (ghost), fuel flag. *)
Fixpoint download (d : dec) (chunks : list (list Z)) : dec * list Z * list (list Z) * bool :=
  if meof d then (d, [], [], true) else
  match chunks with
  | [] => (d, [], [], true)
  | c :: cs =>
    let r := decode_buffer d c in
    let w := firstn (Z.to_nat (db_len r)) (db_buf r) in
    let '(d', ws, ss, ok) := download (db_dec r) cs in
    (d', w ++ ws, db_segs r ++ ss, db_ok r && ok)
  end.

(** daemon/nntp/Decoder.cpp:272-312 and 391-399, [Check], [CheckYenc], [CheckUx]. *)
Definition check (d : dec) : dstatus :=
  match fmt d with
  | efYenc =>
    if negb (mbegin d) then dsNoBinaryData
    else if negb (mend d) then dsArticleIncomplete
    else if (negb (mpart d) && negb (msize d =? endsize d)) || negb (endsize d =? outsize d)
    then dsInvalidSize
    else if crccheck d && hascrc d && negb (expcrc d =? crc_finish (crcreg d)) then dsCrcError
    else dsFinished
  | efUx => if mbody d then dsFinished else dsNoBinaryData
  | efUnknown => dsUnknownError
  end.

(** daemon/nntp/Decoder.cpp:401-446, [ProcessRaw]: EOF detection in raw mode.
    State: ([m_state], [m_eof]); [strstr] stops at the first NUL of the buffer
    (the buffer is assumed to be followed by a NUL). *)
Definition process_raw (st : Z * bool) (b : list Z) : Z * bool :=
  let '(s, eof) := st in
  let len := Z.of_nat (length b) in
  let e1 :=
    if s =? 1 then (4 <=? len) && beqb (firstn 4 b) [10; 46; 13; 10]
    else if s =? 2 then (3 <=? len) && beqb (firstn 3 b) [46; 13; 10]
    else if s =? 3 then (2 <=? len) && beqb (firstn 2 b) [13; 10]
    else if s =? 4 then (1 <=? len) && beqb (firstn 1 b) [10]
    else eof in
  let e2 := e1 || ((5 <=? len) && is_some (strstr (cstr b) [13; 10; 46; 13; 10])) in
  let tl n := skipn (length b - n) b in
  let s' :=
    if (4 <=? len) && beqb (tl 4%nat) [13; 10; 46; 13] then 4
    else if (3 <=? len) && beqb (tl 3%nat) [13; 10; 46] then 3
    else if (2 <=? len) && beqb (tl 2%nat) [13; 10] then 2
    else if (1 <=? len) && beqb (tl 1%nat) [13] then 1
    else 0 in
  (s', e2).

(** daemon/nserv/YEncoder.cpp:67-68, 127 and NntpServer.cpp:375: the article as
    sent by the test server for a segment [data] of a file of [filesize] bytes.
    [m_size] is the number of bytes read. *)
Definition article_head (part filesize offset : Z) (name : list Z) (size : Z) : list Z :=
  str "=ybegin part=" ++ zdec part ++ str " line=128 size=" ++ zdec filesize
    ++ str " name=" ++ name ++ [13; 10]
  ++ str "=ypart begin=" ++ zdec (offset + 1) ++ str " end=" ++ zdec (offset + size) ++ [13; 10].

Definition article_tail (size crc : Z) : list Z :=
  str "=yend size=" ++ zdec size ++ str " part=0 pcrc32=" ++ hex8 crc ++ [13; 10].

Definition article (part filesize offset : Z) (name data : list Z) : list Z :=
  article_head part filesize offset name (Z.of_nat (length data))
  ++ yenc_body data
  ++ article_tail (Z.of_nat (length data)) (crc_finish (crc_slice 0 crc_init data))
  ++ [46; 13; 10].
