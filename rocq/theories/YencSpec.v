(** Byte-at-a-time description of yEnc decoding of a dot-stuffed article body.
    This is the specification: one byte of look-behind state, no buffers. *)
From Verif Require Import Base YencModel.

(** What one byte does: emitted bytes, next state, end code. *)
Definition ystep (st : ystate) (c : Z) : list Z * ystate * Z :=
  let plain :=
    if c =? 13 then ([], S_CR, 0)
    else if c =? 10 then ([], S_NONE, 0)
    else if c =? 61 then ([], S_EQ, 0)
    else ([(c - 42) mod 256], S_NONE, 0) in
  let escaped := ([(c - 106) mod 256], if c =? 13 then S_CR else S_NONE, 0) in
  match st with
  | S_NONE => plain
  | S_CR => if c =? 10 then ([], S_CRLF, 0) else plain
  | S_CRLF => if c =? 46 then ([], S_CRLFDT, 0)
              else if c =? 61 then ([], S_CRLFEQ, 0) else plain
  | S_CRLFDT => if c =? 13 then ([], S_CRLFDTCR, 0)
                else if c =? 61 then ([], S_CRLFEQ, 0) else plain
  | S_CRLFDTCR => if c =? 10 then ([], S_CRLF, 2) else plain
  | S_EQ => escaped
  | S_CRLFEQ => if c =? 121 then ([], S_NONE, 1) else escaped
  end.

(** Running over a stream: stops at the first end sequence. Result: end code,
    decoded bytes, state, unread bytes. *)
Fixpoint yrun (st : ystate) (l : list Z) : dres :=
  match l with
  | [] => mkD 0 [] st []
  | c :: t =>
    let '(o, st', e) := ystep st c in
    if e =? 0 then
      let r := yrun st' t in
      mkD (d_code r) (o ++ d_out r) (d_state r) (d_rest r)
    else mkD e o st' t
  end.

(** Feeding chunks one after the other, as the downloader does: stop at the
    first chunk that reports an end sequence; the unread input is what is left
    of that chunk followed by the later chunks. *)
Fixpoint feed (st : ystate) (chunks : list (list Z)) : dres :=
  match chunks with
  | [] => mkD 0 [] st []
  | c :: cs =>
    let r := decode_scalar st c in
    if d_code r =? 0 then
      let r' := feed (d_state r) cs in
      mkD (d_code r') (d_out r ++ d_out r') (d_state r') (d_rest r')
    else mkD (d_code r) (d_out r) (d_state r) (d_rest r ++ concat cs)
  end.
