(** Model of the yEnc encoder of the NServ test server and of the scalar yEnc
    decoder used by the downloader. *)
From Verif Require Import Base.

(** lib/yencode/YEncode.h:31-39, [YencDecoderState]; the default value 0 is
    [YDEC_STATE_CRLF]. *)
Inductive ystate :=
| S_CRLF | S_EQ | S_CR | S_NONE | S_CRLFDT | S_CRLFDTCR | S_CRLFEQ.

(** Result of one call of [decode_scalar]: return code (0 no end sequence, 1
    CR LF '=' 'y' found, 2 CR LF '.' CR LF found), the bytes written through
    [*dest], the new state and the bytes from the final [*src] on. *)
Record dres := mkD { d_code : Z; d_out : list Z; d_state : ystate; d_rest : list Z }.

(** [unsigned char] subtraction. *)
Definition sub8 (c k : Z) : Z := (c - k) mod 256.

(** lib/yencode/ScalarDecoder.cpp:166-206: the last two characters.  The
    position [es + i] of the C code is represented by the list of remaining
    bytes, so [i == -2] is "two bytes left".  [acc] is the output in reverse
    order. [state] is never NULL in nzbget (Decoder.cpp:242). *)
Definition ytail_last (rem : list Z) (acc : list Z) : dres :=
  match rem with
  | [c] =>                                               (* i == -1 *)
    if negb (c =? 10) && negb (c =? 13) && negb (c =? 61)
    then mkD 0 (rev (sub8 c 42 :: acc)) S_NONE []
    else if c =? 61 then mkD 0 (rev acc) S_EQ []
    else if c =? 13 then mkD 0 (rev acc) S_CR []
    else mkD 0 (rev acc) S_NONE []
  | _ => mkD 0 (rev acc) S_NONE []
  end.

Definition ytail (rem : list Z) (acc : list Z) : dres :=
  match rem with
  | [c; c1] =>                                           (* i == -2 *)
    if c =? 13 then
      if c1 =? 10 then mkD 0 (rev acc) S_CRLF []
      else ytail_last [c1] acc
    else if c =? 10 then ytail_last [c1] acc
    else if c =? 61 then
      if c1 =? 13 then ytail_last [c1] (sub8 c1 106 :: acc)
      else ytail_last [] (sub8 c1 106 :: acc)
    else ytail_last [c1] (sub8 c 42 :: acc)
  | _ => ytail_last rem acc
  end.

(** lib/yencode/ScalarDecoder.cpp:102-165: main loop, entered while at least
    three bytes are left. [fuel] is at least the number of remaining bytes;
    running out of fuel gives the impossible code [-1]. *)
Fixpoint yloop (fuel : nat) (rem : list Z) (acc : list Z) : dres :=
  match fuel with
  | O => mkD (-1) (rev acc) S_NONE rem
  | S f =>
    match rem with
    | c :: ((c1 :: ((c2 :: rest) as t2)) as t1) =>
      if c =? 13 then                                    (* '\r' *)
        if c1 =? 10 then                                 (* '\n' *)
          if c2 =? 46 then                               (* '.' *)
            match rest with                              (* i += 3 *)
            | [] => mkD 0 (rev acc) S_CRLFDT []
            | e :: r1 =>
              if e =? 13 then
                match r1 with
                | [] => mkD 0 (rev acc) S_CRLFDTCR []
                | e2 :: r2 =>
                  if e2 =? 10 then mkD 2 (rev acc) S_CRLF r2
                  else yloop f r1 acc                    (* i--; continue *)
                end
              else if e =? 61 then                       (* '=' *)
                match r1 with
                | [] => mkD 0 (rev acc) S_CRLFEQ []
                | e2 :: r2 =>
                  if e2 =? 121 then mkD 1 (rev acc) S_NONE r2
                  else yloop f (if e2 =? 13 then r1 else r2) (sub8 e2 106 :: acc)
                end
              else yloop f rest acc                      (* i--; continue *)
            end
          else if c2 =? 61 then
            match rest with
            | [] => mkD 0 (rev acc) S_CRLFEQ []
            | e :: r1 =>
              if e =? 121 then mkD 1 (rev acc) S_NONE r1
              else yloop f (if e =? 13 then rest else r1) (sub8 e 106 :: acc)
            end
          else yloop f t1 acc
        else yloop f t1 acc
      else if c =? 10 then yloop f t1 acc
      else if c =? 61 then
        yloop f (if c1 =? 13 then t1 else t2) (sub8 c1 106 :: acc)
      else yloop f t1 (sub8 c 42 :: acc)
    | _ => ytail rem acc
    end
  end.

Definition ymain (rem acc : list Z) : dres := yloop (S (length rem)) rem acc.

(** lib/yencode/ScalarDecoder.cpp:49-100: state prologue.  The labels of the
    switch (with fall-through and [goto]) are separate functions; the cycle
    ceq -> cr -> crlf -> ceq consumes a byte each time and is bounded by fuel. *)
Fixpoint ypro (fuel : nat) (st : ystate) (rem : list Z) (acc : list Z) : dres :=
  match fuel with
  | O => mkD (-1) (rev acc) st rem
  | S f =>
    match rem with
    | [] => mkD 0 (rev acc) st []            (* YDEC_CHECK_END(st) *)
    | c :: t =>
      match st with
      | S_CRLFEQ =>
        if c =? 121 then mkD 1 (rev acc) S_NONE t
        else ypro f S_EQ rem acc
      | S_EQ =>
        if c =? 13 then ypro f S_CR t (sub8 c 106 :: acc)
        else ymain t (sub8 c 106 :: acc)
      | S_CR => if c =? 10 then ypro f S_CRLF t acc else ymain rem acc
      | S_CRLF =>
        if c =? 46 then ypro f S_CRLFDT t acc
        else if c =? 61 then ypro f S_CRLFEQ t acc
        else ymain rem acc
      | S_CRLFDT =>
        if c =? 13 then ypro f S_CRLFDTCR t acc
        else if c =? 61 then ypro f S_CRLFEQ t acc
        else ymain rem acc
      | S_CRLFDTCR =>
        if c =? 10 then mkD 2 (rev acc) S_CRLF t else ymain rem acc
      | S_NONE => ymain rem acc
      end
    end
  end.

(** lib/yencode/ScalarDecoder.cpp:35-207, [decode_scalar]. An empty buffer
    returns 0 and changes nothing (line 41). *)
Definition decode_scalar (st : ystate) (src : list Z) : dres :=
  ypro (S (2 * length src)) st src [].

(** daemon/nserv/YEncoder.cpp:88-123, the inner loop of
    [YEncoder::WriteSegment] over all bytes of the segment: [lnsz] is the
    number of bytes written to the current line. Reading the file in blocks
    and flushing the output buffer (lines 75-86, 114-119) do not influence the
    produced bytes and are not modelled; [lastblock && readBytes == 0] is "this
    was the last byte of the segment". [width] is the constant 128. *)
Fixpoint yenc_bytes (width : Z) (lnsz : Z) (data : list Z) : list Z :=
  match data with
  | [] => []
  | b :: rest =>
    let ch0 := (b + 42) mod 256 in
    let esc := (ch0 =? 0) || (ch0 =? 10) || (ch0 =? 13) || (ch0 =? 61)
               || (ch0 =? 32) || (ch0 =? 9) in
    let o1 := if esc then [61] else [] in
    let l1 := if esc then lnsz + 1 else lnsz in
    let ch := if esc then (ch0 + 64) mod 256 else ch0 in
    let dot := (ch =? 46) && (l1 =? 0) in
    let o2 := if dot then [46] else [] in
    let l2 := (if dot then l1 + 1 else l1) + 1 in
    let nl := (width <=? l2) || match rest with [] => true | _ => false end in
    o1 ++ o2 ++ [ch] ++ (if nl then [13; 10] else [])
       ++ yenc_bytes width (if nl then 0 else l2) rest
  end.

(** Body of an article as produced by [WriteSegment]. *)
Definition yenc_body (data : list Z) : list Z := yenc_bytes 128 0 data.
