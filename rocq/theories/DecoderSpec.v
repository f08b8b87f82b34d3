(** A strict, byte-at-a-time reader of yEnc articles. It knows nothing about
    buffers: the state after each received byte is a function of the bytes so far.
    It gives up ([MErr]) on articles outside the well-formed class: a missing or non-numeric field in one of the three yEnc control lines, a second
    "=ybegin"/"=ypart"/"=yend", single-part articles (no "part=" field),
    and text lines that look like UUEncode before the "=ybegin" line. *)
From Coq Require Import String.
From Verif Require Import Base NumFmt YencModel YencSpec CrcSpec.

Record art := mkArt {
  a_beg : bool;             (* =ybegin seen *)
  a_nbody : bool;           (* =ypart seen *)
  a_fin : bool;             (* =yend seen *)
  a_name : list Z; a_size : Z; a_bp : Z; a_ep : Z; a_es : Z; a_crc : Z;
  a_out : list Z }.

Definition art0 : art := mkArt false false false [] 0 0 0 0 0 [].

Inductive amode := MLine (p : list Z) | MBody (s : ystate) | MEof | MErr.

(** Text after the first occurrence of a key. *)
Definition field (key l : list Z) : option (list Z) :=
  match strstr l key with Some s => Some (skipn (length key) s) | None => None end.

Definition num_field (key l : list Z) : option Z :=
  match field key l with
  | Some (c :: t) => if is_digit c then Some (pdigits 0 (c :: t)) else None
  | _ => None
  end.

Definition is_hex (c : Z) : bool := match hexval c with Some _ => true | None => false end.

Definition hex_field (key l : list Z) : option Z :=
  match field key l with
  | Some (c :: x :: t) =>
    if is_hex c && negb (x =? 120) && negb (x =? 88) then
      let v := phex 0 (c :: x :: t) in if v <? 2 ^ 32 then Some v else None
    else None
  | _ => None
  end.

Fixpoint until_eol (l : list Z) : list Z :=
  match l with
  | [] => []
  | c :: t => if (c =? 10) || (c =? 13) then [] else c :: until_eol t
  end.

(** A complete line (ending with LF). *)
Definition on_line (A : art) (l : list Z) : art * amode :=
  if prefixb [46; 13] l then (A, MEof)
  else if prefixb (str "=ybegin ") l then
    match a_beg A, field (str " name=") l, num_field (str " size=") l, field (str " part=") l with
    | false, Some n, Some sz, Some _ =>
      (mkArt true (a_nbody A) (a_fin A) (until_eol n) sz (a_bp A) (a_ep A) (a_es A) (a_crc A) (a_out A),
       MLine [])
    | _, _, _, _ => (A, MErr)
    end
  else if negb (a_beg A) then
    if prefixb [77] l || prefixb (str "begin ") l then (A, MErr) else (A, MLine [])
  else if prefixb (str "=ypart ") l then
    match a_nbody A, num_field (str " begin=") l, num_field (str " end=") l with
    | false, Some b, Some e =>
      (mkArt (a_beg A) true (a_fin A) (a_name A) (a_size A) b e (a_es A) (a_crc A) (a_out A),
       MBody S_CRLF)
    | _, _, _ => (A, MErr)
    end
  else if prefixb (str "=yend ") l then
    match a_fin A, num_field (str " size=") l, hex_field (str " pcrc32=") l with
    | false, Some s, Some c =>
      (mkArt (a_beg A) (a_nbody A) true (a_name A) (a_size A) (a_bp A) (a_ep A) s c (a_out A),
       MLine [])
    | _, _, _ => (A, MErr)
    end
  else (A, MLine []).

Definition add_out (A : art) (o : list Z) : art :=
  mkArt (a_beg A) (a_nbody A) (a_fin A) (a_name A) (a_size A) (a_bp A) (a_ep A) (a_es A) (a_crc A)
        (a_out A ++ o).

Definition astep (x : art * amode) (c : Z) : art * amode :=
  let '(A, m) := x in
  match m with
  | MErr => (A, MErr)
  | MEof => (A, MEof)
  | MLine p => if c =? 10 then on_line A (p ++ [10]) else (A, MLine (p ++ [c]))
  | MBody s =>
    let '(o, s', e) := ystep s c in
    (add_out A o, if e =? 0 then MBody s' else if e =? 1 then MLine [61; 121] else MEof)
  end.

Definition aread (stream : list Z) : art * amode := fold_left astep stream (art0, MLine []).

(** Verdict on what was read. *)
Inductive verdict := VNone | VIncomplete | VSize | VCrc | VFinished.

Definition judge (crccheck : bool) (A : art) : verdict :=
  if negb (a_beg A) then VNone
  else if negb (a_fin A) then VIncomplete
  else if negb (a_es A =? Z.of_nat (length (a_out A))) then VSize
  else if crccheck && negb (a_crc A =? crc32 (a_out A)) then VCrc
  else VFinished.
