(** Model of the reading of volumes of rar-archives: daemon/postprocess/RarReader.cpp and .h.
    A file is the list of its bytes; a reader works on the bytes, on the position in the file and
    on the count of bytes left in the current block ([trailsize], modulo 2^64). [fread] gives as
    many bytes as asked for or the function reading it gives up; [fseek] fails if the target is
    before the beginning (or cannot be represented) and may go beyond the end. [feof] is set by an
    incomplete reading only, after which all functions return, hence [while (!file.Eof())] is
    [while (true)]. Shifting a 64-bit value by 64 bits or more is undefined ([Ub]). The loop over
    the blocks gets a bound on the count of blocks; [Endless]: the bound was reached.
    Not modelled: files that cannot be opened, encryption (the model is that of a volume without a
    password set), messages, the checksums of blocks (which are not checked by the code), reading
    of [addbuf] without a value (RarReader.cpp:283-288; the result isn't used then). *)
From Coq Require Import String.
From Verif Require Import Base.
Open Scope list_scope. Open Scope Z_scope.

Definition u64 : Z := 2 ^ 64.
Definition zlen {A} (l : list A) : Z := Z.of_nat (length l).
Definition has (fl bit : Z) : bool := negb (Z.land fl bit =? 0).
(** The conversion of a 64-bit value to a signed one. *)
Definition s64 (x : Z) : Z := if x <? 2 ^ 63 then x else x - 2 ^ 64.
(** Bytes with the lowest first (RarReader.cpp:140-154). *)
Fixpoint le (l : list Z) : Z := match l with [] => 0 | x :: r => x + 256 * le r end.
(** A text up to its terminator. *)
Fixpoint upto0 (l : list Z) : list Z :=
  match l with [] => [] | c :: r => if c =? 0 then [] else c :: upto0 r end.

(** RarReader.h:28-45, [RarFile]. *)
Record rfile := RFile { rf_name : list Z; rf_time : Z; rf_attr : Z; rf_size : Z; rf_before : bool; rf_after : bool }.

(** RarReader.h:66-73, [RarBlock]; [trailsize] is part of the state of readers. *)
Record blk := Blk { b_type : Z; b_flags : Z; b_add : Z }.

(** RarReader.h:76-81, what is known of the volume. *)
Record vinfo := VInfo { vi_no : Z; vi_new : bool; vi_has : bool; vi_multi : bool; vi_files : list rfile }.
Definition v_empty : vinfo := VInfo 0 false false false [].

Inductive got (A : Type) : Type :=
| Ok (a : A)
| Fail
| Ub
| Endless.
Arguments Ok {A} a. Arguments Fail {A}. Arguments Ub {A}. Arguments Endless {A}.

(** A reader: bytes of the file, position, bytes left in the block. *)
Definition rdr (A : Type) : Type := list Z -> Z * Z -> got (A * (Z * Z)).
Definition ret {A} (a : A) : rdr A := fun c s => Ok (a, s).
Definition fail {A} : rdr A := fun c s => Fail.
Definition bind {A B} (m : rdr A) (k : A -> rdr B) : rdr B := fun c s =>
  match m c s with Ok (a, s') => k a c s' | Fail => Fail | Ub => Ub | Endless => Endless end.
Notation "x <- m ;; k" := (bind m (fun x => k)) (at level 61, m at next level, right associativity).

(** RarReader.cpp:121-138, [Read]. *)
Definition read (n : Z) : rdr (list Z) := fun c '(p, t) =>
  if p + n <=? zlen c then Ok (firstn (Z.to_nat n) (skipn (Z.to_nat p) c), (p + n, (t - n) mod u64)) else Fail.
(** RarReader.cpp:140-154, [Read16] and [Read32]. *)
Definition read_num (n : Z) : rdr Z := b <- read n;; ret (le b).

(** RarReader.cpp:156-169, [ReadV]. Ten bytes are read with shifts by 0, 7, ..., 63 bits. *)
Fixpoint read_v_go (fuel : nat) (bits acc : Z) : rdr Z :=
  b <- read 1;;
  match fuel with
  | O => fun _ _ => Ub
  | S f => let v := nth 0 b 0 in
           let acc' := (acc + Z.shiftl (Z.land v 127) bits) mod u64 in
           if has v 128 then read_v_go f (bits + 7) acc' else ret acc'
  end.
Definition read_v : rdr Z := read_v_go 10 0 0.

(** RarReader.cpp:171-181, [Skip]. *)
Definition skip (n : Z) : rdr (list Z) := if 0 <? s64 n then read (s64 n) else ret [].

Definition get_trail : rdr Z := fun c s => Ok (snd s, s).
Definition set_trail (t : Z) : rdr unit := fun c s => Ok (tt, (fst s, t mod u64)).

(** RarReader.cpp:105-119, [DetectRarVersion]: comparing stops at the terminator. *)
Definition detect (c : list Z) : Z :=
  let s := firstn 8 c in
  if negb (zlen s =? 8) then 0
  else if beqb s [82; 97; 114; 33; 26; 7; 1; 0] then 5
  else if beqb (firstn 7 s) [82; 97; 114; 33; 26; 7; 0] then 3 else 0.

(** FileSystem.cpp:1193-1198, [Seek] from the current position. *)
Definition seek (p skip : Z) : option Z :=
  let q := p + s64 skip in if (0 <=? q) && (q <? 2 ^ 63) then Some q else None.

(** RarReader.cpp:250-298, [ReadRar3Block]. *)
Definition read3_block : rdr blk :=
  buf <- read 7;;
  let type := nth 2 buf 0 in
  let flags := le (firstn 2 (skipn 3 buf)) in
  let size := le (skipn 5 buf) in
  if has flags 32768 then
    add <- read_num 4;;
    _ <- set_trail ((size + add) mod 2 ^ 32 - 7 - 4);;
    ret (Blk type flags add)
  else
    _ <- set_trail (size - 7);;
    ret (Blk type flags 0).

(** RarReader.cpp:300-337, [ReadRar3File]. *)
Definition read3_file (b : blk) : rdr rfile :=
  size <- read_num 4;;
  _ <- skip 1;;
  _ <- skip 4;;
  time <- read_num 4;;
  _ <- skip 2;;
  namelen <- read_num 2;;
  attr <- read_num 4;;
  size <- (if has (b_flags b) 256 then
             high <- read_num 4;;
             t <- get_trail;;
             _ <- set_trail (t + Z.shiftl high 32);;
             high <- read_num 4;;
             ret (size + Z.shiftl high 32)
           else ret size);;
  if 8192 <? namelen then fail
  else name <- read namelen;;
       ret (RFile (upto0 name) time attr (s64 size) (has (b_flags b) 1) (has (b_flags b) 2)).

(** RarReader.cpp:183-229, the body of the loop of [ReadRar3Volume] up to the seeking; [true]: the
    end of the archive was found. *)
Definition step3 (v : vinfo) : rdr (vinfo * bool) :=
  b <- read3_block;;
  let t := b_type b in
  if t =? 0 then fail
  else if t =? 115 then
    if has (b_flags b) 128 then fail
    else ret (VInfo (vi_no v) (has (b_flags b) 16) (vi_has v) (has (b_flags b) 1) (vi_files v), false)
  else if t =? 116 then
    f <- read3_file b;;
    ret (VInfo (vi_no v) (vi_new v) (vi_has v) (vi_multi v) (vi_files v ++ [f]), false)
  else if t =? 123 then
    _ <- (if has (b_flags b) 2 then skip 4 else ret []);;
    if has (b_flags b) 8 then
      no <- read_num 4;;
      ret (VInfo no (vi_new v) (has (b_flags b) 1) (vi_multi v) (vi_files v), true)
    else ret (v, true)
  else if (t <? 114) || (123 <? t) then fail
  else ret (v, false).

(** RarReader.cpp:187-247 and 345-421: the loops over the blocks with the seeking. *)
Fixpoint blocks (step : vinfo -> rdr (vinfo * bool)) (fuel : nat) (v : vinfo) (c : list Z) (p : Z) : got vinfo :=
  match fuel with
  | O => Endless
  | S f => match step v c (p, 0) with
           | Ok ((v', true), _) => Ok v'
           | Ok ((v', false), (q, t)) => match seek q t with Some r => blocks step f v' c r | None => Fail end
           | Fail => Fail
           | Ub => Ub
           | Endless => Endless
           end
  end.

(** RarReader.cpp:424-461, [ReadRar5Block]. *)
Definition read5_block : rdr blk :=
  _ <- read_num 4;;
  size <- read_v;;
  _ <- set_trail (size mod 2 ^ 32);;
  type <- read_v;;
  flags <- read_v;;
  let flags := flags mod 2 ^ 16 in
  add <- (if has flags 1 then read_v else ret 0);;
  data <- (if has flags 2 then read_v else ret 0);;
  t <- get_trail;;
  _ <- set_trail (t + data);;
  ret (Blk (type mod 256) flags add).

(** RarReader.cpp:494-532: the extra headers; the time is looked for. Each round reads two bytes at
    least, therefore the bound is one more than the bytes of the file. *)
Fixpoint read5_extra (fuel : nat) (rem time : Z) : rdr Z :=
  if rem =? 0 then ret time else
  match fuel with
  | O => fun _ _ => Endless
  | S f =>
    t0 <- get_trail;;
    len <- read_v;;
    t1 <- get_trail;;
    let rem' := (rem - ((t0 - t1) mod u64 + len)) mod u64 in
    type <- read_v;;
    time' <- (if type =? 3 then
                flags <- read_v;;
                if has flags 1 then read_num 4
                else low <- read_num 4;;
                     high <- read_num 4;;
                     ret (((Z.shiftl high 32 + low) / 10000000 - 11644473600) mod 2 ^ 32)
              else ret time);;
    t2 <- get_trail;;
    _ <- skip ((len - (t1 - t2) mod u64) mod u64);;
    read5_extra f rem' time'
  end.

(** RarReader.cpp:463-537, [ReadRar5File]. *)
Definition read5_file (b : blk) : rdr rfile :=
  fileflags <- read_v;;
  size <- read_v;;
  attr <- read_v;;
  time <- (if has fileflags 2 then read_num 4 else ret 0);;
  _ <- (if has fileflags 4 then skip 4 else ret []);;
  _ <- read_v;;
  _ <- read_v;;
  namelen <- read_v;;
  if 8192 <? namelen then fail
  else name <- read namelen;;
       time <- (if has (b_flags b) 1 then fun c => read5_extra (S (length c)) (b_add b) time c else ret time);;
       ret (RFile (upto0 name) time (attr mod 2 ^ 32) (s64 size) (has (b_flags b) 8) (has (b_flags b) 16)).

(** RarReader.cpp:339-402, the body of the loop of [ReadRar5Volume] up to the seeking. The block
    for encryption ends the reading as no password is set. *)
Definition step5 (v : vinfo) : rdr (vinfo * bool) :=
  b <- read5_block;;
  let t := b_type b in
  if t =? 0 then fail
  else if t =? 1 then
    arc <- read_v;;
    no <- (if has arc 2 then n <- read_v;; ret (n mod 2 ^ 32) else ret (vi_no v));;
    ret (VInfo no true (vi_has v) (has arc 1) (vi_files v), false)
  else if t =? 4 then
    x <- read_v;;
    if negb (x =? 0) then fail else _ <- read_v;; fail
  else if t =? 2 then
    f <- read5_file b;;
    ret (VInfo (vi_no v) (vi_new v) (vi_has v) (vi_multi v) (vi_files v ++ [f]), false)
  else if t =? 5 then
    e <- read_v;;
    ret (VInfo (vi_no v) (vi_new v) (has e 1) (vi_multi v) (vi_files v), true)
  else if 5 <? t then fail
  else ret (v, false).

(** RarReader.cpp:71-103, [Read]: the version and what was read. *)
Definition read_volume (fuel : nat) (c : list Z) : got (Z * vinfo) :=
  let d := detect c in
  let r := if d =? 3 then blocks step3 fuel v_empty c 0
           else if d =? 5 then blocks step5 fuel v_empty c 8 else Fail in
  match r with Ok v => Ok (d, v) | Fail => Fail | Ub => Ub | Endless => Endless end.
