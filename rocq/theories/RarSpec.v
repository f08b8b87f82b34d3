(** What rar-volumes look like (technical note of the archive format, versions 3 and 5) and what
    they say. Independent of the reader but for the records with the results. *)
From Coq Require Import String.
From Verif Require Import Base RarModel.
Open Scope list_scope. Open Scope Z_scope.

(** ** Numbers *)

(** A number in [n] bytes, the lowest first. *)
Fixpoint bytes_of (n : nat) (x : Z) : list Z :=
  match n with O => [] | S k => x mod 256 :: bytes_of k (x / 256) end.
(** A number of variable length: seven bits per byte, the lowest first; all bytes but the last have
    their highest bit set. Leading zeros (at the end) are allowed. *)
Fixpoint vval (l : list Z) : Z :=
  match l with [] => 0 | b :: r => b mod 128 + 128 * vval r end.
Definition is_vint (l : list Z) : Prop :=
  exists i z, l = i ++ [z] /\ Forall (fun b => 128 <= b < 256) i /\ 0 <= z < 128 /\ zlen l <= 10 /\ vval l < 2 ^ 64.
(** A text ends at the first zero. *)
Definition text_of (name text : list Z) : Prop :=
  ~ In 0 text /\ (name = text \/ exists r, name = text ++ 0 :: r).
(** Bit [n] of a number. *)
Definition bit (x n : Z) : bool := Z.testbit x n.

(** ** Version 3 *)

Definition sig3 : list Z := [82; 97; 114; 33; 26; 7; 0].

(** A file as stored in a block of a volume, besides name, size and time. *)
Record file3 := File3 {
  f3_size : Z;              (* of the whole unpacked file *)
  f3_os : Z; f3_crc : list Z;
  f3_time : Z;
  f3_method : list Z;       (* version and method *)
  f3_attr : Z;
  f3_name : list Z;         (* the name, after a zero possibly another form of it *)
  f3_rest : list Z }.       (* salt, further times *)
Inductive block3 :=
| BMain (crc flags : Z) (body : list Z)
| BFile (crc flags : Z) (f : file3) (data : list Z)
| BOther (crc type flags : Z) (body data : list Z).

(** The header: checksum, type, flags, size of header, with bit 15 of the flags the size of the
    data (its lower 32 bits), the body. *)
Definition head3 (crc type flags : Z) (body data : list Z) : list Z :=
  bytes_of 2 crc ++ [type] ++ bytes_of 2 flags ++
  (if bit flags 15 then bytes_of 2 (11 + zlen body) ++ bytes_of 4 (zlen data) else bytes_of 2 (7 + zlen body)) ++ body.
(** The body of a block with a file; with bit 8 of the flags sizes have 64 bits. *)
Definition body3 (flags : Z) (f : file3) (data : list Z) : list Z :=
  bytes_of 4 (f3_size f) ++ [f3_os f] ++ f3_crc f ++ bytes_of 4 (f3_time f) ++ f3_method f ++
  bytes_of 2 (zlen (f3_name f)) ++ bytes_of 4 (f3_attr f) ++
  (if bit flags 8 then bytes_of 4 (zlen data / 2 ^ 32) ++ bytes_of 4 (f3_size f / 2 ^ 32) else []) ++
  f3_name f ++ f3_rest f.
Definition write3 (b : block3) : list Z :=
  match b with
  | BMain crc flags body => head3 crc 115 flags body []
  | BFile crc flags f data => head3 crc 116 flags (body3 flags f data) data ++ data
  | BOther crc type flags body data => head3 crc type flags body data ++ data
  end.
(** The block at the end: with bit 1 a checksum of the volume, with bit 3 the number of the volume. *)
Definition end3 (crc flags : Z) (sum : list Z) (no : Z) (rest : list Z) : list Z :=
  head3 crc 123 flags ((if bit flags 1 then sum else []) ++ (if bit flags 3 then bytes_of 4 no else []) ++ rest) [].

Definition size_ok (flags : Z) (body data : list Z) : Prop :=
  0 <= flags < 2 ^ 16 /\
  11 + zlen body < 2 ^ 16 /\ 11 + zlen body + zlen data mod 2 ^ 32 < 2 ^ 32 /\ zlen data < 2 ^ 62 /\
  (bit flags 15 = false -> data = []).
Definition block3_ok (b : block3) : Prop :=
  match b with
  | BMain crc flags body => size_ok flags body [] /\ bit flags 7 = false /\ bit flags 15 = false
  | BFile crc flags f data =>
      size_ok flags (body3 flags f data) data /\
      0 <= f3_size f < 2 ^ 63 /\ 0 <= f3_time f < 2 ^ 32 /\ 0 <= f3_attr f < 2 ^ 32 /\
      zlen (f3_crc f) = 4 /\ zlen (f3_method f) = 2 /\ zlen (f3_name f) <= 8192 /\
      (bit flags 8 = false -> f3_size f < 2 ^ 32 /\ zlen data < 2 ^ 32)
  | BOther crc type flags body data =>
      size_ok flags body data /\ 114 <= type < 123 /\ type <> 115 /\ type <> 116 /\
      (bit flags 15 = true -> zlen data < 2 ^ 32)
  end.

Definition end3_ok (flags : Z) (sum rest : list Z) (no : Z) : Prop :=
  size_ok flags ((if bit flags 1 then sum else []) ++ (if bit flags 3 then bytes_of 4 no else []) ++ rest) [] /\
  (bit flags 1 = true -> zlen sum = 4) /\ 0 <= no < 2 ^ 32.

(** What the blocks say: whether volumes are numbered in the new way, whether there are several, and
    the files. *)
Definition says_file3 (flags : Z) (f : file3) (r : rfile) : Prop :=
  text_of (f3_name f) (rf_name r) /\ rf_time r = f3_time f /\ rf_attr r = f3_attr f /\ rf_size r = f3_size f /\
  rf_before r = bit flags 0 /\ rf_after r = bit flags 1.
Inductive says3 : list block3 -> bool -> bool -> list rfile -> Prop :=
| S3_nil : says3 [] false false []
| S3_main crc flags body l n m fs : says3 l n m fs ->
    says3 (l ++ [BMain crc flags body]) (bit flags 4) (bit flags 0) fs
| S3_file crc flags f data r l n m fs : says3 l n m fs -> says_file3 flags f r ->
    says3 (l ++ [BFile crc flags f data]) n m (fs ++ [r])
| S3_other crc type flags body data l n m fs : says3 l n m fs ->
    says3 (l ++ [BOther crc type flags body data]) n m fs.

(** ** Version 5 *)

Definition sig5 : list Z := [82; 97; 114; 33; 26; 7; 1; 0].

(** A further record of a file: size, type, data. *)
Inductive extra5 :=
| XUnix (size type flags : list Z) (time : Z) (rest : list Z)  (* times in seconds since 1970 *)
| XWin (size type flags : list Z) (time : Z) (rest : list Z)   (* in units of 100 ns since 1601 *)
| XOther (size type data : list Z).
Definition write_extra (x : extra5) : list Z :=
  match x with
  | XUnix size type flags time rest => size ++ type ++ flags ++ bytes_of 4 time ++ rest
  | XWin size type flags time rest => size ++ type ++ flags ++ bytes_of 8 time ++ rest
  | XOther size type data => size ++ type ++ data
  end.
(** 1970 in seconds since 1601. *)
Definition epoch : Z := 11644473600.
Definition extra_ok (x : extra5) : Prop :=
  match x with
  | XUnix size type flags time rest =>
      is_vint size /\ is_vint type /\ is_vint flags /\ vval size = zlen (type ++ flags) + 4 + zlen rest /\
      vval type = 3 /\ bit (vval flags) 0 = true /\ 0 <= time < 2 ^ 32
  | XWin size type flags time rest =>
      is_vint size /\ is_vint type /\ is_vint flags /\ vval size = zlen (type ++ flags) + 8 + zlen rest /\
      vval type = 3 /\ bit (vval flags) 0 = false /\ epoch * 10000000 <= time < (epoch + 2 ^ 32) * 10000000
  | XOther size type data =>
      is_vint size /\ is_vint type /\ vval size = zlen type + zlen data /\ vval type <> 3
  end.
(** The time after the records: that of the last record with a time. *)
Fixpoint time_of (t : Z) (xs : list extra5) : Z :=
  match xs with
  | [] => t
  | XUnix _ _ _ time _ :: r => time_of time r
  | XWin _ _ _ time _ :: r => time_of (time / 10000000 - epoch) r
  | XOther _ _ _ :: r => time_of t r
  end.

(** Numbers of variable length are given as they are written. *)
Record file5 := File5 {
  f5_flags : list Z; f5_size : list Z; f5_attr : list Z;
  f5_time : Z;              (* with bit 1 *)
  f5_crc : list Z;          (* with bit 2 *)
  f5_method : list Z; f5_os : list Z; f5_len : list Z; f5_name : list Z }.
Definition body5 (f : file5) : list Z :=
  f5_flags f ++ f5_size f ++ f5_attr f ++
  (if bit (vval (f5_flags f)) 1 then bytes_of 4 (f5_time f) else []) ++
  (if bit (vval (f5_flags f)) 2 then f5_crc f else []) ++
  f5_method f ++ f5_os f ++ f5_len f ++ f5_name f.
(** What all blocks have: checksum, size, type, flags, sizes of the extra area and of the data. *)
Record head5 := Head5 { h5_crc : list Z; h5_size : list Z; h5_type : list Z; h5_flags : list Z; h5_extra : list Z; h5_data : list Z }.
Inductive block5 :=
| DMain (h : head5) (arcflags no rest extra data : list Z)
| DFile (h : head5) (f : file5) (extra : list extra5) (data : list Z)
| DOther (h : head5) (body extra data : list Z).
Definition inner5 (h : head5) (body extra : list Z) : list Z :=
  h5_type h ++ h5_flags h ++
  (if bit (vval (h5_flags h)) 0 then h5_extra h else []) ++
  (if bit (vval (h5_flags h)) 1 then h5_data h else []) ++ body ++ extra.
Definition put5 (h : head5) (body extra data : list Z) : list Z :=
  h5_crc h ++ h5_size h ++ inner5 h body extra ++ data.
Definition main5 (arcflags no rest : list Z) : list Z :=
  arcflags ++ (if bit (vval arcflags) 1 then no else []) ++ rest.
Definition write5 (b : block5) : list Z :=
  match b with
  | DMain h a n r extra data => put5 h (main5 a n r) extra data
  | DFile h f xs data => put5 h (body5 f) (flat_map write_extra xs) data
  | DOther h body extra data => put5 h body extra data
  end.
Definition end5 (h : head5) (endflags rest extra : list Z) : list Z := put5 h (endflags ++ rest) extra [].

Definition head5_ok (h : head5) (type : Z) (body extra data : list Z) : Prop :=
  zlen (h5_crc h) = 4 /\ is_vint (h5_size h) /\ is_vint (h5_type h) /\ is_vint (h5_flags h) /\
  vval (h5_type h) = type /\ vval (h5_flags h) < 2 ^ 16 /\
  vval (h5_size h) = zlen (inner5 h body extra) /\ vval (h5_size h) < 2 ^ 32 /\
  (bit (vval (h5_flags h)) 0 = true -> is_vint (h5_extra h) /\ vval (h5_extra h) = zlen extra) /\
  (bit (vval (h5_flags h)) 0 = false -> extra = []) /\
  (bit (vval (h5_flags h)) 1 = true -> is_vint (h5_data h) /\ vval (h5_data h) = zlen data) /\
  (bit (vval (h5_flags h)) 1 = false -> data = []) /\
  zlen data < 2 ^ 62.
Definition block5_ok (b : block5) : Prop :=
  match b with
  | DMain h a n r extra data =>
      head5_ok h 1 (main5 a n r) extra data /\ is_vint a /\
      (bit (vval a) 1 = true -> is_vint n /\ vval n < 2 ^ 32)
  | DFile h f xs data =>
      head5_ok h 2 (body5 f) (flat_map write_extra xs) data /\ Forall extra_ok xs /\
      is_vint (f5_flags f) /\ is_vint (f5_size f) /\ is_vint (f5_attr f) /\ is_vint (f5_method f) /\
      is_vint (f5_os f) /\ is_vint (f5_len f) /\
      (bit (vval (f5_flags f)) 1 = true -> 0 <= f5_time f < 2 ^ 32) /\
      (bit (vval (f5_flags f)) 2 = true -> zlen (f5_crc f) = 4) /\
      vval (f5_len f) = zlen (f5_name f) /\ zlen (f5_name f) <= 8192 /\
      vval (f5_size f) < 2 ^ 63 /\ vval (f5_attr f) < 2 ^ 32
  | DOther h body extra data => head5_ok h 3 body extra data
  end.
Definition end5_ok (h : head5) (endflags rest extra : list Z) : Prop :=
  head5_ok h 5 (endflags ++ rest) extra [] /\ is_vint endflags.

Definition says_file5 (h : head5) (f : file5) (xs : list extra5) (r : rfile) : Prop :=
  text_of (f5_name f) (rf_name r) /\
  rf_time r = time_of (if bit (vval (f5_flags f)) 1 then f5_time f else 0) xs /\
  rf_attr r = vval (f5_attr f) /\ rf_size r = vval (f5_size f) /\
  rf_before r = bit (vval (h5_flags h)) 3 /\ rf_after r = bit (vval (h5_flags h)) 4.
(** The number of the volume, whether there are several, and the files. *)
Inductive says5 : list block5 -> Z -> bool -> bool -> list rfile -> Prop :=
| S5_nil : says5 [] 0 false false []
| S5_main h a n r extra data l no nw m fs : says5 l no nw m fs ->
    says5 (l ++ [DMain h a n r extra data]) (if bit (vval a) 1 then vval n else no) true (bit (vval a) 0) fs
| S5_file h f xs data r l no nw m fs : says5 l no nw m fs -> says_file5 h f xs r ->
    says5 (l ++ [DFile h f xs data]) no nw m (fs ++ [r])
| S5_other h body extra data l no nw m fs : says5 l no nw m fs ->
    says5 (l ++ [DOther h body extra data]) no nw m fs.

(** ** Ending *)

(** A number of [n] bytes at a position. *)
Definition number_at (c : list Z) (p : Z) (n : nat) : Z := le (firstn n (skipn (Z.to_nat p) c)).
(** How long the block at position [p] is, according to its header. *)
Definition total3 (c : list Z) (p : Z) : Z :=
  let flags := number_at c (p + 3) 2 in
  let size := number_at c (p + 5) 2 in
  let start := if bit flags 15 then 11 else 7 in
  (if bit flags 15 then (size + number_at c (p + 7) 4) mod 2 ^ 32 else size) +
  (if (number_at c (p + 2) 1 =? 116) && bit flags 8 then number_at c (p + start + 21) 4 * 2 ^ 32 else 0).
(** The positions of the blocks. *)
Inductive reach3 (c : list Z) : Z -> Prop :=
| R3_first : reach3 c 0
| R3_next p : reach3 c p -> reach3 c (p + total3 c p).

Definition vlike (l : list Z) : Prop :=
  exists i z, l = i ++ [z] /\ Forall (fun b => 128 <= b < 256) i /\ 0 <= z < 128 /\ zlen l <= 10.
(** At position [p] there is a block with [size] bytes after the size and with [data] bytes of data; the
    next block is at position [next]. *)
Definition header5 (c : list Z) (p data next : Z) : Prop :=
  exists pre crc vs vt vf va vd r,
    c = pre ++ crc ++ vs ++ vt ++ vf ++ va ++ vd ++ r /\ zlen pre = p /\ zlen crc = 4 /\ vlike vs /\ vlike vt /\ vlike vf /\
    (if bit (vval vf) 0 then vlike va else va = []) /\
    (if bit (vval vf) 1 then vlike vd /\ data = vval vd mod 2 ^ 64 else vd = [] /\ data = 0) /\
    next = p + 4 + zlen vs + vval vs mod 2 ^ 32 + data.
Inductive reach5 (c : list Z) : Z -> Prop :=
| R5_first : reach5 c 8
| R5_next p data next : reach5 c p -> header5 c p data next -> reach5 c next.
