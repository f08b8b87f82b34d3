(** Text lines of the state files.

    daemon/queue/DiskState.cpp
      44-58    StateDiskFile::PrintLine
      60-80    StateDiskFile::ReadLine
      86-100   StateDiskFile::ScanLine
    daemon/util/NString.cpp
      88-94    BString::FormatV
    daemon/util/FileSystem.cpp
      1169-1172 DiskFile::Write, 1183-1186 DiskFile::ReadLine (fgets) *)
From Verif Require Import Base NumFmt.

(** PrintLine, 44-58.  [s] is the text the format expands to.  FormatV stores
    at most 1023 bytes and a NUL in the 1024 byte buffer but returns the full
    length; the line feed is then stored at that index.  [None]: the store (or
    the following Write) leaves the buffer, undefined behaviour. *)
Definition print_line (s : list Z) : option (list Z) :=
  if Z.of_nat (length s) <=? 1023 then Some (s ++ [10]) else None.

(** A sequence of PrintLine calls on one file. *)
Fixpoint print_lines (ls : list (list Z)) : option (list Z) :=
  match ls with
  | [] => Some []
  | s :: r => match print_line s, print_lines r with
              | Some a, Some b => Some (a ++ b)
              | _, _ => None
              end
  end.

(** The bytes fgets takes from the file: at most [n], through the first line feed. *)
Fixpoint take_line (n : nat) (f : list Z) : list Z * list Z :=
  match n, f with
  | S m, c :: r => if c =? 10 then ([c], r)
                   else let '(a, b) := take_line m r in (c :: a, b)
  | _, _ => ([], f)
  end.

(** fgets(buffer, size, file): at most size - 1 bytes; null at end of file. *)
Definition fgets (size : nat) (f : list Z) : option (list Z * list Z) :=
  match f with
  | [] => None
  | _ => Some (take_line (size - 1) f)
  end.

(** The C string at the start of a buffer. *)
Fixpoint cstr (l : list Z) : list Z :=
  match l with
  | c :: r => if c =? 0 then [] else c :: cstr r
  | [] => []
  end.

(** The loop at 73: skip 1023 bytes at a time until a piece ends in a line
    feed (or is empty).  The fuel is never the reason for stopping. *)
Fixpoint skip_rest (fuel : nat) (f : list Z) : list Z :=
  match fuel with
  | O => f
  | S k =>
      match fgets 1024 f with
      | None => f
      | Some (raw, rest) =>
          let b := cstr raw in
          match b with
          | [] => rest
          | _ => if last b 0 =? 10 then rest else skip_rest k rest
          end
      end
  end.

(** StateDiskFile::ReadLine, 60-80: the buffer as C string and the rest of the
    file.  The last character is removed whether or not it is the line feed. *)
Definition read_line (size : nat) (f : list Z) : option (list Z * list Z) :=
  match fgets size f with
  | None => None
  | Some (raw, rest) =>
      let b := cstr raw in
      match b with
      | [] => Some ([], rest)
      | _ => let rest' := if last b 0 =? 10 then rest else skip_rest (length rest) rest in
             Some (removelast b, rest')
      end
  end.

(** ** vsscanf with the conversions %i and %u separated by commas *)

Definition dval (base c : Z) : option Z :=
  match hexval c with Some v => if v <? base then Some v else None | None => None end.

Fixpoint take_digits (base acc : Z) (l : list Z) : Z * list Z :=
  match l with
  | c :: r => match dval base c with Some v => take_digits base (acc * base + v) r | None => (acc, l) end
  | [] => (acc, [])
  end.

(** At least one digit is required. *)
Definition scan_digits (base : Z) (l : list Z) : option (Z * list Z) :=
  match l with
  | c :: _ => match dval base c with Some _ => Some (take_digits base 0 l) | None => None end
  | [] => None
  end.

(** The base prefix of %i: 0x is hexadecimal, a leading 0 octal. *)
Definition scan_auto (l : list Z) : option (Z * list Z) :=
  match l with
  | c :: r =>
      if c =? 48 then
        match r with
        | d :: r' => if (d =? 120) || (d =? 88)
                     then match scan_digits 16 r' with Some x => Some x | None => Some (0, r) end
                     else scan_digits 8 l
        | [] => scan_digits 8 l
        end
      else scan_digits 10 l
  | [] => None
  end.

Definition split_sign (l : list Z) : bool * list Z :=
  match l with
  | c :: r => if c =? 45 then (true, r) else if c =? 43 then (false, r) else (false, l)
  | [] => (false, [])
  end.

Definition to_i32 (v : Z) : Z := (v + 2 ^ 31) mod 2 ^ 32 - 2 ^ 31.
Definition clamp (lo hi v : Z) : Z := Z.max lo (Z.min hi v).

Inductive conv := CI | CU.

(** One conversion: white space, sign, digits; strtol/strtoul saturate at 64
    bits and the result is stored in 32 bits. *)
Definition scan_num (k : conv) (l : list Z) : option (Z * list Z) :=
  let '(neg, r) := split_sign (skip_space l) in
  match (match k with CI => scan_auto r | CU => scan_digits 10 r end) with
  | None => None
  | Some (v, rest) =>
      match k with
      | CI => Some (to_i32 (clamp (- 2 ^ 63) (2 ^ 63 - 1) (if neg then - v else v)), rest)
      | CU => Some ((if 2 ^ 64 <=? v then 2 ^ 64 - 1 else if neg then - v else v) mod 2 ^ 32, rest)
      end
  end.

(** The whole format; [Some] only when every conversion succeeded (the callers
    compare the returned count with the number of conversions). *)
Fixpoint scan_fmt (ks : list conv) (l : list Z) : option (list Z) :=
  match ks with
  | [] => Some []
  | k :: ks' =>
      match scan_num k l with
      | None => None
      | Some (v, rest) =>
          match ks' with
          | [] => Some [v]
          | _ => match rest with
                 | c :: rest' => if c =? 44 then
                                   match scan_fmt ks' rest' with Some vs => Some (v :: vs) | None => None end
                                 else None
                 | [] => None
                 end
          end
      end
  end.

(** ScanLine, 86-100, with the comparison made by the callers. *)
Definition scan_line (ks : list conv) (f : list Z) : option (list Z * list Z) :=
  match read_line 1024 f with
  | None => None
  | Some (line, rest) =>
      match scan_fmt ks line with Some vs => Some (vs, rest) | None => None end
  end.

(** The format string applied to numbers: printf "%i,%u,...".  The arguments
    are 32-bit values; printing is plain decimal. *)
Fixpoint fmt_nums (vs : list Z) : list Z :=
  match vs with
  | [] => []
  | [v] => zdec v
  | v :: r => zdec v ++ 44 :: fmt_nums r
  end.

(** strchr: the rest of the string starting at the first [c]. *)
Fixpoint strchr (c : Z) (s : list Z) : option (list Z) :=
  match s with
  | x :: r => if x =? c then Some s else strchr c r
  | [] => None
  end.

(** The text before the first [c]. *)
Fixpoint before (c : Z) (s : list Z) : list Z :=
  match s with
  | x :: r => if x =? c then [] else x :: before c r
  | [] => []
  end.
