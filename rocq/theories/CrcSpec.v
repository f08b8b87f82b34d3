(** The standard CRC-32 (IEEE 802.3, RFC 1952): reflected polynomial
    0xEDB88320, register initialised with ones, result complemented. Bit by
    bit, no tables. *)
From Verif Require Import Base.

Definition poly : Z := 0xEDB88320.

(** One bit: shift right, subtract the polynomial if a one fell out. *)
Definition crc_bit (r : Z) : Z :=
  if Z.odd r then Z.lxor (Z.shiftr r 1) poly else Z.shiftr r 1.

(** [crc_bits n]: n zero bits. *)
Fixpoint crc_bits (n : nat) (r : Z) : Z :=
  match n with O => r | S k => crc_bits k (crc_bit r) end.

Definition crc_byte (r b : Z) : Z := crc_bits 8 (Z.lxor r b).

Definition crc_reg (r : Z) (l : list Z) : Z := fold_left crc_byte l r.

Definition crc32 (l : list Z) : Z := Z.lxor (crc_reg 0xFFFFFFFF l) 0xFFFFFFFF.
