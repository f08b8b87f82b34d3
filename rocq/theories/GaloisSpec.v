(** Polynomials over GF(2), written as numbers: bit [i] is the coefficient of x^i. *)
From Verif Require Import Base.

(** Product of two polynomials. *)
Fixpoint pmul (a : Z) (b : positive) : Z :=
  match b with
  | xH => a
  | xO b' => 2 * pmul a b'
  | xI b' => Z.lxor a (2 * pmul a b')
  end.
Definition clmul (a b : Z) : Z := match b with Zpos p => pmul a p | _ => 0 end.
Fixpoint clpow (a : Z) (n : nat) : Z := match n with O => 1 | S m => clmul a (clpow a m) end.

(** x^16 + x^12 + x^3 + x + 1, the polynomial of PAR2. *)
Definition modulus : Z := 2 ^ 16 + 2 ^ 12 + 2 ^ 3 + 2 + 1.

Definition u16 (a : Z) : Prop := 0 <= a < 65536.
(** [r] is the remainder of the division of [a] by the modulus. *)
Definition is_rem (a r : Z) : Prop := u16 r /\ exists q, 0 <= q /\ a = Z.lxor (clmul q modulus) r.
