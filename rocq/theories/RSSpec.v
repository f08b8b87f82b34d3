(** PAR2 recovery data, in terms of polynomials over GF(2). *)
From Verif Require Import Base GaloisSpec RSModel.

(** The input block number [i] has base x^l, where [l] is the [i]-th positive number prime
    to 65535 (PAR2 specification, appendix B). *)
Fixpoint zseq (from : Z) (n : nat) : list Z := match n with O => [] | S m => from :: zseq (from + 1) m end.
Definition base_logs : list Z := filter (fun l => Z.gcd 65535 l =? 1) (zseq 1 (Z.to_nat 65534)).
Definition par2_base (i : nat) (b : Z) : Prop :=
  exists l, nth_error base_logs i = Some l /\ is_rem (clpow 2 (Z.to_nat l)) b.

(** Sum over all data words of base^exponent * word. *)
Definition xsum (l : list Z) : Z := fold_right Z.lxor 0 l.
Definition poly_sum (e : Z) (bs ds : list Z) : Z :=
  xsum (map2 (fun b d => clmul (clpow b (Z.to_nat e)) d) bs ds).
(** [w] is the 16-bit word of the recovery block with exponent [e]. *)
Definition recovery_word (bs ds : list Z) (e w : Z) : Prop := is_rem (poly_sum e bs ds) w.

Definition lo16 (s : Z) : Z := s mod 65536.
Definition hi16 (s : Z) : Z := s / 65536.
Definition u32w (s : Z) : Prop := 0 <= s < 2 ^ 32.
(** Recovery block: word by word, both halves of each 32-bit word. *)
Definition recovery_block (n : nat) (bs : list Z) (blocks : list (list Z)) (e : Z) (rec : list Z) : Prop :=
  length rec = n /\ Forall u32w rec /\
  forall k, (k < n)%nat ->
    recovery_word bs (map (fun b => lo16 (nth k b 0)) blocks) e (lo16 (nth k rec 0)) /\
    recovery_word bs (map (fun b => hi16 (nth k b 0)) blocks) e (hi16 (nth k rec 0)).
(** The elements whose flag is [w]. *)
Fixpoint those {A} (w : bool) (flags : list bool) (l : list A) : list A :=
  match flags, l with
  | f :: fs, x :: xs => if Bool.eqb f w then x :: those w fs xs else those w fs xs
  | _, _ => []
  end.
Definition par2_bases (bs : list Z) : Prop := forall i b, nth_error bs i = Some b -> par2_base i b.
