(** PAR2 arithmetic in GF(2^16): lib/par2/galois.h, instance
    [Galois16 = Galois<16,0x1100B,u16>] (galois.h:338). *)
From Verif Require Import Base.

(** lib/par2/galois.h:141-142: the next value of [b] in the table loop. *)
Definition gstep (b : Z) : Z :=
  let b2 := Z.shiftl b 1 in if Z.testbit b2 16 then Z.lxor b2 0x1100B else b2.

(** Arrays as functions; the indices used are below 65536 (theorem [C39_table_indices]). *)
Definition gset (f : Z -> Z) (k v : Z) : Z -> Z := fun x => if x =? k then v else f x.

(** lib/par2/galois.h:130-148, constructor of [GaloisTable]: log and antilog tables. *)
Fixpoint gtab_loop (n : nat) (l b : Z) (log alog : Z -> Z) : (Z -> Z) * (Z -> Z) :=
  match n with
  | O => (log, alog)
  | S n' => gtab_loop n' (l + 1) (gstep b) (gset log b l) (gset alog l b)
  end.
Definition gtables : (Z -> Z) * (Z -> Z) :=
  let '(log, alog) := gtab_loop (Z.to_nat 65535) 0 1 (fun _ => 0) (fun _ => 0) in
  (gset log 0 65535, gset alog 65535 0).
Definition glog (v : Z) : Z := fst gtables v.
Definition galog (i : Z) : Z := snd gtables i.

(** lib/par2/galois.h:73-79. *)
Definition gadd (a b : Z) : Z := Z.lxor a b.
(** lib/par2/galois.h:162-197; both operators give the same value. *)
Definition gmul (a b : Z) : Z :=
  if (a =? 0) || (b =? 0) then 0
  else let sum := glog a + glog b in
       if 65535 <=? sum then galog (sum - 65535) else galog sum.
(** lib/par2/galois.h:199-239. [None]: the assertion fails. *)
Definition gdiv (a b : Z) : option Z :=
  if a =? 0 then Some 0
  else if b =? 0 then None
  else let sum := glog a - glog b in
       Some (if sum <? 0 then galog (sum + 65535) else galog sum).
(** lib/par2/galois.h:241-275, [pow] and [operator ^]; 32-bit unsigned arithmetic. *)
Definition gpow_index (a n : Z) : Z :=
  let sum := (glog a * n) mod 2 ^ 32 in
  let sum := Z.shiftr sum 16 + Z.land sum 65535 in
  if 65535 <=? sum then sum - 65535 else sum.
Definition gpow (a n : Z) : Z :=
  if n =? 0 then 1 else if a =? 0 then 0 else galog (gpow_index a n).
(** lib/par2/galois.h:277-297, [operator ^=]. *)
Definition gpow_assign (a n : Z) : Z :=
  if n =? 1 then 1 else if a =? 0 then a else galog (gpow_index a n).
