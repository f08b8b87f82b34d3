(** PAR2 Reed-Solomon repair: lib/par2/reedsolomon.h and reedsolomon.cpp for [Galois16], as
    used by [Par2Repairer::ComputeRSmatrix] and [ProcessData]. Matrices are lists of rows. *)
From Verif Require Import Base GaloisModel.

(** lib/par2/reedsolomon.cpp:33-53, [gcd]; [None]: fuel used up. *)
Fixpoint gcd_loop (fuel : nat) (a b : Z) : option Z :=
  match fuel with
  | O => None
  | S f => if (a =? 0) || (b =? 0) then Some (a + b)
           else if b <? a then gcd_loop f (a mod b) b else gcd_loop f a (b mod a)
  end.
Definition gcd32 (a b : Z) : option Z :=
  if (a =? 0) || (b =? 0) then Some 0 else gcd_loop (Z.to_nat (a + b)) a b.

(** lib/par2/reedsolomon.cpp:203-206: the loop advancing [logbase]. *)
Fixpoint next_log (fuel : nat) (l : Z) : option Z :=
  match fuel with
  | O => None
  | S f => match gcd32 65535 l with
           | None => None
           | Some d => if d =? 1 then Some l else next_log f (l + 1)
           end
  end.
(** lib/par2/reedsolomon.cpp:176-220, [SetInput]: [database] for [count] blocks;
    [None]: too many input blocks. *)
Fixpoint bases (count : nat) (logbase : Z) : option (list Z) :=
  match count with
  | O => Some []
  | S n => match next_log (Z.to_nat (65537 - logbase)) logbase with
           | None => None
           | Some l => if 65535 <=? l then None
                       else match bases n (l + 1) with
                            | None => None
                            | Some r => Some (galog l :: r)
                            end
           end
  end.
(** The bases of the present ([true]) or missing ([false]) blocks. *)
Definition pick {A} (which : bool) (present : list bool) (l : list A) : list A :=
  map snd (filter (fun p => Bool.eqb (fst p) which) (combine present l)).

(** One row of both matrices. *)
Notation mrow := (list Z * list Z)%type.

Definition unit_row (n k : nat) : list Z := map (fun c => if Nat.eqb k c then 1 else 0) (seq 0 n).
(** lib/par2/reedsolomon.h:235-309, filling of the matrices. [bp], [bm]: bases of present and
    missing blocks; [es], [ms]: exponents of recovery blocks used and to be computed. *)
Definition init_rows (bp bm es ms : list Z) : list mrow :=
  let dm := length bm in let pm := length ms in
  map (fun p => (map (fun b => gpow b (snd p)) bp ++ unit_row dm (fst p),
                 map (fun b => gpow b (snd p)) bm ++ repeat 0 pm)) (combine (seq 0 dm) es) ++
  map (fun p => (map (fun b => gpow b (snd p)) bp ++ repeat 0 dm,
                 map (fun b => gpow b (snd p)) bm ++ unit_row pm (fst p))) (combine (seq 0 pm) ms).

(** Division by the pivot, which is not zero. *)
Definition gquot (p x : Z) : Z :=
  if x =? 0 then x else match gdiv x p with Some q => q | None => 0 end.
(** lib/par2/reedsolomon.h:405-422: scaling of the pivot row. *)
Definition scale_row (row : nat) (pivot : Z) (q : mrow) : mrow :=
  let '(l, r) := q in
  if pivot =? 1 then q
  else (map (gquot pivot) l, firstn row r ++ 1 :: map (gquot pivot) (skipn (S row) r)).
Fixpoint map2 {A B C} (f : A -> B -> C) (l : list A) (m : list B) : list C :=
  match l, m with x :: l', y :: m' => f x y :: map2 f l' m' | _, _ => [] end.
(** lib/par2/reedsolomon.h:437-478: subtraction of a multiple of the pivot row [p]. *)
Definition elim_row (row : nat) (p q : mrow) : mrow :=
  let '(pl, pr) := p in let '(l, r) := q in
  let s := nth row r 0 in
  if s =? 1 then
    let f a b := if b =? 0 then a else gadd a b in
    (map2 f l pl, firstn row r ++ map2 f (skipn row r) (skipn row pr))
  else if s =? 0 then q
  else
    let f a b := if b =? 0 then a else gadd a (gmul b s) in
    (map2 f l pl, firstn row r ++ map2 f (skipn row r) (skipn row pr)).
(** lib/par2/reedsolomon.h:388-480, one round of [GaussElim]; [None]: pivot zero, the function
    fails (the assertion in line 397 stops builds that have assertions). *)
Definition gauss_step (row : nat) (m : list mrow) : option (list mrow) :=
  match nth_error m row with
  | None => None
  | Some q =>
    let pivot := nth row (snd q) 0 in
    if pivot =? 0 then None
    else let p := scale_row row pivot q in
         Some (map (fun iq => if Nat.eqb (fst iq) row then p else elim_row row p (snd iq))
                   (combine (seq 0 (length m)) m))
  end.
Fixpoint gauss_loop (todo row : nat) (m : list mrow) : option (list mrow) :=
  match todo with
  | O => Some m
  | S t => match gauss_step row m with None => None | Some m' => gauss_loop t (S row) m' end
  end.
(** lib/par2/reedsolomon.h:192-339, [Compute]: the left matrix. [outs]: recovery blocks set
    with [SetOutput], present or to be computed. *)
Definition rs_compute (present : list bool) (outs : list (bool * Z)) : option (list (list Z)) :=
  match bases (length present) 0 with
  | None => None
  | Some db =>
    let bp := pick true present db in
    let bm := pick false present db in
    let ps := map snd (filter fst outs) in
    let ms := map snd (filter (fun o => negb (fst o)) outs) in
    let dm := length bm in
    if Nat.ltb (length ps) dm then None
    else if Nat.eqb (dm + length ms) 0 then None
    else
      let m := init_rows bp bm (firstn dm ps) ms in
      if Nat.eqb dm 0 then Some (map fst m)
      else match gauss_loop dm 0 m with None => None | Some m' => Some (map fst m') end
  end.

(** lib/par2/galois.h:318-335: the three tables of the long multiplication, 256 x 256 each. *)
Definition glmt (t i j : Z) : Z :=
  if t =? 0 then gmul i j else if t =? 1 then gmul i (Z.shiftl j 8) else gmul (Z.shiftl i 8) (Z.shiftl j 8).
(** lib/par2/reedsolomon.cpp:286-331, the tables [L] and [H] (little endian). *)
Definition tab_l (f i : Z) : Z :=
  gadd (glmt 0 (Z.land f 255) i) (glmt 1 i (Z.land (Z.shiftr f 8) 255)).
Definition tab_h (f i : Z) : Z :=
  gadd (glmt 1 (Z.land f 255) i) (glmt 2 (Z.land (Z.shiftr f 8) 255) i).
(** lib/par2/reedsolomon.cpp:339-351, one 32-bit word. *)
Definition proc32 (f s d : Z) : Z :=
  Z.lxor (Z.lxor (Z.lxor (Z.lxor d (tab_l f (Z.land s 255)))
                         (tab_h f (Z.land (Z.shiftr s 8) 255)))
                 (Z.shiftl (tab_l f (Z.land (Z.shiftr s 16) 255)) 16))
         (Z.shiftl (tab_h f (Z.land (Z.shiftr s 24) 255)) 16).
(** lib/par2/reedsolomon.cpp:271-373, [Process], on buffers as lists of 32-bit words. *)
Definition rs_process (f : Z) (src dst : list Z) : list Z :=
  if f =? 0 then dst else map2 (fun d s => proc32 f s d) dst src.
(** lib/par2/par2repairer.cpp:2271-2342, [ProcessData]: output buffers of [n] words, cleared,
    and all inputs processed into each. *)
Definition rs_repair (left : list (list Z)) (inputs : list (list Z)) (n : nat) : list (list Z) :=
  map (fun row => fold_left (fun out p => rs_process (fst p) (snd p) out) (combine row inputs) (repeat 0 n)) left.
