(** What a connection delivers: the peer's bytes in order. *)
From Verif Require Import Base ConnModel.

(** The bytes the program has yet to see. *)
Definition pending (c : conn) : list Z := c_buf c ++ c_net c.

(** [l] is the next line of the stream [s] when at most [n] bytes are taken. *)
Definition next_line (n : nat) (s l : list Z) : Prop :=
  exists rest, s = l ++ rest /\ (length l <= n)%nat /\
    (forall a b, l = a ++ 10 :: b -> b = []) /\
    (length l = n \/ rest = [] \/ exists a, l = a ++ [10]).

(** One answer: what is returned, and what is left of the stream. *)
Definition answer (r : rcall) (s : list Z) (out : option (list Z)) (s' : list Z) : Prop :=
  match r with
  | CLine size => exists l, next_line (size - 1) s l /\ out = Some l /\ s = l ++ s'
  | CBytes size => (exists l, length l = size /\ out = Some l /\ s = l ++ s') \/
                   ((length s < size)%nat /\ out = None /\ s' = [])
  end.
Inductive answers : list rcall -> list Z -> list (option (list Z)) -> list Z -> Prop :=
| as_nil s : answers [] s [] s
| as_cons r rs s out s' outs s'' : answer r s out s' -> answers rs s' outs s'' ->
    answers (r :: rs) s (out :: outs) s''.
