(** What the comparison with duplicates is to do. *)
From Coq Require Import String.
From Verif Require Import Base WildModel NumFmt DmModel.
From Verif Require NzbModel WebModel.
Open Scope list_scope. Open Scope Z_scope.

(** A file in an archive: name, size, method of compression, other lines printed about it. *)
Record packed := P { p_name : list Z; p_size : Z; p_method : list Z; p_before : list (list Z); p_after : list (list Z) }.
Definition stored (p : packed) : Prop := exists a b, comp_line ++ p_method p = a ++ str " -m0" ++ b.
Definition quiet (t : list Z) : Prop :=
  WebModel.nocase_prefix name_line t = false /\ WebModel.nocase_prefix size_line t = false /\ WebModel.nocase_prefix comp_line t = false.
Definition packed_ok (p : packed) : Prop := 0 <= p_size p /\ Forall quiet (p_before p) /\ Forall quiet (p_after p).
(** What unrar prints. *)
Definition printed (p : packed) : list (list Z) :=
  [name_line ++ p_name p; size_line ++ zdec (p_size p)] ++ p_before p ++ [comp_line ++ p_method p] ++ p_after p.
(** The first of the largest ones. *)
Definition largest (l : list packed) (p : packed) : Prop :=
  exists a b, l = a ++ p :: b /\ (forall x, In x a -> p_size x < p_size p) /\ (forall x, In x b -> p_size x <= p_size p).
(** Differing by less than so many percent of the larger one. *)
Definition near (s1 s2 limit : Z) : Prop := 100 * Z.abs (s1 - s2) < limit * Z.max s1 s2.
(** The name of an archive. *)
Definition rar_name (n : list Z) : Prop := exists a e, n = a ++ e /\ map lower e = str ".rar".
