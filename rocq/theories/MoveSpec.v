(** What moving, aligning and sorting queue entries should do. *)
From Verif Require Import Base MoveModel.
From Coq Require Import Permutation Sorted.

(** Number of selected entries among the first [i]. *)
Definition sel_before (sel : Z -> bool) (i : nat) (l : list Z) : nat :=
  length (filter sel (firstn i l)).

(** [r] is [l] with the same selected entries in the same order and the same unselected
    entries in the same order. *)
Definition same_orders (sel : Z -> bool) (l r : list Z) : Prop :=
  filter sel r = filter sel l /\
  filter (fun x => negb (sel x)) r = filter (fun x => negb (sel x)) l.

(** Every selected entry goes up [k] places, or as far as the selected entries before it allow. *)
Definition moved_up (sel : Z -> bool) (k : nat) (l r : list Z) : Prop :=
  same_orders sel l r /\
  forall i x, nth_error l i = Some x -> sel x = true ->
    nth_error r (Nat.max (i - k) (sel_before sel i l)) = Some x.

(** The mirror image. *)
Definition moved_down (sel : Z -> bool) (k : nat) (l r : list Z) : Prop :=
  moved_up sel k (rev l) (rev r).

(** The selected entries form one block [s] that stands between [u1] and [u2]. *)
Definition block (sel : Z -> bool) (l u1 u2 : list Z) (r : list Z) : Prop :=
  r = u1 ++ filter sel l ++ u2 /\ u1 ++ u2 = filter (fun x => negb (sel x)) l.

(** [r] is the stable sort of [l] by the order [lt] ("strictly before"). *)
Definition stable_sorted {A} (lt : A -> A -> bool) (l r : list A) : Prop :=
  Permutation l r /\
  StronglySorted (fun a b => lt b a = false) r /\
  forall x, filter (fun y => negb (lt x y) && negb (lt y x)) r =
            filter (fun y => negb (lt x y) && negb (lt y x)) l.

(** Strict weak order. *)
Definition strict_weak {A} (lt : A -> A -> bool) : Prop :=
  (forall a, lt a a = false) /\
  (forall a b c, lt a b = true -> lt b c = true -> lt a c = true) /\
  (forall a b c, lt a b = true -> lt a c = true \/ lt c b = true).

(** Byte-wise dictionary order: a proper prefix, or smaller at the first difference. *)
Definition bytes_before (a b : list Z) : Prop :=
  (exists t c, b = a ++ t :: c) \/
  (exists p x y a' b', a = p ++ x :: a' /\ b = p ++ y :: b' /\ x < y).

(** What "comes first in ascending order" means for each criterion. *)
Definition before (c : criteria) (a b : group) : Prop :=
  match c with
  | ScName => bytes_before (g_name a) (g_name b)
  | ScSize => g_size a < g_size b
  | ScRemaining => g_remaining a - g_paused a < g_remaining b - g_paused b
  | ScAge => g_mintime b < g_mintime a
  | ScCategory => bytes_before (g_category a) (g_category b)
  | ScPriority => g_priority a < g_priority b
  end.

(** The order asked for. *)
Definition dir_lt (c : criteria) (desc : bool) (a b : group) : bool :=
  if desc then crit_lt c b a else crit_lt c a b.

(** Automatic order starts with descending for priorities, ascending otherwise. *)
Definition auto_desc (c : criteria) : bool := match c with ScPriority => true | _ => false end.

(** The group is named in the command. *)
Definition picked (ids : list Z) (g : group) : bool := mem ids (g_id g).

(** What a sort command does to the selected groups [l]: in automatic order the
    direction is reversed when the usual direction changes nothing. *)
Definition sort_result (c : criteria) (o : order) (l r : list group) : Prop :=
  match o with
  | SoAsc => stable_sorted (dir_lt c false) l r
  | SoDesc => stable_sorted (dir_lt c true) l r
  | SoAuto =>
      (stable_sorted (dir_lt c (auto_desc c)) l r /\ r <> l) \/
      (stable_sorted (dir_lt c (auto_desc c)) l l /\ stable_sorted (dir_lt c (negb (auto_desc c))) l r)
  end.
