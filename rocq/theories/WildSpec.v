(** What wildcard masks, separated lists and quoted command lines mean. *)
From Verif Require Import Base.

Definition lc (c : Z) : Z := if (65 <=? c) && (c <=? 90) then c + 32 else c.
Definition digit (c : Z) : Prop := 48 <= c <= 57.

(** One mask character against one text character. *)
Definition wild_char (m c : Z) : Prop := m = 63 \/ (m = 35 /\ digit c) \/ lc m = lc c.
(** As documented: '#' stands for a digit only. *)
Definition wild_char_strict (m c : Z) : Prop :=
  m = 63 \/ (m = 35 /\ digit c) \/ (m <> 63 /\ m <> 35 /\ lc m = lc c).

(** '*' stands for any run, other mask characters for one character ([one]). *)
Inductive glob (one : Z -> Z -> Prop) : list Z -> list Z -> Prop :=
| g_nil : glob one [] []
| g_skip p t : glob one p t -> glob one (42 :: p) t
| g_star p c t : glob one (42 :: p) t -> glob one (42 :: p) (c :: t)
| g_char m p c t : m <> 42 -> one m c -> glob one p t -> glob one (m :: p) (c :: t).

(** Wildcard groups of a mask: maximal runs of '?'/'#' and maximal runs of '*'. *)
Inductive item := ILit (m : Z) | IQ (ms : list Z) | IStar.
Fixpoint items (mask : list Z) : list item :=
  match mask with
  | [] => []
  | m :: r =>
    if m =? 42 then match items r with IStar :: l => IStar :: l | l => IStar :: l end
    else if (m =? 63) || (m =? 35) then
      match items r with IQ ms :: l => IQ (m :: ms) :: l | l => IQ [m] :: l end
    else ILit m :: items r
  end.

(** A division of the text: every literal on its character, every group on a run;
    the list holds start and length of the groups in order. *)
Inductive division : Z -> list item -> list Z -> list (Z * Z) -> Prop :=
| d_nil pos : division pos [] [] []
| d_lit pos m c is t gs : lc m = lc c -> division (pos + 1) is t gs ->
    division pos (ILit m :: is) (c :: t) gs
| d_q pos ms u is t gs : Forall2 wild_char ms u -> division (pos + Z.of_nat (length u)) is t gs ->
    division pos (IQ ms :: is) (u ++ t) ((pos, Z.of_nat (length u)) :: gs)
| d_star pos u is t gs : division (pos + Z.of_nat (length u)) is t gs ->
    division pos (IStar :: is) (u ++ t) ((pos, Z.of_nat (length u)) :: gs).

(** Fields between separators. *)
Fixpoint fields (sep : Z -> bool) (s : list Z) : list (list Z) :=
  match s with
  | [] => [[]]
  | c :: t => if sep c then [] :: fields sep t
              else match fields sep t with f :: l => (c :: f) :: l | [] => [[c]] end
  end.

Definition blank (c : Z) : Prop := c = 10 \/ c = 13 \/ c = 32 \/ c = 9.
(** [t] is [s] without blanks at either end. *)
Definition trimmed (s t : list Z) : Prop :=
  exists a b, s = a ++ t ++ b /\ Forall blank a /\ Forall blank b /\
    (forall c r, t = c :: r -> ~ blank c) /\ (forall c r, t = r ++ [c] -> ~ blank c).

(** Quoting of one argument: quotes around it, inner quotes doubled. *)
Definition quote (arg : list Z) : list Z :=
  39 :: flat_map (fun c => if c =? 39 then [39; 39] else [c]) arg ++ [39].

(** One argument as the user may write it: bare (no blank, not starting with a quote) or quoted. *)
Inductive written : list Z -> list Z -> Prop :=
| w_bare a : a <> [] -> ~ In 32 a -> hd 0 a <> 39 -> written a a
| w_quoted a : a <> [] -> written a (quote a).

(** A command line: arguments separated by one or more blanks. *)
Inductive cmdline : list (list Z) -> list Z -> Prop :=
| c_end blanks : Forall (eq 32) blanks -> cmdline [] blanks
| c_last blanks a w : Forall (eq 32) blanks -> written a w -> cmdline [a] (blanks ++ w)
| c_more blanks a w args rest : Forall (eq 32) blanks -> written a w -> cmdline args rest ->
    cmdline (a :: args) (blanks ++ w ++ 32 :: rest).
