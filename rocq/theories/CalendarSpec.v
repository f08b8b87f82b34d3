(** The proleptic Gregorian calendar, by the rule for the next day. *)
From Verif Require Import Base.

Definition leap (y : Z) : bool := (y mod 4 =? 0) && (negb (y mod 100 =? 0) || (y mod 400 =? 0)).

Definition month_len (y m : Z) : Z :=
  if m =? 2 then (if leap y then 29 else 28)
  else if (m =? 4) || (m =? 6) || (m =? 9) || (m =? 11) then 30 else 31.

(** Dates (year, month 1..12, day 1..). *)
Definition date := (Z * Z * Z)%type.
Definition valid (x : date) : Prop :=
  let '(y, m, d) := x in 1 <= y /\ 1 <= m <= 12 /\ 1 <= d <= month_len y m.

Definition next_day (x : date) : date :=
  let '(y, m, d) := x in
  if d <? month_len y m then (y, m, d + 1)
  else if m <? 12 then (y, m + 1, 1)
  else (y + 1, 1, 1).

(** n days after 1970-01-01. *)
Fixpoint date_after (n : nat) : date :=
  match n with O => (1970, 1, 1) | S k => next_day (date_after k) end.
