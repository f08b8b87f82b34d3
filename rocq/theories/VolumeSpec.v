(** What volume statistics should say, in terms of the list of reports. *)
From Verif Require Import Base CalendarSpec VolumeModel.

(** Bytes of the reports that satisfy [p], a condition on the clock. *)
Fixpoint bytes_when (p : Z -> bool) (l : list (Z * Z)) : Z :=
  match l with
  | [] => 0
  | (t, b) :: r => (if p t then b else 0) + bytes_when p r
  end.

(** The clock never runs backwards. *)
Fixpoint increasing (from : Z) (l : list (Z * Z)) : Prop :=
  match l with
  | [] => True
  | (t, _) :: r => from <= t /\ increasing t r
  end.

(** Consecutive reports are less than [u] or at least [w] seconds apart. *)
Fixpoint spaced (u w from : Z) (l : list (Z * Z)) : Prop :=
  match l with
  | [] => True
  | (t, _) :: r => (t - from < u \/ w <= t - from) /\ spaced u w t r
  end.

(** The time of the last report. *)
Definition last_time (from : Z) (l : list (Z * Z)) : Z := fold_left (fun _ x => fst x) l from.

(** Clock values for which the code computes with [int]: up to 2038-01-19. *)
Definition clock_ok (off : Z) (l : list (Z * Z)) : Prop :=
  Forall (fun x => 0 <= fst x < 2147483648 /\ 0 <= fst x + off < 2147483648) l.

(** The local day (days since 1970-01-01) of a report; the days of which volumes are
    kept, 2012-12-31 to 2033-01-14. *)
Definition day_of (off t : Z) : Z := (t + off) / 86400.
Definition in_days (day : Z) : bool := (15705 <=? day) && (day <? 23025).

(** A ring of [n] slots of [u] seconds is right at time [T]: for each of the last [n]
    units the slot holds the bytes reported in that unit. *)
Definition ring_ok (n u off : Z) (ring : list Z) (T : Z) (l : list (Z * Z)) : Prop :=
  Z.of_nat (length ring) = n /\
  forall k, 0 <= k < n ->
    nth (Z.to_nat (((T + off) / u - k) mod n)) ring 0 =
    bytes_when (fun t => (t + off) / u =? (T + off) / u - k) l.

(** Volume recorded for day number [k] (days since 1970-01-01). *)
Definition day_volume (v : volume) (k : Z) : Z :=
  if k <? v_first v then 0 else nth (Z.to_nat (k - v_first v)) (v_days v) 0.

(** The first day of the quota period that contains a day: the most recent start day;
    when the month before is too short for the start day, the first of this month. *)
Definition prev_month (y m : Z) : Z * Z := if m =? 1 then (y - 1, 12) else (y, m - 1).
Definition quota_start (start : Z) (x : date) : date :=
  let '(y, m, d) := x in
  if start <=? d then (y, m, start)
  else let '(py, pm) := prev_month y m in
       if start <=? month_len py pm then (py, pm, start) else (y, m, 1).

(** Sum of a function over the [n] days up to and including [k]. *)
Definition sum_back (f : Z -> Z) (k : Z) (n : nat) : Z :=
  fold_right Z.add 0 (map (fun i => f (k - Z.of_nat i)) (seq 0 n)).

(** The (at most) 30 latest different seconds in which something was reported, the
    second of the reset counting as one of them. *)
Definition seconds (c0 : Z) (r : list (Z * Z)) : list Z := nodup Z.eq_dec (rev (c0 :: map fst r)).
Definition window (c0 : Z) (r : list (Z * Z)) : list Z := firstn 30 (seconds c0 r).

(** Bytes reported for server [i]; 0 stands for all servers together. *)
Fixpoint bytes_for (i : nat) (ops : list (Z * Z * nat)) : Z :=
  match ops with
  | [] => 0
  | (_, b, sid) :: r => (if (i =? 0)%nat || (i =? sid)%nat then b else 0) + bytes_for i r
  end.
