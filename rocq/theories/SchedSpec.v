(** What the scheduler should do. *)
From Verif Require Import Base VolumeModel SchedModel.

(** Day of the week, 1 is Monday; 1970-01-01 (day 0) was a Thursday. *)
Definition weekday (day : Z) : Z := (day + 3) mod 7 + 1.

(** The task is wanted on that day: no weekdays given, or this one among them. *)
Definition wanted (bits day : Z) : bool := (bits =? 0) || Z.testbit bits (weekday day - 1).

(** The due times of a task in the interval (a, b], in order. *)
Definition due_in (k : task) (a b : Z) : list Z :=
  map (fun d => 86400 * d + 3600 * k_hours k + 60 * k_min k)
    (filter (fun d => let t := 86400 * d + 3600 * k_hours k + 60 * k_min k in
                      wanted (k_bits k) d && (a <? t) && (t <=? b))
       (map Z.of_nat (seq 0 (Z.to_nat (b / 86400 + 1))))).

(** A task with a time of day. *)
Definition timed (k : task) : Prop := 0 <= k_hours k < 24 /\ 0 <= k_min k < 60.

(** The times at which the task at position [i] was executed, according to the events. *)
Definition times_of (i : nat) (e : list event) : list Z :=
  map e_time (filter (fun x => Nat.eqb (e_task x) i) e).

(** Consecutive checks at most 90 minutes apart, the clock not running backwards. *)
Fixpoint steady (c : Z) (cs : list Z) : Prop :=
  match cs with [] => True | d :: r => 0 <= d - c <= 5400 /\ steady d r end.
