(** Model of the scheduler: daemon/main/Scheduler.cpp, CheckTasks (95-174),
    ServiceWork (69-92), ScheduleNextWork (53-67), the choice made by ExecuteTask
    (176-236). Not modelled: what a command does once it is chosen, the log lines, the
    mutex. [gmtime_r] is the calendar of CalendarSpec, for times from 1970 on. *)
From Verif Require Import Base CalendarModel CalendarSpec VolumeModel.

(** class Scheduler::Task, Scheduler.h 45-63: hours (-1 is a startup task), minutes,
    weekday bits, and whether the command is one that starts a process or a feed
    fetch (scExtensions, scProcess, scFetchFeed); m_id and m_param are left out. *)
Record task := mkTask { k_hours : Z; k_min : Z; k_bits : Z; k_proc : bool; k_last : Z }.

(** The fields m_lastCheck, m_taskList, m_executeProcess. *)
Record sched := mkS { s_last : Z; s_tasks : list task; s_exec : bool }.

(** One call of ExecuteTask: position of the task in the list, the appointed local time,
    and whether the command is really carried out (178-236: commands that start a process
    are skipped unless m_executeProcess or a startup task). *)
Record event := mkE { e_task : nat; e_time : Z; e_done : bool }.

Definition set_time (t : tm) (h mi s : Z) : tm :=
  mkTm (tm_year t) (tm_mon t) (tm_mday t) h mi s.
(** tm_wday as delivered by gmtime_r: 1970-01-01 was a Thursday, 0 is Sunday. *)
Definition wday (t : Z) : Z := (t / 86400 + 4) mod 7.

Definition executed (exec : bool) (k : task) : bool :=
  negb (k_proc k) || (exec || (k_hours k =? -1)).

(** The body of the loop over the tasks, 138-166. *)
Definition run_task (i : nat) (loop : Z) (tl : tm) (wd lastc cur : Z) (exec : bool) (k : task)
  : task * list event :=
  if k_last k =? loop then (k, [])
  else
    let appoint := timegm (set_time tl (k_hours k) (k_min k) 0) in
    let w := if wd =? 0 then 7 else wd in
    let wok := (k_bits k =? 0) || negb (Z.land (k_bits k) (Z.shiftl 1 (w - 1)) =? 0) in
    let do :=
      ((0 <=? k_hours k) && wok && (lastc <? appoint) && (appoint <=? cur)) ||
      ((k_hours k =? -1) && (k_last k =? 0)) in
    if do then (mkTask (k_hours k) (k_min k) (k_bits k) (k_proc k) loop,
                [mkE i appoint (executed exec k)])
    else (k, []).

Fixpoint run_tasks (i : nat) (loop : Z) (tl : tm) (wd lastc cur : Z) (exec : bool) (l : list task)
  : list task * list event :=
  match l with
  | [] => ([], [])
  | k :: r =>
      let (k', e) := run_task i loop tl wd lastc cur exec k in
      let (r', e') := run_tasks (S i) loop tl wd lastc cur exec r in
      (k' :: r', e ++ e')
  end.

(** The loop over the days, 136-170; [n] bounds the rounds, [None] if it is too small. *)
Fixpoint run_days (n : nat) (loop : Z) (tl : tm) (wd lastc cur : Z) (exec : bool) (l : list task)
  : option (list task * list event) :=
  if loop <=? cur then
    match n with
    | O => None
    | S n' =>
        let (l', e) := run_tasks 0 loop tl wd lastc cur exec l in
        let loop' := loop + 86400 in
        match run_days n' loop' (gmtm loop') (wday loop') lastc cur exec l' with
        | Some (l2, e2) => Some (l2, e ++ e2)
        | None => None
        end
    end
  else Some (l, []).

(** CheckTasks, 95-174; [off] is the local time offset. *)
Definition forget (k : task) : task :=
  if k_hours k =? -1 then k else mkTask (k_hours k) (k_min k) (k_bits k) (k_proc k) 0.
Definition check_tasks (off cur : Z) (s : sched) : option (sched * list event) :=
  match s_tasks s with
  | [] => Some (mkS cur [] (s_exec s), [])
  | _ =>
      let diff := cur - s_last s in
      let jump := (5400 <? diff) || (diff <? 0) in
      let last := if jump then cur - 604800 else s_last s in
      let exec := if jump then false else s_exec s in
      let tasks := if jump then map forget (s_tasks s) else s_tasks s in
      let lcur := cur + off in
      let llast := last + off in
      let tc := gmtm lcur in
      let tl := set_time (gmtm llast) (tm_hour tc) (tm_min tc) (tm_sec tc) in
      let loop := timegm tl in
      match run_days (Z.to_nat ((lcur - loop) / 86400 + 1)) loop tl (wday llast) llast lcur exec tasks with
      | Some (l, e) => Some (mkS cur l exec, e)
      | None => None
      end
  end.

(** ServiceWork after the first check, 88-91: m_executeProcess = true; CheckTasks(). *)
Definition service_work (off cur : Z) (s : sched) : option (sched * list event) :=
  check_tasks off cur (mkS (s_last s) (s_tasks s) true).

(** A series of checks; the events of each. *)
Fixpoint service_all (off : Z) (cs : list Z) (s : sched) : option (sched * list (list event)) :=
  match cs with
  | [] => Some (s, [])
  | c :: r =>
      match service_work off c s with
      | Some (s', e) =>
          match service_all off r s' with Some (s2, es) => Some (s2, e :: es) | None => None end
      | None => None
      end
  end.

(** ScheduleNextWork, 53-67: m_serviceInterval. *)
Definition next_work (cur : Z) : Z :=
  let t := gmtm cur in
  timegm (set_time t (tm_hour t) (tm_min t + 1) 0) - cur.
