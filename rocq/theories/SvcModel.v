(** Model of the services and of the watch over the disk: daemon/util/Service.cpp, daemon/main/DiskService.cpp, and the parts of daemon/main/WorkState.h and
    daemon/postprocess/PrePostProcessor.cpp about temporary pauses. Times in seconds. The clock runs evenly while a thread waits; stopping is left out. *)
From Coq Require Import String.
From Verif Require Import Base WildModel.
Open Scope list_scope. Open Scope Z_scope.

(** ** Service.cpp:50-93, [ServiceCoordinator::Run] *)
(** Service.h:28-44: what [ServiceInterval] returns now (below 0: sleeping), [m_lastWork]. [v_dirty]: another thread has changed what the interval depends on and has not
    called [WakeUp] yet. *)
Record svc := Svc { v_interval : Z; v_last : Z; v_dirty : bool }.
(** Where the thread is: before the check of a service; before the reading of the interval of a service for the wait, with the time read and the wait so far; waiting, with the
    time read, the time the wait began and its length. *)
Inductive at_ := Work (i : nat) | Calc (i : nat) (t w : Z) | Wait (t t' w : Z).
Record st := St { s_svcs : list svc; s_at : at_; s_flag : bool; s_now : Z }.
Fixpoint put (l : list svc) (i : nat) (v : svc) : list svc := match l, i with [], _ => [] | _ :: r, O => v :: r | x :: r, S j => x :: put r j v end.
Inductive label :=
| CCheck (d v : Z)     (* the next service is checked; if run it takes [d] seconds and its interval is [v] then *)
| CCalc | CWake
| ETick (d : Z)
| EChange (i : nat) (v : Z) | ECall (i : nat).
(** [back]: the clock may be set back. *)
Definition step (back : bool) (l : label) (s : st) : option st :=
  match l, s_at s with
  (* 56-66 *)
  | CCheck d v, Work i =>
    match nth_error (s_svcs s) i with
    | Some x =>
      if (0 <=? v_interval x) && (v_interval x <=? Z.abs (s_now s - v_last x)) then
        if 0 <=? d then Some (St (put (s_svcs s) i (Svc v (s_now s + d) (v_dirty x))) (Work (S i)) (s_flag s) (s_now s + d)) else None
      else Some (St (s_svcs s) (Work (S i)) (s_flag s) (s_now s))
    | None => Some (St (s_svcs s) (Calc 0 (s_now s) 86400) (s_flag s) (s_now s))
    end
  (* 68-84 *)
  | CCalc, Calc i t w =>
    match nth_error (s_svcs s) i with
    | Some x => Some (St (s_svcs s) (Calc (S i) t (if 0 <=? v_interval x then Z.min w (v_interval x - (t - v_last x)) else w)) (s_flag s) (s_now s))
    | None => Some (St (s_svcs s) (if 0 <? w then Wait t (s_now s) w else Work 0) (s_flag s) (s_now s))
    end
  (* 84-89 *)
  | CWake, Wait t t' w => if s_flag s || (t' + w <=? s_now s) then Some (St (s_svcs s) (Work 0) false (s_now s)) else None
  | ETick d, _ => if (0 <=? d) || back then Some (St (s_svcs s) (s_at s) (s_flag s) (s_now s + d)) else None
  | EChange i v, _ =>
    match nth_error (s_svcs s) i with
    | Some x => Some (St (put (s_svcs s) i (Svc v (v_last x) true)) (s_at s) (s_flag s) (s_now s))
    | None => None
    end
  (* 104-111, [WakeUp] *)
  | ECall i, _ =>
    match nth_error (s_svcs s) i with
    | Some x => Some (St (put (s_svcs s) i (Svc (v_interval x) (v_last x) false)) (s_at s) true (s_now s))
    | None => None
    end
  | _, _ => None
  end.
Fixpoint run (back : bool) (ls : list label) (s : st) : option st := match ls with [] => Some s | l :: r => match step back l s with None => None | Some s' => run back r s' end end.
(** Service.h:40: no service has worked yet. *)
Definition start (is : list Z) (now : Z) : st := St (map (fun i => Svc i 0 false) is) (Work 0) false now.

(** ** DiskService.cpp *)
(** DiskService.cpp:65-85, [CheckDiskSpace]: [limit]: option DiskSpace in MB; free bytes of the directories (-1: not known), [inter]: none without an intermediate directory. *)
Definition check_disk (limit dest : Z) (inter : option Z) (paused : bool) : bool :=
  let low f := (-1 <? f) && (f / 1024 / 1024 <? limit) in
  let paused := if low dest then true else paused in
  match inter with Some f => if low f then true else paused | None => paused end.
(** DiskService.cpp:40-63, [ServiceInterval] and [ServiceWork]. *)
Definition disk_interval (waiting : bool) (limit : Z) (downloading : bool) : Z := if waiting then 1 else if limit <=? 0 then -1 else if negb downloading then 10 else 1.
Definition disk_work (limit : Z) (downloading : bool) (dest : Z) (inter : option Z) (paused : bool) : bool := if (0 <? limit) && downloading then check_disk limit dest inter paused else paused.

(** DiskService.cpp:87-123, [CheckRequiredDir], and the thread of post-processing (PrePostProcessor.cpp:52-75, 864-906). WorkState.h:61-62: both pauses are set at the beginning. *)
Record rq := Rq { q_down : bool; q_post : bool; q_waiting : bool; q_running : bool }.
Definition rq0 : rq := Rq true true true false.
Inductive rlabel := DCheck (ex : list Z -> bool) | PGo | PPause (need : bool).
Definition all_exist (required : list Z) (ex : list Z -> bool) : option bool := match tokens (str ",;") required with Some l => Some (forallb ex l) | None => None end.
Definition rstep (required : list Z) (l : rlabel) (q : rq) : option rq :=
  match l with
  | DCheck ex =>
    if q_waiting q then
      match all_exist required ex with
      | Some true => Some (Rq false false false (q_running q))
      | Some false => Some q
      | None => None
      end
    else None
  | PGo => if q_post q then None else Some (Rq (q_down q) (q_post q) (q_waiting q) true)
  | PPause need => if q_running q then Some (Rq need (q_post q) (q_waiting q) (q_running q)) else None
  end.
Fixpoint rrun (required : list Z) (ls : list rlabel) (q : rq) : option rq := match ls with [] => Some q | l :: r => match rstep required l q with None => None | Some q' => rrun required r q' end end.
