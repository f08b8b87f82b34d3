(** Model of the queue-scripts: daemon/extension/QueueScript.cpp, the coordinator and the choice of scripts. Pointers to scripts are
    their positions in the list of scripts. The download queue and the history are a map from ids to what is asked about a download.
    Names and values have no NUL inside. Not modelled here: the process of a script, its environment and its messages (ScrModel),
    threads: each function runs while it holds the lock. *)
From Coq Require Import String.
From Verif Require Import Base WildModel InfoModel WebModel OptModel.
Open Scope list_scope. Open Scope Z_scope.

(** QueueScript.h:30-39 and QueueScript.cpp:30-37: events are numbers, from the lowest to the highest priority. *)
Definition evFile : Z := 0. Definition evUrl : Z := 1. Definition evMarked : Z := 2. Definition evAdded : Z := 3.
Definition evNamed : Z := 4. Definition evDownloaded : Z := 5. Definition evDeleted : Z := 6.
Definition event_names : list (list Z) :=
  map str ["FILE_DOWNLOADED"; "URL_COMPLETED"; "NZB_MARKED"; "NZB_ADDED"; "NZB_NAMED"; "NZB_DOWNLOADED"; "NZB_DELETED"]%string.
Definition event_name (e : Z) : list Z := nth (Z.to_nat e) event_names [].

(** ScriptConfig.h:44-86: what is asked about a script. *)
Record script := Script { s_name : list Z; s_queue : bool; s_events : list Z }.
(** DownloadInfo.h: what is asked about a download. *)
Record qnzb := QNzb { q_id : Z; q_params : list param; q_category : list Z; q_time : Z }.
(** Options: EventInterval, Extensions, and the categories with their extensions. *)
Record qcfg := QCfg { g_interval : Z; g_exts : list Z; g_cats : list (category * list Z) }.

(** ** Which scripts *)

Definition yes_value (v : list Z) : bool := nocase_eq v (str "yes") || nocase_eq v (str "on") || nocase_eq v (str "1").
(** QueueScript.cpp:351-366, one parameter of the download; the name is copied into a buffer of 1024 bytes. *)
Definition assigns (s : script) (p : param) : bool :=
  match fst p with
  | [] => false
  | c :: _ => negb (c =? 42) && (last (fst p) 0 =? 58) && yes_value (snd p) && beqb (removelast (firstn (Z.to_nat 1023) (fst p))) (s_name s)
  end.
(** 370-391: the extensions of the category or the global ones. *)
Definition default_exts (g : qcfg) (n : qnzb) : list Z :=
  match q_category n with
  | [] => g_exts g
  | c => match find_category (map fst (g_cats g)) c false with
         | Some i => match nth i (map snd (g_cats g)) [] with [] => g_exts g | x => x end
         | None => g_exts g
         end
  end.
Definition named_in (s : script) (exts : list Z) : bool :=
  match tokens (str ",;") exts with Some l => existsb (fun x => beqb x (s_name s)) l | None => false end.
(** QueueScript.cpp:336-395, [UsableScript]. *)
Definition usable (g : qcfg) (s : script) (n : qnzb) (e : Z) : bool :=
  s_queue s &&
  (match s_events s with [] => true | _ => match strstr (s_events s) (event_name e) with Some _ => true | None => false end end) &&
  (existsb (assigns s) (q_params n) || ((e =? evUrl) && named_in s (default_exts g n))).

(** ** The queue *)

(** QueueScript.h:53-65. *)
Record qitem := Item { i_nzb : Z; i_script : nat; i_event : Z }.
Record qstate := QState { x_queue : list qitem; x_cur : option qitem; x_stopped : bool }.

(** 273-279: EventInterval. *)
Definition too_soon (g : qcfg) (now : Z) (n : qnzb) (e : Z) : bool :=
  (e =? evFile) && ((g_interval g =? -1) ||
    ((g_interval g >? 0) && (now - q_time n >? 0) && (to_i32 (now - q_time n) <? g_interval g))).
(** 281-315: the scripts from number [i] on; the item started, if any. *)
Fixpoint put_scripts (g : qcfg) (n : qnzb) (e : Z) (i : nat) (l : list script) (q : list qitem) (c : option qitem) (started : list qitem) (found : bool)
  : list qitem * option qitem * list qitem * bool :=
  match l with
  | [] => (q, c, started, found)
  | s :: r =>
    if usable g s n e then
      if (e =? evFile) && existsb (fun t => (i_nzb t =? q_id n) && Nat.eqb (i_script t) i) q then put_scripts g n e (S i) r q c started true
      else let t := Item (q_id n) i e in
        match c with
        | Some _ => put_scripts g n e (S i) r (q ++ [t]) c started true
        | None => put_scripts g n e (S i) r q (Some t) (started ++ [t]) true
        end
    else put_scripts g n e (S i) r q c started found
  end.
(** QueueScript.cpp:253-316, [EnqueueScript], and 240-251, [InitOptions]: the state, the scripts started and the time remembered. *)
Definition enqueue (g : qcfg) (scripts : list script) (now : Z) (n : qnzb) (e : Z) (x : qstate) : qstate * list qitem * Z :=
  if negb (existsb s_queue scripts) then (x, [], q_time n)
  else
    let q := if e =? evDownloaded then filter (fun t => negb (i_nzb t =? q_id n)) (x_queue x) else x_queue x in
    if too_soon g now n e then (QState q (x_cur x) (x_stopped x), [], q_time n)
    else let '(q1, c1, st, found) := put_scripts g n e 0 scripts q (x_cur x) [] false in
         (QState q1 c1 (x_stopped x), st, if found then now else q_time n).

(** What is known about a download in the queue or history (397-412, [FindNzbInfo]): whether it was deleted, whether it is marked as bad. *)
Definition world := Z -> option (bool * bool).
(** QueueScript.cpp:433-437. *)
Definition ignored_item (w : world) (t : qitem) : bool :=
  match w (i_nzb t) with
  | None => true
  | Some (deleted, bad) => (deleted && negb (i_event t =? evDeleted) && negb (i_event t =? evMarked)) || (bad && negb (i_event t =? evMarked))
  end.
Fixpoint remove_at {A} (i : nat) (l : list A) : list A :=
  match l, i with
  | [], _ => []
  | _ :: r, O => r
  | a :: r, S j => a :: remove_at j r
  end.
(** QueueScript.cpp:427-459: the loop; [i] the position, [c] the position of the item chosen so far, [m] the current item. *)
Fixpoint check_go (fuel : nat) (w : world) (m : option qitem) (q : list qitem) (i : nat) (c : option nat) : option (list qitem * option nat) :=
  match fuel with
  | O => None
  | S f =>
    match nth_error q i with
    | None => Some (q, c)
    | Some t =>
      if ignored_item w t then
        match c with
        | Some _ => check_go f w m (remove_at i q) 0 None
        | None => check_go f w m (remove_at i q) i None
        end
      else
        let better := match m with None => true | Some a => i_event t >? i_event a end in
        check_go f w m q (S i) (if better then Some i else c)
    end
  end.
Definition check_fuel (q : list qitem) : nat := S (length q) * S (S (length q)).
(** QueueScript.cpp:414-467, [CheckQueue]: the current item is forgotten first. *)
Definition check_queue (w : world) (x : qstate) : option (qstate * list qitem) :=
  if x_stopped x then Some (x, [])
  else match check_go (check_fuel (x_queue x)) w None (x_queue x) 0 None with
       | None => None
       | Some (q, None) => Some (QState q None false, [])
       | Some (q, Some i) =>
         match nth_error q i with
         | Some t => Some (QState (remove_at i q) (Some t) false, [t])
         | None => None
         end
       end.
(** QueueScript.cpp:469-492, [HasJob] (the result and the answer for the running script), and 494-505, [GetQueueSize]. *)
Definition has_job (x : qstate) (id : Z) : bool * bool :=
  let working := match x_cur x with Some t => i_nzb t =? id | None => false end in
  (working || existsb (fun t => i_nzb t =? id) (x_queue x), working).
Definition queue_size (x : qstate) : Z := Z.of_nat (length (x_queue x)) + (match x_cur x with Some _ => 1 | None => 0 end).

(** ** Executions: an event for a download; the running script ends (QueueScript.cpp:102-121, [Run]). *)
Inductive qop := OpEvent (now : Z) (n : qnzb) (e : Z) | OpDone (w : world) | OpStop.
(** State, and all scripts started so far in order. The running script can end only if there is one. *)
Definition qstep (g : qcfg) (scripts : list script) (o : qop) (x : qstate * list qitem) : option (qstate * list qitem) :=
  match o with
  | OpEvent now n e => let '(x1, st, _) := enqueue g scripts now n e (fst x) in Some (x1, snd x ++ st)
  | OpDone w => match x_cur (fst x) with
                | None => Some x
                | Some _ => match check_queue w (fst x) with Some (x1, st) => Some (x1, snd x ++ st) | None => None end
                end
  | OpStop => Some (QState (x_queue (fst x)) (x_cur (fst x)) true, snd x)
  end.
Fixpoint qrun (g : qcfg) (scripts : list script) (ops : list qop) (x : qstate * list qitem) : option (qstate * list qitem) :=
  match ops with
  | [] => Some x
  | o :: r => match qstep g scripts o x with Some x1 => qrun g scripts r x1 | None => None end
  end.
Definition x0 : qstate := QState [] None false.
