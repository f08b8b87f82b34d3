(** Model of unpacking during the download: daemon/postprocess/DirectUnpack.cpp (Run, ExecuteUnrar, AddMessage, WaitNextVolume, FileDownloaded,
    NzbDownloaded, NzbDeleted, Stop) and its calls in daemon/postprocess/PrePostProcessor.cpp:172-175, 355-386, 944-948, 1005-1008. The steps of the
    thread, of unrar and of the queue are interleaved in any order; a step is a section under one lock or an access without lock. Unrar is any program
    that prints lines, asks for volumes, waits for the answers and ends with any code; it ends when it is killed. Files downloaded stay in the directory.
    Which messages unrar prints is abstracted (DuTextModel); messages of the program, times, progress labels, the list of extracted archives and the
    directory for the unpacked files are not modelled; starting unrar succeeds. *)
From Coq Require Import String.
From Verif Require Import Base WildModel.
Open Scope list_scope. Open Scope Z_scope.

(** What unrar prints (DirectUnpack.cpp:346-392): the question for a volume, an error which ends unpacking, "All OK", other lines. *)
Inductive msg := MAsk (v : list Z) | MFail | MAllOk | MOther.
(** Where the thread is: before reading the directory; at the beginning of the loop; with an archive but unrar not yet started; unrar runs and the thread
    waits for its lines; a line read but not yet handled; before looking for the volume asked for; the volume was not found; unrar has ended; behind the
    loop; the end. *)
Inductive at_ := Scan | Loop | Taken (a : list Z) | Run | Line (m : msg) | Look (v : list Z) | Missing (v : list Z) | Ended | Out | Finished.
Inductive status := SRunning | SNone | SSuccess | SFailure.
(** DirectUnpack.h:51-75 and what belongs to it: [s_open], the pipe to unrar; [s_asked], the volume unrar is asking for; [s_queued], the download is in
    the queue; [s_thread], its pointer to the thread; [s_status], its status of direct unpack; [s_disk], the files in its directory. The rest records what
    has happened: the archives put into the list, whether one of them after the end of the download; the runs of unrar (archive, exit code, "All OK" without
    being killed); the volumes for which the Enter key was sent; whether a file with failed articles was reported; whether memory was used wrongly. *)
Record st := St {
  s_at : at_;
  s_arch : list (list Z);
  s_wait : option (list Z);
  s_completed : bool;
  s_stopped : bool;
  s_processed : bool;
  s_unpacking : bool;
  s_terminated : bool;
  s_allok : bool;
  s_ok : bool;
  s_asked : option (list Z);
  s_open : bool;
  s_queued : bool;
  s_thread : bool;
  s_status : status;
  s_disk : list (list Z);
  s_found : list (list Z);
  s_late : bool;
  s_runs : list (list Z * Z * bool);
  s_answers : list (list Z);
  s_failed : bool;
  s_bad : bool }.
(** Assigning the fields. *)
Definition set_at x s := St x (s_arch s) (s_wait s) (s_completed s) (s_stopped s) (s_processed s) (s_unpacking s) (s_terminated s) (s_allok s) (s_ok s) (s_asked s) (s_open s) (s_queued s) (s_thread s) (s_status s) (s_disk s) (s_found s) (s_late s) (s_runs s) (s_answers s) (s_failed s) (s_bad s).
Definition set_arch x s := St (s_at s) x (s_wait s) (s_completed s) (s_stopped s) (s_processed s) (s_unpacking s) (s_terminated s) (s_allok s) (s_ok s) (s_asked s) (s_open s) (s_queued s) (s_thread s) (s_status s) (s_disk s) (s_found s) (s_late s) (s_runs s) (s_answers s) (s_failed s) (s_bad s).
Definition set_wait x s := St (s_at s) (s_arch s) x (s_completed s) (s_stopped s) (s_processed s) (s_unpacking s) (s_terminated s) (s_allok s) (s_ok s) (s_asked s) (s_open s) (s_queued s) (s_thread s) (s_status s) (s_disk s) (s_found s) (s_late s) (s_runs s) (s_answers s) (s_failed s) (s_bad s).
Definition set_completed x s := St (s_at s) (s_arch s) (s_wait s) x (s_stopped s) (s_processed s) (s_unpacking s) (s_terminated s) (s_allok s) (s_ok s) (s_asked s) (s_open s) (s_queued s) (s_thread s) (s_status s) (s_disk s) (s_found s) (s_late s) (s_runs s) (s_answers s) (s_failed s) (s_bad s).
Definition set_stopped x s := St (s_at s) (s_arch s) (s_wait s) (s_completed s) x (s_processed s) (s_unpacking s) (s_terminated s) (s_allok s) (s_ok s) (s_asked s) (s_open s) (s_queued s) (s_thread s) (s_status s) (s_disk s) (s_found s) (s_late s) (s_runs s) (s_answers s) (s_failed s) (s_bad s).
Definition set_processed x s := St (s_at s) (s_arch s) (s_wait s) (s_completed s) (s_stopped s) x (s_unpacking s) (s_terminated s) (s_allok s) (s_ok s) (s_asked s) (s_open s) (s_queued s) (s_thread s) (s_status s) (s_disk s) (s_found s) (s_late s) (s_runs s) (s_answers s) (s_failed s) (s_bad s).
Definition set_unpacking x s := St (s_at s) (s_arch s) (s_wait s) (s_completed s) (s_stopped s) (s_processed s) x (s_terminated s) (s_allok s) (s_ok s) (s_asked s) (s_open s) (s_queued s) (s_thread s) (s_status s) (s_disk s) (s_found s) (s_late s) (s_runs s) (s_answers s) (s_failed s) (s_bad s).
Definition set_terminated x s := St (s_at s) (s_arch s) (s_wait s) (s_completed s) (s_stopped s) (s_processed s) (s_unpacking s) x (s_allok s) (s_ok s) (s_asked s) (s_open s) (s_queued s) (s_thread s) (s_status s) (s_disk s) (s_found s) (s_late s) (s_runs s) (s_answers s) (s_failed s) (s_bad s).
Definition set_allok x s := St (s_at s) (s_arch s) (s_wait s) (s_completed s) (s_stopped s) (s_processed s) (s_unpacking s) (s_terminated s) x (s_ok s) (s_asked s) (s_open s) (s_queued s) (s_thread s) (s_status s) (s_disk s) (s_found s) (s_late s) (s_runs s) (s_answers s) (s_failed s) (s_bad s).
Definition set_ok x s := St (s_at s) (s_arch s) (s_wait s) (s_completed s) (s_stopped s) (s_processed s) (s_unpacking s) (s_terminated s) (s_allok s) x (s_asked s) (s_open s) (s_queued s) (s_thread s) (s_status s) (s_disk s) (s_found s) (s_late s) (s_runs s) (s_answers s) (s_failed s) (s_bad s).
Definition set_asked x s := St (s_at s) (s_arch s) (s_wait s) (s_completed s) (s_stopped s) (s_processed s) (s_unpacking s) (s_terminated s) (s_allok s) (s_ok s) x (s_open s) (s_queued s) (s_thread s) (s_status s) (s_disk s) (s_found s) (s_late s) (s_runs s) (s_answers s) (s_failed s) (s_bad s).
Definition set_open x s := St (s_at s) (s_arch s) (s_wait s) (s_completed s) (s_stopped s) (s_processed s) (s_unpacking s) (s_terminated s) (s_allok s) (s_ok s) (s_asked s) x (s_queued s) (s_thread s) (s_status s) (s_disk s) (s_found s) (s_late s) (s_runs s) (s_answers s) (s_failed s) (s_bad s).
Definition set_queued x s := St (s_at s) (s_arch s) (s_wait s) (s_completed s) (s_stopped s) (s_processed s) (s_unpacking s) (s_terminated s) (s_allok s) (s_ok s) (s_asked s) (s_open s) x (s_thread s) (s_status s) (s_disk s) (s_found s) (s_late s) (s_runs s) (s_answers s) (s_failed s) (s_bad s).
Definition set_thread x s := St (s_at s) (s_arch s) (s_wait s) (s_completed s) (s_stopped s) (s_processed s) (s_unpacking s) (s_terminated s) (s_allok s) (s_ok s) (s_asked s) (s_open s) (s_queued s) x (s_status s) (s_disk s) (s_found s) (s_late s) (s_runs s) (s_answers s) (s_failed s) (s_bad s).
Definition set_status x s := St (s_at s) (s_arch s) (s_wait s) (s_completed s) (s_stopped s) (s_processed s) (s_unpacking s) (s_terminated s) (s_allok s) (s_ok s) (s_asked s) (s_open s) (s_queued s) (s_thread s) x (s_disk s) (s_found s) (s_late s) (s_runs s) (s_answers s) (s_failed s) (s_bad s).
Definition set_disk x s := St (s_at s) (s_arch s) (s_wait s) (s_completed s) (s_stopped s) (s_processed s) (s_unpacking s) (s_terminated s) (s_allok s) (s_ok s) (s_asked s) (s_open s) (s_queued s) (s_thread s) (s_status s) x (s_found s) (s_late s) (s_runs s) (s_answers s) (s_failed s) (s_bad s).
Definition set_found x s := St (s_at s) (s_arch s) (s_wait s) (s_completed s) (s_stopped s) (s_processed s) (s_unpacking s) (s_terminated s) (s_allok s) (s_ok s) (s_asked s) (s_open s) (s_queued s) (s_thread s) (s_status s) (s_disk s) x (s_late s) (s_runs s) (s_answers s) (s_failed s) (s_bad s).
Definition set_late x s := St (s_at s) (s_arch s) (s_wait s) (s_completed s) (s_stopped s) (s_processed s) (s_unpacking s) (s_terminated s) (s_allok s) (s_ok s) (s_asked s) (s_open s) (s_queued s) (s_thread s) (s_status s) (s_disk s) (s_found s) x (s_runs s) (s_answers s) (s_failed s) (s_bad s).
Definition set_runs x s := St (s_at s) (s_arch s) (s_wait s) (s_completed s) (s_stopped s) (s_processed s) (s_unpacking s) (s_terminated s) (s_allok s) (s_ok s) (s_asked s) (s_open s) (s_queued s) (s_thread s) (s_status s) (s_disk s) (s_found s) (s_late s) x (s_answers s) (s_failed s) (s_bad s).
Definition set_answers x s := St (s_at s) (s_arch s) (s_wait s) (s_completed s) (s_stopped s) (s_processed s) (s_unpacking s) (s_terminated s) (s_allok s) (s_ok s) (s_asked s) (s_open s) (s_queued s) (s_thread s) (s_status s) (s_disk s) (s_found s) (s_late s) (s_runs s) x (s_failed s) (s_bad s).
Definition set_failed x s := St (s_at s) (s_arch s) (s_wait s) (s_completed s) (s_stopped s) (s_processed s) (s_unpacking s) (s_terminated s) (s_allok s) (s_ok s) (s_asked s) (s_open s) (s_queued s) (s_thread s) (s_status s) (s_disk s) (s_found s) (s_late s) (s_runs s) (s_answers s) x (s_bad s).
Definition set_bad x s := St (s_at s) (s_arch s) (s_wait s) (s_completed s) (s_stopped s) (s_processed s) (s_unpacking s) (s_terminated s) (s_allok s) (s_ok s) (s_asked s) (s_open s) (s_queued s) (s_thread s) (s_status s) (s_disk s) (s_found s) (s_late s) (s_runs s) (s_answers s) (s_failed s) x.

(** DirectUnpack.cpp:28-37 *)
Definition start (disk : list (list Z)) : st :=
  St Scan [] None false false false false false false false None false true true SRunning disk [] false [] [] false false.

(** [strcasecmp] *)
Definition same_name (a b : list Z) : bool := beqb (map lower a) (map lower b).
Definition mem_name (f : list Z) (l : list (list Z)) : bool := existsb (beqb f) l.
(** DirectUnpack.cpp:395-419, [Stop] for a download in the queue. *)
Definition stop (s : st) : st := set_terminated (s_terminated s || s_unpacking s) (set_stopped true s).
(** The same for a download looked up in the queue: with a null pointer if it is not there (410, 411). *)
Definition stop_found (s : st) : st := if s_queued s then stop s else set_bad true s.
(** DirectUnpack.cpp:440, 471, Script.cpp:880-884: the Enter key; the file of the pipe may have been closed (Script.cpp:406-409). *)
Definition answer (v : list Z) (s : st) : st :=
  if s_open s then set_answers (s_answers s ++ [v]) (set_asked None s) else set_bad true s.
(** DirectUnpack.cpp:267, 476 *)
Definition push (l : list (list Z)) (s : st) : st := set_found (s_found s ++ l) (set_arch (s_arch s ++ l) s).
Definition last_run (code : Z) (k : bool) (l : list (list Z * Z * bool)) : list (list Z * Z * bool) :=
  match rev l with (a, _, _) :: r => rev r ++ [(a, code, k)] | [] => [] end.

Inductive label :=
| TScan | TTake | TLeave | TStart | TRead (m : msg) | TAsk (changed : bool) | TLook | TWait | THandle | TExit (code : Z) | TCheck | TEnd
| QDisk (f : list Z) | QFile (f : list Z) (failed : bool) | QCompleted | QDeleted | QGone | QShutdown.

(** [main]: whether a name is one of a first volume (DirectUnpack.cpp:273-279); [cmd]: whether the option for the program is well-formed (162-165). *)
Definition step (main : list Z -> bool) (cmd : bool) (l : label) (s : st) : option st :=
  match l with
  (* 255-271 *)
  | TScan => match s_at s with Scan => Some (set_at Loop (push (filter main (s_disk s)) s)) | _ => None end
  (* 73-93 *)
  | TTake =>
    match s_at s, s_arch s with
    | Loop, a :: r => if s_stopped s then None else Some (set_at (Taken a) (set_processed true (set_arch r s)))
    | _, _ => None
    end
  (* 73, 103-107 *)
  | TLeave =>
    match s_at s with
    | Loop => if s_stopped s then Some (set_at Out s) else match s_arch s with [] => if s_completed s then Some (set_at Out s) else None | _ :: _ => None end
    | _ => None
    end
  (* 161-165, 213-228, 197-201 *)
  | TStart =>
    match s_at s with
    | Taken a => if cmd then Some (set_at Run (set_open true (set_unpacking true (set_allok false (set_asked None (set_runs (s_runs s ++ [(a, -1, false)]) s)))))) else Some (set_at Ended (set_ok false s))
    | _ => None
    end
  (* Script.cpp:366-383 *)
  | TRead m =>
    match s_at s, s_asked s with
    | Run, None => if s_terminated s then None else Some (set_at (Line m) (match m with MAsk v => set_asked (Some v) s | _ => s end))
    | _, _ => None
    end
  (* 346-352, 425-435 *)
  | TAsk changed => match s_at s with Line (MAsk v) => Some (set_at (Look v) (if changed && s_queued s then stop s else s)) | _ => None end
  (* 437-443 *)
  | TLook => match s_at s with Look v => Some (if mem_name v (s_disk s) then set_at Run (answer v s) else set_at (Missing v) s) | _ => None end
  (* 444-454 *)
  | TWait => match s_at s with Missing v => Some (set_at Run (let s := set_wait (Some v) s in if s_completed s then stop_found s else s)) | _ => None end
  (* 354-392 *)
  | THandle =>
    match s_at s with
    | Line MFail => Some (set_at Run (if s_stopped s then s else stop_found s))
    | Line MAllOk => Some (set_at Run (set_allok true s))
    | Line MOther => Some (set_at Run s)
    | _ => None
    end
  (* 201-205; unrar ends only if it does not wait for an answer or is killed *)
  | TExit code =>
    match s_at s with
    | Run =>
      let k := s_allok s && negb (s_terminated s) in
      if match s_asked s with Some _ => s_terminated s | None => true end then
        Some (set_at Ended (set_open false (set_unpacking false (set_ok ((code =? 0) && k) (set_runs (last_run code k (s_runs s)) s)))))
      else None
    | _ => None
    end
  (* 97-100 *)
  | TCheck => match s_at s with Ended => Some (set_at (if s_ok s then Loop else Out) s) | _ => None end
  (* 117-151 *)
  | TEnd =>
    match s_at s with
    | Out =>
      if s_queued s && s_thread s
      then Some (set_at Finished (set_thread false (set_status (if s_processed s then if s_ok s && negb (s_stopped s) then SSuccess else SFailure else SNone) s)))
      else Some (set_at Finished s)
    | _ => None
    end
  (* a file is complete in the directory, afterwards its event *)
  | QDisk f => if s_queued s then Some (set_disk (s_disk s ++ [f]) s) else None
  (* 457-478, PrePostProcessor.cpp:1005-1008 *)
  | QFile f failed =>
    if s_queued s && s_thread s && mem_name f (s_disk s) then
      if failed then Some (set_failed true (stop s)) else
      let s := match s_wait s with
               | Some v => if same_name f v then answer v (set_wait None s) else s
               | None => s
               end in
      Some (if main f then push [f] (set_late (s_late s || s_completed s) s) else s)
    else None
  (* 480-500, PrePostProcessor.cpp:355-360, 372-375 *)
  | QCompleted =>
    if s_queued s && s_thread s then
      let s := set_completed true s in Some (match s_wait s with Some _ => stop s | None => s end)
    else None
  (* 502-509, PrePostProcessor.cpp:383-386, 944-948 *)
  | QDeleted => if s_queued s && s_thread s then Some (stop (set_status SFailure (set_thread false s))) else None
  (* the download leaves the queue: PrePostProcessor.cpp:377, 396-404, 849-858 *)
  | QGone => if s_queued s && (s_completed s || negb (s_thread s)) then Some (set_queued false s) else None
  (* PrePostProcessor.cpp:170-176 *)
  | QShutdown => if s_queued s && s_thread s then Some (stop s) else None
  end.
Fixpoint run (main : list Z -> bool) (cmd : bool) (ls : list label) (s : st) : option st :=
  match ls with [] => Some s | l :: r => match step main cmd l s with None => None | Some s' => run main cmd r s' end end.
