(** The post-processing queue: daemon/postprocess/PrePostProcessor.cpp and the results of the jobs it starts.
    A job runs in a thread of its own; everything here happens under the lock of the download queue, so an execution
    is a sequence of the events below. The time, the messages, the disk, queue-scripts and the direct unpacker are
    inputs (the files found in the directory, the programs run). Not modelled: saving the queue, the history, and
    the search for duplicates after a download. *)
From Verif Require Import Base UnpackModel.
Open Scope list_scope. Open Scope Z_scope.

(** daemon/queue/DownloadInfo.h:762-776, [EStage]. *)
Definition ptQueued : Z := 0.
Definition ptLoadingPars : Z := 1.
Definition ptVerifyingSources : Z := 2.
Definition ptRepairing : Z := 3.
Definition ptVerifyingRepaired : Z := 4.
Definition ptParRenaming : Z := 5.
Definition ptRarRenaming : Z := 6.
Definition ptUnpacking : Z := 7.
Definition ptCleaningUp : Z := 8.
Definition ptMoving : Z := 9.
Definition ptExecutingScript : Z := 10.
Definition ptFinished : Z := 11.
(** daemon/queue/DownloadInfo.h:368-374, 404-428. *)
Definition rsNone : Z := 0.
Definition rsSkipped : Z := 1.
Definition rsNothing : Z := 2.
Definition rsSuccess : Z := 3.
Definition csNone : Z := 0.
Definition csFailure : Z := 1.
Definition csSuccess : Z := 2.
Definition msNone : Z := 0.
Definition msFailure : Z := 1.
Definition msSuccess : Z := 2.
Definition dsNone : Z := 0.

(** main/Options.h:52-58, 88-94. *)
Inductive parcheck := pcAuto | pcAlways | pcForce | pcManual.
Inductive strategy := ppSequential | ppBalanced | ppAggressive | ppRocket.
Definition pc_manual (p : parcheck) : bool := match p with pcManual => true | _ => false end.
Definition pc_auto (p : parcheck) : bool := match p with pcAuto => true | _ => false end.
Definition pc_always (p : parcheck) : bool := match p with pcAlways | pcForce => true | _ => false end.

(** Options: ParCheck, ParScan is not "dupe", ParRename, RarRename, ExtCleanupDisk is not empty, PostStrategy,
    KeepHistory and so on are not needed. *)
Record opts := mkOpts { o_parcheck : parcheck; o_nodupescan : bool; o_parrename : bool; o_rarrename : bool;
                        o_cleanup : bool; o_strategy : strategy }.

(** [PostInfo], DownloadInfo.h:820-842; thread: none, running or ended. *)
Inductive thr := TNone | TRunning | TEnded.
Record post := mkPost { p_stage : Z; p_working : bool; p_deleted : bool; p_request : bool; p_parfull : bool;
                        p_force : bool; p_repaired : bool; p_tried : bool; p_passtried : bool; p_last : Z;
                        p_need : bool; p_thread : thr }.
Definition post0 : post := mkPost ptQueued false false false false false false false false 0 false TNone.

(** What the disk and the download say: par2-files in the directory, archives among the completed files, health and
    critical health in permille, damaged data other than par2 (line 737), unpack wanted by the parameters, the
    directory is inside InterDir, files are left in the list of the download. *)
Record env := mkEnv { e_pars : bool; e_archives : bool; e_health : Z; e_critical : Z; e_failed : bool; e_wanted : bool;
                      e_inter : bool; e_left : bool }.

(** A download. [d_ready]: no scripts of it are queued, no direct unpack is running and everything except paused
    par2-files is downloaded (lines 611, 612, 617). *)
Record dl := mkDl { d_id : Z; d_prio : Z; d_prename : Z; d_par : Z; d_rrename : Z; d_unpack : Z; d_cleanup : Z;
                    d_move : Z; d_delete : Z; d_full : bool; d_scripts : list Z; d_env : env; d_ready : bool;
                    d_post : option post }.

Definition with_post (d : dl) (p : option post) : dl :=
  mkDl (d_id d) (d_prio d) (d_prename d) (d_par d) (d_rrename d) (d_unpack d) (d_cleanup d) (d_move d) (d_delete d)
       (d_full d) (d_scripts d) (d_env d) (d_ready d) p.
Definition with_par (d : dl) (s : Z) : dl :=
  mkDl (d_id d) (d_prio d) (d_prename d) s (d_rrename d) (d_unpack d) (d_cleanup d) (d_move d) (d_delete d)
       (d_full d) (d_scripts d) (d_env d) (d_ready d) (d_post d).
Definition with_full (d : dl) (b : bool) : dl :=
  mkDl (d_id d) (d_prio d) (d_prename d) (d_par d) (d_rrename d) (d_unpack d) (d_cleanup d) (d_move d) (d_delete d)
       b (d_scripts d) (d_env d) (d_ready d) (d_post d).
Definition with_prename (d : dl) (s : Z) : dl :=
  mkDl (d_id d) (d_prio d) s (d_par d) (d_rrename d) (d_unpack d) (d_cleanup d) (d_move d) (d_delete d)
       (d_full d) (d_scripts d) (d_env d) (d_ready d) (d_post d).
Definition with_rrename (d : dl) (s : Z) : dl :=
  mkDl (d_id d) (d_prio d) (d_prename d) (d_par d) s (d_unpack d) (d_cleanup d) (d_move d) (d_delete d)
       (d_full d) (d_scripts d) (d_env d) (d_ready d) (d_post d).
Definition with_unpack (d : dl) (s : Z) : dl :=
  mkDl (d_id d) (d_prio d) (d_prename d) (d_par d) (d_rrename d) s (d_cleanup d) (d_move d) (d_delete d)
       (d_full d) (d_scripts d) (d_env d) (d_ready d) (d_post d).
Definition with_cleanup (d : dl) (s : Z) : dl :=
  mkDl (d_id d) (d_prio d) (d_prename d) (d_par d) (d_rrename d) (d_unpack d) s (d_move d) (d_delete d)
       (d_full d) (d_scripts d) (d_env d) (d_ready d) (d_post d).
Definition with_move (d : dl) (s : Z) : dl :=
  mkDl (d_id d) (d_prio d) (d_prename d) (d_par d) (d_rrename d) (d_unpack d) (d_cleanup d) s (d_delete d)
       (d_full d) (d_scripts d) (d_env d) (d_ready d) (d_post d).
Definition with_scripts (d : dl) (s : list Z) : dl :=
  mkDl (d_id d) (d_prio d) (d_prename d) (d_par d) (d_rrename d) (d_unpack d) (d_cleanup d) (d_move d) (d_delete d)
       (d_full d) s (d_env d) (d_ready d) (d_post d).
Definition with_env (d : dl) (e : env) (ready : bool) : dl :=
  mkDl (d_id d) (d_prio d) (d_prename d) (d_par d) (d_rrename d) (d_unpack d) (d_cleanup d) (d_move d) (d_delete d)
       (d_full d) (d_scripts d) e ready (d_post d).

Definition p_with_stage (p : post) (s : Z) (working : bool) : post :=
  mkPost s working (p_deleted p) (p_request p) (p_parfull p) (p_force p) (p_repaired p) (p_tried p) (p_passtried p)
         (p_last p) (p_need p) (p_thread p).
Definition p_with_request (p : post) (r : bool) : post :=
  mkPost (p_stage p) (p_working p) (p_deleted p) r (p_parfull p) (p_force p) (p_repaired p) (p_tried p) (p_passtried p)
         (p_last p) (p_need p) (p_thread p).
Definition p_with_need (p : post) (b : bool) : post :=
  mkPost (p_stage p) (p_working p) (p_deleted p) (p_request p) (p_parfull p) (p_force p) (p_repaired p) (p_tried p)
         (p_passtried p) (p_last p) b (p_thread p).
Definition p_with_thread (p : post) (t : thr) : post :=
  mkPost (p_stage p) (p_working p) (p_deleted p) (p_request p) (p_parfull p) (p_force p) (p_repaired p) (p_tried p)
         (p_passtried p) (p_last p) (p_need p) t.

(** ** Choosing what to do for a download *)

Inductive kind := JParRename | JPar | JRarRename | JUnpack | JCleanup | JMove | JScript.
Definition stage_of (k : kind) : Z :=
  match k with
  | JParRename => ptParRenaming | JPar => ptLoadingPars | JRarRename => ptRarRenaming | JUnpack => ptUnpacking
  | JCleanup => ptCleaningUp | JMove => ptMoving | JScript => ptExecutingScript
  end.
(** Result of [StartJob]: a thread is started, or only the statuses or a flag changed. *)
Inductive action := Run (k : kind) | SetPar (s : Z) | Request | Need.

(** PrePostProcessor.cpp:776-778, 780-793, 795-810. *)
Definition par_failed (d : dl) : bool :=
  (d_par d =? psFailure) || (d_par d =? psRepairPossible) || (d_par d =? psManual).
Definition unpack_failed (d : dl) : bool :=
  (d_unpack d =? usFailure) || (d_unpack d =? usSpace) || (d_unpack d =? usPassword).
Definition untested (d : dl) : bool :=
  ((d_unpack d =? usNone) || (d_unpack d =? usSkipped)) && ((d_par d =? psNone) || (d_par d =? psSkipped)).
Definition want_cleanup (o : opts) (unpack : bool) (d : dl) : bool :=
  negb unpack && e_wanted (d_env d) && (d_cleanup d =? csNone) && o_cleanup o &&
  (((d_par d =? psSuccess) && negb (unpack_failed d)) ||
   ((d_unpack d =? usSuccess) && negb (d_par d =? psFailure)) ||
   (untested d && (e_health (d_env d) =? 1000))).
Definition want_move (unpack : bool) (d : dl) : bool :=
  negb unpack && (d_move d =? msNone) && negb (unpack_failed d) && negb (d_par d =? psFailure) &&
  negb (d_par d =? psManual) && (d_delete d =? dsNone) &&
  negb (untested d && (e_health (d_env d) <? 1000)) && e_inter (d_env d).

(** PrePostProcessor.cpp:666-841, [StartJob]: what happens, and whether the unpack was skipped (line 817). *)
Definition choose (o : opts) (allow_par : bool) (d : dl) : action * bool :=
  let e := d_env d in
  if (d_prename d =? rsNone) && (d_delete d =? dsNone) && o_parrename o then (Run JParRename, false)
  else if (d_par d =? psNone) && (d_delete d =? dsNone) then
    if e_pars e then (if allow_par then Run JPar else Need, false) else (SetPar psSkipped, false)
  else if (d_par d =? psSkipped) &&
          ((o_nodupescan o && (e_health e <? e_critical e) && (e_critical e <? 1000)) || (e_health e =? 0)) && e_pars e
  then (SetPar psFailure, false)
  else if (d_par d =? psSkipped) && e_failed e && e_pars e then (Request, false)
  else
    let unpack := e_wanted e && (d_unpack d =? usNone) && (d_delete d =? dsNone) in
    if (d_rrename d =? rsNone) && unpack && o_rarrename o then (Run JRarRename, false)
    else if (d_par d =? psSkipped) && (d_delete d =? dsNone) && pc_auto (o_parcheck o) && negb (e_archives e) && e_pars e
    then (Request, false)
    else
      let skip := unpack && par_failed d in
      if unpack && negb skip then (Run JUnpack, false)
      else if want_cleanup o unpack d then (Run JCleanup, skip)
      else if want_move unpack d then (Run JMove, skip)
      else (Run JScript, skip).

(** [StartJob] with its effects; [EnterStage], 843-847. *)
Definition start_job (o : opts) (allow_par : bool) (p : post) (d : dl) : dl * option kind :=
  let '(a, skip) := choose o allow_par d in
  let d1 := if skip then with_unpack d usSkipped else d in
  match a with
  | Run k =>
    let q := p_with_thread (p_with_stage p (stage_of k) true) TRunning in
    (with_post d1 (Some (match k with JPar => p_with_need q false | _ => q end)), Some k)
  | SetPar s => (with_par d1 s, None)
  | Request => (with_post d1 (Some (p_with_request p true)), None)
  | Need => (with_post d1 (Some (p_with_need p true)), None)
  end.

(** PrePostProcessor.cpp:484-525, [CheckRequestPar], for one active job. Line 513 resumes the remaining files. *)
Definition check_request (o : opts) (d : dl) : dl :=
  match d_post d with
  | None => d
  | Some p =>
    if p_request p && ((d_par d <=? psSkipped) || (p_force p && negb (d_full d))) && negb (pc_manual (o_parcheck o))
    then with_post (with_scripts (with_par d psNone) [])
           (Some (mkPost (p_stage p) false (p_deleted p) false (psSkipped <? d_par d) (p_force p) (p_repaired p)
                         (p_tried p) (p_passtried p) (p_last p) (p_need p) (p_thread p)))
    else if p_request p && (d_par d <=? psSkipped) && pc_manual (o_parcheck o)
    then with_post (with_par d psManual)
           (Some (mkPost (if e_left (d_env d) then ptFinished else p_stage p) false (p_deleted p) false (p_parfull p)
                         (p_force p) (p_repaired p) (p_tried p) (p_passtried p) (p_last p) (p_need p) (p_thread p)))
    else d
  end.

(** PrePostProcessor.cpp:531-561: what [CleanupJobs] does with one active job: it stays active, goes back to the
    queue, or has left post-processing. *)
Inductive fate := Stays | Requeued (d : dl) | Left (d : dl).
Definition cleanup_job (d : dl) : option fate :=
  match d_post d with
  | None => None
  | Some p =>
    if negb (p_working p) && match p_thread p with TRunning => false | _ => true end then
      if (p_stage p =? ptFinished) || p_deleted p then Some (Left (with_post d None))
      else Some (Requeued (with_post d (Some (p_with_thread (p_with_stage p ptQueued false) TNone))))
    else Some Stays
  end.

(** ** The jobs *)

(** Results of the jobs: number of renamed files is not zero, more par2-files have been requested for the renaming
    (RenameCompleted, Rename.cpp:150-187), files are missing; the status of the par-checker (ParChecker.h: failed,
    repair possible, repaired, not needed) and whether it was a full check; the unpack; success; exit codes of the
    scripts. *)
Inductive parres := PFailed | PPossible | PRepaired | PNotNeeded.
Inductive result :=
| RParRename (renamed again missing : bool)
| RPar (r : parres) (full : bool)
| RRarRename (renamed : bool)
| RUnpack (i_password : list Z) (i_passfile : option (option (list Z))) (f : found) (runs : nat -> run)
| RCleanup (ok : bool)
| RMove (ok : bool)
| RScript (codes : list Z).

(** daemon/postprocess/Rename.cpp:150-187, [RenameCompleted] for par-renaming. *)
Definition done_prename (renamed again missing : bool) (p : post) (d : dl) : dl :=
  let d1 := with_prename d (if negb renamed && again then rsNone else if renamed then rsSuccess else rsNothing) in
  with_post d1 (Some (p_with_stage (if missing && (d_par d <=? psSkipped) then p_with_request p true else p)
                                   (p_stage p) false)).

(** daemon/postprocess/Repair.cpp:273-305, [ParCheckCompleted]. A check that was asked to be a full one is not a quick one (Repair.cpp:247,
    ParChecker.cpp:150-168, 413), only a check that could not be started is not called full then. *)
Definition done_par (r : parres) (full : bool) (p : post) (d : dl) : dl :=
  let good := match r with PRepaired | PNotNeeded => d_par d <=? psSkipped | _ => false end in
  let repaired := if good then match r with PRepaired => true | _ => false end else p_repaired p in
  let status := if good then psSuccess
                else match r with
                     | PPossible => if d_par d =? psFailure then psFailure else psRepairPossible
                     | _ => psFailure
                     end in
  let full' := match r with PFailed => full | _ => full || p_parfull p end in
  with_post (with_full (with_par d status) full')
    (Some (mkPost (p_stage p) false (p_deleted p) (p_request p) (p_parfull p) (p_force p) repaired (p_tried p)
                  (p_passtried p) (p_last p) (p_need p) (p_thread p))).

(** daemon/postprocess/Unpack.cpp:50-184 with the flags of the download; [None]: undefined. The par2-files found at the start of the job
    (line 76) are taken to be those at its end. *)
Definition done_unpack (o : opts) (pw : list Z) (pf : option (option (list Z))) (f : found) (runs : nat -> run)
  (p : post) (d : dl) : option dl :=
  let f := mkF (f_rar f) (f_rar_todo f) (f_7z f) (f_7zmulti f) (f_split f) (f_joined f) (f_renamed f) (f_moved f)
               (e_wanted (d_env d)) (negb (d_prename d <=? rsSkipped)) in
  match unpack_run (mkIn (p_tried p) (p_repaired p) (p_passtried p) (p_last p) (d_par d) (e_pars (d_env d)) pw pf (d_full d)) f runs
  with
  | None => None
  | Some (UStatus s, _) =>
    let d1 := with_unpack d s in
    let d2 := if (s =? usSuccess) && o_parrename o then with_prename d1 rsNone else d1 in
    Some (with_post d2 (Some (p_with_stage p (p_stage p) false)))
  | Some (URequest force listed last, _) =>
    Some (with_post d (Some (mkPost (p_stage p) false (p_deleted p) true (p_parfull p) force (p_repaired p) true listed
                                    last (p_need p) (p_thread p))))
  end.

(** Scripts: daemon/extension/PostScript.cpp:180-221, [AnalyseExitCode]; 0: nothing to report, 1: failure, 2: success
    (daemon/queue/DownloadInfo.h:323-328), and whether a par-check is requested. *)
Definition srNone : Z := 0.
Definition srFailure : Z := 1.
Definition srSuccess : Z := 2.
Definition script_status (par : Z) (code : Z) : Z * bool :=
  if code =? 93 then (srSuccess, false)
  else if (code =? 94) || (code =? -1) then (srFailure, false)
  else if code =? 95 then (srNone, false)
  else if code =? 92 then if psSkipped <? par then (srFailure, false) else (srSuccess, true)
  else (srFailure, false).
(** daemon/extension/PostScript.cpp:72-110, [ExecuteScript], for all scripts of the download; no more scripts after a request. *)
Fixpoint run_scripts (par : Z) (codes : list Z) : list Z * bool :=
  match codes with
  | [] => ([], false)
  | c :: r => let '(s, q) := script_status par c in
              if q then ([s], true)
              else let '(l, q') := run_scripts par r in (s :: l, q')
  end.
(** daemon/extension/PostScript.cpp:45-70, [Run]. *)
Definition done_script (codes : list Z) (p : post) (d : dl) : dl :=
  let '(l, q) := run_scripts (d_par d) (if p_request p then [] else codes) in
  with_post (with_scripts d l)
    (Some (mkPost ptFinished false (p_deleted p) (if q then true else p_request p) (p_parfull p)
                  (if q then true else p_force p) (p_repaired p) (p_tried p) (p_passtried p) (p_last p) (p_need p)
                  (p_thread p))).

Definition par_stage (s : Z) : bool := (ptLoadingPars <=? s) && (s <=? ptVerifyingRepaired).

(** The running job ends its work with a result; a result of another kind of job is not possible. *)
Definition job_done (o : opts) (r : result) (d : dl) : option dl :=
  match d_post d with
  | None => None
  | Some p =>
    if negb (p_working p) then None
    else match r with
         | RParRename a b c => if p_stage p =? ptParRenaming then Some (done_prename a b c p d) else None
         | RPar x full => if par_stage (p_stage p) then Some (done_par x full p d) else None
         | RRarRename a => if p_stage p =? ptRarRenaming
                           then Some (with_post (with_rrename d (if a then rsSuccess else rsNothing))
                                                (Some (p_with_stage p (p_stage p) false))) else None
         | RUnpack pw pf f runs => if p_stage p =? ptUnpacking then done_unpack o pw pf f runs p d else None
         | RCleanup ok => if p_stage p =? ptCleaningUp
                          then Some (with_post (with_cleanup d (if ok then csSuccess else csFailure))
                                               (Some (p_with_stage p (p_stage p) false))) else None
         | RMove ok => if p_stage p =? ptMoving
                       then Some (with_post (with_move d (if ok then msSuccess else msFailure))
                                            (Some (p_with_stage p (p_stage p) false))) else None
         | RScript codes => if p_stage p =? ptExecutingScript then Some (done_script codes p d) else None
         end
  end.

(** ** The queue *)

(** The downloads, the active jobs (their numbers) and [m_queuedJobs]. *)
Record state := mkSt { q_list : list dl; q_active : list Z; q_jobs : Z }.

Fixpoint find_dl (id : Z) (l : list dl) : option dl :=
  match l with [] => None | d :: r => if d_id d =? id then Some d else find_dl id r end.
Definition set_dl (d : dl) (l : list dl) : list dl := map (fun x => if d_id x =? d_id d then d else x) l.

Definition stage (d : dl) : Z := match d_post d with Some p => p_stage p | None => ptQueued end.

(** PrePostProcessor.cpp:566-602, [CanRunMoreJobs]: may more jobs run, and may they be par-checks. *)
Definition can_run (st : strategy) (active : list dl) : bool * bool :=
  let total := Z.of_nat (length active) in
  let pars := Z.of_nat (length (filter (fun d => par_stage (stage d)) active)) in
  let other := total - pars in
  let repairs := existsb (fun d => stage d =? ptRepairing) active in
  match st with
  | ppSequential => (total =? 0, true)
  | ppBalanced => ((other =? 0) && ((pars =? 0) || repairs), pars =? 0)
  | ppAggressive => (total <? 3, pars <? 1)
  | ppRocket => (total <? 6, pars <? 2)
  end.

Definition force (d : dl) : bool := 900 <=? d_prio d.
Definition startable (paused allow_par : bool) (active : list Z) (d : dl) : bool :=
  match d_post d with
  | None => false
  | Some p => negb (p_working p) && d_ready d && (negb paused || force d) && (allow_par || negb (p_need p)) &&
              negb (existsb (Z.eqb (d_id d)) active)
  end.
(** PrePostProcessor.cpp:604-624, [PickNextJob]. *)
Definition pick_next (paused allow_par : bool) (active : list Z) (l : list dl) : option dl :=
  fold_left (fun best d =>
    if startable paused allow_par active d && match best with Some b => d_prio b <? d_prio d | None => true end
    then Some d else best) l None.

(** The active downloads; [None]: one of them has no [PostInfo] any more, the code uses a null pointer. *)
Fixpoint actives (ids : list Z) (l : list dl) : option (list dl) :=
  match ids with
  | [] => Some []
  | i :: r => match find_dl i l, actives r l with
              | Some d, Some ds => match d_post d with Some _ => Some (d :: ds) | None => None end
              | _, _ => None
              end
  end.

Fixpoint check_requests (o : opts) (ids : list Z) (l : list dl) : option (list dl) :=
  match ids with
  | [] => Some l
  | i :: r => match find_dl i l with
              | Some d => match d_post d with
                          | Some _ => check_requests o r (set_dl (check_request o d) l)
                          | None => None
                          end
              | None => None
              end
  end.
(** PrePostProcessor.cpp:527-564, [CleanupJobs], 849-862, [JobCompleted]: a download that is complete goes to the
    history, it stays in the list here without [PostInfo]. *)
Fixpoint cleanup_jobs (ids : list Z) (s : state) : option state :=
  match ids with
  | [] => Some s
  | i :: r =>
    match find_dl i (q_list s) with
    | None => None
    | Some d =>
      match cleanup_job d with
      | None => None
      | Some Stays => option_map (fun t => mkSt (q_list t) (i :: q_active t) (q_jobs t)) (cleanup_jobs r s)
      | Some (Requeued d') => cleanup_jobs r (mkSt (set_dl d' (q_list s)) (q_active s) (q_jobs s))
      | Some (Left d') => cleanup_jobs r (mkSt (set_dl d' (q_list s)) (q_active s) (q_jobs s - 1))
      end
    end
  end.
Definition tidy (o : opts) (s : state) : option state :=
  match check_requests o (q_active s) (q_list s) with
  | None => None
  | Some l => cleanup_jobs (q_active s) (mkSt l [] (q_jobs s))
  end.

(** One round of the loop in PrePostProcessor.cpp:636-655: [None] is undefined, [Some None] the end of the loop,
    otherwise the new state and the job that was started
    with the download as it was then. *)
Definition round (o : opts) (paused : bool) (s : state) : option (option (state * option (dl * kind))) :=
  match actives (q_active s) (q_list s) with
  | None => None
  | Some act =>
    let '(more, allow_par) := can_run (o_strategy o) act in
    if negb more then Some None
    else match pick_next paused allow_par (q_active s) (q_list s) with
         | None => Some None
         | Some d =>
           match d_post d with
           | None => None
           | Some p =>
             let ids := q_active s ++ [d_id d] in
             if p_stage p =? ptQueued then
               let '(d', k) := start_job o allow_par p d in
               match tidy o (mkSt (set_dl d' (q_list s)) ids (q_jobs s)) with
               | None => None
               | Some s' => Some (Some (s', option_map (fun k => (d, k)) k))
               end
             else Some (Some (mkSt (q_list s) ids (q_jobs s), None))
           end
         end
  end.
(** The loop; [fuel] runs out: [Some (s, started, false)]. *)
Fixpoint rounds (fuel : nat) (o : opts) (paused : bool) (s : state) : option (state * list (dl * kind) * bool) :=
  match fuel with
  | O => Some (s, [], false)
  | S n =>
    match round o paused s with
    | None => None
    | Some None => Some (s, [], true)
    | Some (Some (s', k)) =>
      match rounds n o paused s' with
      | None => None
      | Some (t, ks, b) => Some (t, match k with Some x => x :: ks | None => ks end, b)
      end
    end
  end.
(** PrePostProcessor.cpp:626-664, [CheckPostQueue]. *)
Definition check_queue (fuel : nat) (o : opts) (paused : bool) (s : state) : option (state * list (dl * kind) * bool) :=
  match tidy o s with
  | None => None
  | Some s' => rounds fuel o paused s'
  end.

(** PrePostProcessor.cpp:334-379, [NzbDownloaded], for a download without [PostInfo]; [direct]: the direct unpacker
    is still at work (lines 355-360). *)
Definition downloaded (o : opts) (direct : bool) (d : dl) (s : state) : state :=
  let d1 := if (d_par d =? psNone) && negb (pc_always (o_parcheck o)) then with_par d psSkipped else d in
  let d2 := with_post d1 (Some (if direct then p_with_stage post0 ptQueued true else post0)) in
  mkSt (set_dl d2 (q_list s)) (if direct then q_active s ++ [d_id d] else q_active s) (q_jobs s + 1).

(** PrePostProcessor.cpp:922-981, [PostQueueDelete], for one download. Working: the job is asked to stop (its end is
    another event). Otherwise the job is finished; [m_activeJobs] is searched for the [PostInfo] that line 959 has
    deleted already, nothing is found. *)
Definition delete_job (d : dl) (s : state) : state :=
  match d_post d with
  | None => s
  | Some p =>
    if p_working p then
      mkSt (set_dl (with_post d (Some (mkPost (p_stage p) (p_working p) true (p_request p) (p_parfull p) (p_force p)
                                              (p_repaired p) (p_tried p) (p_passtried p) (p_last p) (p_need p)
                                              (p_thread p)))) (q_list s)) (q_active s) (q_jobs s)
    else mkSt (set_dl (with_post d None) (q_list s)) (q_active s) (q_jobs s - 1)
  end.

(** ** Executions *)

Inductive event :=
| EDownloaded (id : Z) (direct : bool)       (* a download is complete *)
| EDone (id : Z) (r : result)                (* a job has done its work *)
| EThread (id : Z)                           (* its thread ends *)
| EStage (id : Z) (s : Z)                    (* the par-checker enters another of its stages *)
| EDirect (id : Z)                           (* the direct unpacker is done *)
| EEnv (id : Z) (e : env) (ready : bool)     (* the disk or the download changes *)
| EDelete (id : Z)                           (* the user deletes the job *)
| ECheck (paused : bool).                    (* the post-processor looks at its queue *)

Definition on_dl (id : Z) (s : state) (f : dl -> option dl) : option state :=
  match find_dl id (q_list s) with
  | None => Some s
  | Some d => match f d with
              | None => Some s
              | Some d' => Some (mkSt (set_dl d' (q_list s)) (q_active s) (q_jobs s))
              end
  end.
Definition on_post (f : post -> option post) (d : dl) : option dl :=
  match d_post d with
  | Some p => match f p with Some q => Some (with_post d (Some q)) | None => None end
  | None => None
  end.

(** An event; events that are not possible in the state change nothing. *)
Definition step (fuel : nat) (o : opts) (s : state) (e : event) : option (state * list (dl * kind)) :=
  match e with
  | EDownloaded id direct =>
    Some (match find_dl id (q_list s) with
          | Some d => match d_post d with None => downloaded o direct d s | Some _ => s end
          | None => s
          end, [])
  | EDone id r => option_map (fun t => (t, [])) (on_dl id s (job_done o r))
  | EThread id => option_map (fun t => (t, [])) (on_dl id s (on_post (fun p =>
      match p_thread p with TRunning => if p_working p then None else Some (p_with_thread p TEnded) | _ => None end)))
  | EStage id n => option_map (fun t => (t, [])) (on_dl id s (on_post (fun p =>
      if par_stage (p_stage p) && par_stage n && p_working p then Some (p_with_stage p n true) else None)))
  | EDirect id => option_map (fun t => (t, [])) (on_dl id s (on_post (fun p =>
      match p_thread p with TNone => if p_working p then Some (p_with_stage p (p_stage p) false) else None | _ => None end)))
  | EEnv id e ready => option_map (fun t => (t, [])) (on_dl id s (fun d => Some (with_env d e ready)))
  | EDelete id => Some (match find_dl id (q_list s) with Some d => delete_job d s | None => s end, [])
  | ECheck paused => match check_queue fuel o paused s with
                     | Some (s', ks, _) => Some (s', ks)
                     | None => None
                     end
  end.
Fixpoint steps (fuel : nat) (o : opts) (s : state) (es : list event) : option (state * list (dl * kind)) :=
  match es with
  | [] => Some (s, [])
  | e :: r => match step fuel o s e with
              | None => None
              | Some (s', ks) => match steps fuel o s' r with
                                 | None => None
                                 | Some (t, ks') => Some (t, ks ++ ks')
                                 end
              end
  end.
