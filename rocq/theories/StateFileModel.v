(** State files as sequences of file system operations.

    daemon/queue/DiskState.cpp
      127-139   StateFile::StateFile
      141-144   StateFile::Discard
      148-156   StateFile::ParseFormatVersion
      158-161   StateFile::FileExists
      163-175   StateFile::BeginWrite
      177-220   StateFile::FinishWrite
      222-254   StateFile::BeginRead
      263-319   DiskState::SaveDownloadQueue
      321-423   DiskState::LoadDownloadQueue (queue, progress and history files)
      425-459   DiskState::SaveDownloadProgress
      1478-1523 DiskState::DiscardDownloadQueue, DownloadQueueExists
    daemon/queue/QueueCoordinator.cpp
      112-131   QueueCoordinator::Load
    daemon/postprocess/PrePostProcessor.cpp
      189-210   PrePostProcessor::SanitisePostQueue

    A file system operation is atomic and durable once performed; the program
    may be killed between any two of them.  Writing a file is a sequence of
    appends of arbitrary pieces (stdio decides the pieces).  Errors of the
    operations themselves are modelled only for writing (a full disk). *)
From Coq Require Import String.
From Verif Require Import Base NumFmt LineModel DiskModel.

(** ** One state file *)

(** The file and its temporary companion ("name" and "name.new"). *)
Record cell := mkCell { c_dst : option (list Z); c_tmp : option (list Z) }.

Inductive fop :=
| OTrunc                      (* open for writing the temporary file *)
| OAppend (b : list Z)        (* write to the temporary file *)
| ODelete                     (* delete the file *)
| ORename                     (* rename the temporary file to the file *)
| OTruncDst                   (* the same on the file itself (not transactional) *)
| OAppendDst (b : list Z).

Definition fstep (o : fop) (c : cell) : cell :=
  match o with
  | OTrunc => mkCell (c_dst c) (Some [])
  | OAppend b => mkCell (c_dst c) (match c_tmp c with Some t => Some (t ++ b) | None => None end)
  | ODelete => mkCell None (c_tmp c)
  | ORename => match c_tmp c with Some t => mkCell (Some t) None | None => c end
  | OTruncDst => mkCell (Some []) (c_tmp c)
  | OAppendDst b => mkCell (match c_dst c with Some t => Some (t ++ b) | None => None end) (c_tmp c)
  end.

Definition fsteps (os : list fop) (c : cell) : cell := fold_left (fun c o => fstep o c) os c.

(** BeginWrite, the PrintLine calls and FinishWrite (163-220): the contents
    arrive in pieces [chunks]. *)
Definition save_ops (chunks : list (list Z)) : list fop :=
  OTrunc :: map OAppend chunks ++ [ODelete; ORename].

(** The same for a file that is not transactional: the temporary name is the
    name of the file (136-138) and nothing is renamed (179-183). *)
Definition plain_save_ops (chunks : list (list Z)) : list fop :=
  OTruncDst :: map OAppendDst chunks.

(** Discard, 141-144. *)
Definition discard_ops : list fop := [ODelete].

(** FileExists, 158-161 (transactional). *)
Definition file_exists (c : cell) : bool :=
  match c_dst c, c_tmp c with None, None => false | _, _ => true end.

(** BeginRead, 222-240: restore the temporary file when only that exists; the
    contents to be read, [None] when there is no file. *)
Definition begin_read (c : cell) : cell * option (list Z) :=
  let c' := match c_dst c, c_tmp c with None, Some t => mkCell (Some t) None | _, _ => c end in
  (c', c_dst c').

(** A disk with room for [room] more bytes: fwrite writes what fits; neither
    PrintLine (44-58) nor FinishWrite (177-220) looks at the result. *)
Fixpoint save_ops_full (room : nat) (chunks : list (list Z)) : list fop :=
  match chunks with
  | [] => [ODelete; ORename]
  | b :: r => OAppend (firstn room b) :: save_ops_full (room - length b) r
  end.
Definition save_disk_full (room : nat) (chunks : list (list Z)) : list fop := OTrunc :: save_ops_full room chunks.

(** ** Life of one state file *)

Inductive event :=
| ESave (chunks : list (list Z))              (* a complete save *)
| EKill (chunks : list (list Z)) (k : nat)    (* killed after [k] operations of a save; restarted: the file is read *)
| ELoad.                                      (* the file is read *)

Definition estep (e : event) (c : cell) : cell * list (option (list Z)) :=
  match e with
  | ESave ch => (fsteps (save_ops ch) c, [])
  | EKill ch k => let '(c', r) := begin_read (fsteps (firstn k (save_ops ch)) c) in (c', [r])
  | ELoad => let '(c', r) := begin_read c in (c', [r])
  end.

(** The results of all reads in a history. *)
Fixpoint erun (es : list event) (c : cell) : list (option (list Z)) :=
  match es with
  | [] => []
  | e :: r => let '(c', o) := estep e c in o ++ erun r c'
  end.

(** ** Queue, progress and history together *)

Inductive sfile := FQueue | FProgress | FHistory.
Record sysfs := mkFs { s_queue : cell; s_progress : cell; s_history : cell }.

Definition sget (f : sfile) (s : sysfs) : cell :=
  match f with FQueue => s_queue s | FProgress => s_progress s | FHistory => s_history s end.
Definition sset (f : sfile) (c : cell) (s : sysfs) : sysfs :=
  match f with
  | FQueue => mkFs c (s_progress s) (s_history s)
  | FProgress => mkFs (s_queue s) c (s_history s)
  | FHistory => mkFs (s_queue s) (s_progress s) c
  end.
Definition sstep (s : sysfs) (o : sfile * fop) : sysfs := sset (fst o) (fstep (snd o) (sget (fst o) s)) s.
Definition ssteps (os : list (sfile * fop)) (s : sysfs) : sysfs := fold_left sstep os s.

Definition on (f : sfile) (os : list fop) : list (sfile * fop) := map (fun o => (f, o)) os.

(** The signature line written by BeginWrite (172). *)
Definition signature : list Z := str "nzbget diskstate file version ".
Definition header (version : Z) : list Z := signature ++ zdec version.
Definition queue_version : Z := 62.

(** SaveDownloadQueue, 263-319.  [qch] and [hch] are the pieces of the queue
    and history files; an empty list of groups discards the file. *)
Definition save_queue_ops (q : list nzb) (qch : list (list Z)) (save_history : bool)
                          (h : list hentry) (hch : list (list Z)) : list (sfile * fop) :=
  on FQueue (match q with [] => discard_ops | _ => save_ops qch end) ++
  (if save_history then on FHistory (match h with [] => discard_ops | _ => save_ops hch end) else []) ++
  on FProgress discard_ops.

(** SaveDownloadProgress, 425-459: [p] are the changed groups. *)
Definition save_progress_ops (p : list nzb) (pch : list (list Z)) : list (sfile * fop) :=
  on FProgress (match p with [] => discard_ops | _ => save_ops pch end).

(** ParseFormatVersion, 148-156. *)
Definition parse_version (l : list Z) : Z :=
  if prefixb signature l then atoll (skipn (length signature) l) else 0.

(** BeginRead, 243-253, on the contents: the version and the rest.  A missing
    first line leaves the signature buffer uninitialised in C++; it counts as
    no signature here. *)
Definition open_version (c : list Z) : option (Z * list Z) :=
  match read_line 128 c with
  | None => Some (0, c)
  | Some (l, rest) => let v := parse_version l in if queue_version <? v then None else Some (v, rest)
  end.

(** One block of LoadDownloadQueue: the file is read if it exists; a version
    that is not positive is an error.  Versions below 62 take branches that are
    not modelled and count as an error here. *)
Definition load_block {A} (c : cell) (dflt : A) (parse : list Z -> option (A * list Z)) : cell * option A :=
  if file_exists c then
    let '(c', r) := begin_read c in
    match r with
    | None => (c', None)
    | Some content =>
        match open_version content with
        | Some (v, rest) =>
            if v =? queue_version then
              match parse rest with Some (a, _) => (c', Some a) | None => (c', None) end
            else (c', None)
        | None => (c', None)
        end
    end
  else (c, Some dflt).

(** The state after a start. *)
Record started := mkStarted { st_ok : bool; st_queue : list nzb; st_history : list hentry; st_wiped : bool; st_fs : sysfs }.

(** QueueCoordinator::Load, 112-131, with LoadDownloadQueue, 321-423.  Without
    the files "queue" and "history" everything is discarded (DownloadQueueExists,
    1517-1523, does not look at the temporary files), including the files with
    the articles of the queued downloads (1488-1514): [st_wiped].  An error in
    one block skips the following ones.  Groups read before an error inside the
    queue file stay in memory in C++; the queue is empty here. *)
Definition startup (servers : list server) (s : sysfs) : started :=
  match c_dst (s_queue s), c_dst (s_history s) with
  | None, None => mkStarted false [] [] true s
  | _, _ =>
      let '(cq, rq) := load_block (s_queue s) [] (load_queue servers) in
      let s1 := sset FQueue cq s in
      match rq with
      | None => mkStarted false [] [] false s1
      | Some q =>
          let '(cp, rp) := load_block (s_progress s1) q (load_progress servers q) in
          let s2 := sset FProgress cp s1 in
          match rp with
          | None => mkStarted false q [] false s2
          | Some q' =>
              let '(ch, rh) := load_block (s_history s2) [] (load_history servers) in
              let s3 := sset FHistory ch s2 in
              match rh with
              | None => mkStarted false q' [] false s3
              | Some h => mkStarted true q' h false s3
              end
          end
      end
  end.

(** ** Post-processing after a restart *)

(** PostInfo::EStage, DownloadInfo.h 762-776. *)
Definition ptQueued : Z := 0.
Definition ptMoving : Z := 9.
Definition ptExecutingScript : Z := 10.
Definition ptFinished : Z := 11.

(** SanitisePostQueue, 189-210: the stage of a group found in post-processing
    at the start of the program. *)
Definition sanitise_stage (dir_exists : bool) (stage : Z) : Z :=
  if (stage =? ptExecutingScript) || negb dir_exists then ptFinished else ptQueued.
