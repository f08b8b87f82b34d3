(** The history: how long items stay, editing of items, parking of files and
    taking downloads back into the queue.

    daemon/queue/HistoryCoordinator.cpp
      39-84    ServiceWork
      86-117   DeleteDiskFiles
      119-195  AddToHistory
      197-231  HistoryHide
      252-335  EditList
      337-371  HistoryDelete
      373-430  MoveToQueue
      432-536  HistoryRedownload
      538-568  HistoryReturn, HistoryProcess
      570-655  HistoryRetry
      657-711  ResetArticles
      713-764  HistorySetParameter, HistorySetCategory, HistorySetName
      766-868  HistorySetDupeParam
    daemon/queue/DownloadInfo.cpp 415-452 NzbInfo::MoveFileList
    daemon/queue/QueueCoordinator.cpp 432-483 CheckDupeFileInfos
    daemon/postprocess/PrePostProcessor.cpp 407-416 NzbCompleted

    Simplifications: deleting files and directories always works; messages are
    left out; the logic of duplicates behind the marks "bad" and "good" is the
    one of DupeModel and not repeated here (marks are left out); the state files
    of a download (in QueueDir) are what the functions [w_load] and [w_state]
    give, see C78 and C79 for their content; the articles of a returned file stay
    loaded.  The statistics of a download are those of StatsModel. *)
From Verif Require Import Base InfoModel StatsModel.
Open Scope list_scope.
Open Scope Z_scope.

(** ** Items of the history *)

(** HistoryInfo::EKind, DownloadInfo.h. *)
Inductive hkind := hkNzb | hkUrl | hkDup.
Definition is_kind (a b : hkind) : bool :=
  match a, b with hkNzb, hkNzb | hkUrl, hkUrl | hkDup, hkDup => true | _, _ => false end.

(** An item with the members used here.  [h_deleted]: delete status
    (EDeleteStatus as a number: 0 none, 1 manual, 3 dupe ...); [h_failed]: par
    status "failure" or unpack status "failure" or "password"; [h_dir]: the
    destination directory; [h_nzb]: QueuedFilename. *)
Record hitem := mkH {
  h_id : Z; h_kind : hkind; h_time : Z;
  h_name : list Z; h_cat : list Z; h_params : list (list Z * list Z);
  h_key : list Z; h_score : Z; h_mode : Z;
  h_deleted : Z; h_failed : bool; h_parked : Z;
  h_dir : list Z; h_nzb : list Z
}.

(** HistoryHide, 197-231: only the members for the duplicate check stay (the
    status is the subject of C90). *)
Definition hide (h : hitem) : hitem :=
  mkH (h_id h) hkDup (h_time h) (h_name h) [] [] (h_key h) (h_score h) (h_mode h)
      0 false 0 [] [].

Record disk := mkDisk { d_dirs : list (list Z); d_files : list (list Z) }.
Definition there (p : list Z) (l : list (list Z)) : bool := existsb (beqb p) l.
Definition gone (p : list Z) (l : list (list Z)) : list (list Z) :=
  filter (fun x => negb (beqb p x)) l.

(** The names separated with "|", 103-116. *)
Fixpoint parts (s : list Z) : list (list Z) :=
  match s with
  | [] => [[]]
  | c :: r =>
      if c =? 124 then [] :: parts r
      else match parts r with [] => [[c]] | x :: y => (c :: x) :: y end
  end.

(** DeleteDiskFiles, 86-117; [nzb_cleanup] is the option NzbCleanupDisk. *)
Definition delete_one (files : list (list Z)) (p : list Z) : list (list Z) :=
  if there p files then gone p files else files.
Definition delete_disk_files (nzb_cleanup : bool) (h : hitem) (d : disk) : disk :=
  if nzb_cleanup
  then mkDisk (d_dirs d) (fold_left delete_one (parts (h_nzb h)) (d_files d))
  else d.

(** ** How long items stay *)

(** ServiceWork, 51-77: [i] is the number of items already left behind, counted
    from the end.  The fuel is the number of items not yet looked at. *)
Fixpoint expire (nzb_cleanup dupe_check : bool) (min : Z) (fuel : nat) (l : list hitem) (i : nat)
    (d : disk) : list hitem * disk :=
  match fuel with
  | O => (l, d)
  | S fuel =>
      let at_ := (length l - 1 - i)%nat in
      match nth_error l at_ with
      | None => (l, d)
      | Some h =>
          if negb (is_kind (h_kind h) hkDup) && (h_time h <? min) then
            if dupe_check && is_kind (h_kind h) hkNzb then
              expire nzb_cleanup dupe_check min fuel
                (firstn at_ l ++ hide h :: skipn (S at_) l) (S i)
                (delete_disk_files nzb_cleanup h d)
            else
              expire nzb_cleanup dupe_check min fuel
                (firstn at_ l ++ skipn (S at_) l) i
                (if is_kind (h_kind h) hkNzb then delete_disk_files nzb_cleanup h d else d)
          else expire nzb_cleanup dupe_check min fuel l (S i) d
      end
  end.

(** ServiceWork, 39-84.  The product of option KeepHistory and the seconds of a
    day is computed in int (43); [None]: overflow. *)
Definition service_work (nzb_cleanup dupe_check : bool) (keep now : Z) (l : list hitem) (d : disk)
    : option (list hitem * disk) :=
  if (keep * 60 * 60 * 24 <? - 2 ^ 31) || (2 ^ 31 <=? keep * 60 * 60 * 24) then None
  else Some (expire nzb_cleanup dupe_check (now - keep * 60 * 60 * 24) (length l) l 0 d).

(** ** Editing *)

(** DownloadQueue::EEditAction, the actions for the history without the marks. *)
Inductive haction :=
| HDelete (final : bool) | HReturn | HProcess | HRedownload | HRetry
| HSetParameter (text : list Z) | HSetCategory (text : list Z) | HSetName (text : list Z)
| HSetDupeKey (text : list Z) | HSetDupeScore (n : Z) (* atoi of the text *)
| HSetDupeMode (mode : option Z) (* None: no known word *)
| HSetDupeBackup (yes : bool).

(** What happens to an item. *)
Inductive hfate := Stay (h : hitem) | Gone | ToQueue (h : hitem).

Definition with_name (h : hitem) (x : list Z) : hitem :=
  mkH (h_id h) (h_kind h) (h_time h) x (h_cat h) (h_params h) (h_key h) (h_score h) (h_mode h)
      (h_deleted h) (h_failed h) (h_parked h) (h_dir h) (h_nzb h).
Definition with_cat (h : hitem) (x : list Z) : hitem :=
  mkH (h_id h) (h_kind h) (h_time h) (h_name h) x (h_params h) (h_key h) (h_score h) (h_mode h)
      (h_deleted h) (h_failed h) (h_parked h) (h_dir h) (h_nzb h).
Definition with_params (h : hitem) (x : list (list Z * list Z)) : hitem :=
  mkH (h_id h) (h_kind h) (h_time h) (h_name h) (h_cat h) x (h_key h) (h_score h) (h_mode h)
      (h_deleted h) (h_failed h) (h_parked h) (h_dir h) (h_nzb h).
Definition with_dupe (h : hitem) (k : list Z) (s m : Z) : hitem :=
  mkH (h_id h) (h_kind h) (h_time h) (h_name h) (h_cat h) (h_params h) k s m
      (h_deleted h) (h_failed h) (h_parked h) (h_dir h) (h_nzb h).
Definition with_deleted_status (h : hitem) (x : Z) : hitem :=
  mkH (h_id h) (h_kind h) (h_time h) (h_name h) (h_cat h) (h_params h) (h_key h) (h_score h)
      (h_mode h) x (h_failed h) (h_parked h) (h_dir h) (h_nzb h).

(** MoveToQueue, 373-430, and the URL branch of HistoryRedownload, 436-448: the
    members that are reset. *)
Definition returned (h : hitem) : hitem :=
  mkH (h_id h) (h_kind h) (h_time h) (h_name h) (h_cat h) (h_params h) (h_key h) (h_score h)
      (h_mode h) 0 (h_failed h) 0 (h_dir h) (h_nzb h).

(** HistoryDelete, 337-371. *)
Definition history_delete (nzb_cleanup dupe_check final : bool) (h : hitem) (d : disk)
    : hfate * disk :=
  let d1 := if is_kind (h_kind h) hkNzb then delete_disk_files nzb_cleanup h d else d in
  let d2 := if is_kind (h_kind h) hkNzb && (negb (h_deleted h =? 0) || h_failed h) &&
               there (h_dir h) (d_dirs d1)
            then mkDisk (gone (h_dir h) (d_dirs d1)) (d_files d1) else d1 in
  if final || negb dupe_check || is_kind (h_kind h) hkUrl then (Gone, d2)
  else if is_kind (h_kind h) hkNzb then (Stay (hide h), delete_disk_files nzb_cleanup h d2)
  else (Stay h, d2).

(** HistoryRedownload, 432-536.  [parses]: NzbFile::Parse succeeds; [newdir]: the
    directory BuildDestDirName gives (496). *)
Definition history_redownload (parses : list Z -> bool) (newdir : hitem -> list Z)
    (h : hitem) (d : disk) : hfate * disk :=
  if is_kind (h_kind h) hkUrl then (ToQueue (returned h), d)
  else if negb (is_kind (h_kind h) hkNzb) then (Stay h, d)
  else if negb (there (h_nzb h) (d_files d)) then (Stay h, d)
  else if negb (parses (h_nzb h)) then (Stay h, d)
  else
    (ToQueue (returned h),
     mkDisk (gone (newdir h) (gone (h_dir h) (d_dirs d))) (d_files d)).

(** HistoryRetry, 570-589 and 649: the conditions; what happens to the files of
    the download is [retry] below. *)
Definition history_retry (h : hitem) (d : disk) : hfate * disk :=
  if negb (is_kind (h_kind h) hkNzb) then (Stay h, d)
  else if negb (there (h_dir h) (d_dirs d)) then (Stay h, d)
  else (ToQueue (returned h), d).

(** HistoryReturn, 538-557. *)
Definition history_return (parses : list Z -> bool) (newdir : hitem -> list Z)
    (h : hitem) (d : disk) : hfate * disk :=
  if is_kind (h_kind h) hkUrl then history_redownload parses newdir h d
  else if is_kind (h_kind h) hkNzb && (h_parked h =? 0) then (Stay h, d)
  else if is_kind (h_kind h) hkNzb then history_retry h d
  else (Stay h, d).

(** The part of the text in front of the first "=" and the rest. *)
Fixpoint cut_eq (s : list Z) : option (list Z * list Z) :=
  match s with
  | [] => None
  | c :: r => if c =? 61 then Some ([], r)
              else match cut_eq r with Some (a, b) => Some (c :: a, b) | None => None end
  end.

(** One turn of EditList, 266-323, for the item found: what becomes of it, the
    disk, and the new value of "ok". *)
Definition edit_one (nzb_cleanup dupe_check : bool) (parses : list Z -> bool)
    (newdir : hitem -> list Z) (a : haction) (h : hitem) (d : disk) : hfate * disk * bool :=
  let url_or_nzb := is_kind (h_kind h) hkNzb || is_kind (h_kind h) hkUrl in
  match a with
  | HDelete final => (history_delete nzb_cleanup dupe_check final h d, true)
  | HReturn => (history_return parses newdir h d, true)
  | HProcess => (if is_kind (h_kind h) hkNzb then history_retry h d else (Stay h, d), true)
  | HRedownload => (history_redownload parses newdir h d, true)
  | HRetry => (history_retry h d, true)
  | HSetParameter t =>                                                     (* 713-737 *)
      if negb url_or_nzb then (Stay h, d, false)
      else match cut_eq t with
           | Some (n, v) => (Stay (with_params h (set_parameter (h_params h) n v)), d, true)
           | None => (Stay h, d, true)
           end
  | HSetCategory t =>                                                      (* 739-752 *)
      if negb url_or_nzb then (Stay h, d, false) else (Stay (with_cat h t), d, true)
  | HSetName t =>                                                          (* 754-775 *)
      match t with [] => (Stay h, d, false) | _ => (Stay (with_name h t), d, true) end
  | HSetDupeKey t => (Stay (with_dupe h t (h_score h) (h_mode h)), d, true)
  | HSetDupeScore n => (Stay (with_dupe h (h_key h) n (h_mode h)), d, true)
  | HSetDupeMode m =>
      (Stay (match m with Some m => with_dupe h (h_key h) (h_score h) m | None => h end), d, true)
  | HSetDupeBackup y =>                                                    (* 822-836, 855-857 *)
      if is_kind (h_kind h) hkNzb && ((h_deleted h =? 3) || (h_deleted h =? 1))
      then (Stay (with_deleted_status h (if y then 3 else 1)), d, true)
      else (Stay h, d, true)
  end.

(** Queue and history; the queue holds the items taken back, newest first.
    [hs_saved]: HistoryChanged and Save were called. *)
Record hstate := mkHS {
  hs_hist : list hitem; hs_queue : list hitem; hs_disk : disk; hs_ok : bool
}.

(** The search for the item (258-263) and the replacement. *)
Fixpoint split_id (id : Z) (l : list hitem) : option (list hitem * hitem * list hitem) :=
  match l with
  | [] => None
  | h :: r => if h_id h =? id then Some ([], h, r)
              else match split_id id r with
                   | Some (a, x, b) => Some (h :: a, x, b)
                   | None => None
                   end
  end.

Definition edit_step (nzb_cleanup dupe_check : bool) (parses : list Z -> bool)
    (newdir : hitem -> list Z) (a : haction) (s : hstate) (id : Z) : hstate :=
  match split_id id (hs_hist s) with
  | None => s
  | Some (l, h, r) =>
      match edit_one nzb_cleanup dupe_check parses newdir a h (hs_disk s) with
      | (Stay h', d, ok) => mkHS (l ++ h' :: r) (hs_queue s) d ok
      | (Gone, d, ok) => mkHS (l ++ r) (hs_queue s) d ok
      | (ToQueue h', d, ok) => mkHS (l ++ r) (h' :: hs_queue s) d ok
      end
  end.

(** EditList, 252-335: the state, whether it is saved, and the answer (both are
    the same variable, 328-334). *)
Definition edit_list (nzb_cleanup dupe_check : bool) (parses : list Z -> bool)
    (newdir : hitem -> list Z) (a : haction) (ids : list Z) (s : hstate) : hstate :=
  fold_left (edit_step nzb_cleanup dupe_check parses newdir a) ids
    (mkHS (hs_hist s) (hs_queue s) (hs_disk s) false).

(** ** Files of a download in the history *)

(** CompletedFile::EStatus, DownloadInfo.h. *)
Inductive cstatus := cfNone | cfSuccess | cfPartial | cfFailure.
Definition is_status (a b : cstatus) : bool :=
  match a, b with
  | cfNone, cfNone | cfSuccess, cfSuccess | cfPartial, cfPartial | cfFailure, cfFailure => true
  | _, _ => false
  end.

(** A completed file; [c_f] is the file as it was when it left the queue (a
    ghost, except for its id). *)
Record cfile := mkC { c_status : cstatus; c_f : finfo }.

(** QueueCoordinator::DeleteFileInfo, QueueCoordinator.cpp 840-844. *)
Definition status_of (f : finfo) : cstatus :=
  let n := f_num f in
  if n FTotal =? n FSuccArt then cfSuccess
  else if n FTotal =? n FMissedArt + n FFailArt then cfFailure
  else if (0 <? n FSuccArt) || (0 <? n FFailArt) then cfPartial
  else cfNone.

(** AddToHistory, 128-134: the files still in the queue. *)
Definition park_one (p : group * list cfile) (f : finfo) : group * list cfile :=
  (with_done (f :: g_done (fst p)) (update_completed f (fst p)), snd p ++ [mkC cfNone f]).

(** The statuses of AddToHistory 138-149, as numbers of EParStatus and
    EUnpackStatus (DownloadInfo.h): par 2 failure, 3 success, 4 repair possible;
    unpack 0 none, 1 skipped, 2 failure, 3 success, 4 space, 5 password. *)
Definition forget_files (par unpack deleted : Z) (clean parking wiped : bool) : bool :=
  ((((par =? 3) || (par =? 4)) &&
    negb (unpack =? 2) && negb (unpack =? 4) && negb (unpack =? 5)) ||
   ((unpack =? 3) && negb (par =? 2)) ||
   ((unpack <=? 1) && negb (par =? 2) && clean) ||
   negb (deleted =? 0)) && negb parking || wiped.

(** 165-176. *)
Fixpoint parked_count (l : list cfile) : Z :=
  match l with
  | [] => 0
  | c :: r =>
      (if is_status (c_status c) cfNone ||
          (is_status (c_status c) cfPartial && match r with [] => true | _ => false end)
       then 1 else 0) + parked_count r
  end.

(** AddToHistory, 119-195: the download, its completed files and the number of
    parked files. *)
Definition add_to_history (par unpack deleted : Z) (parking wiped : bool) (g : group)
    (l : list cfile) : group * list cfile * Z :=
  let '(g1, l1) := fold_left park_one (g_files g) (g, l) in
  let clean := g_st g1 Failed - g_st g1 ParFailed =? 0 in
  let l2 := if forget_files par unpack deleted clean parking wiped then [] else l1 in
  (with_st (assign [(RemPar, 0)] (g_st g1)) (with_files [] g1), l2, parked_count l2).

(** ** Retrying *)

(** What is found on the disk: the description of a file (LoadFile), its state
    (LoadFileState applied to the description), and for the output file whether
    it exists and whether it is empty. *)
Record world := mkW {
  w_load : Z -> option finfo;
  w_state : Z -> option finfo;
  w_exists : Z -> bool;
  w_empty : Z -> bool
}.

(** One article in ResetArticles, 684-709.  [gone_]: PartialState is psNone. *)
Definition resets (all_failed reset_failed gone_ : bool) (st : art_status) : bool :=
  match st with
  | aiFailed => reset_failed || gone_
  | aiUndefined => reset_failed && all_failed
  | aiFinished => gone_
  | aiRunning => false
  end.
Definition reset_article (all_failed reset_failed gone_ : bool) (f : finfo) (a : art)
    : finfo * art :=
  let (size, st) := a in
  if resets all_failed reset_failed gone_ st then
    (with_num (fbump ([(FCompl, -1); (FRem, size)] ++
                      match st with
                      | aiFailed | aiUndefined => [(FFailArt, -1); (FFail, - size)]
                      | aiFinished => [(FSuccArt, -1); (FSucc, - size)]
                      | aiRunning => []
                      end) (f_num f)) f,
     (size, aiUndefined))
  else (f, a).
Fixpoint reset_loop (all_failed reset_failed gone_ : bool) (f : finfo) (l : list art)
    : finfo * list art :=
  match l with
  | [] => (f, [])
  | a :: r =>
      let (f1, a1) := reset_article all_failed reset_failed gone_ f a in
      let (f2, r1) := reset_loop all_failed reset_failed gone_ f1 r in
      (f2, a1 :: r1)
  end.

(** ResetArticles, 657-711. *)
Definition reset_articles (all_failed reset_failed gone_ : bool) (f : finfo) (g : group)
    : finfo * group :=
  let f1 :=
    if all_failed then
      let n := f_num f in
      let n1 := fassign [(FFail, n FSize - n FMissed);
                         (FFailArt, n FTotal - n FMissedArt); (FRem, 0)] n in
      with_num (fassign [(FCompl, n1 FFailArt)] n1) f
    else f in
  let n := f_num f1 in
  let g1 := with_gsrv (list_op (g_srv g) (f_srv f1) soSubtract)
    (with_st (bump ([(Failed, - n FFail); (Success, - n FSucc); (FailArt, - n FFailArt);
                     (SuccArt, - n FSuccArt)] ++
                    (if f_par f1 then [(ParFailed, - n FFail); (ParSuccess, - n FSucc)] else []))
                   (g_st g)) g) in
  let (f2, arts) := reset_loop all_failed reset_failed gone_ f1 (f_arts f1) in
  (with_arts arts f2, g1).

(** The choice at 595-607: the file as loaded. *)
Definition load_completed (w : world) (reset_failed : bool) (c : cfile) : option finfo :=
  let st := c_status c in
  let id := f_id (c_f c) in
  if negb (is_status st cfSuccess) && (negb (is_status st cfFailure) || reset_failed) && (0 <? id)
  then match w_load w id with
       | None => None
       | Some f =>
           match st with
           | cfNone => Some f
           | cfFailure => if reset_failed then Some f else None
           | cfPartial =>
               match w_state w id with
               | Some f' => if reset_failed || (0 <? f_num f' FRem) then Some f' else None
               | None => None
               end
           | cfSuccess => None
           end
       end
  else None.

(** 613-630: whether PartialState stays psNone.  An output file that is empty is
    deleted first (613-616). *)
Definition output_gone (w : world) (f : finfo) : bool :=
  if 0 <? f_num f FSuccArt then negb (w_exists w (f_id f) && negb (w_empty w (f_id f))) else true.

(** The loop at 592-645. *)
Fixpoint retry_files (w : world) (reset_failed : bool) (g : group) (l : list cfile)
    : group * list cfile :=
  match l with
  | [] => (g, [])
  | c :: r =>
      match load_completed w reset_failed c with
      | Some f =>
          let (f', g1) := reset_articles (is_status (c_status c) cfFailure) reset_failed
                            (output_gone w f) f g in
          retry_files w reset_failed (with_files (g_files g1 ++ [f']) g1) r
      | None => let (g1, l1) := retry_files w reset_failed g r in (g1, c :: l1)
      end
  end.

(** HistoryRetry, 592-647. *)
Definition retry (w : world) (reset_failed : bool) (g : group) (l : list cfile)
    : group * list cfile :=
  let (g1, l1) := retry_files w reset_failed g l in (update_current g1, l1).

(** ** Downloading again *)

(** MoveFileList, DownloadInfo.cpp 415-452; the current numbers of articles are
    copied from the other ones (447-448). *)
Definition move_file_list (src dst : group) : group :=
  let s := g_st src in
  mkG (assign [(FileCount, s FileCount); (PausedCount, s PausedCount); (RemPar, s RemPar);
               (Size, s Size); (Remaining, s Remaining); (PausedSize, s PausedSize);
               (Success, s Success); (CurSuccess, s CurSuccess); (Failed, s Failed);
               (CurFailed, s CurFailed); (ParSize, s ParSize); (ParSuccess, s ParSuccess);
               (ParCurSuccess, s ParCurSuccess); (ParFailed, s ParFailed);
               (ParCurFailed, s ParCurFailed); (TotalArt, s TotalArt); (SuccArt, s SuccArt);
               (FailArt, s FailArt); (CurSuccArt, s SuccArt); (CurFailArt, s FailArt)] (g_st dst))
      (g_files src) (g_done dst) (g_srv dst) (g_cur dst) (g_deleting dst) (g_parking dst)
      (g_renaming dst) (g_wiped dst) (g_lost dst).

(** CheckDupeFileInfos, QueueCoordinator.cpp 432-483: [name] gives the names. *)
Definition dupes_of (name : finfo -> list Z) (l : list finfo) (f : finfo) : nat :=
  length (filter (fun x => beqb (name x) (name f)) l).
Fixpoint has_twin (name : finfo -> list Z) (all : list finfo) (i : nat) (f : finfo) (j : nat)
    (l : list finfo) : bool :=
  match l with
  | [] => false
  | f2 :: r =>
      (negb (Nat.eqb i j) && beqb (name f) (name f2) &&
       ((f_num f FSize <? f_num f2 FSize) ||
        ((f_num f FSize =? f_num f2 FSize) && Nat.ltb j i)) &&
       Nat.eqb (dupes_of name all f2) 2)
      || has_twin name all i f (S j) r
  end.
Fixpoint dupe_list (name : finfo -> list Z) (all : list finfo) (i : nat) (l : list finfo)
    : list finfo :=
  match l with
  | [] => []
  | f :: r =>
      if has_twin name all i f 0 all then f :: dupe_list name all (S i) r
      else dupe_list name all (S i) r
  end.
Definition drop_dupe (g : group) (f : finfo) : group :=
  with_files (del_file (f_id f) (g_files g)) (update_deleted f g).
Definition check_dupe_files (name : finfo -> list Z) (g : group) : group :=
  fold_left drop_dupe (dupe_list name (g_files g) 0 (g_files g)) g.

(** HistoryRedownload, 466-526: [src] is the download read from the nzb-file;
    the statistics of servers are cleared (523-524); the ghosts of the group
    start anew. *)
Definition redownload (name : finfo -> list Z) (paused : bool) (src g : group) : group :=
  let src1 := fold_left (fun s f => set_paused paused f s) (g_files src) src in
  check_dupe_files name
    (move_file_list src1 (mkG (g_st g) (g_files g) [] [] [] (g_deleting g) (g_parking g)
                              (g_renaming g) [] 0)).
