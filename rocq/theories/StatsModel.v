(** Statistics of a download group (class NzbInfo) and how every queue operation
    updates them.

    daemon/queue/DownloadInfo.cpp
      652-693 NzbInfo::UpdateCurrentStats
      695-714 NzbInfo::UpdateCompletedStats
      716-749 NzbInfo::UpdateDeletedStats
      751-768 NzbInfo::IsDownloadCompleted
      802-819 FileInfo::SetPaused, FileInfo::SetExtraPriority
    daemon/queue/QueueCoordinator.cpp
      633-658   StartArticleDownload
      680-797   ArticleCompleted
      799-819   DeleteDownloader
      821-894   DeleteFileInfo
      1077-1095 DeleteQueueEntry
      1148-1229 MergeQueueEntries
      1236-1347 SplitQueueEntries
      1383-1436 DiscardDirectRename
      1438-1488 DiscardDownloadedArticles
    daemon/queue/DirectRenamer.cpp 190-213 (change of the par2 flag)
    daemon/queue/NzbFile.cpp 60-113 AddFileInfo, 349-379 ProcessFiles
    daemon/nntp/ArticleWriter.cpp 449-457 (a vanished temporary file)

    Simplifications: int and int64 counters are unbounded integers; the articles
    of a file are always loaded (the code loads them lazily from disk and frees
    them again); times, messages and disk effects are left out, except that the
    deletion of the output of an already completed file is recorded.  Unlocked
    sections are represented by separate operations that may be interleaved. *)
From Verif Require Import Base InfoModel.

(** ** Files *)

(** ArticleInfo::EStatus, DownloadInfo.h 77-83. *)
Inductive art_status := aiUndefined | aiRunning | aiFinished | aiFailed.

(** An article: its size and status (part number = position + 1). *)
Notation art := (Z * art_status)%type.

(** The numeric members of FileInfo, DownloadInfo.h 213-243. *)
Inductive ffld :=
  FSize | FRem | FSucc | FFail | FMissed
| FTotal | FMissedArt | FSuccArt | FFailArt | FCompl | FActive.

Definition ffld_eqb (a b : ffld) : bool :=
  match a, b with
  | FSize, FSize | FRem, FRem | FSucc, FSucc | FFail, FFail | FMissed, FMissed
  | FTotal, FTotal | FMissedArt, FMissedArt | FSuccArt, FSuccArt
  | FFailArt, FFailArt | FCompl, FCompl | FActive, FActive => true
  | _, _ => false
  end.

Record finfo := mkF {
  f_id : Z;
  f_num : ffld -> Z;          (* sizes and counters *)
  f_paused : bool;
  f_par : bool;
  f_extra : bool;
  f_deleted : bool;
  f_arts : list art;
  f_srv : list sstat          (* m_serverStats of the file *)
}.

(** A run of  SetX(GetX() + d)  statements. *)
Fixpoint fbump (l : list (ffld * Z)) (n : ffld -> Z) : ffld -> Z :=
  match l with
  | [] => n
  | (f, d) :: r => fbump r (fun x => if ffld_eqb f x then n x + d else n x)
  end.

(** A run of  SetX(v)  statements. *)
Fixpoint fassign (l : list (ffld * Z)) (n : ffld -> Z) : ffld -> Z :=
  match l with
  | [] => n
  | (f, v) :: r => fassign r (fun x => if ffld_eqb f x then v else n x)
  end.

Definition with_num (n : ffld -> Z) (f : finfo) : finfo :=
  mkF (f_id f) n (f_paused f) (f_par f) (f_extra f) (f_deleted f) (f_arts f) (f_srv f).
Definition with_paused (b : bool) (f : finfo) : finfo :=
  mkF (f_id f) (f_num f) b (f_par f) (f_extra f) (f_deleted f) (f_arts f) (f_srv f).
Definition with_par (b : bool) (f : finfo) : finfo :=
  mkF (f_id f) (f_num f) (f_paused f) b (f_extra f) (f_deleted f) (f_arts f) (f_srv f).
Definition with_extra (b : bool) (f : finfo) : finfo :=
  mkF (f_id f) (f_num f) (f_paused f) (f_par f) b (f_deleted f) (f_arts f) (f_srv f).
Definition with_deleted (b : bool) (f : finfo) : finfo :=
  mkF (f_id f) (f_num f) (f_paused f) (f_par f) (f_extra f) b (f_arts f) (f_srv f).
Definition with_arts (a : list art) (f : finfo) : finfo :=
  mkF (f_id f) (f_num f) (f_paused f) (f_par f) (f_extra f) (f_deleted f) a (f_srv f).
Definition with_srv (s : list sstat) (f : finfo) : finfo :=
  mkF (f_id f) (f_num f) (f_paused f) (f_par f) (f_extra f) (f_deleted f) (f_arts f) s.

(** ** Groups *)

(** The statistics members of NzbInfo, DownloadInfo.h 660-690. *)
Inductive fld :=
  FileCount | PausedCount | RemPar
| Size | Remaining | PausedSize
| Success | CurSuccess | Failed | CurFailed
| ParSize | ParSuccess | ParCurSuccess | ParFailed | ParCurFailed
| TotalArt | SuccArt | FailArt | CurSuccArt | CurFailArt
| Extra | Active.

Definition fld_tag (x : fld) : nat :=
  match x with
  | FileCount => 0 | PausedCount => 1 | RemPar => 2
  | Size => 3 | Remaining => 4 | PausedSize => 5
  | Success => 6 | CurSuccess => 7 | Failed => 8 | CurFailed => 9
  | ParSize => 10 | ParSuccess => 11 | ParCurSuccess => 12 | ParFailed => 13 | ParCurFailed => 14
  | TotalArt => 15 | SuccArt => 16 | FailArt => 17 | CurSuccArt => 18 | CurFailArt => 19
  | Extra => 20 | Active => 21
  end%nat.
Definition fld_eqb (a b : fld) : bool := Nat.eqb (fld_tag a) (fld_tag b).

Record group := mkG {
  g_st : fld -> Z;
  g_files : list finfo;       (* m_fileList: files still in the queue *)
  g_done : list finfo;        (* ghost: the files finished with UpdateCompletedStats *)
  g_srv : list sstat;         (* m_serverStats *)
  g_cur : list sstat;         (* m_currentServerStats *)
  g_deleting : bool;
  g_parking : bool;
  g_renaming : bool;          (* m_directRenameStatus == tsRunning *)
  g_wiped : list Z;           (* ghost: files discarded while being taken out of the queue *)
  g_lost : Z                  (* ghost: number of vanished temporary files *)
}.

Fixpoint bump (l : list (fld * Z)) (s : fld -> Z) : fld -> Z :=
  match l with
  | [] => s
  | (f, d) :: r => bump r (fun x => if fld_eqb f x then s x + d else s x)
  end.
Fixpoint assign (l : list (fld * Z)) (s : fld -> Z) : fld -> Z :=
  match l with
  | [] => s
  | (f, v) :: r => assign r (fun x => if fld_eqb f x then v else s x)
  end.

Definition with_st (s : fld -> Z) (g : group) : group :=
  mkG s (g_files g) (g_done g) (g_srv g) (g_cur g) (g_deleting g) (g_parking g)
      (g_renaming g) (g_wiped g) (g_lost g).
Definition with_files (l : list finfo) (g : group) : group :=
  mkG (g_st g) l (g_done g) (g_srv g) (g_cur g) (g_deleting g) (g_parking g)
      (g_renaming g) (g_wiped g) (g_lost g).
Definition with_done (l : list finfo) (g : group) : group :=
  mkG (g_st g) (g_files g) l (g_srv g) (g_cur g) (g_deleting g) (g_parking g)
      (g_renaming g) (g_wiped g) (g_lost g).
Definition with_gsrv (s : list sstat) (g : group) : group :=
  mkG (g_st g) (g_files g) (g_done g) s (g_cur g) (g_deleting g) (g_parking g)
      (g_renaming g) (g_wiped g) (g_lost g).
Definition with_cur (s : list sstat) (g : group) : group :=
  mkG (g_st g) (g_files g) (g_done g) (g_srv g) s (g_deleting g) (g_parking g)
      (g_renaming g) (g_wiped g) (g_lost g).
Definition with_flags (d p r : bool) (g : group) : group :=
  mkG (g_st g) (g_files g) (g_done g) (g_srv g) (g_cur g) d p r (g_wiped g) (g_lost g).
Definition with_ghost (w : list Z) (n : Z) (g : group) : group :=
  mkG (g_st g) (g_files g) (g_done g) (g_srv g) (g_cur g) (g_deleting g) (g_parking g)
      (g_renaming g) w n.

(** [b2z b] is the C conversion of a bool to int. *)
Definition b2z (b : bool) : Z := if b then 1 else 0.

(** The files of a group are distinct objects; the model finds them by id. *)
Fixpoint find_file (id : Z) (l : list finfo) : option finfo :=
  match l with
  | [] => None
  | f :: r => if f_id f =? id then Some f else find_file id r
  end.
Fixpoint put_file (id : Z) (f' : finfo) (l : list finfo) : list finfo :=
  match l with
  | [] => []
  | f :: r => if f_id f =? id then f' :: r else f :: put_file id f' r
  end.
Fixpoint del_file (id : Z) (l : list finfo) : list finfo :=
  match l with
  | [] => []
  | f :: r => if f_id f =? id then r else f :: del_file id r
  end.

Definition replace (f' : finfo) (g : group) : group :=
  with_files (put_file (f_id f') f' (g_files g)) g.

(** ** Creation *)

(** AddFileInfo, NzbFile.cpp 63-100: the loop over the article slots; [None] is
    a part missing in the nzb-file.  State: size, missedSize, oneSize,
    uncountedArticles, missedArticles, articles kept (reversed). *)
Record afi := mkA { a_size : Z; a_msize : Z; a_one : Z; a_unc : Z; a_miss : Z; a_kept : list art }.

Definition afi_step (s : afi) (slot : option Z) : afi :=
  match slot with
  | None =>
      if 0 <? a_one s
      then mkA (a_size s) (a_msize s + a_one s) (a_one s) (a_unc s) (a_miss s + 1) (a_kept s)
      else mkA (a_size s) (a_msize s) (a_one s) (a_unc s + 1) (a_miss s + 1) (a_kept s)
  | Some n =>
      mkA (a_size s + n) (a_msize s) (if a_one s =? 0 then n else a_one s)
          (a_unc s) (a_miss s) ((n, aiUndefined) :: a_kept s)
  end.

(** AddFileInfo, 60-113; [None] when the file has no article at all (97-100).
    A file as read from the nzb-file: id, whether its name contains .par2
    (NzbFile.cpp 354-356, 369), and the article slots. *)
Definition add_file_info (src : Z * bool * list (option Z)) : option finfo :=
  match src with
  | (id, par, slots) =>
      let s := fold_left afi_step slots (mkA 0 0 0 0 0 []) in
      match a_kept s with
      | [] => None
      | _ =>
          let msize := a_msize s + a_unc s * a_one s in
          let size := a_size s + msize in
          Some (mkF id
            (fassign [(FSize, size); (FRem, size - msize); (FMissed, msize);
                      (FTotal, Z.of_nat (length slots)); (FMissedArt, a_miss s)]
                     (fun _ => 0))
            false par false false (rev (a_kept s)) [])
      end
  end.

Fixpoint add_files (l : list (Z * bool * list (option Z))) : list finfo :=
  match l with
  | [] => []
  | x :: r => match add_file_info x with Some f => f :: add_files r | None => add_files r end
  end.

(** ProcessFiles, the loop body at 358-379. *)
Definition process_file (s : fld -> Z) (f : finfo) : fld -> Z :=
  let n := f_num f in
  let s1 := bump [(FileCount, 1); (TotalArt, n FTotal); (FailArt, n FMissedArt);
                  (CurFailArt, n FMissedArt); (Size, n FSize); (Remaining, n FRem);
                  (Failed, n FMissed)] s in
  let s2 := assign [(CurFailed, s1 Failed)] s1 in
  if f_par f then
    let s3 := bump [(ParSize, n FSize); (ParFailed, n FMissed)] s2 in
    let s4 := assign [(ParCurFailed, s3 ParFailed)] s3 in
    bump [(RemPar, 1)] s4
  else s2.

(** A group read from an nzb-file. *)
Definition new_group (l : list (Z * bool * list (option Z))) : group :=
  let files := add_files l in
  mkG (fold_left process_file files (fun _ => 0)) files [] [] [] false false false [] 0.

(** ** Pausing and priority *)

(** FileInfo::SetPaused, 802-810. *)
Definition set_paused (b : bool) (f : finfo) (g : group) : group :=
  let g1 := if Bool.eqb (f_paused f) b then g
            else with_st (bump [(PausedCount, if b then 1 else -1);
                                (PausedSize, if b then f_num f FRem else - f_num f FRem)]
                               (g_st g)) g in
  replace (with_paused b f) g1.

(** FileInfo::SetExtraPriority, 812-819. *)
Definition set_extra (b : bool) (f : finfo) (g : group) : group :=
  let g1 := if Bool.eqb (f_extra f) b then g
            else with_st (bump [(Extra, if b then 1 else -1)] (g_st g)) g in
  replace (with_extra b f) g1.

(** ** Articles *)

Definition set_art (k : nat) (st : art_status) (l : list art) : list art :=
  match nth_error l k with
  | Some (n, _) => firstn k l ++ (n, st) :: skipn (Datatypes.S k) l
  | None => l
  end.

(** StartArticleDownload, 652-654, for an article of status aiUndefined (that
    is what GetNextArticle hands out). *)
Definition start_article (k : nat) (f : finfo) (g : group) : group :=
  match nth_error (f_arts f) k with
  | Some (_, aiUndefined) =>
      replace (with_arts (set_art k aiRunning (f_arts f))
                (with_num (fbump [(FActive, 1)] (f_num f)) f))
              (with_st (bump [(Active, 1)] (g_st g)) g)
  | _ => g
  end.

(** ArticleDownloader::EStatus as seen by ArticleCompleted. *)
Inductive art_result := adFinished | adFailed | adRetry.

(** DirectRenamer::ArticleDownloaded, 190-213: the content says that the file is
    (not) a par2-file although its name suggested otherwise. *)
Definition change_par (b : bool) (f : finfo) (g : group) : group :=
  if Bool.eqb (f_par f) b then g
  else
    let f1 := with_par b f in
    let n := f_num f1 in
    let delta := if b then 1 else -1 in
    let g1 := with_st (bump [(ParSize, n FSize * delta); (ParCurSuccess, n FSucc * delta);
                             (ParCurFailed, n FFail * delta + n FMissed * delta);
                             (ParFailed, n FMissed * delta); (RemPar, 1 * delta)] (g_st g)) g in
    if negb b && f_paused f1 then set_paused false f1 g1
    else replace f1 g1.

(** ArticleCompleted, 694-762 (everything before CheckHealth): [srv] is
    articleDownloader->GetServerStats(), [dup] tells that the duplicate-file
    check at 750-760 fired, [newpar] is the verdict of the content analyzer. *)
Definition article_stats (k : nat) (size : Z) (r : art_result) (srv : list sstat) (dup : bool)
    (f : finfo) (g : group) : finfo * group :=
  let par := if f_par f then size else 0 in
  match r with
  | adRetry => (with_arts (set_art k aiUndefined (f_arts f)) f, g)            (* 714-722 *)
  | adFinished =>                                                            (* 694-703 *)
      (with_deleted (f_deleted f || dup)
        (with_srv (list_op (f_srv f) srv soAdd)                                   (* 733 *)
          (with_num (fbump [(FSucc, size); (FSuccArt, 1); (FRem, - size); (FCompl, 1)] (f_num f))
            (with_arts (set_art k aiFinished (f_arts f)) f))),
       with_cur (list_op (g_cur g) srv soAdd)                                     (* 734 *)
         (with_st (bump ([(CurSuccess, size); (ParCurSuccess, par); (CurSuccArt, 1);
                          (Remaining, - size)] ++
                         (if f_paused f then [(PausedSize, - size)] else [])) (g_st g)) g))
  | adFailed =>                                                              (* 704-713 *)
      (with_srv (list_op (f_srv f) srv soAdd)
        (with_num (fbump [(FFail, size); (FFailArt, 1); (FRem, - size); (FCompl, 1)] (f_num f))
          (with_arts (set_art k aiFailed (f_arts f)) f)),
       with_cur (list_op (g_cur g) srv soAdd)
         (with_st (bump ([(CurFailed, size); (ParCurFailed, par); (CurFailArt, 1);
                          (Remaining, - size)] ++
                         (if f_paused f then [(PausedSize, - size)] else [])) (g_st g)) g))
  end.

Definition article_done (k : nat) (r : art_result) (srv : list sstat) (dup : bool)
    (newpar : option bool) (f : finfo) (g : group) : group :=
  match nth_error (f_arts f) k with
  | Some (size, aiRunning) =>
      let (f1, g1) := article_stats k size r srv dup f g in
      let g2 := replace f1 g1 in
      match r, newpar with
      | adFinished, Some b => change_par b f1 g2
      | _, _ => g2
      end
  | _ => g
  end.

(** ** Taking files out of the queue *)

(** UpdateCompletedStats, 695-714. *)
Definition update_completed (f : finfo) (g : group) : group :=
  let n := f_num f in
  with_gsrv (list_op (g_srv g) (f_srv f) soAdd)
    (with_st (bump ([(Success, n FSucc); (Failed, n FFail); (FailArt, n FFailArt);
                     (SuccArt, n FSuccArt); (Extra, - b2z (f_extra f))] ++
                    (if f_par f then [(ParSuccess, n FSucc); (ParFailed, n FFail); (RemPar, -1)]
                     else []) ++
                    (if f_paused f then [(PausedCount, -1)] else [])) (g_st g)) g).

(** UpdateDeletedStats, 716-749. *)
Definition update_deleted (f : finfo) (g : group) : group :=
  let n := f_num f in
  with_cur (list_op (g_cur g) (f_srv f) soSubtract)
    (with_st (bump ([(FileCount, -1); (Size, - n FSize); (CurSuccess, - n FSucc);
                     (Failed, - n FMissed); (FailArt, - n FMissedArt);
                     (CurFailed, - (n FFail + n FMissed)); (TotalArt, - n FTotal);
                     (CurSuccArt, - n FSuccArt); (CurFailArt, - (n FFailArt + n FMissedArt));
                     (Remaining, - n FRem); (Extra, - b2z (f_extra f))] ++
                    (if f_par f then [(RemPar, -1); (ParSize, - n FSize); (ParCurSuccess, - n FSucc);
                                      (ParFailed, - n FMissed);
                                      (ParCurFailed, - (n FFail + n FMissed))]
                     else []) ++
                    (if f_paused f then [(PausedCount, -1); (PausedSize, - n FRem)] else []))
                   (g_st g)) g).

(** DiscardDownloadedArticles, 1438-1488; the articles are reset to aiUndefined
    (in server mode they are dropped and read again from the nzb data). *)
Definition discard_articles (f : finfo) (g : group) : group :=
  let n := f_num f in
  let g1 := with_st (bump ([(Remaining, n FSucc + n FFail)] ++
                           (if f_paused f then [(PausedSize, n FSucc + n FFail)] else []) ++
                           [(CurSuccArt, - n FSuccArt); (CurSuccess, - n FSucc);
                            (ParCurSuccess, - n FSucc); (CurFailArt, - n FFailArt);
                            (CurFailed, - n FFail); (ParCurFailed, - n FFail)]) (g_st g)) g in
  let g2 := with_cur (list_op (g_cur g1) (f_srv f) soSubtract) g1 in
  let f' := with_srv []
             (with_arts (map (fun a => (fst a, aiUndefined)) (f_arts f))
               (with_num (fassign [(FSucc, 0); (FSuccArt, 0); (FFail, 0); (FFailArt, 0);
                                   (FCompl, 0); (FRem, n FSize - n FMissed)] n) f)) in
  replace f' g2.

(** The condition at 1390-1391. *)
Definition discardable (f : finfo) : bool :=
  f_par f && (f_num f FCompl =? 1) && (f_num f FActive =? 0).

(** DiscardDirectRename, 1388-1414: for every file of the list in turn. *)
Definition discard_one (g : group) (f : finfo) : group :=
  if discardable f then discard_articles f g else g.
Definition discard_direct_rename (g : group) : group :=
  fold_left discard_one (g_files g) g.

(** IsDownloadCompleted(true), 751-768. *)
Definition download_completed (g : group) : bool :=
  (g_st g Active =? 0) &&
  forallb (fun f => (f_paused f && f_par f) || f_deleted f) (g_files g).

(** DeleteFileInfo, 821-894.  The file stays in the list until 885, so a
    DiscardDirectRename at 882 also sees it; [g_wiped] records that. *)
Definition delete_file_info (completed : bool) (f : finfo) (g : group) : group :=
  let f1 := with_deleted true f in
  let g0 := replace f1 g in
  let g1 := if completed || g_deleting g
            then with_done (f1 :: g_done g0) (update_completed f1 g0)
            else update_deleted f1 g0 in
  let g2 := if g_renaming g && negb (g_deleting g) && download_completed g1
            then with_ghost (if discardable f1 then f_id f1 :: g_wiped g1 else g_wiped g1)
                            (g_lost g1) (discard_direct_rename g1)
            else g1 in
  with_files (del_file (f_id f1) (g_files g2)) g2.

(** DeleteQueueEntry, 1077-1095.  A running downloader counts in
    GetActiveDownloads. *)
Definition delete_queue_entry (f : finfo) (g : group) : group :=
  let f1 := with_deleted true f in
  if 0 <? f_num f FActive then replace f1 g
  else delete_file_info false f1 (replace f1 g).

(** The end of ArticleCompleted (773-796) with CompleteFileParts and
    DeleteDownloader (799-819).  [c] is completeFileParts: it needs all articles
    done (732) or a group that is being parked (770-771); no other downloader
    works on the file then.  [lost] counts the temporary files that
    CompleteFileParts could not find again (ArticleWriter.cpp 449-457). *)
Definition finish_article (c : bool) (lost : Z) (f : finfo) (g : group) : group :=
  if f_num f FActive <=? 0 then g else
  if c && negb ((f_num f FActive =? 1) &&
                ((Z.of_nat (length (f_arts f)) =? f_num f FCompl) || g_parking g)) then g else
  let f1 := if c then with_num (fbump [(FFailArt, lost); (FSuccArt, - lost)] (f_num f)) f else f in
  let del := c || (f_deleted f1 && negb (1 <? f_num f1 FActive)) in
  let f2 := with_num (fbump [(FActive, -1)] (f_num f1)) f1 in
  let g1 := replace f2 (with_st (bump [(Active, -1)] (g_st g))
                          (with_ghost (g_wiped g) (if c then g_lost g + Z.abs lost else g_lost g) g)) in
  if del then delete_file_info c f2 g1 else g1.

(** ** Histories *)

Inductive op :=
| OPause (id : Z) (b : bool)
| OExtra (id : Z) (b : bool)
| OStart (id : Z) (k : nat)
| OArticle (id : Z) (k : nat) (r : art_result) (srv : list sstat) (dup : bool) (newpar : option bool)
| OFinish (id : Z) (c : bool) (lost : Z)
| ODelete (id : Z)
| ODiscardRename                          (* DiscardDirectRename from DirectRenameCompleted, 1360 *)
| ORenaming (b : bool)                    (* SetDirectRenameStatus *)
| OGroupDelete (parking : bool).          (* QueueEditor.cpp 734-738; the files follow with ODelete *)

Definition on_file (id : Z) (h : finfo -> group -> group) (g : group) : group :=
  match find_file id (g_files g) with Some f => h f g | None => g end.

Definition step (g : group) (o : op) : group :=
  match o with
  | OPause id b => on_file id (set_paused b) g
  | OExtra id b => on_file id (set_extra b) g
  | OStart id k => on_file id (start_article k) g
  | OArticle id k r srv dup newpar => on_file id (article_done k r srv dup newpar) g
  | OFinish id c lost => on_file id (finish_article c lost) g
  | ODelete id => on_file id delete_queue_entry g
  | ODiscardRename => discard_direct_rename g
  | ORenaming b => with_flags (g_deleting g) (g_parking g) b g
  | OGroupDelete p => with_flags true p (g_renaming g) g
  end.

Definition run (g : group) (l : list op) : group := fold_left step l g.

(** ** Recomputation *)

(** UpdateCurrentStats, 652-693: one turn of the loop. *)
Definition recount_file (s : fld -> Z) (f : finfo) : fld -> Z :=
  let n := f_num f in
  bump ([(Remaining, n FRem); (CurSuccArt, n FSuccArt); (CurFailArt, n FFailArt);
         (CurSuccess, n FSucc); (CurFailed, n FFail); (Extra, b2z (f_extra f))] ++
        (if f_paused f then [(PausedCount, 1); (PausedSize, n FRem)] else []) ++
        (if f_par f then [(RemPar, 1); (ParCurSuccess, n FSucc); (ParCurFailed, n FFail)] else [])) s.

Definition update_current (g : group) : group :=
  let s := g_st g in
  let s0 := assign [(PausedCount, 0); (RemPar, 0); (Remaining, 0); (PausedSize, 0);
                    (CurSuccArt, s SuccArt); (CurFailArt, s FailArt);
                    (CurSuccess, s Success); (CurFailed, s Failed);
                    (ParCurSuccess, s ParSuccess); (ParCurFailed, s ParFailed); (Extra, 0)] s in
  with_cur (fold_left (fun c f => list_op c (f_srv f) soAdd) (g_files g)
                      (list_op (g_cur g) (g_srv g) soSet))
    (with_st (fold_left recount_file (g_files g) s0) g).

(** ** Merging and splitting *)

(** MergeQueueEntries, 1167-1219 (after the checks): [g2] is merged into [g1]. *)
Definition merge_groups (g1 g2 : group) : group :=
  let t := g_st g2 in
  mkG (bump [(FileCount, t FileCount); (Active, t Active);
             (Size, t Size); (Remaining, t Remaining);
             (PausedCount, t PausedCount); (PausedSize, t PausedSize);
             (Success, t Success); (CurSuccess, t CurSuccess);
             (Failed, t Failed); (CurFailed, t CurFailed);
             (ParSize, t ParSize); (ParSuccess, t ParSuccess);
             (ParCurSuccess, t ParCurSuccess); (ParFailed, t ParFailed);
             (ParCurFailed, t ParCurFailed); (RemPar, t RemPar);
             (TotalArt, t TotalArt); (SuccArt, t SuccArt); (FailArt, t FailArt);
             (CurSuccArt, t CurSuccArt); (CurFailArt, t CurFailArt)] (g_st g1))
      (g_files g1 ++ g_files g2) (g_done g1 ++ g_done g2)
      (list_op (g_srv g1) (g_srv g2) soAdd) (list_op (g_cur g1) (g_cur g2) soAdd)
      (g_deleting g1) (g_parking g1) (g_renaming g1) (g_wiped g1) (g_lost g1).

(** SplitQueueEntries, the loop body 1274-1328, for a file of the source group:
    [p] is (source, new group). *)
Definition split_file (p : group * group) (f : finfo) : group * group :=
  let (src, new) := p in
  let n := f_num f in
  let src1 :=
    with_cur (list_op (g_cur src) (f_srv f) soSubtract)
      (with_st (bump ([(FileCount, -1); (Size, - n FSize); (Remaining, - n FRem);
                       (CurSuccess, - n FSucc); (CurFailed, - n FFail - n FMissed);
                       (TotalArt, - n FTotal); (FailArt, - n FMissedArt);
                       (CurSuccArt, - n FSuccArt); (CurFailArt, - n FFailArt - n FMissedArt)] ++
                      (if f_par f then [(ParSize, - n FSize); (ParCurSuccess, - n FSucc);
                                        (ParCurFailed, - n FFail - n FMissed); (RemPar, -1)] else []) ++
                      (if f_paused f then [(PausedCount, -1); (PausedSize, - n FRem)] else []))
                     (g_st src))
        (with_files (del_file (f_id f) (g_files src)) src)) in
  let new1 :=
    with_cur (list_op (g_cur new) (f_srv f) soAdd)
      (with_st (bump ([(FileCount, 1); (Size, n FSize); (Remaining, n FRem);
                       (CurSuccess, n FSucc); (CurFailed, n FFail + n FMissed);
                       (TotalArt, n FTotal); (FailArt, n FMissedArt);
                       (CurSuccArt, n FSuccArt); (CurFailArt, n FFailArt + n FMissedArt)] ++
                      (if f_par f then [(ParSize, n FSize); (ParCurSuccess, n FSucc);
                                        (ParCurFailed, n FFail + n FMissed); (RemPar, 1)] else []))
                     (g_st new))
        (with_files (g_files new ++ [f]) new)) in
  (* 1320-1327: the new group takes the count of the source group *)
  let new2 :=
    if f_paused f
    then with_st (assign [(PausedCount, g_st src1 PausedCount + 1);
                          (PausedSize, g_st new1 PausedSize + n FRem)] (g_st new1)) new1
    else new1 in
  (src1, new2).

Definition empty_group : group := mkG (fun _ => 0) [] [] [] [] false false false [] 0.

(** The check at 1245-1262 and the loop; all files belong to [src]. *)
Definition split_ok (l : list finfo) : bool :=
  negb (match l with [] => true | _ => false end) &&
  forallb (fun f => negb (0 <? f_num f FActive) && negb (0 <? f_num f FCompl)) l.

Definition split_groups (src : group) (l : list finfo) : option (group * group) :=
  if split_ok l then Some (fold_left split_file l (src, empty_group)) else None.

(** The file lists alone, for a selection that may contain files of other groups:
    Remove returns a null pointer for those and Add appends it (1279,
    Container.h 77-90). *)
Fixpoint remove_id (id : Z) (l : list Z) : option (list Z) :=
  match l with
  | [] => None
  | x :: r => if x =? id then Some r
              else match remove_id id r with Some r' => Some (x :: r') | None => None end
  end.
Definition split_list (p : list Z * list (option Z)) (id : Z) : list Z * list (option Z) :=
  match remove_id id (fst p) with
  | Some r => (r, snd p ++ [Some id])
  | None => (fst p, snd p ++ [None])
  end.
Definition split_lists (src sel : list Z) : list Z * list (option Z) :=
  fold_left split_list sel (src, []).
