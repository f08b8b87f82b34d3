(** Model of cleaning up and of moving files to their final directory: daemon/postprocess/Cleanup.cpp, with the functions of
    daemon/util/FileSystem.cpp it uses (POSIX). A directory is a tree; a link shows what it leads to, which lies outside
    and is not shared with anything else. [can]: whether the system lets an entry be renamed, copied or deleted.
    Directories are read once. Names on the disk are shorter than 1023 bytes and paths shorter than 1024. Not modelled: messages other
    than the choice between success and nothing to do, special files, threads. *)
From Coq Require Import String.
From Verif Require Import Base NameModel NzbModel.
Open Scope list_scope. Open Scope Z_scope.

Inductive node := NFile (c : list Z) | NDir (l : list (list Z * node)) | NLink (t : option node).

(** FileSystem.cpp:549-573, [DirectoryExists], and 529-547, [FileExists]: links are followed. *)
Fixpoint is_dir (x : node) : bool := match x with NFile _ => false | NDir _ => true | NLink (Some t) => is_dir t | NLink None => false end.
Fixpoint is_file (x : node) : bool := match x with NFile _ => true | NDir _ => false | NLink (Some t) => is_file t | NLink None => false end.

(** ** Cleaning up *)

Definition matches (exts n : list Z) : bool := match match_ext n exts with Some b => b | None => false end.
(** Cleanup.cpp:183-222, [CleanupController::Cleanup]: the directory after it, whether all went well, and the mark that something
    was deleted, which each call sets to false first. *)
Fixpoint clean (can : list (list Z) -> bool) (exts : list Z) (p : list (list Z)) (x : node) : node * bool * bool :=
  match x with
  | NFile _ => (x, true, false)
  | NLink None => (x, true, false)
  | NLink (Some t) => let '(t1, ok, d) := clean can exts p t in (NLink (Some t1), ok, d)
  | NDir l =>
    let '(l1, ok, d) :=
      (fix go (l : list (list Z * node)) (ok d : bool) : list (list Z * node) * bool * bool :=
         match l with
         | [] => ([], ok, d)
         | (n, y) :: r =>
           let q := p ++ [n] in
           let '(y1, ok1, d1) := if is_dir y then clean can exts q y else (y, true, d) in
           if matches exts n && negb (is_dir y) then
             if can q then go r (ok && ok1) true
             else let '(r1, ok2, d2) := go r false true in ((n, y1) :: r1, ok2, d2)
           else let '(r1, ok2, d2) := go r (ok && ok1) d1 in ((n, y1) :: r1, ok2, d2)
         end) l true false in
    (NDir l1, ok, d)
  end.
(** Cleanup.cpp:135-181, [Run]: the two directories, the status and the message of success. *)
Inductive cstatus := CsSuccess | CsFailure.
Definition run_cleanup can exts (dest : list (list Z) * node) (final : option (list (list Z) * node)) : node * option node * cstatus * bool :=
  let '(x, ok, d) := clean can exts (fst dest) (snd dest) in
  match final with
  | Some f => if ok then let '(y, ok2, d2) := clean can exts (fst f) (snd f) in
                         (x, Some y, if ok2 then CsSuccess else CsFailure, ok2 && (d || d2))
              else (x, Some (snd f), CsFailure, false)
  | None => (x, None, if ok then CsSuccess else CsFailure, ok && d)
  end.

(** ** Deleting a directory *)

(** FileSystem.cpp:586-593, [RemoveDirectory]: empty directories only, no links. *)
Definition rmdir (ok_here : bool) (x : node) (ok : bool) : option node * bool :=
  match x with NDir [] => if ok_here then (None, ok) else (Some x, false) | _ => (Some x, false) end.
(** FileSystem.cpp:626-662, [DeleteDirectoryWithContent]: what is inside the directory, or the directory a link leads to. *)
Fixpoint delete_in (can : list (list Z) -> bool) (p : list (list Z)) (x : node) : node * bool :=
  match x with
  | NFile _ => (x, true)
  | NLink None => (x, true)
  | NLink (Some t) => let '(t1, ok) := delete_in can p t in (NLink (Some t1), ok)
  | NDir l =>
    let '(l1, ok) :=
      (fix go (l : list (list Z * node)) (ok : bool) : list (list Z * node) * bool :=
         match l with
         | [] => ([], ok)
         | (n, y) :: r =>
           let q := p ++ [n] in
           let '(y1, ok1) := if is_dir y then let '(z, ok0) := delete_in can q y in rmdir (can q) z ok0
                             else if can q then (None, true) else (Some y, false) in
           let '(r1, ok2) := go r (ok && ok1) in (match y1 with Some z => (n, z) :: r1 | None => r1 end, ok2)
         end) l true in
    (NDir l1, ok)
  end.
(** The whole: what is left, and whether all is deleted. *)
Definition delete_all can (p : list (list Z)) (x : node) : option node * bool :=
  let '(x1, ok) := delete_in can p x in rmdir (can p) x1 ok.

(** ** Moving *)

Fixpoint lookup (p : list Z) (dl : list (list Z * node)) : option node :=
  match dl with [] => None | (q, x) :: r => if beqb p q then Some x else lookup p r end.
Fixpoint drop_key (p : list Z) (dl : list (list Z * node)) : list (list Z * node) :=
  match dl with [] => [] | (q, x) :: r => if beqb p q then drop_key p r else (q, x) :: drop_key p r end.
Definition put (p : list Z) (x : node) (dl : list (list Z * node)) : list (list Z * node) := drop_key p dl ++ [(p, x)].
(** rename(2) on one device; [None]: refused. *)
Definition rename_ok (y : node) (old : option node) : bool :=
  match old, y with
  | None, _ => true
  | Some (NDir []), NDir _ => true
  | Some _, NDir _ => false
  | Some (NDir _), _ => false
  | Some _, _ => true
  end.
(** FileSystem.cpp:491-518, [CopyFile]: what is read; a directory can be opened but nothing is read. *)
Fixpoint readable (x : node) : option (list Z) :=
  match x with NFile c => Some c | NDir _ => Some [] | NLink (Some t) => readable t | NLink None => None end.
(** What is there after opening for writing and writing; the results of writing are not looked at. *)
Fixpoint overwrite (data : list Z) (x : node) : option node :=
  match x with
  | NFile _ => Some (NFile data)
  | NDir _ => None
  | NLink None => Some (NLink (Some (NFile data)))
  | NLink (Some t) => match overwrite data t with Some t1 => Some (NLink (Some t1)) | None => None end
  end.
Definition written (data : list Z) (old : option node) : option node :=
  match old with None => Some (NFile data) | Some x => overwrite data x end.
(** FileSystem.cpp:520-527, [DeleteFile]: files, links and empty directories. *)
Definition removable (x : node) : bool := match x with NDir (_ :: _) => false | _ => true end.

(** What the system does: [s_one]: both directories are on one device; [s_move]: the entry can be renamed or copied; [s_del]: deleted;
    [s_room]: how many bytes of the copy can be written. *)
Record sys := Sys { s_one : bool; s_move : list Z -> bool; s_del : list (list Z) -> bool; s_room : list Z -> Z }.
(** FileSystem.cpp:477-489, [MoveFile]: what is left of the source, the destination, the result. *)
Definition move_file (w : sys) (src : list (list Z)) (n : list Z) (y : node) (b : list Z) (dl : list (list Z * node)) : option node * list (list Z * node) * bool :=
  if s_one w then
    if s_move w n && rename_ok y (lookup b dl) then (None, put b y dl, true) else (Some y, dl, false)
  else
    match (if s_move w n then readable y else None) with
    | None => (Some y, dl, false)
    | Some c =>
      match written (firstn (Z.to_nat (s_room w n)) c) (lookup b dl) with
      | None => (Some y, dl, false)
      | Some z => if s_del w (src ++ [n]) && removable y then (None, put b z dl, true) else (Some y, put b z dl, false)
      end
    end.
(** Cleanup.cpp:91-113: the entries one by one. [None]: no unique name found. *)
Definition regular (dl : list (list Z * node)) : list (list Z) := map fst (filter (fun e => is_file (snd e)) dl).
Definition hidden (n : list Z) : bool := match n with c :: _ => c =? 46 | [] => false end.
Fixpoint move_entries (w : sys) (src : list (list Z)) (dest : list Z) (sl : list (list Z * node)) (dl : list (list Z * node)) (ok : bool)
  : option (list (list Z * node) * list (list Z * node) * bool) :=
  match sl with
  | [] => Some ([], dl, ok)
  | (n, y) :: r =>
    match make_unique (S (S (length (regular dl)))) (regular dl) dest (make_valid false n) with
    | None => None
    | Some b =>
      let '(y1, dl1, m) := move_file w src n y b dl in
      match move_entries w src dest r dl1 (ok && (m || hidden n)) with
      | None => None
      | Some (r1, dl2, ok2) => Some (match y1 with Some z => (n, z) :: r1 | None => r1 end, dl2, ok2)
      end
    end
  end.
(** Cleanup.cpp:78-122, [MoveFiles]; [made]: the final directory is there or could be made. What is left of the source directory. *)
Definition move_files (w : sys) (made : bool) (src : list (list Z)) (dest : list Z) (sl dl : list (list Z * node)) : option (option node * list (list Z * node) * bool) :=
  if negb made then Some (Some (NDir sl), dl, false)
  else match move_entries w src dest sl dl true with
       | None => None
       | Some (r, dl1, ok) => Some (if ok then fst (delete_all (s_del w) src (NDir r)) else Some (NDir r), dl1, ok)
       end.
(** Cleanup.cpp:40-76, [Run]: directory, final directory and status of the download: 1 failure, 2 success (DownloadInfo.h, EMoveStatus). *)
Record mnzb := MNzb { z_dest : list Z; z_final : list Z; z_status : Z }.
Definition run_move (w : sys) (made : bool) (src : list (list Z)) (build : list Z) (sl dl : list (list Z * node)) (z : mnzb) : option (option node * list (list Z * node) * mnzb) :=
  let dest := match z_final z with [] => build | f => f end in
  match move_files w made src dest sl dl with
  | None => None
  | Some (x, dl1, ok) => Some (x, dl1, if ok then MNzb dest [] 2 else MNzb (z_dest z) (z_final z) 1)
  end.
