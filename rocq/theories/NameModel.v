(** Model of file and directory names: daemon/util/FileSystem.cpp (BaseFileName, ReservedChar,
    MakeValidFilename, MakeUniqueFilename, RenameBak), daemon/queue/DownloadInfo.cpp
    (MakeNiceNzbName, BuildDestDirName, BuildFinalDirName) and the header of
    daemon/queue/UrlCoordinator.cpp from which a category is taken. POSIX variants
    (PATH_SEPARATOR is the slash, main/nzbget.h:351-352). Names are texts without terminator.
    Which regular files exist is a list of paths. Not modelled: Windows variants. *)
From Coq Require Import String.
From Verif Require Import Base NumFmt WildModel InfoModel FeedModel BufModel.
Open Scope list_scope. Open Scope Z_scope.

Definition slash : Z := 47.
Definition backslash : Z := 92.
Definition dot : Z := 46.

(** [strrchr]: the text before the last [c] and the text from it on. *)
Fixpoint strrchr (c : Z) (s : list Z) : option (list Z * list Z) :=
  match s with
  | [] => None
  | x :: r => match strrchr c r with
              | Some (a, b) => Some (x :: a, b)
              | None => if x =? c then Some ([], s) else None
              end
  end.

(** FileSystem.cpp:348-367: the later of the two separators counts. *)
Definition base_name (s : list Z) : list Z :=
  match strrchr slash s, strrchr backslash s with
  | Some (a, b), Some (a', b') => if (length a <? length a')%nat then tl b' else tl b
  | Some (_, b), None => tl b
  | None, Some (_, b') => tl b'
  | None, None => s
  end.

(** FileSystem.cpp:369-393. *)
Definition reserved_char (c : Z) : bool :=
  (c <? 32) || (c =? 34) || (c =? 42) || (c =? 47) || (c =? 58) || (c =? 60) || (c =? 62) || (c =? 63) || (c =? 92) || (c =? 124).

(** FileSystem.cpp:400-411, the first loop. *)
Definition valid_char (slashes : bool) (c : Z) : Z :=
  if reserved_char c then
    if slashes && ((c =? slash) || (c =? backslash)) then slash else 95
  else c.
(** FileSystem.cpp:415-418: trailing dots and blanks. *)
Fixpoint drop_trailing (s : list Z) : list Z :=
  match s with
  | [] => []
  | c :: r => match drop_trailing r with
              | [] => if (c =? 46) || (c =? 32) then [] else [c]
              | r' => c :: r'
              end
  end.
(** FileSystem.cpp:25-27. *)
Definition device_names : list (list Z) :=
  [str "CON"; str "PRN"; str "AUX"; str "NUL";
   str "COM1"; str "COM2"; str "COM3"; str "COM4"; str "COM5"; str "COM6"; str "COM7"; str "COM8"; str "COM9";
   str "LPT1"; str "LPT2"; str "LPT3"; str "LPT4"; str "LPT5"; str "LPT6"; str "LPT7"; str "LPT8"; str "LPT9"].
(** FileSystem.cpp:425-426: [strncasecmp] and the character after the name. *)
Definition starts_device (s dev : list Z) : bool :=
  prefixb (map lower dev) (map lower s) &&
  match skipn (length dev) s with [] => true | c :: _ => c =? dot end.
(** FileSystem.cpp:396-434. *)
Definition make_valid (slashes : bool) (s : list Z) : list Z :=
  let r := drop_trailing (map (valid_char slashes) s) in
  if existsb (starts_device r) device_names then 95 :: r else r.

(** daemon/queue/DownloadInfo.cpp:196-207, with the 1024 byte buffer. *)
Definition make_nice (filename : list Z) (remove_ext : bool) : list Z :=
  let n := firstn 1023 (base_name filename) in
  let n1 := if remove_ext then
              match strrchr dot n with
              | Some (a, b) => if same_nocase b (str ".nzb") then a else n
              | None => n
              end
            else n in
  make_valid false n1.

(** daemon/queue/DownloadInfo.cpp:243-268: the directory of the options, the directory of the category
    if it is configured with one, AppendCategoryDir, category and name of the download. *)
Definition final_dir (dest : list Z) (cat_dir : option (list Z)) (append_category : bool) (category name : list Z) : list Z :=
  let use_category := negb (match category with [] => true | _ => false end) in
  let base := match cat_dir with
              | Some (c :: d) => if use_category then c :: d else dest
              | _ => dest
              end in
  let own := match cat_dir with Some (_ :: _) => use_category | _ => false end in
  let d1 := if append_category && use_category && negb own
            then base ++ slash :: make_valid true category else base in
  d1 ++ slash :: name.
(** daemon/queue/DownloadInfo.cpp:231-241. *)
Definition dest_dir (inter : list Z) (id : Z) (dest : list Z) (cat_dir : option (list Z)) (append_category : bool) (category name : list Z) : list Z :=
  match inter with
  | [] => final_dir dest cat_dir append_category category name
  | _ => inter ++ slash :: name ++ str ".#" ++ zdec id
  end.

(** daemon/util/Util.cpp, [Util::Trim] as used at UrlCoordinator.cpp:39: blanks at both ends. *)
Fixpoint skip_blank (s : list Z) : list Z :=
  match s with c :: r => if blank c then skip_blank r else s | [] => [] end.
Definition trim (s : list Z) : list Z := rev (skip_blank (rev (skip_blank s))).
(** daemon/queue/UrlCoordinator.cpp:37-42 and 348: the category of a download by URL is its own or
    that of the header sent by the server. *)
Definition header_category (line : list Z) : option (list Z) :=
  if prefixb (str "X-DNZB-Category:") line then Some (trim (skipn 16 line)) else None.
Definition url_category (own : list Z) (headers : list (list Z)) : list Z :=
  match own with
  | [] => fold_left (fun cur line => match header_category line with Some c => c | None => cur end) headers []
  | _ => own
  end.

(** ** New names *)
Definition exists_in (files : list (list Z)) (p : list Z) : bool := existsb (beqb p) files.

(** FileSystem.cpp:445-460: the parts of a name around which the number goes. *)
Definition unique_parts (base : list Z) : list Z * list Z :=
  match strrchr dot base with
  | Some (c :: a, ext) =>
      let stem := firstn 1023 (c :: a) in
      if same_nocase ext (str ".par2") then
        match strrchr dot stem with
        | Some (d :: v, vol) =>
            if prefixb (str ".vol") (map lower vol) then (d :: v, skipn (length (d :: v)) base) else (stem, ext)
        | _ => (stem, ext)
        end
      else (stem, ext)
  | _ => (base, [])
  end.
(** FileSystem.cpp:462-469. *)
Definition unique_candidate (dir base : list Z) (n : Z) : list Z :=
  let '(stem, ext) := unique_parts base in
  dir ++ slash :: stem ++ str ".duplicate" ++ zdec n ++ ext.
(** FileSystem.cpp:436-474. [None]: fuel exhausted. *)
Fixpoint unique_loop (fuel : nat) (files : list (list Z)) (cand : Z -> list Z) (cur : list Z) (n : Z) : option (list Z) :=
  match fuel with
  | O => None
  | S f => if exists_in files cur then unique_loop f files cand (cand (n + 1)) (n + 1) else Some cur
  end.
Definition make_unique (fuel : nat) (files : list (list Z)) (dir base : list Z) : option (list Z) :=
  unique_loop fuel files (unique_candidate dir base) (dir ++ slash :: base) 0.

(** FileSystem.cpp, [RenameBak] with [removeOldExtension]; [used]: files and directories. *)
Definition bak_stem (filename : list Z) (remove : bool) : list Z :=
  if remove then
    let n := firstn 1023 filename in
    match strrchr dot n with Some (a, _) => a | None => n end
  else filename.
Definition rename_bak (fuel : nat) (used : list (list Z)) (filename part : list Z) (remove : bool) : option (list Z) :=
  let stem := bak_stem filename remove in
  unique_loop fuel used (fun i => stem ++ dot :: zdec i ++ dot :: part) (stem ++ dot :: part) 1.
