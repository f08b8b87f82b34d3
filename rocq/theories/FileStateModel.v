(** Saving and loading of queued files and of their download state.

    daemon/queue/DiskState.cpp
      1036-1071 SaveFileInfo
      1094-1173 LoadFileInfo (format version 6)
      1191-1217 SaveFileState
      1235-1340 LoadFileState (format version 6)

    The name of the partial result file set at 1309-1314 is not modelled. *)
From Verif Require Import Base NumFmt CodecModel InfoModel LineModel DiskModel.

(** ** File information *)

(** Part number, size, message id. *)
Record fpart := mkPart { p_number : Z; p_size : Z; p_msgid : list Z }.

(** FileInfo, the saved part. *)
Record finfo := mkFI {
  fi_subject : list Z; fi_filename : list Z; fi_orig : option (list Z);
  fi_confirmed : bool; fi_time : Z; fi_size : Z; fi_missed : Z; fi_par : bool;
  fi_total : Z; fi_missed_articles : Z; fi_groups : list (list Z); fi_parts : list fpart }.

Definition part_lines (p : fpart) : list (list Z) := [fmt_nums [p_number p; p_size p]; p_msgid p].

(** SaveFileInfo, 1036-1071, with [articles] true. *)
Definition finfo_lines (f : finfo) : list (list Z) :=
  [ fi_subject f; fi_filename f; ostr (fi_orig f);
    fmt_nums [b2z (fi_confirmed f); as_int (fi_time f)];
    fmt_nums (u64s [fi_size f]); fmt_nums (u64s [fi_missed f]);
    fmt_nums [b2z (fi_par f)]; fmt_nums [fi_total f; fi_missed_articles f] ] ++
  (fmt_nums [Z.of_nat (length (fi_groups f))] :: fi_groups f) ++
  (fmt_nums [Z.of_nat (length (fi_parts f))] :: flat_map part_lines (fi_parts f)).

Definition load_text (acc : list (list Z)) (f : list Z) : option (list (list Z) * list Z) :=
  do (buf, f) <- read_line 1024 f; Some (acc ++ [buf], f).

(** 1147-1162. *)
Definition load_part (acc : list fpart) (f : list Z) : option (list fpart * list Z) :=
  do ([num; size], f) <- scan_line [CI; CI] f;
  do (buf, f) <- read_line 1024 f;
  Some (acc ++ [mkPart num size buf], f).

(** LoadFileInfo, 1094-1173, with summary and articles, into a new object. *)
Definition load_finfo (f : list Z) : option (finfo * list Z) :=
  do (subject, f) <- read_line 1024 f;
  do (filename, f) <- read_line 1024 f;
  do (orig, f) <- read_line 1024 f;
  do ([confirmed; time], f) <- scan_line [CI; CI] f;
  do ([h1; l1], f) <- scan_line [CU; CU] f;
  do ([h2; l2], f) <- scan_line [CU; CU] f;
  do ([par], f) <- scan_line [CI] f;
  do ([total; missed], f) <- scan_line [CI; CI] f;
  do ([ngroups], f) <- scan_line [CI] f;
  do (groups, f) <- repeat_load (Z.to_nat ngroups) load_text [] f;
  do ([nparts], f) <- scan_line [CI] f;
  do (parts, f) <- repeat_load (Z.to_nat nparts) load_part [] f;
  Some (mkFI subject filename (optstr orig) (z2b confirmed) time (join_int64 h1 l1) (join_int64 h2 l2)
             (z2b par) total missed groups parts, f).

(** ** Download state *)

(** ArticleInfo::EStatus, DownloadInfo.h 77-83. *)
Definition aiUndefined : Z := 0.
Definition aiRunning : Z := 1.
Definition aiFinished : Z := 2.
Definition aiFailed : Z := 3.

(** Status, segment offset (int64), segment size, checksum. *)
Record fart := mkArt { a_status : Z; a_offset : Z; a_size : Z; a_crc : Z }.

Record fstate := mkFS {
  fs_ok : Z; fs_bad : Z; fs_remaining : Z; fs_success : Z; fs_failed : Z;
  fs_name : list Z; fs_hash : option (list Z); fs_set : option (list Z); fs_par : bool;
  fs_stats : list sstat; fs_arts : list fart }.

(** 1209-1213: the offset is converted to uint32. *)
Definition art_line (a : fart) : list Z :=
  fmt_nums [a_status a; a_offset a mod 2 ^ 32; a_size a; a_crc a].

(** SaveFileState, 1191-1217. *)
Definition fstate_lines (s : fstate) : list (list Z) :=
  [ fmt_nums [fs_ok s; fs_bad s];
    fmt_nums (u64s [fs_remaining s; fs_success s; fs_failed s]);
    fs_name s; ostr (fs_hash s); ostr (fs_set s); fmt_nums [b2z (fs_par s)] ] ++
  stats_lines (fs_stats s) ++
  (fmt_nums [Z.of_nat (length (fs_arts s))] :: map art_line (fs_arts s)).

(** 1300-1325: the status kept for an article, and the number of articles
    that are not undefined so far. *)
Definition kept_status (completed : bool) (size done status : Z) : Z :=
  let st := if status =? aiRunning then aiUndefined else status in
  if (done =? size - 1) && negb completed then aiUndefined else st.

(** The loop at 1276-1328: articles and the counter [completedArticles]. *)
Definition load_art (completed : bool) (size : Z) (acc : list fart * Z) (f : list Z)
  : option ((list fart * Z) * list Z) :=
  do ([status; off; sz; crc], f) <- scan_line [CI; CU; CI; CU] f;
  let st := kept_status completed size (snd acc) status in
  Some ((fst acc ++ [mkArt st off sz crc], if st =? aiUndefined then snd acc else snd acc + 1), f).

(** LoadFileState, 1235-1340: into an object that has [base] articles (0: none
    loaded yet, they are created).  vector::at throws when the file has more
    articles than the object: [None]. *)
Definition load_fstate (completed : bool) (base : Z) (servers : list server) (f : list Z)
  : option (fstate * Z * list Z) :=
  do ([oka; bada], f) <- scan_line [CI; CI] f;
  do ([r1; r2; s1; s2; f1; f2], f) <- scan_line [CU; CU; CU; CU; CU; CU] f;
  do (name, f) <- read_line 1024 f;
  do (hash, f) <- read_line 1024 f;
  do (set, f) <- read_line 1024 f;
  do ([par], f) <- scan_line [CI] f;
  do ([nstat], f) <- scan_line [CI] f;
  do (stats, f) <- repeat_load (Z.to_nat nstat) (load_stat servers) [] f;
  do ([size], f) <- scan_line [CI] f;
  if (base =? 0) || (size <=? base) then
    do ((arts, done), f) <- repeat_load (Z.to_nat size) (load_art completed size) ([], 0) f;
    Some (mkFS oka bada (join_int64 r1 r2) (join_int64 s1 s2) (join_int64 f1 f2)
               name (optstr hash) (optstr set) (z2b par) stats arts, done, f)
  else None.
