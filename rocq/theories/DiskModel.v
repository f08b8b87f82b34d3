(** Saving and loading of queue entries.

    daemon/queue/DiskState.cpp
      461-491   SaveQueue, LoadQueue
      493-535   SaveProgress, LoadProgress
      537-630   SaveNzbInfo
      632-980   LoadNzbInfo (the branches of the current format version 62)
      982-1018  SaveServerStats, LoadServerStats
      1365-1403 SaveDupInfo, LoadDupInfo
      1405-1473 SaveHistory, LoadHistory

    Files written by the current version only: the branches for older format
    versions are not modelled.  Enumerations are their integer values.  Text
    attributes are C strings.  A failing load leaves a partly changed object
    behind in C++; every caller then discards the whole load, so [None] stands
    for it.  The name derived from the url or file name when the saved name is
    empty (DownloadInfo.cpp 173-194) is not modelled: an empty saved name keeps
    the name of the object loaded into. *)
From Verif Require Import Base NumFmt CodecModel InfoModel LineModel.

Notation "'do' p <- e ; k" := (match e with Some p => k | _ => None end)
  (at level 200, p pattern at level 200, e at level 100, k at level 200).

(** PostInfo, the saved part: stage, ForceParFull, ForceRepair. *)
Record post := mkPost { po_stage : Z; po_force_par : bool; po_force_repair : bool }.

(** CompletedFile, DownloadInfo.h 249-279. *)
Record cfile := mkCF {
  cf_id : Z; cf_status : Z; cf_crc : Z; cf_par : bool;
  cf_hash : option (list Z); cf_set : option (list Z);
  cf_name : list Z; cf_orig : option (list Z) }.

(** The part of FileInfo saved with the group. *)
Record qfile := mkQF { qf_id : Z; qf_paused : bool; qf_extra : bool; qf_deleted : bool }.

(** NzbInfo, DownloadInfo.h 357-760, the saved attributes. *)
Record nzb := mkNzb {
  n_id : Z; n_kind : Z; n_url : list Z; n_filename : list Z; n_dest : list Z; n_final : list Z;
  n_queued : list Z; n_name : list Z; n_category : list Z;
  n_priority : Z; n_post : option post; n_delete_paused : bool; n_many_dupes : bool; n_feed : Z;
  n_par_status : Z; n_unpack_status : Z; n_move_status : Z; n_par_rename : Z; n_rar_rename : Z;
  n_direct_rename : Z; n_delete_status : Z; n_mark_status : Z; n_url_status : Z;
  n_cleaned : bool; n_health_paused : bool; n_url_paused : bool;
  n_file_count : Z; n_parked : Z; n_messages : Z; n_min_time : Z; n_max_time : Z;
  n_par_full : bool; n_extra_blocks : Z; n_full_hash : Z; n_filtered_hash : Z;
  n_size : Z; n_success : Z; n_failed : Z; n_par_size : Z; n_par_success : Z; n_par_failed : Z;
  n_articles : Z; n_ok_articles : Z; n_bad_articles : Z;
  n_dupe_key : list Z; n_dupe_mode : Z; n_dupe_score : Z; n_dupe_hint : Z;
  n_downloaded : Z; n_download_sec : Z; n_post_sec : Z; n_par_sec : Z; n_repair_sec : Z; n_unpack_sec : Z;
  n_completed : list cfile; n_params : list param; n_scripts : list (Z * list Z);
  n_stats : list sstat; n_files : list qfile }.

Definition b2z (b : bool) : Z := if b then 1 else 0.
Definition z2b (v : Z) : bool := negb (v =? 0).
Definition ostr (o : option (list Z)) : list Z := match o with Some s => s | None => [] end.
(** Util::EmptyStr(s) ? nullptr : s. *)
Definition optstr (s : list Z) : option (list Z) := match s with [] => None | _ => Some s end.

(** (int) of a 64-bit value (time_t). *)
Definition as_int (v : Z) : Z := to_i32 v.

(** ** Saving *)

(** 587-596: three lines per completed file. *)
Definition cfile_lines (c : cfile) : list (list Z) :=
  [ fmt_nums [cf_id c; cf_status c; cf_crc c; b2z (cf_par c)] ++ 44 :: ostr (cf_hash c) ++ 44 :: ostr (cf_set c);
    cf_name c; ostr (cf_orig c) ].

(** SaveServerStats, 982-989. *)
Definition stats_lines (l : list sstat) : list (list Z) :=
  fmt_nums [Z.of_nat (length l)] :: map (fun s => fmt_nums [sv_id s; sv_ok s; sv_bad s]) l.

(** 612-629: the files that are not deleted. *)
Definition live_files (l : list qfile) : list qfile := filter (fun f => negb (qf_deleted f)) l.
Definition files_lines (l : list qfile) : list (list Z) :=
  fmt_nums [Z.of_nat (length (live_files l))] ::
  map (fun f => fmt_nums [qf_id f; b2z (qf_paused f); b2z (qf_extra f)]) (live_files l).

Definition u64s (l : list Z) : list Z :=
  flat_map (fun v => [fst (split_int64 v); snd (split_int64 v)]) l.

(** SaveNzbInfo, 537-630: the formatted text of every PrintLine call. *)
Definition nzb_lines (n : nzb) : list (list Z) :=
  [ fmt_nums [n_id n]; fmt_nums [n_kind n]; n_url n; n_filename n; n_dest n; n_final n;
    n_queued n; n_name n; n_category n;
    fmt_nums [n_priority n; match n_post n with Some p => po_stage p + 1 | None => 0 end;
              b2z (n_delete_paused n); b2z (n_many_dupes n); n_feed n];
    fmt_nums [n_par_status n; n_unpack_status n; n_move_status n; n_par_rename n; n_rar_rename n;
              n_direct_rename n; n_delete_status n; n_mark_status n; n_url_status n];
    fmt_nums [b2z (n_cleaned n); b2z (n_health_paused n); b2z (n_url_paused n)];
    fmt_nums [n_file_count n; n_parked n; n_messages n];
    fmt_nums [as_int (n_min_time n); as_int (n_max_time n)];
    fmt_nums [b2z (n_par_full n);
              match n_post n with Some p => b2z (po_force_par p) | None => 0 end;
              match n_post n with Some p => b2z (po_force_repair p) | None => 0 end;
              n_extra_blocks n];
    fmt_nums [n_full_hash n; n_filtered_hash n];
    fmt_nums (u64s [n_size n; n_success n; n_failed n]);
    fmt_nums (u64s [n_par_size n; n_par_success n; n_par_failed n]);
    fmt_nums [n_articles n; n_ok_articles n; n_bad_articles n];
    n_dupe_key n;
    fmt_nums [n_dupe_mode n; n_dupe_score n; n_dupe_hint n];
    fmt_nums (u64s [n_downloaded n] ++ [n_download_sec n; n_post_sec n; n_par_sec n; n_repair_sec n; n_unpack_sec n]) ] ++
  (fmt_nums [Z.of_nat (length (n_completed n))] :: flat_map cfile_lines (n_completed n)) ++
  (fmt_nums [Z.of_nat (length (n_params n))] :: map (fun p : param => fst p ++ 61 :: snd p) (n_params n)) ++
  (fmt_nums [Z.of_nat (length (n_scripts n))] :: map (fun s : Z * list Z => fmt_nums [fst s] ++ 44 :: snd s) (n_scripts n)) ++
  stats_lines (n_stats n) ++
  files_lines (n_files n).

(** ** Loading *)

(** A counted loop "for (int i = 0; i < size; i++)" over the rest of the file. *)
Fixpoint repeat_load {A} (k : nat) (step : A -> list Z -> option (A * list Z)) (a : A) (f : list Z)
  : option (A * list Z) :=
  match k with
  | O => Some (a, f)
  | S k' => do (a', f') <- step a f; repeat_load k' step a' f'
  end.

Definition big : nat := Z.to_nat 10240.

Fixpoint after_commas (k : nat) (s : list Z) : option (list Z) :=
  match k with
  | O => Some s
  | S k' => match strchr 44 s with Some (_ :: r) => after_commas k' r | _ => None end
  end.

(** 836-899, one completed file (format 62). *)
Definition load_cfile (acc : list cfile) (f : list Z) : option (list cfile * list Z) :=
  do (buf, f) <- read_line big f;
  do [id; status; crc; par] <- scan_fmt [CI; CI; CU; CI] buf;
  let h := after_commas 4 buf in
  let hash := match h with Some t => before 44 t | None => [] end in
  let set := match h with
             | Some t => match after_commas 1 t with Some u => before 44 u | None => [] end
             | None => [] end in
  do (name, f) <- read_line 1024 f;
  do (orig, f) <- read_line 1024 f;
  Some (acc ++ [mkCF id status crc (z2b par) (optstr hash) (optstr set) name (optstr orig)], f).

(** 901-915, one parameter: the text is split at the first '='. *)
Definition load_param (acc : list param) (f : list Z) : option (list param * list Z) :=
  do (buf, f) <- read_line big f;
  match strchr 61 buf with
  | Some (_ :: v) => Some (set_parameter acc (before 61 buf) v, f)
  | _ => Some (acc, f)
  end.

(** 917-932, one script status. *)
Definition load_script (acc : list (Z * list Z)) (f : list Z) : option (list (Z * list Z) * list Z) :=
  do (buf, f) <- read_line big f;
  match strchr 44 buf with
  | Some (_ :: name) => Some (acc ++ [(atoll buf, name)], f)
  | _ => Some (acc, f)
  end.

(** Servers: the identifier and the identifier in the saved state
    (NewsServer::GetId, GetStateId). *)
Notation server := (Z * Z)%type.

(** 991-1018, one entry of LoadServerStats: every server with that state id. *)
Definition load_stat (servers : list server) (acc : list sstat) (f : list Z) : option (list sstat * list Z) :=
  do ([sid; ok; bad], f) <- scan_line [CI; CI; CI] f;
  Some (fold_left (fun a sv => if snd sv =? sid then stat_op a (fst sv) ok bad soSet else a) servers acc, f).

(** 947-973, one file. *)
Definition load_qfile (acc : list qfile) (f : list Z) : option (list qfile * list Z) :=
  do ([id; paused; extra], f) <- scan_line [CI; CI; CI] f;
  Some (acc ++ [mkQF id (z2b paused) (z2b extra) false], f).

(** LoadNzbInfo, 632-980, into the object [base].
    681-693: the stage is stored as saved, that is one higher than it was.
    725-730: [nkNzb] is 0, [lsFailed] 3, [lsScanSkipped] 5.
    818-820: the mode read first is overwritten by the hint. *)
Definition load_nzb (base : nzb) (servers : list server) (f : list Z) : option (nzb * list Z) :=
  do ([id], f) <- scan_line [CI] f;
  do ([kind], f) <- scan_line [CI] f;
  do (url, f) <- read_line big f;
  do (filename, f) <- read_line big f;
  do (dest, f) <- read_line big f;
  do (final, f) <- read_line big f;
  do (queued, f) <- read_line big f;
  do (name, f) <- read_line big f;
  do (category, f) <- read_line big f;
  do ([priority; stage; dpaused; many; feed], f) <- scan_line [CI; CI; CI; CI; CI] f;
  let post0 := if 0 <? stage then Some stage else None in
  do ([par; unpack; move; prename; rrename; drename; del; mark; urlst], f)
    <- scan_line [CI; CI; CI; CI; CI; CI; CI; CI; CI] f;
  do ([cleaned; hpaused; upaused], f) <- scan_line [CI; CI; CI] f;
  do ([fcount; parked; messages], f) <- scan_line [CI; CI; CI] f;
  do ([mint; maxt], f) <- scan_line [CI; CI] f;
  do ([pfull; fpar; frep; eblocks], f) <- scan_line [CI; CI; CI; CI] f;
  do ([fullh; filth], f) <- scan_line [CU; CU] f;
  do ([s1; s2; s3; s4; s5; s6], f) <- scan_line [CU; CU; CU; CU; CU; CU] f;
  do ([p1; p2; p3; p4; p5; p6], f) <- scan_line [CU; CU; CU; CU; CU; CU] f;
  do ([art; oka; bada], f) <- scan_line [CI; CI; CI] f;
  do (dkey, f) <- read_line big f;
  do ([dmode; dscore; dhint], f) <- scan_line [CI; CI; CI] f;
  do ([d1; d2; dsec; psec; parsec; repsec; unsec], f) <- scan_line [CU; CU; CI; CI; CI; CI; CI] f;
  do ([ncompl], f) <- scan_line [CI] f;
  do (completed, f) <- repeat_load (Z.to_nat ncompl) load_cfile [] f;
  do ([nparam], f) <- scan_line [CI] f;
  do (params, f) <- repeat_load (Z.to_nat nparam) load_param [] f;
  do ([nscript], f) <- scan_line [CI] f;
  do (scripts, f) <- repeat_load (Z.to_nat nscript) load_script [] f;
  do ([nstat], f) <- scan_line [CI] f;
  do (stats, f) <- repeat_load (Z.to_nat nstat) (load_stat servers) (n_stats base) f;
  do ([nfile], f) <- scan_line [CI] f;
  do (files, f) <- repeat_load (Z.to_nat nfile) load_qfile [] f;
  Some (mkNzb id kind url filename dest final queued
          (match name with [] => n_name base | _ => name end) category
          priority
          (match post0 with Some st => Some (mkPost st (z2b fpar) (z2b frep))
                          | None => match n_post base with
                                    | Some p => Some (mkPost (po_stage p) (z2b fpar) (z2b frep))
                                    | None => None end end)
          (z2b dpaused) (z2b many) feed
          par unpack move prename rrename drename del mark
          (if (kind =? 0) || (3 <=? urlst) || (5 <=? urlst) then urlst else n_url_status base)
          (z2b cleaned) (z2b hpaused) (z2b upaused)
          fcount parked messages mint maxt
          (z2b pfull) eblocks fullh filth
          (join_int64 s1 s2) (join_int64 s3 s4) (join_int64 s5 s6)
          (join_int64 p1 p2) (join_int64 p3 p4) (join_int64 p5 p6)
          art oka bada
          dkey dhint dscore (n_dupe_hint base)
          (join_int64 d1 d2) dsec psec parsec repsec unsec
          completed params scripts stats files, f).

(** A new NzbInfo (default member initialisers, DownloadInfo.h 662-750);
    dmScore is 0, dhNone is 0. *)
Definition new_nzb : nzb :=
  mkNzb 0 0 [] [] [] [] [] [] [] 0 None false false 0 0 0 0 0 0 0 0 0 0 false false false
        0 0 0 0 0 false 0 0 0 0 0 0 0 0 0 0 0 0 [] 0 0 0 0 0 0 0 0 0 [] [] [] [] [].

(** ** The queue file *)

(** SaveQueue, 461-470. *)
Definition queue_lines (q : list nzb) : list (list Z) :=
  fmt_nums [Z.of_nat (length q)] :: flat_map nzb_lines q.

(** LoadQueue, 472-491. *)
Definition load_queue (servers : list server) (f : list Z) : option (list nzb * list Z) :=
  do ([size], f) <- scan_line [CI] f;
  repeat_load (Z.to_nat size)
    (fun acc f => do (n, f) <- load_nzb new_nzb servers f; Some (acc ++ [n], f)) [] f.

(** ** The progress file *)

(** SaveProgress, 493-506: the changed groups, each preceded by its id. *)
Definition progress_lines (q : list nzb) : list (list Z) :=
  fmt_nums [Z.of_nat (length q)] :: flat_map (fun n => fmt_nums [n_id n] :: nzb_lines n) q.

(** NzbList::Find (DownloadInfo.cpp, NzbList::Find) and replacement of the found object. *)
Fixpoint update_nzb (id : Z) (g : nzb -> option (nzb * list Z)) (q : list nzb) : option (list nzb * list Z) :=
  match q with
  | [] => None
  | n :: r => if n_id n =? id
              then do (n', f) <- g n; Some (n' :: r, f)
              else do (r', f) <- update_nzb id g r; Some (n :: r', f)
  end.

(** LoadProgress, 508-535: fails when an id is not in the queue. *)
Definition load_progress (servers : list server) (q : list nzb) (f : list Z) : option (list nzb * list Z) :=
  do ([size], f) <- scan_line [CI] f;
  repeat_load (Z.to_nat size)
    (fun q f => do ([id], f) <- scan_line [CI] f; update_nzb id (fun n => load_nzb n servers f) q) q f.

(** ** The history file *)

(** DupInfo, DownloadInfo.h 845-891. *)
Record dup := mkDup {
  d_id : Z; d_status : Z; d_size : Z; d_full_hash : Z; d_filtered_hash : Z;
  d_score : Z; d_mode : Z; d_name : list Z; d_key : list Z }.

(** HistoryInfo, DownloadInfo.h 893-931. *)
Inductive hitem := HNzb (n : nzb) | HUrl (n : nzb) | HDup (d : dup).
Notation hentry := (Z * hitem)%type.

(** SaveDupInfo, 1365-1374. *)
Definition dup_lines (d : dup) : list (list Z) :=
  [ fmt_nums [d_status d; fst (split_int64 (d_size d)); snd (split_int64 (d_size d));
              d_full_hash d; d_filtered_hash d; d_score d; d_mode d];
    d_name d; d_key d ].

(** SaveHistory, 1405-1423: HistoryInfo::GetId is the id of the object;
    hkNzb 1, hkUrl 2, hkDup 3. *)
Definition hentry_lines (h : hentry) : list (list Z) :=
  match snd h with
  | HNzb n => fmt_nums [n_id n; 1; as_int (fst h)] :: nzb_lines n
  | HUrl n => fmt_nums [n_id n; 2; as_int (fst h)] :: nzb_lines n
  | HDup d => fmt_nums [d_id d; 3; as_int (fst h)] :: dup_lines d
  end.
Definition history_lines (l : list hentry) : list (list Z) :=
  fmt_nums [Z.of_nat (length l)] :: flat_map hentry_lines l.

(** LoadDupInfo, 1376-1403; the id is set by the caller (1459). *)
Definition load_dup (id : Z) (f : list Z) : option (dup * list Z) :=
  do ([st; hi; lo; fh; ph; score; mode], f) <- scan_line [CI; CU; CU; CU; CU; CI; CI] f;
  do (name, f) <- read_line 1024 f;
  do (key, f) <- read_line 1024 f;
  Some (mkDup id st (join_int64 hi lo) fh ph score mode name key, f).

(** LeavePostProcess on a history entry (1446): the post-processing info is dropped. *)
Definition leave_post (n : nzb) : nzb :=
  let '(mkNzb a1 a2 a3 a4 a5 a6 a7 a8 a9 a10 _ a12 a13 a14 a15 a16 a17 a18 a19 a20 a21 a22 a23 a24 a25 a26
        a27 a28 a29 a30 a31 a32 a33 a34 a35 a36 a37 a38 a39 a40 a41 a42 a43 a44 a45 a46 a47 a48 a49 a50 a51
        a52 a53 a54 a55 a56 a57 a58 a59) := n in
  mkNzb a1 a2 a3 a4 a5 a6 a7 a8 a9 a10 None a12 a13 a14 a15 a16 a17 a18 a19 a20 a21 a22 a23 a24 a25 a26
        a27 a28 a29 a30 a31 a32 a33 a34 a35 a36 a37 a38 a39 a40 a41 a42 a43 a44 a45 a46 a47 a48 a49 a50 a51
        a52 a53 a54 a55 a56 a57 a58 a59.

(** LoadHistory, 1425-1473.  An unknown kind dereferences a null pointer at
    1463; [None] covers it. *)
Definition load_hentry (servers : list server) (acc : list hentry) (f : list Z) : option (list hentry * list Z) :=
  do ([id; kind; time], f) <- scan_line [CI; CI; CI] f;
  if kind =? 1 then
    do (n, f) <- load_nzb new_nzb servers f; Some (acc ++ [(time, HNzb (leave_post n))], f)
  else if kind =? 2 then
    do (n, f) <- load_nzb new_nzb servers f; Some (acc ++ [(time, HUrl n)], f)
  else if kind =? 3 then
    do (d, f) <- load_dup id f; Some (acc ++ [(time, HDup d)], f)
  else None.

Definition load_history (servers : list server) (f : list Z) : option (list hentry * list Z) :=
  do ([size], f) <- scan_line [CI] f;
  repeat_load (Z.to_nat size) (load_hentry servers) [] f.
