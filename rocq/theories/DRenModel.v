(** Model of the renaming of files while they are downloaded: daemon/queue/DirectRenamer.cpp, with the calls from
    daemon/queue/QueueCoordinator.cpp. Disk and refused renamings as in RarSetModel.v and ParRenModel.v. Files in progress and
    completed files have one record; [f_done] tells them apart. What the par2-library reads is given as the list of the files
    described (name made valid, printed hash), in the order of loading. The hash is a function [md5]. The order std::sort
    makes is a function [sort]. Names and paths are shorter than 1024 bytes and have no terminator inside. Not modelled:
    messages, saving of the queue, stopping, the thread of the loader (what it does under the lock is one step), and what
    the coordinator does after the renaming. *)
From Coq Require Import String.
From Verif Require Import Base NumFmt NameModel WildModel ParModel RarModel RarSetModel ParRenModel.
Open Scope list_scope. Open Scope Z_scope.

(** ** The first article of a file *)

(** DirectRenamer.cpp:33-53: the bytes given to the hash, the memory for the header of a packet (64 bytes, not set at the start),
    the number of bytes seen, whether a packet was found and its set. *)
Record ana := Ana { a_fed : list Z; a_sig : list Z; a_size : Z; a_par : bool; a_set : list Z }.
(** lib/par2/md5.cpp:50-62, [MD5Hash::print]. *)
Definition hexup (v : Z) : Z := if v <? 10 then 48 + v else 55 + v.
Definition hex_up (l : list Z) : list Z := flat_map (fun b => [hexup (b / 16); hexup (b mod 16)]) (rev l).
(** DirectRenamer.cpp:519-525, [Reset]. *)
Definition a_reset (a : ana) : ana := Ana [] (a_sig a) 0 (a_par a) (a_set a).
(** DirectRenamer.cpp:527-549, [Append]. *)
Definition a_append (b : list Z) (a : ana) : ana :=
  let n := a_size a in
  let sig := if n <? 64
             then firstn (Z.to_nat n) (a_sig a) ++ firstn (Z.to_nat (64 - n)) b ++ skipn (Z.to_nat n + length b) (a_sig a)
             else a_sig a in
  let hit := (64 <=? n) && beqb (firstn 8 sig) packet_magic in
  Ana (a_fed a ++ firstn (Z.to_nat (16384 - n)) b) sig (n + zlen b)
      (a_par a || hit) (if hit then hex_up (firstn 16 (skipn 32 sig)) else a_set a).
(** ArticleDownloader.cpp:292-302 and 484-489: one attempt with the pieces it receives. *)
Definition attempt (a : ana) (pieces : list (list Z)) : ana := fold_left (fun a b => a_append b a) pieces (a_reset a).
Definition new_ana (junk : list Z) : ana := Ana [] junk 0 false [].
(** DirectRenamer.cpp:552-560, [Finish]. *)
Definition a_hash (md5 : list Z -> list Z) (a : ana) : list Z := md5 (a_fed a).

(** ** Files *)

(** daemon/queue/DownloadInfo.h, FileInfo and CompletedFile. [f_out]: the file written to, none if there is none yet. *)
Record dfile := DFile { f_id : Z; f_name : list Z; f_orig : list Z; f_hash : list Z; f_par : bool; f_set : list Z;
  f_paused : bool; f_extra : bool; f_conf : bool; f_out : option (list Z); f_done : bool;
  f_size : Z; f_succ : Z; f_fail : Z; f_miss : Z }.
Definition named (f : dfile) (n : list Z) : dfile :=
  DFile (f_id f) n (if is_nil (f_orig f) then f_name f else f_orig f) (f_hash f) (f_par f) (f_set f)
        (f_paused f) (f_extra f) (if f_done f then f_conf f else true) (f_out f) (f_done f) (f_size f) (f_succ f) (f_fail f) (f_miss f).
(** Util.cpp:433-457, [EndsWith]. *)
Definition ends_in (suf s : list Z) : bool := (length suf <=? length s)%nat && beqb (skipn (length s - length suf) s) suf.
(** DirectRenamer.cpp:376-377: the file has its name on the disk. *)
Definition on_disk (f : dfile) : bool :=
  f_done f || match f_out f with Some o => negb (ends_in (str ".out.tmp") o) | None => false end.

(** ** Renaming *)

(** DirectRenamer.cpp:427-450, [BuildNewRegularName]. *)
Fixpoint first_with (h : list Z) (hs : list (list Z * list Z)) : option (list Z) :=
  match hs with [] => None | (n, g) :: r => if beqb g h then Some n else first_with h r end.
Definition regular_name (hs : list (list Z * list Z)) (old h : list Z) : option (list Z) :=
  if is_nil h then None
  else match first_with h hs with
       | Some n => if beqb (map lower old) (map lower n) then None else Some n
       | None => None
       end.
(** DirectRenamer.cpp:452-476, [BuildNewParName]: the name and the next number; [None]: no name is found. *)
Fixpoint numbered (fuel : nat) (fs : disk) (dir set : list Z) (vol : Z) : option (list Z * Z) :=
  match fuel with
  | O => None
  | S k => let n := vol_name set vol in if is_there fs (at_dir dir n) then numbered k fs dir set (vol + 1) else Some (n, vol + 1)
  end.
Definition reused (set old : list Z) : option (list Z) :=
  match strstr old (str ".vol") with
  | Some suf => match strrchr dot suf with
                | Some (_, e) => if beqb (map lower e) (str ".par2") then Some (set ++ suf) else None
                | None => None
                end
  | None => None
  end.
Definition par_name (fs : disk) (dir set old : list Z) (vol : Z) : option (list Z * Z) :=
  match reused set old with
  | Some n => if is_there fs (at_dir dir n) then numbered (S (length fs)) fs dir set vol else Some (n, vol)
  | None => numbered (S (length fs)) fs dir set vol
  end.

(** DirectRenamer.cpp:334-351, [CollectPars], and 478-502, [NeedRenamePars]. *)
Fixpoint others_differ (pre l : list dfile) : bool :=
  match l with
  | [] => false
  | f :: r => negb (ends_in (str ".par2") (map lower (f_name f))) ||
              existsb (fun g => beqb (f_set f) (f_set g) && negb (same_collection (f_name f) (f_name g) false)) (pre ++ r) ||
              others_differ (pre ++ [f]) r
  end.
Definition need_pars (files : list dfile) : bool := others_differ [] (filter f_par files).

(** DirectRenamer.cpp:353-418, [RenameFiles]: one file; 504-516, [RenameCompletedFile]. *)
Record rst := Rst { s_fs : disk; s_vol : Z; s_count : Z }.
Definition rename_dfile can (dir : list Z) (pars : bool) (hs : list (list Z * list Z)) (f : dfile) (s : rst) : option (dfile * rst) :=
  let go n vol :=
    if on_disk f then
      let a := at_dir dir (f_name f) in
      let b := at_dir dir n in
      if is_there (s_fs s) a && can a b then Some (named f n, Rst (rename_file can (s_fs s) a b) vol (s_count s + 1))
      else Some (f, Rst (s_fs s) vol (s_count s))
    else Some (named f n, Rst (s_fs s) vol (s_count s + 1)) in
  if f_par f then
    if pars then match par_name (s_fs s) dir (f_set f) (f_name f) (s_vol s) with Some (n, vol) => go n vol | None => None end
    else Some (f, s)
  else match regular_name hs (f_name f) (f_hash f) with Some n => go n (s_vol s) | None => Some (f, s) end.
Fixpoint rename_dfiles can dir pars hs (l : list dfile) (s : rst) : option (list dfile * rst) :=
  match l with
  | [] => Some ([], s)
  | f :: r => match rename_dfile can dir pars hs f s with
              | None => None
              | Some (f', s1) => match rename_dfiles can dir pars hs r s1 with
                                 | Some (r', s2) => Some (f' :: r', s2)
                                 | None => None
                                 end
              end
  end.
(** All files: those in progress, then the completed ones. *)
Definition direct_rename can dir hs (files done : list dfile) (fs : disk) : option (list dfile * rst) :=
  rename_dfiles can dir (need_pars (files ++ done)) hs (files ++ done) (Rst fs 1 0).

(** ** When *)

(** The download: status of the renaming, the two marks, files in progress, completed ones, and the sums for par2-files. *)
Record dnzb := DNzb { n_status : Z; n_waiting : bool; n_loading : bool; n_files : list dfile; n_done : list dfile;
  n_psize : Z; n_psucc : Z; n_pfail : Z; n_pmiss : Z; n_pcount : Z }.
Definition set_files (n : dnzb) (fl dl : list dfile) : dnzb :=
  DNzb (n_status n) (n_waiting n) (n_loading n) fl dl (n_psize n) (n_psucc n) (n_pfail n) (n_pmiss n) (n_pcount n).
Definition tsRunning : Z := 1.

Definition find_id (id : Z) (l : list dfile) : option dfile := find (fun f => f_id f =? id) l.
(** DirectRenamer.cpp:300-306: the order. *)
Definition before (fl : list dfile) (a b : dfile) : bool :=
  match find_id (f_id a) fl, find_id (f_id b) fl with
  | None, Some _ => true
  | Some x, Some y => f_size x <? f_size y
  | _, None => false
  end.
(** DirectRenamer.cpp:308-332: the identifiers of the files chosen. *)
Fixpoint choose (fl : list dfile) (sets : list (list Z)) (l : list dfile) : list Z :=
  match l with
  | [] => []
  | f :: r => if existsb (beqb (f_set f)) sets then choose fl sets r
              else (match find_id (f_id f) fl with Some _ => [f_id f] | None => [] end) ++ choose fl (sets ++ [f_set f]) r
  end.
Definition raise (ids : list Z) (f : dfile) : dfile :=
  if existsb (Z.eqb (f_id f)) ids
  then DFile (f_id f) (f_name f) (f_orig f) (f_hash f) (f_par f) (f_set f) false true (f_conf f) (f_out f) (f_done f) (f_size f) (f_succ f) (f_fail f) (f_miss f)
  else f.
(** DirectRenamer.cpp:290-332, [UnpausePars]. *)
Definition unpause_pars (sort : (dfile -> dfile -> bool) -> list dfile -> list dfile) (fl dl : list dfile) : list dfile :=
  let l := sort (before fl) (filter f_par (fl ++ dl)) in
  map (raise (choose fl (map f_set (filter f_done l)) l)) fl.

(** DirectRenamer.cpp:235-287, [CheckState]; the flag: the loader is started. *)
Definition known (f : dfile) : bool := negb (is_nil (f_hash f)) && negb (f_par f && is_nil (f_set f)).
Definition check_state sort (n : dnzb) : dnzb * bool :=
  if tsRunning <? n_status n then (n, false)
  else if negb (forallb known (n_files n)) || negb (forallb known (n_done n)) then (n, false)
  else
    let fl := if n_waiting n then n_files n else unpause_pars sort (n_files n) (n_done n) in
    let start := negb (n_loading n) && negb (existsb f_extra fl) in
    (DNzb (n_status n) true (n_loading n || start) fl (n_done n) (n_psize n) (n_psucc n) (n_pfail n) (n_pmiss n) (n_pcount n), start).

(** DirectRenamer.cpp:180-228, [ArticleDownloaded] for the file with the identifier: hash, packet, set, and whether the article
    is large enough or the only one. *)
Definition set_first (f : dfile) (hash : option (list Z)) (par : bool) (set : list Z) : dfile :=
  DFile (f_id f) (f_name f) (f_orig f) (match hash with Some h => h | None => f_hash f end) par (if par then set else f_set f)
        (if negb (Bool.eqb (f_par f) par) && negb par then false else f_paused f) (f_extra f) (f_conf f) (f_out f) (f_done f)
        (f_size f) (f_succ f) (f_fail f) (f_miss f).
Definition article_done sort (id : Z) (hash : list Z) (par : bool) (set : list Z) (large : bool) (n : dnzb) : dnzb * bool :=
  match find_id id (n_files n) with
  | None => (n, false)
  | Some f =>
    let d := if Bool.eqb (f_par f) par then 0 else if par then 1 else -1 in
    let fl := map (fun g => if f_id g =? id then set_first g (if large then Some hash else None) par set else g) (n_files n) in
    check_state sort (DNzb (n_status n) (n_waiting n) (n_loading n) fl (n_done n)
      (n_psize n + f_size f * d) (n_psucc n + f_succ f * d) (n_pfail n + f_fail f * d + f_miss f * d)
      (n_pmiss n + f_miss f * d) (n_pcount n + d))
  end.

(** QueueCoordinator.cpp:862-885, the end of a file: [completed] files go to the list; then the state is checked; then the file
    leaves the list of files in progress. *)
Definition completed_as (f : dfile) : dfile :=
  DFile (f_id f) (f_name f) (f_orig f) (f_hash f) (f_par f) (f_set f) false false true None true 0 0 0 0.
Definition file_done sort (id : Z) (completed : bool) (n : dnzb) : dnzb * bool :=
  match find_id id (n_files n) with
  | None => (n, false)
  | Some f =>
    let dl := if completed then n_done n ++ [completed_as f] else n_done n in
    let (n1, start) := check_state sort (set_files n (n_files n) dl) in
    (set_files n1 (filter (fun g => negb (f_id g =? id)) (n_files n1)) (n_done n1), start)
  end.

(** What happens to a download; [EPause]: the user pauses or resumes a file; [ERenamed]: the loader is done and the files are renamed
    (QueueCoordinator.cpp:1362). *)
Inductive dev := EArticle (id : Z) (hash : list Z) (par : bool) (set : list Z) (large : bool) | EEnd (id : Z) (completed : bool)
  | EPause (id : Z) (p : bool) | ERenamed.
Definition set_paused (id : Z) (p : bool) (f : dfile) : dfile :=
  if f_id f =? id then DFile (f_id f) (f_name f) (f_orig f) (f_hash f) (f_par f) (f_set f) p (f_extra f) (f_conf f) (f_out f) (f_done f) (f_size f) (f_succ f) (f_fail f) (f_miss f) else f.
Definition d_step sort (e : dev) (n : dnzb) : dnzb * bool :=
  match e with
  | EArticle id hash par set large => article_done sort id hash par set large n
  | EEnd id completed => file_done sort id completed n
  | EPause id p => (set_files n (map (set_paused id p) (n_files n)) (n_done n), false)
  | ERenamed => (DNzb (if n_loading n then 3 else n_status n) (n_waiting n) (n_loading n) (n_files n) (n_done n)
                  (n_psize n) (n_psucc n) (n_pfail n) (n_pmiss n) (n_pcount n), false)
  end.
(** The number of starts of the loader. *)
Fixpoint d_run sort (es : list dev) (n : dnzb) : dnzb * Z :=
  match es with
  | [] => (n, 0)
  | e :: r => let (n1, start) := d_step sort e n in
              let (n2, k) := d_run sort r n1 in (n2, (if start then 1 else 0) + k)
  end.
