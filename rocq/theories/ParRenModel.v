(** Model of the renaming by par2-files after the download: daemon/postprocess/ParRenamer.cpp.
    The disk is a list of paths of regular files with their contents (RarSetModel.v); which renamings
    the system refuses is a function [can]. What the par2-library reads from a file is a function
    [load] of its content: nothing, or the list of the files described in the order of the library,
    each with the name as written and the printed hash of its first 16 KB, or without a description.
    The hash itself is a function [md5]. Memory that is read before it is set is a parameter: [junk]
    for the header of files shorter than one, [len0] for the length of a base name. The directories
    are given as the list that [BuildDirList] makes. Paths are shorter than 1024 bytes and have no
    terminator inside. Not modelled: stopping, messages and progress, errors of reading, links,
    [RegisterRenamedFile] and [RegisterParredFile] of the caller (the renamings are a result). *)
From Coq Require Import String.
From Verif Require Import Base NumFmt NameModel WildModel WebModel NzbModel ParModel RarModel RarSetModel.
Open Scope list_scope. Open Scope Z_scope.

(** ** Texts *)

(** Little-endian number; lib/par2/letype.h. *)
Definition le_num (l : list Z) : Z := fold_right (fun b a => b + 256 * a) 0 l.
(** lib/par2/md5.cpp:50-62, [MD5Hash::print], in lower case (ParRenamer.cpp:337-338). *)
Definition hex_low (l : list Z) : list Z := flat_map (fun b => [hexdigit (b / 16); hexdigit (b mod 16)]) (rev l).
(** ParRenamer.cpp:41, 144: the path of a name. *)
Definition at_dir (dir n : list Z) : list Z := dir ++ [slash] ++ n.
(** The names in a directory, daemon/util/FileSystem.cpp, [DirBrowser]. *)
Definition listing (fs : disk) (dir : list Z) : list (list Z) :=
  map (fun e => skipn (length dir + 1) (fst e)) (filter (fun e => in_dir dir (fst e)) fs).

(** ** State *)

(** ParRenamer.h: a file described (name, hash, found on disk); the renamings done, with whole paths. *)
Record fhash := FHash { h_name : list Z; h_hash : list Z; h_found : bool }.
Record rstate := RState { r_fs : disk; r_done : list (list Z * list Z); r_damaged : bool; r_missed : bool }.

(** ParRenamer.cpp:409-423, [RenameFile]. *)
Definition do_rename (can : list Z -> list Z -> bool) (s : rstate) (src dst : list Z) : rstate :=
  match look (r_fs s) src with
  | Some _ => if can src dst
              then RState (rename_file can (r_fs s) src dst) (r_done s ++ [(src, dst)]) (r_damaged s) (r_missed s)
              else s
  | None => s
  end.

(** ** Par2-files *)

Definition packet_magic : list Z := [80; 65; 82; 50; 0; 80; 75; 84].
(** ParRenamer.cpp:305-343, [CheckParFile]: the set of a par2-file. *)
Definition par_set (junk c : list Z) : option (list Z) :=
  let h := firstn 64 (c ++ junk) in
  let len := le_num (firstn 8 (skipn 8 h)) in
  if negb (beqb (firstn 8 h) packet_magic) then None
  else if len <? 64 then None
  else if negb (len mod 4 =? 0) then None
  else if zlen c <? to_i32 len then None
  else Some (hex_low (firstn 16 (skipn 32 h))).
(** ParRenamer.cpp:189-216, [CheckFiles] for par2-files: names and sets. *)
Definition par_infos (junk : list Z) (fs : disk) (dir : list Z) : list (list Z * list Z) :=
  flat_map (fun n => match look fs (at_dir dir n) with
                     | Some c => match par_set junk c with Some i => [(n, i)] | None => [] end
                     | None => []
                     end) (listing fs dir).
(** ParRenamer.cpp:364-368: has the extension. *)
Definition par_ext (n : list Z) : bool :=
  match strrchr dot n with Some (_, e) => beqb (map lower e) (str ".par2") | None => false end.
(** ParRenamer.cpp:371, 380: the length of the base name, unset if the name is none of a par2-file. *)
Definition base_len (len0 : nat) (n : list Z) : nat := match parse_par n true with Some (k, _) => k | None => len0 end.
(** ParRenamer.cpp:356-392, [NeedRenameParFiles]. *)
Fixpoint need_rename (len0 : nat) (l : list (list Z * list Z)) : bool :=
  match l with
  | [] => false
  | (n, i) :: r =>
    negb (par_ext n) ||
    existsb (fun e => beqb i (snd e) &&
      (negb (base_len len0 n =? base_len len0 (fst e))%nat ||
       negb (beqb (map lower (firstn (base_len len0 n) n)) (map lower (firstn (base_len len0 n) (fst e)))))) r ||
    need_rename len0 r
  end.
(** ParRenamer.cpp:402: the name with a number. *)
Definition vol_name (set : list Z) (k : Z) : list Z := set ++ str ".vol" ++ pad 3 k ++ str "+01.PAR2".
(** ParRenamer.cpp:394-404: the first name free. *)
Fixpoint free_vol (fuel : nat) (fs : disk) (dir set : list Z) (k : Z) : option (list Z) :=
  match fuel with
  | O => None
  | S f => let p := at_dir dir (vol_name set k) in if is_there fs p then free_vol f fs dir set (k + 1) else Some p
  end.
(** ParRenamer.cpp:345-354 and 394-407, [RenameParFiles] and [RenameParFile]; [None]: no name is found. *)
Fixpoint rename_pars can (dir : list Z) (l : list (list Z * list Z)) (s : rstate) : option rstate :=
  match l with
  | [] => Some s
  | (n, i) :: r => match free_vol (S (length (r_fs s))) (r_fs s) dir i 1 with
                   | Some p => rename_pars can dir r (do_rename can s (at_dir dir n) p)
                   | None => None
                   end
  end.
Definition check_pars can (junk : list Z) (len0 : nat) (dir : list Z) (s : rstate) : option rstate :=
  let l := par_infos junk (r_fs s) dir in
  if need_rename len0 l then rename_pars can dir l s else Some s.

(** ** Files described *)

(** ParRenamer.cpp:156-187, the loop of [LoadParFile] over the files described: the bad list grows with each without description. *)
Fixpoint add_described (p : list Z) (l : list (option (list Z * list Z))) (hs : list fhash) (bad : list (list Z)) : list fhash * list (list Z) :=
  match l with
  | [] => (hs, bad)
  | None :: r => add_described p r hs (bad ++ [p])
  | Some (n, h) :: r =>
    add_described p r (if existsb (fun e => beqb (h_hash e) h) hs then hs else hs ++ [FHash (make_valid false n) h false]) bad
  end.
Record lstate := LState { l_hashes : list fhash; l_bad : list (list Z); l_loaded : list (list Z) }.
(** ParRenamer.cpp:139-187, [LoadParFile]. *)
Definition load_par (load : list Z -> option (list (option (list Z * list Z)))) (fs : disk) (p : list Z) (l : lstate) : lstate :=
  match look fs p with
  | Some (b :: c) => match load (b :: c) with
    | Some d => let r := add_described p d (l_hashes l) (l_bad l) in LState (fst r) (snd r) (l_loaded l ++ [p])
    | None => LState (l_hashes l) (l_bad l ++ [p]) (l_loaded l)
    end
  | _ => LState (l_hashes l) (l_bad l ++ [p]) (l_loaded l)
  end.
(** ParRenamer.cpp:99-109, [LoadMainParFiles]. *)
Definition load_main load (fs : disk) (dir : list Z) : lstate :=
  fold_left (fun l n => load_par load fs (at_dir dir n) l) (find_mains (listing fs dir) []) (LState [] [] []).
(** ParRenamer.cpp:111-137, [LoadExtraParFiles]. *)
Definition load_extra load (fs : disk) (dir : list Z) (l : lstate) : lstate :=
  fold_left (fun l n =>
    let p := at_dir dir n in
    match parse_par p true with
    | Some _ => if existsb (beqb p) (l_bad l) || existsb (beqb p) (l_loaded l) then l else load_par load fs p l
    | None => l
    end) (listing fs dir) l.
(** Each entry of the bad list goes with setting the flag. *)
Definition is_nil {A} (l : list A) : bool := match l with [] => true | _ => false end.
Definition load_all load (dir : list Z) (s : rstate) : lstate * bool :=
  let l := load_main load (r_fs s) dir in
  let damaged := r_damaged s || negb (is_nil (l_bad l)) in
  if damaged then let l2 := load_extra load (r_fs s) dir l in (l2, damaged) else (l, damaged).

(** ** Other files *)

(** ParRenamer.cpp:239-258, [IsSplittedFragment]; [atoi] of digits, limited by the C library to a long. *)
Definition all_digits (l : list Z) : bool := forallb (fun c => (48 <=? c) && (c <=? 57)) l.
Definition atoi_digits (l : list Z) : Z := to_i32 (Z.min (pdigits 0 l) (2 ^ 63 - 1)).
Definition is_fragment (n correct : list Z) : bool :=
  let k := length correct in
  match strrchr dot n with
  | None => false
  | Some _ =>
    beqb (map lower (firstn k n)) (map lower correct) &&
    match skipn k n with
    | c :: d => (c =? dot) && all_digits d && (atoi_digits d <=? 1)
    | [] => false
    end
  end.
(** ParRenamer.cpp:285-302: the first file described with this hash is found. *)
Fixpoint find_hash (h : list Z) (hs : list fhash) : option (list Z * list fhash) :=
  match hs with
  | [] => None
  | e :: r => if beqb (h_hash e) h then Some (h_name e, FHash (h_name e) (h_hash e) true :: r)
              else match find_hash h r with Some (n, r') => Some (n, e :: r') | None => None end
  end.
Definition hash16 (md5 : list Z -> list Z) (c : list Z) : list Z := md5 (firstn (Z.to_nat 16384) c).
(** ParRenamer.cpp:260-303, [CheckRegularFile]. *)
Definition check_regular can md5 (dir : list Z) (a : list fhash * rstate) (n : list Z) : list fhash * rstate :=
  let (hs, s) := a in
  match look (r_fs s) (at_dir dir n) with
  | None => (hs, s)
  | Some c =>
    match find_hash (hash16 md5 c) hs with
    | None => (hs, s)
    | Some (m, hs') =>
      let d := at_dir dir m in
      (hs', if negb (is_there (r_fs s) d) && negb (is_fragment n m) then do_rename can s (at_dir dir n) d else s)
    end
  end.
(** ParRenamer.cpp:189-216, [CheckFiles] for other files. *)
Definition check_regulars can md5 dir hs s : list fhash * rstate :=
  fold_left (check_regular can md5 dir) (listing (r_fs s) dir) (hs, s).

(** ParRenamer.cpp:218-237, [CheckMissing]; [ignored]: MatchFileExt with the option ParIgnoreExt. *)
Definition check_missing (ignored : list Z -> bool) (hs : list fhash) : bool :=
  existsb (fun e => negb (h_found e) && negb (ignored (h_name e))) hs.
(** ParRenamer.cpp:425-432, [RenameBadParFiles]. *)
Definition bad_name (p : list Z) : list Z := p ++ str ".bad".
Definition rename_bad can (bad : list (list Z)) (s : rstate) : rstate :=
  fold_left (fun s p => do_rename can s p (bad_name p)) bad s.

(** ParRenamer.cpp:55-83, one directory of [Execute]. *)
Definition one_dir can md5 load junk len0 (detect : bool) ignored (dir : list Z) (s : rstate) : option rstate :=
  match check_pars can junk len0 dir s with
  | None => None
  | Some s1 =>
    let (l, damaged) := load_all load dir s1 in
    let (hs, s2) := check_regulars can md5 dir (l_hashes l) s1 in
    let s3 := RState (r_fs s2) (r_done s2) damaged (r_missed s2 || (detect && check_missing ignored hs)) in
    Some (if negb (is_nil (r_done s3)) && negb (is_nil (l_bad l)) then rename_bad can (l_bad l) s3 else s3)
  end.
Fixpoint par_rename can md5 load junk len0 detect ignored (dirs : list (list Z)) (s : rstate) : option rstate :=
  match dirs with
  | [] => Some s
  | d :: r => match one_dir can md5 load junk len0 detect ignored d s with
              | Some s' => par_rename can md5 load junk len0 detect ignored r s'
              | None => None
              end
  end.
