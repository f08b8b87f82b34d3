(** Reading of nzb-files: daemon/queue/NzbFile.cpp (the branch with libxml2).
    The input is the sequence of calls the XML parser makes; the file itself matters only for the password.
    The list of the articles of a file is a list of slots (slot [i] is part [i + 1]), holes are parts which do
    not occur in the nzb-file. Sizes of files and groups are computed by StatsModel (add_file_info, process_file).
    Not modelled: messages, saving of the files on the disk, minimum and maximum time, the XML parser.
    [None]: the behaviour is undefined (null pointers, freed memory, memory outside of a buffer). *)
From Coq Require Import String.
From Verif Require Import Base NumFmt WildModel CodecModel NameModel MoveModel.
Open Scope list_scope. Open Scope Z_scope.

(** ** The calls of the parser *)

(** NzbFile.cpp:765-779: [atts] is none when the parser passes no attributes. *)
Inductive ev :=
| EStart (name : list Z) (atts : option (list (list Z * list Z)))
| EEnd (name : list Z)
| EText (s : list Z).

(** ArticleInfo (DownloadInfo.h:74-115): size and message id. *)
Record nart := NArt { na_size : Z; na_id : option (list Z) }.
(** FileInfo: what is known when it is added. *)
Record nfile := NFile {
  nf_id : Z; nf_subject : option (list Z); nf_time : Z; nf_groups : list (option (list Z)); nf_slots : list (option nart) }.

(** m_article: null, a slot of the file being read, or an article that was freed. *)
Inductive aptr := PNull | PSlot (k : nat) | PFreed.

(** NzbFile.h:39-64 (m_nzbInfo's file list, m_fileInfo, m_article, m_tagContent, m_password, m_hasPassword);
    [p_next] is the id of the next file. *)
Record np := NP {
  p_files : list nfile; p_cur : option nfile; p_art : aptr; p_text : option (list Z);
  p_pw : option (list Z); p_haspw : bool; p_next : Z }.
Definition np0 (id : Z) : np := NP [] None PNull None None false id.

Definition to_int (x : Z) : Z := (x + 2 ^ 31) mod 2 ^ 32 - 2 ^ 31.

(** The last attribute of that name, as the loops over [atts] leave it. *)
Fixpoint attr (name : list Z) (atts : list (list Z * list Z)) (dflt : option (list Z)) : option (list Z) :=
  match atts with
  | [] => dflt
  | (n, v) :: r => attr name r (if beqb name n then Some v else dflt)
  end.

(** NzbFile.cpp:47-58, [AddArticle]. *)
Fixpoint set_slot (k : nat) (x : option nart) (l : list (option nart)) : list (option nart) :=
  match k, l with
  | O, [] => [x]
  | O, _ :: r => x :: r
  | S j, [] => None :: set_slot j x []
  | S j, y :: r => y :: set_slot j x r
  end.
Definition set_slots (s : list (option nart)) (f : nfile) : nfile :=
  NFile (nf_id f) (nf_subject f) (nf_time f) (nf_groups f) s.

(** NzbFile.cpp:60-113, [AddFileInfo], what decides about the file list: a file without articles is dropped. *)
Definition has_article (f : nfile) : bool :=
  existsb (fun x => match x with Some _ => true | None => false end) (nf_slots f).
Definition add_file (f : nfile) (l : list nfile) : list nfile := if has_article f then l ++ [f] else l.

(** NzbFile.cpp:639-720, [Parse_StartElement]. *)
Definition start_element (name : list Z) (atts : option (list (list Z * list Z))) (p : np) : np :=
  let p := NP (p_files p) (p_cur p) (p_art p) None (p_pw p) (p_haspw p) (p_next p) in
  if beqb name (str "file") then
    let art := match p_cur p, p_art p with Some _, PSlot _ => PFreed | _, x => x end in
    let f := match atts with
             | None => NFile (p_next p) None 0 [] []
             | Some a => NFile (p_next p) (attr (str "subject") a None)
                           (match attr (str "date") a None with Some v => to_int (atoll v) | None => 0 end) [] []
             end in
    NP (p_files p) (Some f) art None (p_pw p) (p_haspw p) (p_next p + 1)
  else if beqb name (str "segment") then
    match p_cur p, atts with
    | Some f, Some a =>
      let size := match attr (str "bytes") a None with Some v => to_int (atoll v) | None => -1 end in
      let part := match attr (str "number") a None with Some v => to_int (atoll v) | None => -1 end in
      if 0 <? part then
        let k := Z.to_nat (part - 1) in
        NP (p_files p) (Some (set_slots (set_slot k (Some (NArt size None)) (nf_slots f)) f)) (PSlot k) None
           (p_pw p) (p_haspw p) (p_next p)
      else p
    | _, _ => p
    end
  else if beqb name (str "meta") then
    match atts with
    | None => p
    | Some a =>
      NP (p_files p) (p_cur p) (p_art p) None (p_pw p)
         (match a with (n, v) :: _ => beqb n (str "type") && beqb v (str "password") | [] => false end) (p_next p)
    end
  else p.

(** NzbFile.cpp:722-758, [Parse_EndElement]. *)
Definition end_element (name : list Z) (p : np) : option np :=
  if beqb name (str "file") then
    match p_cur p with
    | None => None
    | Some f => Some (NP (add_file f (p_files p)) None PNull (p_text p) (p_pw p) (p_haspw p) (p_next p))
    end
  else if beqb name (str "group") then
    match p_cur p with
    | None => Some p
    | Some f => Some (NP (p_files p) (Some (NFile (nf_id f) (nf_subject f) (nf_time f) (nf_groups f ++ [p_text p]) (nf_slots f)))
                         (p_art p) None (p_pw p) (p_haspw p) (p_next p))
    end
  else if beqb name (str "segment") then
    match p_cur p, p_art p with
    | Some f, PSlot k =>
      match p_text p with
      | None => None                                  (* a null pointer for %s *)
      | Some t =>
        let id := firstn (Z.to_nat 1023) (60 :: t ++ [62]) in
        let put x := match x with Some a => Some (NArt (na_size a) (Some id)) | None => None end in
        Some (NP (p_files p) (Some (set_slots (set_slot k (put (nth k (nf_slots f) None)) (nf_slots f)) f)) PNull (p_text p)
                 (p_pw p) (p_haspw p) (p_next p))
      end
    | Some _, PFreed => None
    | _, _ => Some p
    end
  else if beqb name (str "meta") && p_haspw p then
    Some (NP (p_files p) (p_cur p) (p_art p) (p_text p) (Some (match p_text p with Some t => t | None => [] end)) (p_haspw p) (p_next p))
  else Some p.

(** NzbFile.cpp:760-763 and 775-815, [SAX_characters] and [Parse_Content]. *)
Definition characters (s : list Z) (p : np) : np :=
  match WildModel.trim s with
  | [] => p
  | t => NP (p_files p) (p_cur p) (p_art p) (Some (match p_text p with Some u => u | None => [] end ++ t))
            (p_pw p) (p_haspw p) (p_next p)
  end.

Definition ev_step (p : np) (e : ev) : option np :=
  match e with
  | EStart n a => Some (start_element n a p)
  | EEnd n => end_element n p
  | EText s => Some (characters s p)
  end.
Fixpoint ev_run (p : np) (l : list ev) : option np :=
  match l with
  | [] => Some p
  | e :: r => match ev_step p e with Some p' => ev_run p' r | None => None end
  end.

(** The articles which remain (NzbFile.cpp:72-100), with their part numbers. *)
Fixpoint kept_from (n : Z) (l : list (option nart)) : list (Z * nart) :=
  match l with
  | [] => []
  | None :: r => kept_from (n + 1) r
  | Some a :: r => (n, a) :: kept_from (n + 1) r
  end.
Definition kept (f : nfile) : list (Z * nart) := kept_from 1 (nf_slots f).

(** ** Names *)

(** A BString<1024> initialised with [s]: 1024 bytes, the rest is filled with zeros. *)
Definition bsize : nat := Z.to_nat 1024.
Definition sbuf (s : list Z) : list Z :=
  let t := firstn (Z.to_nat 1023) s in t ++ repeat 0 (bsize - length t).

(** NzbFile.cpp:131-137: [while (strchr("0123456789", *end) && end > subject) end--]; the terminator of the
    set of digits is found as well. *)
Definition digit_or_nul (c : Z) : bool := ((48 <=? c) && (c <=? 57)) || (c =? 0).
Fixpoint back (buf : list Z) (e : nat) : nat :=
  if digit_or_nul (nth e buf 0) then match e with O => O | S e' => back buf e' end else e.

(** NzbFile.cpp:126-142: the buffer without the suffix. *)
Definition strip_yenc (s : list Z) : option (list Z) :=
  let buf := sbuf s in
  match length (c_string buf) with
  | O => None
  | S m =>
    if negb (nth m buf 0 =? 41) then Some buf
    else
      match m with
      | O => None
      | S m1 =>
        let e1 := back buf m1 in
        if negb (nth e1 buf 0 =? 47) then Some buf
        else
          match e1 with
          | O => None
          | S d1 =>
            let e2 := back buf d1 in
            if (6 <? e2)%nat && beqb (firstn 7 (skipn (e2 - 6) buf)) (str " yEnc (")
            then Some (firstn (e2 - 6) buf ++ 0 :: skipn (e2 - 5) buf)
            else Some buf
          end
      end
  end.

(** strchr(buf + i, c): none when the buffer ends before. *)
Fixpoint index (c : Z) (s : list Z) : option nat :=
  match s with
  | [] => None
  | x :: r => if x =? c then Some O else match index c r with Some n => Some (S n) | None => None end
  end.
Definition chr (buf : list Z) (i : nat) (c : Z) : option (option nat) :=
  if (length buf <=? i)%nat then None
  else Some (match index c (c_string (skipn i buf)) with Some k => Some (i + k)%nat | None => None end).

(** NzbFile.cpp:144-166: the name in quotation marks, if it is found. *)
Definition quoted_name (buf : list Z) : option (option (list Z)) :=
  match chr buf 0 34 with
  | None => None
  | Some None => Some None
  | Some (Some i) =>
    let start := S i in
    match chr buf (S start) 34 with
    | None => None
    | Some None => Some None
    | Some (Some e) =>
      match chr buf (S start) 46 with
      | None => None
      | Some (Some pt) => if (pt <? e)%nat then Some (Some (c_string (firstn (e - start) (skipn start buf)))) else Some None
      | Some None => Some None
      end
    end
  end.

(** NzbFile.cpp:168-216, the tokens. *)
Fixpoint toks_go (fuel : nat) (buf : list Z) (p start : nat) (quot : bool) : option (list (list Z)) :=
  match fuel with
  | O => None
  | S f =>
    match nth_error buf p with
    | None => None
    | Some ch =>
      if (ch =? 34) || (negb quot && (ch =? 32)) || (ch =? 0) then
        let tok := if (start <? p)%nat then [c_string (firstn (p - start) (skipn start buf))] else [] in
        let start1 := if negb (ch =? 34) || quot then S p else p in
        match nth_error buf start1 with
        | None => None
        | Some c1 =>
          let found := if c1 =? 34 then chr buf (S start1) 34 else Some None in
          match found with
          | None => None
          | Some (Some q) =>
            if ch =? 0 then Some tok
            else match toks_go f buf q (S start1) true with Some l => Some (tok ++ l) | None => None end
          | Some None =>
            if ch =? 0 then Some tok
            else match toks_go f buf (S p) (if c1 =? 34 then S start1 else start1) false with Some l => Some (tok ++ l) | None => None end
          end
        end
      else toks_go f buf (S p) start quot
    end
  end.

(** NzbFile.cpp:218-233. *)
Definition dotted (s : list Z) : bool :=
  match index 46 s with Some k => match skipn (S k) s with [] => false | _ => true end | None => false end.
Fixpoint find_first (p : list Z -> bool) (l : list (list Z)) : option (list Z) :=
  match l with [] => None | x :: r => if p x then Some x else find_first p r end.
Definition best_token (l : list (list Z)) : list Z :=
  match find_first dotted (rev l) with Some s => s | None => last l [] end.

(** NzbFile.cpp:116-240, [ParseSubject] for a given subject. *)
Definition parse_subject (quotes : bool) (subject : list Z) : option (list Z) :=
  match strip_yenc subject with
  | None => None
  | Some buf =>
    match (if quotes then quoted_name buf else Some None) with
    | None => None
    | Some (Some n) => Some n
    | Some None =>
      match toks_go (S (S bsize)) buf 0 0 false with
      | None => None
      | Some [] => Some subject
      | Some l => Some (best_token l)
      end
    end
  end.

(** NzbFile.cpp:120-124: the subject, or the id of the file. *)
Definition subject_of (f : nfile) : list Z := match nf_subject f with Some s => s | None => zdec (nf_id f) end.

(** NzbFile.cpp:242-271, [HasDuplicateFilenames]; pairs of name and subject. *)
Notation named := (list Z * list Z)%type.
Definition twins (x : named) (l : list named) : nat :=
  length (filter (fun y => beqb (fst x) (fst y) && negb (beqb (snd x) (snd y))) l).
Fixpoint dupe_names_go (two : bool) (l : list named) : bool :=
  match l with
  | [] => false
  | x :: r => let dupe := S (twins x r) in
              (2 <? dupe)%nat || ((dupe =? 2)%nat && two) || dupe_names_go two r
  end.
Definition dupe_names (l : list named) : bool := dupe_names_go (length l =? 2)%nat l.

Fixpoint all_some {A} (l : list (option A)) : option (list A) :=
  match l with
  | [] => Some []
  | Some x :: r => match all_some r with Some r' => Some (x :: r') | None => None end
  | None :: _ => None
  end.

(** NzbFile.cpp:273-299, [BuildFilenames]: the names, and whether there are many duplicates. *)
Definition build_names (subjects : list (list Z)) : option (list (list Z) * bool) :=
  match all_some (map (parse_subject true) subjects) with
  | None => None
  | Some n1 =>
    match (if dupe_names (combine n1 subjects) then all_some (map (parse_subject false) subjects) else Some n1) with
    | None => None
    | Some n2 => if dupe_names (combine n2 subjects) then Some (subjects, true) else Some (n2, false)
    end
  end.

(** ** Hashes *)

(** daemon/util/Util.cpp:483-494, mix. *)
Definition u32 (x : Z) : Z := x mod 2 ^ 32.
Definition mix (a b c : Z) : Z * Z * Z :=
  let a := Z.lxor (u32 (a - b - c)) (Z.shiftr c 13) in
  let b := Z.lxor (u32 (b - c - a)) (u32 (Z.shiftl a 8)) in
  let c := Z.lxor (u32 (c - a - b)) (Z.shiftr b 13) in
  let a := Z.lxor (u32 (a - b - c)) (Z.shiftr c 12) in
  let b := Z.lxor (u32 (b - c - a)) (u32 (Z.shiftl a 16)) in
  let c := Z.lxor (u32 (c - a - b)) (Z.shiftr b 5) in
  let a := Z.lxor (u32 (a - b - c)) (Z.shiftr c 3) in
  let b := Z.lxor (u32 (b - c - a)) (u32 (Z.shiftl a 10)) in
  let c := Z.lxor (u32 (c - a - b)) (Z.shiftr b 15) in
  (a, b, c).
(** Four bytes from offset [i], missing ones count zero. *)
Definition word (k : list Z) (i : nat) : Z :=
  nth i k 0 + 256 * nth (i + 1) k 0 + 65536 * nth (i + 2) k 0 + 16777216 * nth (i + 3) k 0.
(** Util.cpp:509-516. *)
Fixpoint hash_go (fuel : nat) (k : list Z) (a b c : Z) : list Z * Z * Z * Z :=
  match fuel with
  | O => (k, a, b, c)
  | S f =>
    if (length k <? 12)%nat then (k, a, b, c)
    else let '(a, b, c) := mix (u32 (a + word k 0)) (u32 (b + word k 4)) (u32 (c + word k 8)) in
         hash_go f (skipn 12 k) a b c
  end.
(** Util.cpp:496-544, [HashBJ96]: the last bytes of the third word are shifted by one, its first byte is the length. *)
Definition hash_bj96 (k : list Z) (init : Z) : Z :=
  let '(r, a, b, c) := hash_go (length k) k 2654435769 2654435769 init in
  let c := u32 (c + Z.of_nat (length k) + 256 * (nth 8 r 0 + 256 * nth 9 r 0 + 65536 * nth 10 r 0)) in
  let '(_, _, c) := mix (u32 (a + word r 0)) (u32 (b + word r 4)) c in c.

(** ** The files of the download *)

Record dfile := DFile { d_src : nfile; d_name : list Z; d_par : bool }.

(** daemon/util/Util.cpp:291-314, [MatchFileExt] with the separators comma and semicolon. *)
Definition ends_nocase (s e : list Z) : bool :=
  (length e <=? length s)%nat && beqb (map lower e) (map lower (skipn (length s - length e) s)).
Fixpoint match_any (exts : list (list Z)) (name : list Z) : option bool :=
  match exts with
  | [] => Some false
  | e :: r =>
    if ends_nocase name e then Some true
    else if existsb (Z.eqb 42) e || existsb (Z.eqb 63) e then
      match wild_match false e name with
      | Some (true, _) => Some true
      | Some (false, _) => match_any r name
      | None => None
      end
    else match_any r name
  end.
Definition match_ext (name exts : list Z) : option bool :=
  match tokens (str ",;") exts with Some l => match_any l name | None => None end.

(** NzbFile.cpp:354-358 and 370: valid name, par flag. *)
Definition is_par (name : list Z) : bool :=
  match strstr (map lower (firstn (Z.to_nat 1023) name)) (str ".par2") with Some _ => true | None => false end.
Definition d_make (f : nfile) (name : list Z) : dfile :=
  let n := make_valid false name in DFile f n (is_par n).

(** NzbFile.cpp:301-346, [CalcHashes]: the sum over the message ids; [None]: an article without id. std::sort is an
    insertion sort. *)
Definition ids_of (f : dfile) : option (list (list Z)) :=
  all_some (map (fun x => na_id (snd x)) (kept (d_src f))).
Definition name_gt (a b : dfile) : bool := str_lt (d_name b) (d_name a).
Definition hash_ids (ids : list (list Z)) (init : Z) : Z := fold_left (fun h id => hash_bj96 id h) ids init.
Fixpoint hash_files (ignore : list Z) (l : list dfile) (full filt count : Z) : option (Z * Z * Z) :=
  match l with
  | [] => Some (full, filt, count)
  | f :: r =>
    match ids_of f, (if d_par f then Some false else match_ext (d_name f) ignore) with
    | Some ids, Some skip =>
      if skip then hash_files ignore r (hash_ids ids full) filt count
      else hash_files ignore r (hash_ids ids full) (hash_ids ids filt) (count + Z.of_nat (length ids))
    | _, _ => None
    end
  end.
Definition calc_hashes (ignore : list Z) (l : list dfile) : option (Z * Z) :=
  match hash_files ignore (stable_sort name_gt l) 0 0 0 with
  | None => None
  | Some (full, filt, count) => Some (full, if count <? Z.of_nat (length l) / 2 then 0 else filt)
  end.

(** NzbFile.cpp:398-440, [ReadPassword]: the password found in the first bytes of the file, if any. *)
Definition pw_tag : list Z := str "<meta type=""password"">".
Definition read_password (file : list Z) : option (option (list Z)) :=
  let n := Nat.min (length file) (Z.to_nat 4096) in
  match n with
  | O => None
  | S m =>
    match strstr (c_string (firstn m file)) pw_tag with
    | None => Some None
    | Some t =>
      let t := skipn 22 t in
      match strstr t (str "</meta>") with
      | None => Some None
      | Some u => match xml_decode (firstn (length t - length u) t) with Some w => Some (Some w) | None => None end
      end
    end
  end.

(** NzbFile.cpp:602-637 and 348-396, [Parse] and [ProcessFiles]. [ok]: the XML parser found no error. *)
Record download := Dl { dl_files : list dfile; dl_many : bool; dl_hash : Z; dl_hash_filt : Z; dl_pw : option (list Z) }.
Definition parse_nzb (ignore : list Z) (id : Z) (file : list Z) (evs : list ev) (ok : bool) : option (option download) :=
  match ev_run (np0 id) evs with
  | None => None
  | Some p =>
    match p_files p with
    | [] => Some None
    | fs =>
      if negb ok then Some None
      else
        match build_names (map subject_of fs) with
        | None => None
        | Some (names, many) =>
          let ds := map (fun x => d_make (fst x) (snd x)) (combine fs names) in
          match calc_hashes ignore ds with
          | None => None
          | Some (h1, h2) =>
            match p_pw p with
            | None => Some (Some (Dl ds many h1 h2 None))
            | Some w =>
              match read_password file with
              | None => None
              | Some r => Some (Some (Dl ds many h1 h2 (Some (match r with Some w' => w' | None => w end))))
              end
            end
          end
        end
    end
  end.
