(** Model of the renaming of rar-volumes: daemon/postprocess/RarRenamer.cpp.
    The disk is a list of paths of regular files with their contents; which renamings the system
    refuses (besides those of files that are not there) is a function [can]. Volumes keep the path
    they had when they were read. A set of volumes is the list of them. Names have no terminator
    inside and are shorter than 1024 bytes where this is said ([BString<1024>] cuts longer ones,
    modelled where names come from an archive). Numbers of volumes printed are below 2^31 - 1.
    Not modelled: stopping, messages and progress, links, [RegisterRenamedFile] of the callers (the
    list of renamings is a result), Windows variants. *)
From Coq Require Import String.
From Verif Require Import Base NumFmt InfoModel NameModel WildModel RarModel.
Open Scope list_scope. Open Scope Z_scope.

(** RarReader.h:74-81: a volume with its path and version. *)
Record vol := Vol { v_name : list Z; v_ver : Z; v_info : vinfo }.
Definition v_no (v : vol) : Z := vi_no (v_info v).
Definition v_new (v : vol) : bool := vi_new (v_info v).
Definition v_has (v : vol) : bool := vi_has (v_info v).
Definition v_multi (v : vol) : bool := vi_multi (v_info v).
Definition v_files (v : vol) : list rfile := vi_files (v_info v).
Definition f_none : rfile := RFile [] 0 0 0 false false.
Definition first_file (v : vol) : rfile := hd f_none (v_files v).
Definition last_file (v : vol) : rfile := last (v_files v) f_none.
Definition v_none : vol := Vol [] 0 v_empty.

Definition disk := list (list Z * list Z).
Fixpoint look (fs : disk) (p : list Z) : option (list Z) :=
  match fs with [] => None | (q, c) :: r => if beqb p q then Some c else look r p end.
(** FileSystem.cpp:529-547, [FileExists]. *)
Definition is_there (fs : disk) (p : list Z) : bool := match look fs p with Some _ => true | None => false end.
Definition remove (p : list Z) (fs : disk) : disk := filter (fun e => negb (beqb p (fst e))) fs.

(** ** Names *)

(** printf with a width and zeros. *)
Definition pad (w : nat) (n : Z) : list Z := let d := udec n in repeat 48 (w - length d) ++ d.
(** RarRenamer.cpp:180-183, [GenNewExtension]. *)
Definition new_ext (n : Z) : list Z := str "part" ++ pad 4 (n + 1) ++ str ".rar".
(** RarRenamer.cpp:185-196, [GenOldExtension]; a character of value zero ends the text. *)
Definition old_ext (n : Z) : list Z :=
  if n =? 0 then str "rar" else upto0 ((114 + (n - 1) / 100) mod 256 :: pad 2 ((n - 1) mod 100)).
Definition ext_of (v : vol) : list Z := if v_new v then new_ext (v_no v) else old_ext (v_no v).
(** RarRenamer.cpp:174-178, [GenNewVolumeFilename]. *)
Definition dest (dir base : list Z) (v : vol) : list Z := dir ++ [slash] ++ base ++ [dot] ++ ext_of v.

(** RarRenamer.cpp:289-323, [SameArchiveName]. *)
Definition same_archive (n1 n2 : list Z) (new : bool) : bool :=
  (length n1 =? length n2)%nat &&
  match strrchr dot n1, strrchr dot n2 with
  | Some (a1, e1), Some (a2, e2) =>
      (length e1 =? length e2)%nat &&
      (if new then
         negb (match a1 with [] => true | _ => false end) && negb (match a2 with [] => true | _ => false end) &&
         match strrchr dot a1, strrchr dot a2 with
         | Some (b1, x1), Some (b2, x2) =>
             (length x1 =? length x2)%nat && prefixb (str ".part") x1 && prefixb (str ".part") x2 && beqb b1 (firstn (length b1) a2)
         | _, _ => false
         end
       else beqb a1 (firstn (length a1) n2))
  | _, _ => false
  end.

(** ** Sets *)

(** RarRenamer.cpp:205-210. *)
Definition starts (v : vol) : bool :=
  negb (match v_files v with [] => true | _ => false end) && (v_no v =? 0) && negb (rf_before (first_file v)).
(** RarRenamer.cpp:227-235: [v] may follow [l]. *)
Definition follows (l v : vol) : bool :=
  negb (match v_files v with [] => true | _ => false end) && v_multi v && (v_no v =? (v_no l + 1) mod 2 ^ 32) &&
  (v_ver v =? v_ver l) && v_has l &&
  ((rf_before (first_file v) && rf_after (last_file l) && beqb (rf_name (first_file v)) (rf_name (last_file l))) ||
   (negb (rf_before (first_file v)) && negb (rf_after (last_file l)))).
(** RarRenamer.cpp:240-259: which of the candidates comes next. *)
Definition choose (head : vol) (cands : list vol) : option vol :=
  match cands with
  | [] => None
  | [x] => Some x
  | x :: _ => match find (fun v => same_archive (base_name (v_name head)) (base_name (v_name v)) (v_new head)) cands with
              | Some y => Some y
              | None => Some x
              end
  end.
(** RarRenamer.cpp:216-268: the set from the last volume on; [None]: the bound was reached. *)
Fixpoint build (fuel : nat) (vols : list vol) (head l : vol) : option (list vol) :=
  match fuel with
  | O => None
  | S f => match choose head (filter (follows l) vols) with
           | None => Some [l]
           | Some v => option_map (cons l) (build f vols head v)
           end
  end.
(** RarRenamer.cpp:270-274. *)
Definition complete (set : list vol) : bool :=
  let l := last set v_none in negb (v_has l) && (match v_files l with [] => true | _ => false end || negb (rf_after (last_file l))).
(** RarRenamer.cpp:198-287, [MakeSets]. *)
Fixpoint all_sets (fuel : nat) (vols heads : list vol) : option (list (list vol)) :=
  match heads with
  | [] => Some []
  | h :: r => match build fuel vols h h, all_sets fuel vols r with
              | Some s, Some t => Some (if complete s then s :: t else t)
              | _, _ => None
              end
  end.
Definition make_sets (vols : list vol) : option (list (list vol)) :=
  all_sets (S (length vols)) vols (filter starts vols).

(** ** Renaming *)

(** The regular expression [.*.part([0-9]+)\.rar$] without regard to case (RarRenamer.cpp:327): the
    position and the text of the number. *)
Fixpoint digits_back (l : list Z) : list Z :=
  match l with c :: r => if is_digit c then c :: digits_back r else [] | [] => [] end.
Definition part_match (n : list Z) : option (nat * list Z) :=
  let m := (length n - 4)%nat in
  if (length n <? 4)%nat || negb (beqb (map lower (skipn m n)) (str ".rar")) then None
  else let stem := firstn m n in
       let d := rev (digits_back (rev stem)) in
       let k := (length stem - length d)%nat in
       if (length d =? 0)%nat || (k <? 5)%nat || negb (beqb (map lower (skipn (k - 4) (firstn k stem))) (str "part")) then None
       else Some (k, d).
(** [atoi] of digits as unsigned 32-bit value; the C library limits the number to that of a long. *)
Definition atoi_u (d : list Z) : Z := Z.min (pdigits 0 d) (2 ^ 63 - 1) mod 2 ^ 32.

(** RarRenamer.cpp:325-371, [IsSetProperlyNamed]. *)
Fixpoint proper_go (base : list Z) (partlen : nat) (set : list vol) : bool :=
  match set with
  | [] => true
  | v :: r =>
      let n := base_name (v_name v) in
      if negb (length base =? length n)%nat then false
      else if v_new v then
        match part_match n with
        | None => false
        | Some (k, d) =>
            let pl := if (partlen =? 0)%nat then length d else partlen in
            if (atoi_u d =? (v_no v + 1) mod 2 ^ 32) && (length d =? pl)%nat && beqb (firstn k base) (firstn k n)
            then proper_go base pl r else false
        end
      else
        match strrchr dot n with
        | None => false
        | Some (a, e) => if beqb (tl e) (old_ext (v_no v)) && beqb (firstn (length a) base) a then proper_go base partlen r else false
        end
  end.
Definition proper (set : list vol) : bool := proper_go (base_name (v_name (hd v_none set))) 0 set.

(** RarRenamer.cpp:373-393, [FindMainFile]: the first of the biggest files. *)
Fixpoint biggest (m : rfile) (l : list rfile) : rfile :=
  match l with [] => m | f :: r => biggest (if rf_size m <? rf_size f then f else m) r end.
Definition main_file (set : list vol) : rfile :=
  match flat_map v_files set with [] => f_none | f :: r => biggest f r end.
(** RarRenamer.cpp:133-140. *)
Definition main_base (set : list vol) : list Z :=
  let n := firstn (Z.to_nat 1023) (base_name (rf_name (main_file set))) in
  match strrchr dot n with Some (a, e) => if (length e =? 4)%nat then a else n | None => n end.
(** RarRenamer.cpp:142-150: the name tried in round [num]. *)
Definition try_base (main : list Z) (num : Z) : list Z :=
  if num =? 1 then main else firstn (Z.to_nat 1023) (main ++ str "-" ++ udec num).
(** RarRenamer.cpp:152-161. *)
Definition blocked (fs : disk) (dir base : list Z) (v : vol) : bool :=
  negb (beqb (v_name v) (dest dir base v)) && is_there fs (dest dir base v).
Fixpoint free_base (fuel : nat) (fs : disk) (dir main : list Z) (set : list vol) (num : Z) : option (list Z) :=
  match fuel with
  | O => None
  | S f => let base := try_base main num in
           if existsb (blocked fs dir base) set then free_base f fs dir main set (num + 1) else Some base
  end.

(** RarRenamer.cpp:108-122, [RenameFile]; [rename] replaces a file that has the new name. *)
Definition rename_file (can : list Z -> list Z -> bool) (fs : disk) (s d : list Z) : disk :=
  match look fs s with
  | Some c => if can s d then (d, c) :: remove d (remove s fs) else fs
  | None => fs
  end.
(** RarRenamer.cpp:163-170. *)
Definition rename_one (can : list Z -> list Z -> bool) (dir base : list Z) (fs : disk) (v : vol) : disk :=
  if beqb (v_name v) (dest dir base v) then fs else rename_file can fs (v_name v) (dest dir base v).
(** RarRenamer.cpp:128-171. *)
Definition rename_set (can : list Z -> list Z -> bool) (dir : list Z) (fs : disk) (set : list vol) : option disk :=
  if proper set then Some fs
  else match free_base (S (length fs)) fs dir (main_base set) set 1 with
       | None => None
       | Some base => Some (fold_left (rename_one can dir base) set fs)
       end.
Fixpoint rename_sets (can : list Z -> list Z -> bool) (dir : list Z) (fs : disk) (sets : list (list vol)) : option disk :=
  match sets with
  | [] => Some fs
  | s :: r => match rename_set can dir fs s with Some fs' => rename_sets can dir fs' r | None => None end
  end.
(** RarRenamer.cpp:124-172, [RenameFiles]. *)
Definition rename_files (can : list Z -> list Z -> bool) (dir : list Z) (vols : list vol) (fs : disk) : option disk :=
  match make_sets vols with Some sets => rename_sets can dir fs sets | None => None end.

(** RarRenamer.cpp:93-106, [CheckOneFile]; [None]: the reading does not end or is undefined. *)
Definition check_one (ignored : list Z -> bool) (vols : list vol) (e : list Z * list Z) : option (list vol) :=
  if ignored (base_name (fst e)) then Some vols
  else match read_volume (S (length (snd e))) (snd e) with
       | Ok (ver, i) => Some (vols ++ [Vol (fst e) ver i])
       | Fail => Some vols
       | _ => None
       end.
Fixpoint check_all (ignored : list Z -> bool) (vols : list vol) (l : disk) : option (list vol) :=
  match l with [] => Some vols | e :: r => match check_one ignored vols e with Some vs => check_all ignored vs r | None => None end end.
(** The files of a directory. *)
Definition in_dir (dir p : list Z) : bool :=
  prefixb (dir ++ [slash]) p && negb (existsb (Z.eqb slash) (skipn (length dir + 1) p)).
(** RarRenamer.cpp:66-91, [CheckFiles]: the volumes of this directory are added to those known. *)
Definition check_files can ignored (dir : list Z) (vols : list vol) (fs : disk) : option (list vol * disk) :=
  match check_all ignored vols (filter (fun e => in_dir dir (fst e)) fs) with
  | None => None
  | Some [] => Some ([], fs)
  | Some vs => match rename_files can dir vs fs with Some fs' => Some (vs, fs') | None => None end
  end.
(** RarRenamer.cpp:28-41, [Execute]: all directories. *)
Fixpoint execute can ignored (dirs : list (list Z)) (vols : list vol) (fs : disk) : option disk :=
  match dirs with
  | [] => Some fs
  | d :: r => match check_files can ignored d vols fs with Some (vs, fs') => execute can ignored r vs fs' | None => None end
  end.
