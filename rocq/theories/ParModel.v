(** Names of par2-files and the choice of those to download for a repair: daemon/postprocess/ParParser.cpp,
    daemon/postprocess/Repair.cpp:304-468 and the waiting for them in daemon/postprocess/ParChecker.cpp:653-786.
    Names are texts without zero bytes; conversion to lower case as in the C locale. Not modelled: messages. *)
From Coq Require Import String.
From Verif Require Import Base NumFmt WildModel NameModel WebModel.
Open Scope list_scope. Open Scope Z_scope.

(** ** Names *)

Definition buf1k (s : list Z) : list Z := firstn (Z.to_nat 1023) s.

(** ParParser.cpp:82-88: up to the end of the last ".par2", nothing if there is none. *)
Fixpoint upto_par2 (s : list Z) : list Z :=
  match s with
  | [] => []
  | c :: r => match upto_par2 r with
              | [] => if prefixb (str ".par2") s then firstn 5 s else []
              | t => c :: t
              end
  end.

(** ParParser.cpp:90-127, [ParseParFilename] after that: length of the base name and number of blocks. *)
Definition parse_stem (f : list Z) : option (nat * Z) :=
  if (length f <? 6)%nat then None
  else if negb (beqb (skipn (length f - 5) f) (str ".par2")) then None
  else
    let f := firstn (length f - 5) f in
    match strrchr 46 f with
    | Some (a, p) =>
      if prefixb (str ".vol") p then
        match index 43 p with
        | Some i => Some (length a, atoi (skipn (S i) p))
        | None => match index 45 p with
                  | Some i => Some (length a, atoi (skipn (S i) p))
                  | None => Some (length f, 0)
                  end
        end
      else Some (length f, 0)
    | None => Some (length f, 0)
    end.
(** ParParser.cpp:71-128, [ParseParFilename]. *)
Definition parse_par (name : list Z) (confirmed : bool) : option (nat * Z) :=
  let f := map lower (buf1k name) in
  if (length f <? 6)%nat then None
  else parse_stem (if confirmed then f else upto_par2 f).

(** ParParser.cpp:62-69, [SameParCollection]. *)
Definition same_collection (a b : list Z) (confirmed : bool) : bool :=
  match parse_par a confirmed, parse_par b confirmed with
  | Some (n, _), Some (m, _) => (n =? m)%nat && beqb (map lower (firstn n a)) (map lower (firstn n b))
  | _, _ => false
  end.

(** ParParser.cpp:25-60, [FindMainPars]: the names in a directory. *)
Fixpoint find_mains (dir found : list (list Z)) : list (list Z) :=
  match dir with
  | [] => found
  | f :: r =>
    match parse_par f true with
    | None => find_mains r found
    | Some _ => find_mains r (if existsb (fun g => same_collection f g true) found then found else found ++ [f])
    end
  end.

(** ** Requests *)

Record pfile := PFile { f_id : Z; f_name : list Z; f_conf : bool; f_par : bool; f_paused : bool; f_extra : bool }.
(** BlockInfo: a file and its number of blocks. *)
Notation block := (pfile * Z)%type.

(** [BString::Set] with the length 0 copies everything. *)
Definition bset (s : list Z) (n : nat) : list Z := buf1k (match n with O => s | _ => firstn n s end).

(** Repair.cpp:427-446. *)
Definition use_file (parname main : list Z) (strict exact : bool) (f : pfile) : bool :=
  if exact then same_collection (f_name f) (base_name parname) (f_conf f)
  else if strict then
    let lo := map lower (buf1k (f_name f)) in
    match strstr lo (buf1k (main ++ str ".par2")) with
    | Some _ => true
    | None => match strstr lo (buf1k (main ++ str ".vol")) with Some _ => true | None => false end
    end
  else true.
(** Repair.cpp:399-468, [FindPars]: the files added; [have] are the ids of those already there. *)
Fixpoint find_pars (parname main : list Z) (strict exact : bool) (have : list Z) (files : list pfile) : list block :=
  match files with
  | [] => []
  | f :: r =>
    match parse_par (f_name f) (f_conf f) with
    | Some (_, n) =>
      if (0 <? n) && use_file parname main strict exact f && negb (existsb (Z.eqb (f_id f)) have)
      then (f, n) :: find_pars parname main strict exact (f_id f :: have) r
      else find_pars parname main strict exact have r
    | None => find_pars parname main strict exact have r
    end
  end.
Definition total (l : list block) : Z := fold_right (fun b s => snd b + s) 0 l.
Definition ids (l : list block) : list Z := map (fun b => f_id (fst b)) l.

(** Repair.cpp:318-334: the files in question, in up to three rounds. *)
Definition available (parname : list Z) (needed : Z) (files : list pfile) : list block :=
  match parse_par (base_name parname) true with
  | None => []
  | Some (n, _) =>
    let main := map lower (bset (base_name parname) n) in
    let l1 := find_pars parname main true true [] files in
    if total l1 <? needed then
      let l2 := l1 ++ find_pars parname main true false (ids l1) files in
      if total l2 <? needed then l2 ++ find_pars parname main false false (ids l2) files else l2
    else l1
  end.

(** Repair.cpp:344-350: the smallest first; the last one is at the front. *)
Fixpoint collect (needed : Z) (l acc : list block) : list block * Z :=
  match l with
  | [] => (acc, needed)
  | b :: r => if 0 <? needed then collect (needed - snd b) r (b :: acc) else (acc, needed)
  end.
(** Repair.cpp:352-365: those that are not necessary are dropped. *)
Fixpoint discard (needed : Z) (l : list block) : list block * Z :=
  match l with
  | [] => ([], needed)
  | b :: r => if needed + snd b <=? 0 then discard (needed + snd b) r
              else let '(k, n) := discard needed r in (b :: k, n)
  end.
(** Repair.cpp:367-376. *)
Definition unpause (sel : list block) (f : pfile) : pfile :=
  if existsb (Z.eqb (f_id f)) (ids sel) && f_paused f then PFile (f_id f) (f_name f) (f_conf f) (f_par f) false true else f.

(** Repair.cpp:314-397, [RequestMorePars]: the answer, the blocks found, the files afterwards. std::sort may put files with
    the same number of blocks in any order, so it is a parameter. [None]: a sum does not fit into an int. *)
Definition request (sort : list block -> list block) (parname : list Z) (needed : Z) (files : list pfile) : option (bool * Z * list pfile) :=
  let avail := available parname needed files in
  let found := total avail in
  if 2 ^ 31 <=? found then None
  else
    let '(files', rest) :=
      if needed <=? found then
        let '(sel, n) := collect needed (sort avail) [] in
        let '(sel, n) := discard n sel in
        (map (unpause sel) files, n)
      else (files, needed) in
    Some ((rest <=? 0) || existsb (fun f => f_par f && negb (f_paused f)) files', found, files').

(** ** Waiting *)

(** ParChecker.cpp:653-786, [LoadMainParBak] and [ProcessMorePars]: the thread looks whether files have come (1), asks for
    more (2), looks again, resetting m_queuedParFilesChanged (3), waits for that flag (4) and loads the files (5).
    [w_left]: unpaused par2-files of the download still in the queue; [w_come]: files in m_queuedParFiles; [w_seen]: files loaded;
    [w_asked]: the answer of [RequestMorePars]. The repair itself, which can end the loop after (5), is not modelled, nor
    are files paused again by the user. *)
Inductive wpc := WCheck | WAsk | WLook | WWait | WLoad | WGiveUp.
Record wstate := WState { w_pc : wpc; w_left : nat; w_come : nat; w_seen : nat; w_asked : bool; w_changed : bool }.
Inductive wstep :=
(** Steps of the checker: ParChecker.cpp:721-727 (657-667); 729-736 (669-676), the request unpausing some files; 738-749
    (678-687); 751-763 (689-701); 774 with 784-812 (655-661). *)
  SCheck | SAsk (unpaused : nat) | SLook | SWake | SLoad
(** Events of the queue, Repair.cpp:258-272 with PrePostProcessor.cpp:253-274: one of the files in question is
    downloaded ([AddParFile]) or deleted ([QueueChanged]); another file of the download is. *)
  | EArrive | ELost | EOther (deleted : bool).
Definition wait_step (e : wstep) (s : wstate) : option wstate :=
  let 'WState pc l c n a ch := s in
  match e, pc with
  | SCheck, WCheck => Some (WState (if (c =? 0)%nat then WAsk else WLoad) l c n a ch)
  | SAsk k, WAsk => Some (WState WLook (l + k) c n (0 <? l + k)%nat ch)
  | SLook, WLook => Some (WState (if (c =? 0)%nat then if a then WWait else WGiveUp else WLoad) l c n a false)
  | SWake, WWait => if ch then Some (WState WLoad l c n a ch) else None
  | SLoad, WLoad => Some (WState WCheck l 0 (n + c) a ch)
  | EArrive, _ => match l with O => None | S k => Some (WState pc k (S c) n a true) end
  | ELost, _ => match l with O => None | S k => Some (WState pc k c n a true) end
  | EOther false, _ => Some (WState pc l (S c) n a true)
  | EOther true, _ => Some (WState pc l c n a true)
  | _, _ => None
  end.
Fixpoint wait_run (es : list wstep) (s : wstate) : option wstate :=
  match es with [] => Some s | e :: r => match wait_step e s with Some s' => wait_run r s' | None => None end end.
Definition wait_start (l : nat) : wstate := WState WCheck l 0 0 false false.
