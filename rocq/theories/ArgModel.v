(** Model of the command line: daemon/main/CommandLineParser.cpp.
    [getopt_long] is the one of the GNU C library: switches and other words may stand in any order, it moves the other words behind the switches in its own copy of the
    words. Not modelled: several switches in one word ("-sP"), values joined to their switch ("-oX=1", "--edit=G"), shortened long names, the switches "R" and "B". *)
From Coq Require Import String.
From Verif Require Import Base NumFmt WildModel WebModel.
Open Scope list_scope. Open Scope Z_scope.

(** daemon/queue/DownloadInfo.h, EEditAction: the actions the command line knows. *)
Inductive action :=
| FileMoveOffset | FileMoveTop | FileMoveBottom | FilePause | FileResume | FileDelete | FilePauseAllPars | FilePauseExtraPars | FileSplit
| GroupMoveOffset | GroupMoveTop | GroupMoveBottom | GroupPause | GroupResume | GroupDelete | GroupParkDelete | GroupPauseAllPars | GroupPauseExtraPars
| GroupSetPriority | GroupSetCategory | GroupApplyCategory | GroupMerge | GroupSetParameter | GroupSetName | GroupSortFiles
| PostDelete | HistoryDelete | HistoryReturn | HistoryProcess | HistoryRedownload | HistoryRetryFailed | HistorySetParameter | HistoryMarkBad | HistoryMarkGood | HistoryMarkSuccess.
(** daemon/main/CommandLineParser.h:28-60, EMatchMode, EClientOperation. *)
Inductive mmode := MId | MName | MRegEx.
Inductive oper :=
| NoOperation | RequestDownload | RequestListFiles | RequestListGroups | RequestListStatus | RequestSetRate | RequestEditQueue | RequestLog | RequestShutdown | RequestReload
| RequestVersion | RequestPostQueue | RequestWriteLog | RequestScanSync | RequestScanAsync | RequestDownloadPause | RequestDownloadUnpause | RequestPostPause | RequestPostUnpause
| RequestScanPause | RequestScanUnpause | RequestHistory | RequestHistoryAll.
Inductive dmode := DScore | DAll | DForce.
Inductive mkind := KInfo | KWarning | KError | KDetail | KDebug.

(** daemon/main/CommandLineParser.h:84-130, what -A gives. *)
Record added := Added { a_top : bool; a_paused : bool; a_priority : Z; a_category : option (list Z); a_name : option (list Z); a_key : option (list Z); a_score : Z; a_mode : dmode }.
Definition added0 : added := Added false false 0 None None None 0 DScore.
(** The other members. *)
Record cl := Cl {
  c_op : oper; c_server : bool; c_daemon : bool; c_remote : bool; c_print : bool; c_noconfig : bool; c_config : option (list Z); c_options : list (list Z);
  c_add : added; c_action : action; c_offset : Z; c_text : option (list Z); c_mode : mmode; c_lines : Z; c_kind : mkind; c_pause : bool;
  c_ids : list Z; c_names : list (list Z); c_file : option (list Z) }.
Definition cl0 : cl := Cl NoOperation false false false false false None [] added0 FileMoveOffset 0 None MId 0 KInfo false [] [] None.
Definition with_op (o : oper) (s : cl) : cl := Cl o (c_server s) (c_daemon s) (c_remote s) (c_print s) (c_noconfig s) (c_config s) (c_options s) (c_add s) (c_action s) (c_offset s) (c_text s) (c_mode s) (c_lines s) (c_kind s) (c_pause s) (c_ids s) (c_names s) (c_file s).
Definition with_server (b d : bool) (s : cl) : cl := Cl (c_op s) b d (c_remote s) (c_print s) (c_noconfig s) (c_config s) (c_options s) (c_add s) (c_action s) (c_offset s) (c_text s) (c_mode s) (c_lines s) (c_kind s) (c_pause s) (c_ids s) (c_names s) (c_file s).
Definition with_remote (s : cl) : cl := Cl (c_op s) (c_server s) (c_daemon s) true (c_print s) (c_noconfig s) (c_config s) (c_options s) (c_add s) (c_action s) (c_offset s) (c_text s) (c_mode s) (c_lines s) (c_kind s) (c_pause s) (c_ids s) (c_names s) (c_file s).
Definition with_print (s : cl) : cl := Cl (c_op s) (c_server s) (c_daemon s) (c_remote s) true (c_noconfig s) (c_config s) (c_options s) (c_add s) (c_action s) (c_offset s) (c_text s) (c_mode s) (c_lines s) (c_kind s) (c_pause s) (c_ids s) (c_names s) (c_file s).
Definition with_config (n : bool) (f : option (list Z)) (s : cl) : cl := Cl (c_op s) (c_server s) (c_daemon s) (c_remote s) (c_print s) n f (c_options s) (c_add s) (c_action s) (c_offset s) (c_text s) (c_mode s) (c_lines s) (c_kind s) (c_pause s) (c_ids s) (c_names s) (c_file s).
Definition with_option (o : list Z) (s : cl) : cl := Cl (c_op s) (c_server s) (c_daemon s) (c_remote s) (c_print s) (c_noconfig s) (c_config s) (c_options s ++ [o]) (c_add s) (c_action s) (c_offset s) (c_text s) (c_mode s) (c_lines s) (c_kind s) (c_pause s) (c_ids s) (c_names s) (c_file s).
Definition with_add (a : added) (s : cl) : cl := Cl (c_op s) (c_server s) (c_daemon s) (c_remote s) (c_print s) (c_noconfig s) (c_config s) (c_options s) a (c_action s) (c_offset s) (c_text s) (c_mode s) (c_lines s) (c_kind s) (c_pause s) (c_ids s) (c_names s) (c_file s).
Definition with_action (a : action) (s : cl) : cl := Cl (c_op s) (c_server s) (c_daemon s) (c_remote s) (c_print s) (c_noconfig s) (c_config s) (c_options s) (c_add s) a (c_offset s) (c_text s) (c_mode s) (c_lines s) (c_kind s) (c_pause s) (c_ids s) (c_names s) (c_file s).
Definition with_offset (z : Z) (s : cl) : cl := Cl (c_op s) (c_server s) (c_daemon s) (c_remote s) (c_print s) (c_noconfig s) (c_config s) (c_options s) (c_add s) (c_action s) z (c_text s) (c_mode s) (c_lines s) (c_kind s) (c_pause s) (c_ids s) (c_names s) (c_file s).
Definition with_text (t : list Z) (s : cl) : cl := Cl (c_op s) (c_server s) (c_daemon s) (c_remote s) (c_print s) (c_noconfig s) (c_config s) (c_options s) (c_add s) (c_action s) (c_offset s) (Some t) (c_mode s) (c_lines s) (c_kind s) (c_pause s) (c_ids s) (c_names s) (c_file s).
Definition with_mode (m : mmode) (s : cl) : cl := Cl (c_op s) (c_server s) (c_daemon s) (c_remote s) (c_print s) (c_noconfig s) (c_config s) (c_options s) (c_add s) (c_action s) (c_offset s) (c_text s) m (c_lines s) (c_kind s) (c_pause s) (c_ids s) (c_names s) (c_file s).
Definition with_lines (n : Z) (s : cl) : cl := Cl (c_op s) (c_server s) (c_daemon s) (c_remote s) (c_print s) (c_noconfig s) (c_config s) (c_options s) (c_add s) (c_action s) (c_offset s) (c_text s) (c_mode s) n (c_kind s) (c_pause s) (c_ids s) (c_names s) (c_file s).
Definition with_kind (k : mkind) (s : cl) : cl := Cl (c_op s) (c_server s) (c_daemon s) (c_remote s) (c_print s) (c_noconfig s) (c_config s) (c_options s) (c_add s) (c_action s) (c_offset s) (c_text s) (c_mode s) (c_lines s) k (c_pause s) (c_ids s) (c_names s) (c_file s).
Definition with_pause (s : cl) : cl := Cl NoOperation (c_server s) (c_daemon s) (c_remote s) (c_print s) (c_noconfig s) (c_config s) (c_options s) (c_add s) (c_action s) (c_offset s) (c_text s) (c_mode s) (c_lines s) (c_kind s) true (c_ids s) (c_names s) (c_file s).
Definition with_files (i : list Z) (n : list (list Z)) (f : option (list Z)) (s : cl) : cl := Cl (c_op s) (c_server s) (c_daemon s) (c_remote s) (c_print s) (c_noconfig s) (c_config s) (c_options s) (c_add s) (c_action s) (c_offset s) (c_text s) (c_mode s) (c_lines s) (c_kind s) (c_pause s) i n f.

(** Outcomes: [m_errors] set, [m_printUsage] or [m_printVersion] set, a word out of the model, or the members. *)
Inductive outcome := Wrong | Usage | Version | Outside | Parsed (s : cl).

Definition is (w : list Z) (s : string) : bool := nocase_eq w (str s).

(** daemon/main/CommandLineParser.cpp:134-237, the words behind -A; [None]: an error. The result has the words left. *)
Fixpoint append_words (fuel : nat) (ws : list (list Z)) (a : added) : option (added * list (list Z)) :=
  match fuel, ws with
  | O, _ => None
  | S _, [] => Some (a, [])
  | S f, w :: r =>
    if is w "F" || is w "U" then append_words f r a
    else if is w "T" then append_words f r (Added true (a_paused a) (a_priority a) (a_category a) (a_name a) (a_key a) (a_score a) (a_mode a))
    else if is w "P" then append_words f r (Added (a_top a) true (a_priority a) (a_category a) (a_name a) (a_key a) (a_score a) (a_mode a))
    else if is w "I" then
      match r with v :: r' => append_words f r' (Added (a_top a) (a_paused a) (atoi v) (a_category a) (a_name a) (a_key a) (a_score a) (a_mode a)) | [] => None end
    else if is w "C" then
      match r with v :: r' => append_words f r' (Added (a_top a) (a_paused a) (a_priority a) (Some v) (a_name a) (a_key a) (a_score a) (a_mode a)) | [] => None end
    else if is w "N" then
      match r with v :: r' => append_words f r' (Added (a_top a) (a_paused a) (a_priority a) (a_category a) (Some v) (a_key a) (a_score a) (a_mode a)) | [] => None end
    else if is w "DK" then
      match r with v :: r' => append_words f r' (Added (a_top a) (a_paused a) (a_priority a) (a_category a) (a_name a) (Some v) (a_score a) (a_mode a)) | [] => None end
    else if is w "DS" then
      match r with v :: r' => append_words f r' (Added (a_top a) (a_paused a) (a_priority a) (a_category a) (a_name a) (a_key a) (atoi v) (a_mode a)) | [] => None end
    else if is w "DM" then
      match r with
      | v :: r' =>
        if is v "score" then append_words f r' (Added (a_top a) (a_paused a) (a_priority a) (a_category a) (a_name a) (a_key a) (a_score a) DScore)
        else if is v "all" then append_words f r' (Added (a_top a) (a_paused a) (a_priority a) (a_category a) (a_name a) (a_key a) (a_score a) DAll)
        else if is v "force" then append_words f r' (Added (a_top a) (a_paused a) (a_priority a) (a_category a) (a_name a) (a_key a) (a_score a) DForce)
        else None
      | [] => None
      end
    else Some (a, w :: r)
  end.

(** Result of a switch: an error, or the members and the words left. *)
Definition step := option (cl * list (list Z)).
(** The word behind, as [m_editQueueText]. *)
Definition take_text (a : action) (r : list (list Z)) (s : cl) : step := match r with t :: r' => Some (with_text t (with_action a s), r') | [] => None end.
Definition has_eq (t : list Z) : bool := existsb (Z.eqb 61) t.
Definition take_param (a : action) (r : list (list Z)) (s : cl) : step := match r with t :: r' => if has_eq t then Some (with_text t (with_action a s), r') else None | [] => None end.

(** daemon/main/CommandLineParser.cpp:413-484, the actions for post-jobs and for the history. *)
Definition post_action (w : list Z) (r : list (list Z)) (s : cl) : step := if is w "D" then Some (with_action PostDelete s, r) else None.
Definition history_action (w : list Z) (r : list (list Z)) (s : cl) : step :=
  if is w "D" then Some (with_action HistoryDelete s, r)
  else if is w "R" then Some (with_action HistoryReturn s, r)
  else if is w "P" then Some (with_action HistoryProcess s, r)
  else if is w "A" then Some (with_action HistoryRedownload s, r)
  else if is w "F" then Some (with_action HistoryRetryFailed s, r)
  else if is w "O" then take_param HistorySetParameter r s
  else if is w "B" then Some (with_action HistoryMarkBad s, r)
  else if is w "G" then Some (with_action HistoryMarkGood s, r)
  else if is w "S" then Some (with_action HistoryMarkSuccess s, r)
  else None.
(** daemon/main/CommandLineParser.cpp:485-636, the actions for files and groups. *)
Definition queue_action (group : bool) (w : list Z) (r : list (list Z)) (s : cl) : step :=
  if is w "T" then Some (with_action (if group then GroupMoveTop else FileMoveTop) s, r)
  else if is w "B" then Some (with_action (if group then GroupMoveBottom else FileMoveBottom) s, r)
  else if is w "P" then Some (with_action (if group then GroupPause else FilePause) s, r)
  else if is w "A" then Some (with_action (if group then GroupPauseAllPars else FilePauseAllPars) s, r)
  else if is w "R" then Some (with_action (if group then GroupPauseExtraPars else FilePauseExtraPars) s, r)
  else if is w "U" then Some (with_action (if group then GroupResume else FileResume) s, r)
  else if is w "D" then Some (with_action (if group then GroupDelete else FileDelete) s, r)
  else if is w "DP" then Some (with_action GroupParkDelete s, r)
  else if is w "SF" then Some (with_action GroupSortFiles s, r)
  else if is w "C" || is w "K" || is w "CP" then
    if group then take_text (if is w "CP" then GroupApplyCategory else GroupSetCategory) r s else None
  else if is w "N" then if group then take_text GroupSetName r s else None
  else if is w "M" then if group then Some (with_action GroupMerge s, r) else None
  else if is w "S" then take_text FileSplit r s
  else if is w "O" then if group then take_param GroupSetParameter r s else None
  else if is w "I" then
    if group then
      match r with t :: r' => if (atoi t =? 0) && negb (beqb t (str "0")) then None else Some (with_text t (with_action GroupSetPriority s), r') | [] => None end
    else None
  else if atoi w =? 0 then None
  else Some (with_action (if group then GroupMoveOffset else FileMoveOffset) (with_offset (atoi w) s), r).
(** daemon/main/CommandLineParser.cpp:383-638, -E: [w] is its value. *)
Definition edit_words (w : list Z) (r : list (list Z)) (s0 : cl) : step :=
  let group := is w "G" || is w "GN" || is w "GR" in
  let file := is w "F" || is w "FN" || is w "FR" in
  let mode := if is w "GN" || is w "FN" then MName else if is w "GR" || is w "FR" then MRegEx else MId in
  let s := with_mode mode (with_op RequestEditQueue s0) in
  let post := is w "O" in
  let history := is w "H" in
  match (if group || file || post || history then match r with w' :: r' => Some (w', r') | [] => None end else Some (w, r)) with
  | None => None
  | Some (w', r') => if post then post_action w' r' s else if history then history_action w' r' s else queue_action group w' r' s
  end.

(** daemon/main/CommandLineParser.cpp:238-287, -L. *)
Definition list_words (r : list (list Z)) (s : cl) : step :=
  match r with
  | [] => Some (with_op RequestListFiles s, [])
  | w :: r' =>
    if prefixb (str "-") w then Some (with_op RequestListFiles s, r)
    else if is w "F" then Some (with_op RequestListFiles s, r')
    else if is w "G" then Some (with_op RequestListGroups s, r')
    else if is w "FR" then match r' with t :: r'' => Some (with_text t (with_mode MRegEx (with_op RequestListFiles s)), r'') | [] => None end
    else if is w "GR" then match r' with t :: r'' => Some (with_text t (with_mode MRegEx (with_op RequestListGroups s)), r'') | [] => None end
    else if is w "O" then Some (with_op RequestPostQueue s, r')
    else if is w "S" then Some (with_op RequestListStatus s, r')
    else if is w "H" then Some (with_op RequestHistory s, r')
    else if is w "HA" then Some (with_op RequestHistoryAll s, r')
    else None
  end.
(** daemon/main/CommandLineParser.cpp:288-315, -P and -U. *)
Definition pause_words (pause : bool) (r : list (list Z)) (s : cl) : step :=
  let d := if pause then RequestDownloadPause else RequestDownloadUnpause in
  match r with
  | [] => Some (with_op d s, [])
  | w :: r' =>
    if prefixb (str "-") w then Some (with_op d s, r)
    else if is w "D" then Some (with_op d s, r')
    else if is w "O" then Some (with_op (if pause then RequestPostPause else RequestPostUnpause) s, r')
    else if is w "S" then Some (with_op (if pause then RequestScanPause else RequestScanUnpause) s, r')
    else None
  end.
(** daemon/main/CommandLineParser.cpp:675-692, -S. *)
Definition scan_words (r : list (list Z)) (s : cl) : step :=
  match r with
  | [] => Some (with_op RequestScanAsync s, [])
  | w :: r' => if prefixb (str "-") w then Some (with_op RequestScanAsync s, r) else if is w "W" then Some (with_op RequestScanSync s, r') else None
  end.
(** daemon/main/CommandLineParser.cpp:648-670, -W. *)
Definition write_words (w : list Z) (r : list (list Z)) (s : cl) : step :=
  let go k := Some (with_kind k (with_op RequestWriteLog s), r) in
  if is w "I" then go KInfo else if is w "W" then go KWarning else if is w "E" then go KError else if is w "D" then go KDetail else if is w "G" then go KDebug else None.

(** daemon/main/CommandLineParser.cpp:29-60, the names of the switches. *)
Definition long_names : list (string * string) :=
  [("help", "h"); ("configfile", "c"); ("noconfigfile", "n"); ("printconfig", "p"); ("server", "s"); ("daemon", "D"); ("version", "v"); ("serverversion", "V"); ("option", "o");
   ("append", "A"); ("list", "L"); ("pause", "P"); ("unpause", "U"); ("rate", "R"); ("system", "B"); ("log", "G"); ("top", "T"); ("edit", "E"); ("connect", "C"); ("quit", "Q");
   ("reload", "O"); ("write", "W"); ("category", "K"); ("scan", "S")]%string.
(** A word of a switch: "-" with one letter or "--" with a whole name. *)
Definition letter (w : list Z) : option (list Z) :=
  match find (fun x => beqb w (str "--" ++ str (fst x))) long_names with
  | Some x => Some (str (snd x))
  | None => match w with [d; c] => if d =? 45 then Some [c] else None | _ => None end
  end.
(** [getopt] takes the next word as the value of these; without one it returns '?'. *)
Definition valued (c : list Z) : bool := existsb (fun x => beqb c (str x)) ["c"; "o"; "E"; "G"; "K"; "R"; "W"; "B"]%string.

Inductive sres := SWrong | SUsage | SVersion | SOutside | SGo (s : cl) (r : list (list Z)).
Definition of_step (x : step) : sres := match x with Some (s, r) => SGo s r | None => SWrong end.
Definition eqs (c : list Z) (x : string) : bool := beqb c (str x).
(** daemon/main/CommandLineParser.cpp:103-697, one switch; [r]: the words behind it. *)
Definition switch (c : list Z) (r : list (list Z)) (s : cl) : sres :=
  if eqs c "R" || eqs c "B" then SOutside
  else if valued c then
    match r with
    | [] => SWrong
    | v :: r' =>
      if eqs c "c" then SGo (with_config (c_noconfig s) (Some v) s) r'
      else if eqs c "o" then SGo (with_option v s) r'
      else if eqs c "E" then of_step (edit_words v r' s)
      else if eqs c "G" then if atoi v =? 0 then SWrong else SGo (with_lines (atoi v) (with_op RequestLog s)) r'
      else if eqs c "K" then SGo (with_add (Added (a_top (c_add s)) (a_paused (c_add s)) (a_priority (c_add s)) (Some v) (a_name (c_add s)) (a_key (c_add s)) (a_score (c_add s)) (a_mode (c_add s))) s) r'
      else of_step (write_words v r' s)
    end
  else if eqs c "n" then SGo (with_config true None s) r
  else if eqs c "h" then SUsage
  else if eqs c "v" then SVersion
  else if eqs c "p" then SGo (with_print s) r
  else if eqs c "s" then SGo (with_server true (c_daemon s) s) r
  else if eqs c "D" then SGo (with_server true true s) r
  else if eqs c "A" then match append_words (S (length r)) r (c_add s) with Some (a, r') => SGo (with_add a (with_op RequestDownload s)) r' | None => SWrong end
  else if eqs c "L" then of_step (list_words r s)
  else if eqs c "P" then of_step (pause_words true r s)
  else if eqs c "U" then of_step (pause_words false r s)
  else if eqs c "T" then SGo (with_add (Added true (a_paused (c_add s)) (a_priority (c_add s)) (a_category (c_add s)) (a_name (c_add s)) (a_key (c_add s)) (a_score (c_add s)) (a_mode (c_add s))) s) r
  else if eqs c "C" then SGo (with_remote s) r
  else if eqs c "Q" then SGo (with_op RequestShutdown s) r
  else if eqs c "O" then SGo (with_op RequestReload s) r
  else if eqs c "V" then SGo (with_op RequestVersion s) r
  else if eqs c "S" then of_step (scan_words r s)
  else SWrong.

(** daemon/main/CommandLineParser.cpp:79-704, [InitCommandLine] with [getopt_long]: the result has the number of the words that belong to no switch; [getopt] leaves
    [optind] at the place where they begin in its own order. *)
Inductive lres := LWrong | LUsage | LVersion | LOutside | LDone (s : cl) (others : nat).
Fixpoint switches (fuel : nat) (ws : list (list Z)) (s : cl) (n : nat) : lres :=
  match fuel, ws with
  | O, _ => LOutside
  | S _, [] => LDone s n
  | S f, w :: r =>
    if beqb w (str "--") then LDone s (n + length r)
    else if negb (prefixb (str "-") w) || beqb w (str "-") then switches f r s (S n)
    else match letter w with
         | None => LOutside
         | Some c => match switch c r s with SWrong => LWrong | SUsage => LUsage | SVersion => LVersion | SOutside => LOutside | SGo s' r' => switches f r' s' n end
         end
  end.
Definition init_command_line (ws : list (list Z)) : lres :=
  match switches (S (length ws)) ws cl0 0 with
  | LDone s n => LDone (if c_server s && match c_op s with RequestDownloadPause => true | _ => false end then with_pause s else s) n
  | x => x
  end.

(** strtok with ", ", until it returns nullptr. *)
Definition id_sep (c : Z) : bool := (c =? 44) || (c =? 32).
Definition put (cur : list Z) (l : list (list Z)) : list (list Z) := match cur with [] => l | _ => cur :: l end.
Fixpoint id_toks (s cur : list Z) : list (list Z) :=
  match s with
  | [] => put cur []
  | c :: r => if id_sep c then put cur (id_toks r []) else id_toks r (cur ++ [c])
  end.
(** daemon/main/CommandLineParser.cpp:917-936, the ids of one range. *)
Definition range (a b : Z) : list Z :=
  let count := if a <? b then b - a + 1 else a - b + 1 in
  map (fun i => if a <? b then a + Z.of_nat i else a - Z.of_nat i) (seq 0 (Z.to_nat count)).
(** daemon/main/CommandLineParser.cpp:889-915, one piece of the list. *)
Definition piece (t : list Z) : option (list Z) :=
  match WebModel.index 45 t with
  | Some i =>
    let a := atoi (firstn 99 (firstn i t)) in
    let b := atoi (skipn (S i) t) in
    if (a <=? 0) || (b <=? 0) then None else Some (range a b)
  | None => let a := atoi t in if a <=? 0 then None else Some (range a a)
  end.
Fixpoint pieces (l : list (list Z)) : option (list Z) :=
  match l with
  | [] => Some []
  | t :: r => match piece t with None => None | Some a => match pieces r with None => None | Some b => Some (a ++ b) end end
  end.
(** daemon/main/CommandLineParser.cpp:880-942, [ParseFileIdList]. *)
Definition id_list (ws : list (list Z)) : option (list Z) := pieces (flat_map (fun w => id_toks w []) ws).

(** daemon/main/CommandLineParser.cpp:850-868: the name of the file; [cwd]: the current directory. *)
Definition file_name (cwd f : list Z) : list Z :=
  if prefixb (str "/") f || nocase_prefix (str "http:/") f || nocase_prefix (str "https:/") f then f else cwd ++ str "/" ++ f.
Definition wants_file (s : cl) : bool :=
  negb (c_server s) && negb (c_remote s) && match c_op s with NoOperation | RequestDownload | RequestWriteLog => true | _ => false end.
(** daemon/main/CommandLineParser.cpp:815-878, [InitFileArg]; [fs]: the words from [optind] on, in the order of the user. *)
Definition init_file_arg (cwd : list Z) (fs : list (list Z)) (s : cl) : outcome :=
  match fs with
  | [] => if wants_file s then Wrong else Parsed s
  | f :: _ =>
    match c_op s with
    | RequestEditQueue =>
      match c_mode s with
      | MId => match id_list fs with Some l => Parsed (with_files l (c_names s) (c_file s) s) | None => Wrong end
      | _ => Parsed (with_files (c_ids s) (c_names s ++ fs) (c_file s) s)
      end
    | _ => if wants_file s then Parsed (with_files (c_ids s) (c_names s) (Some (file_name cwd f)) s) else Wrong
    end
  end.
(** daemon/main/CommandLineParser.cpp:63-77, the constructor; [ws]: the words behind the program's name. [InitFileArg] gets the words as the user wrote them,
    [optind] belongs to the order [getopt] made of its copy. *)
Definition parse (cwd : list Z) (ws : list (list Z)) : outcome :=
  match ws with
  | [] => Usage
  | _ =>
    match init_command_line ws with
    | LWrong => Wrong
    | LUsage => Usage
    | LVersion => Version
    | LOutside => Outside
    | LDone s n => if c_print s then Parsed s else init_file_arg cwd (skipn (length ws - n) ws) s
    end
  end.
