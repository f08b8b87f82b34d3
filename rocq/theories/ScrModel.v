(** Model of what scripts say and are told: daemon/util/Script.cpp (output, environment, arguments), daemon/extension/PostScript.cpp and
    ScanScript.cpp (commands), daemon/extension/NzbScript.cpp (list of scripts, environment), daemon/queue/Scanner.cpp (parameters of
    new downloads). Texts have no NUL inside, but for the output of processes. The display name of a script, ": " and the rest of
    messages are as in the code; a message is cut to 1023 bytes. Not modelled: the process itself, its exit code (see PostModel), pausing of
    post-processing while a script prints, locks, the first line that tells that the process was started (CHILD_WATCHDOG). *)
From Coq Require Import String.
From Verif Require Import Base NumFmt WildModel CodecModel NameModel InfoModel WebModel OptModel QScrModel.
Open Scope list_scope. Open Scope Z_scope.

(** ** Output *)

(** Script.cpp:350-387 and 790-793: lines as read by fgets into a buffer of 10240 bytes; the text ends at a NUL. *)
Definition out_room : nat := Z.to_nat 10239.
Fixpoint out_lines (fuel : nat) (s : list Z) : list (list Z) :=
  match fuel, s with
  | O, _ | _, [] => []
  | S f, _ => let l := take_line out_room s in c_string l :: out_lines f (skipn (length l) s)
  end.
Definition output (s : list Z) : list (list Z) := out_lines (length s) s.
(** Script.cpp:799: line ends and blanks at the end are removed. *)
Fixpoint strip (r : list Z) : list Z := match r with c :: t => if (c =? 10) || (c =? 13) || (c =? 32) then strip t else r | [] => [] end.
Definition strip_end (s : list Z) : list Z := rev (strip (rev s)).
Inductive kind := KInfo | KWarning | KError | KDetail | KDebug.
(** Script.cpp:795-833, [ProcessOutput]. *)
Definition process_output (line : list Z) : option (kind * list Z) :=
  let t := strip_end line in
  match t with
  | [] => None
  | _ => if prefixb (str "[INFO] ") t then Some (KInfo, skipn 7 t)
         else if prefixb (str "[WARNING] ") t then Some (KWarning, skipn 10 t)
         else if prefixb (str "[ERROR] ") t then Some (KError, skipn 8 t)
         else if prefixb (str "[DETAIL] ") t then Some (KDetail, skipn 9 t)
         else if prefixb (str "[DEBUG] ") t then Some (KDebug, skipn 8 t)
         else Some (KInfo, t)
  end.
Definition cut (s : list Z) : list Z := firstn (Z.to_nat 1023) s.
(** Script.cpp:861-878, [PrintMessage]: the text given to AddMessage. *)
Definition message (prefix : option (list Z)) (text : list Z) : list Z :=
  match prefix with Some p => cut (p ++ str ": " ++ cut text) | None => cut text end.

(** ** Commands of post-processing scripts *)

Inductive note := Said (k : kind) (text : list Z) | Invalid (text : list Z).
Record pstate := PState { p_final : list Z; p_dest : list Z; p_params : list param; p_bad : bool; p_log : list note }.
(** Memory behind the end of the text is read; the stack overflows. *)
Inductive result (A : Type) := Fine (a : A) | Undefined | Endless.
Arguments Fine {A} _. Arguments Undefined {A}. Arguments Endless {A}.

(** The text up to the first '=' and the text behind. *)
Fixpoint split_eq (s : list Z) : option (list Z * list Z) :=
  match s with
  | [] => None
  | c :: r => if c =? 61 then Some ([], r) else match split_eq r with Some (a, b) => Some (c :: a, b) | None => None end
  end.
(** PostScript.cpp:223-269, [AddMessage]: [name] is the name of the download, [skip] the length of the prefix. The message about the mark
    goes the same way, without prefix. *)
Fixpoint post_message (fuel : nat) (name : list Z) (skip : nat) (k : kind) (text : list Z) (x : pstate) : result pstate :=
  match fuel with
  | O => Endless
  | S f =>
    if (length text <? skip)%nat then Undefined
    else
      let m := skipn skip text in
      if prefixb (str "[NZB] ") m then
        let c := skipn 6 m in
        if prefixb (str "FINALDIR=") c then Fine (PState (skipn 9 c) (p_dest x) (p_params x) (p_bad x) (p_log x))
        else if prefixb (str "DIRECTORY=") c then Fine (PState (p_final x) (skipn 10 c) (p_params x) (p_bad x) (p_log x))
        else if prefixb (str "NZBPR_") c then
          match split_eq (skipn 6 c) with
          | Some (n, v) => Fine (PState (p_final x) (p_dest x) (set_parameter (p_params x) n v) (p_bad x) (p_log x))
          | None => Fine (PState (p_final x) (p_dest x) (p_params x) (p_bad x) (p_log x ++ [Invalid m]))
          end
        else if prefixb (str "MARK=BAD") c then
          match post_message f name skip KWarning (message None (str "Marking " ++ name ++ str " as bad")) x with
          | Fine y => Fine (PState (p_final y) (p_dest y) (p_params y) true (p_log y))
          | r => r
          end
        else Fine (PState (p_final x) (p_dest x) (p_params x) (p_bad x) (p_log x ++ [Invalid m]))
      else Fine (PState (p_final x) (p_dest x) (p_params x) (p_bad x) (p_log x ++ [Said k text]))
  end.
(** The whole output of a script with the display name [disp], PostScript.cpp:95-100. *)
Fixpoint post_lines (fuel : nat) (name disp : list Z) (lines : list (list Z)) (x : pstate) : result pstate :=
  match lines with
  | [] => Fine x
  | l :: r =>
    match process_output l with
    | None => post_lines fuel name disp r x
    | Some (k, t) =>
      match post_message fuel name (length disp + 2) k (message (Some disp) t) x with
      | Fine y => post_lines fuel name disp r y
      | e => e
      end
    end
  end.
Definition run_post (fuel : nat) (name disp out : list Z) (x : pstate) : result pstate := post_lines fuel name disp (output out) x.

(** ** Which scripts *)

(** PostScript.cpp:45-65: the names of the scripts assigned to the download, each with a comma behind. *)
Definition assigned_list (params : list param) : list Z :=
  concat (map (fun p : param =>
    match fst p with
    | [] => []
    | c :: _ => if negb (c =? 42) && (last (fst p) 0 =? 58) && yes_value (snd p) then removelast (fst p) ++ [44] else []
    end) params).
(** NzbScript.cpp:68-90, [ExecuteScriptList]: the scripts executed, [names] the names of all scripts. *)
Definition script_list (names : list (list Z)) (l : list Z) : list (list Z) :=
  match l with
  | [] => []
  | _ => match tokens (str ",;") l with
         | Some ts => filter (fun n => existsb (fun t => beqb t n) ts) names
         | None => []
         end
  end.

(** ** Parameters of new downloads *)

(** Options: Unpack, Extensions, and the categories with both. *)
Record icfg := ICfg { v_unpack : bool; v_exts : list Z; v_cats : list (category * (bool * list Z)) }.
(** A script: its name, and whether it is a post-processing or queue-script. *)
Definition pscript := (list Z * bool)%type.
Definition category_settings (g : icfg) (cat : list Z) : bool * list Z :=
  match cat with
  | [] => (v_unpack g, v_exts g)
  | _ => match find_category (map fst (v_cats g)) cat false with
         | Some i => match nth_error (map snd (v_cats g)) i with
                     | Some (u, []) => (u, v_exts g)
                     | Some (u, e) => (u, e)
                     | None => (v_unpack g, v_exts g)
                     end
         | None => (v_unpack g, v_exts g)
         end
  end.
Definition add_default (params : list param) (n v : list Z) : list param :=
  match find_parameter params n with Some _ => params | None => set_parameter params n v end.
(** Scanner.cpp:361-412, [InitPPParameters]. *)
Definition init_params (g : icfg) (scripts : list pscript) (cat : list Z) (reset : bool) (params : list param) : list param :=
  let '(unpack, exts) := category_settings g cat in
  let p1 := if reset then fold_left (fun p s => set_parameter p (cut (fst s ++ [58])) []) scripts params else params in
  let p2 := add_default p1 (str "*Unpack:") (if unpack then str "yes" else str "no") in
  match tokens (str ",;") exts with
  | Some ts => fold_left (fun p t => fold_left (fun p (s : pscript) => if snd s && beqb t (fst s) then add_default p (cut (t ++ [58])) (str "yes") else p) scripts p) ts p2
  | None => p2
  end.

(** ** Commands of scan-scripts *)

Record sstate := SState { a_name : list Z; a_cat : list Z; a_params : list param; a_priority : Z; a_top : bool; a_paused : bool;
  a_key : list Z; a_score : Z; a_mode : Z; a_log : list note }.
(** ScanScript.cpp:130-206, [AddMessage]. *)
Definition scan_message (g : icfg) (scripts : list pscript) (skip : nat) (k : kind) (text : list Z) (x : sstate) : result sstate :=
  let 'SState n c p pr tp ps dk ds dm lg := x in
  if (length text <? skip)%nat then Undefined
  else
    let m := skipn skip text in
    if prefixb (str "[NZB] ") m then
      let cm := skipn 6 m in
      if prefixb (str "NZBNAME=") cm then Fine (SState (skipn 8 cm) c p pr tp ps dk ds dm lg)
      else if prefixb (str "CATEGORY=") cm then Fine (SState n (skipn 9 cm) (init_params g scripts (skipn 9 cm) true p) pr tp ps dk ds dm lg)
      else if prefixb (str "NZBPR_") cm then
        match split_eq (skipn 6 cm) with
        | Some (a, v) => Fine (SState n c (set_parameter p a v) pr tp ps dk ds dm lg)
        | None => Fine (SState n c p pr tp ps dk ds dm (lg ++ [Invalid m]))
        end
      else if prefixb (str "PRIORITY=") cm then Fine (SState n c p (atoi (skipn 9 cm)) tp ps dk ds dm lg)
      else if prefixb (str "TOP=") cm then Fine (SState n c p pr (negb (atoi (skipn 4 cm) =? 0)) ps dk ds dm lg)
      else if prefixb (str "PAUSED=") cm then Fine (SState n c p pr tp (negb (atoi (skipn 7 cm) =? 0)) dk ds dm lg)
      else if prefixb (str "DUPEKEY=") cm then Fine (SState n c p pr tp ps (skipn 8 cm) ds dm lg)
      else if prefixb (str "DUPESCORE=") cm then Fine (SState n c p pr tp ps dk (atoi (skipn 10 cm)) dm lg)
      else if prefixb (str "DUPEMODE=") cm then
        let v := skipn 9 cm in
        if nocase_eq v (str "all") then Fine (SState n c p pr tp ps dk ds 1 lg)
        else if nocase_eq v (str "force") then Fine (SState n c p pr tp ps dk ds 2 lg)
        else if nocase_eq v (str "score") then Fine (SState n c p pr tp ps dk ds 0 lg)
        else Fine (SState n c p pr tp ps dk ds dm (lg ++ [Invalid v]))
      else Fine (SState n c p pr tp ps dk ds dm (lg ++ [Invalid m]))
    else Fine (SState n c p pr tp ps dk ds dm (lg ++ [Said k text])).
Fixpoint scan_lines (g : icfg) (scripts : list pscript) (disp : list Z) (lines : list (list Z)) (x : sstate) : result sstate :=
  match lines with
  | [] => Fine x
  | l :: r =>
    match process_output l with
    | None => scan_lines g scripts disp r x
    | Some (k, t) =>
      match scan_message g scripts (length disp + 2) k (message (Some disp) t) x with
      | Fine y => scan_lines g scripts disp r y
      | e => e
      end
    end
  end.
(** ScanScript.cpp:78-99, [ExecuteScript], one script after another: the name, the display name and the output of each; [skip] is
    that of the script before, [file] the base name of the file. *)
Fixpoint run_scan (g : icfg) (scripts : list pscript) (file : list Z) (skip : nat) (l : list (list Z * list Z * list Z)) (x : sstate) : result sstate :=
  match l with
  | [] => Fine x
  | (name, disp, out) :: r =>
    match scan_message g scripts skip KInfo (message None (str "Executing scan-script " ++ name ++ str " for " ++ file)) x with
    | Fine y => match scan_lines g scripts disp (output out) y with
                | Fine z => run_scan g scripts file (length disp + 2) r z
                | e => e
                end
    | e => e
    end
  end.

(** ** Environment *)

(** A variable "name=value". *)
Definition set_env (n v : list Z) : list Z := n ++ 61 :: v.
(** Script.cpp:86-100, [InitFromCurrentProcess]. *)
Definition inherited (env : list (list Z)) : list (list Z) :=
  filter (fun v => negb (prefixb (str "NZB") v && (5 <? length v)%nat && (nth 5 v 0 =? 95))) env.
Definition special : list Z := str ".:*!""$%&/()=`+~#'{}[]@- ".
Definition upper (c : Z) : Z := if (97 <=? c) && (c <=? 122) then c - 32 else c.
Definition norm (s : list Z) : list Z := map (fun c => upper (if existsb (Z.eqb c) special then 95 else c)) s.
(** Script.cpp:214-235, [SetEnvVarSpecial]. *)
Definition env_special (prefix n v : list Z) : list (list Z) :=
  let name := cut (prefix ++ 95 :: n) in
  set_env name v :: (if beqb name (norm name) then [] else [set_env (norm name) v]).
(** NzbScript.cpp:32-49, [PrepareEnvParameters], and Script.cpp:190-212, [PrepareEnvOptions]. *)
Definition env_list (prefix : list Z) (strip : option (list Z)) (l : list (list Z * list Z)) : list (list Z) :=
  concat (map (fun p : list Z * list Z =>
    match strip with
    | None => env_special prefix (fst p) (snd p)
    | Some s => if prefixb s (fst p) && (length s <? length (fst p))%nat then env_special prefix (skipn (length s) (fst p)) (snd p) else []
    end) l).
(** NzbScript.cpp:51-66, [PrepareEnvScript], and Script.cpp:305, the options for all scripts: the environment of a script, [own] the variables
    about the download. *)
Definition script_env (env : list (list Z)) (own : list (list Z * list Z)) (params options : list (list Z * list Z)) (script : list Z) : list (list Z) :=
  inherited env ++ map (fun p => set_env (fst p) (snd p)) own ++ env_list (str "NZBPR") None params ++
  env_list (str "NZBPR") (Some (cut (script ++ [58]))) params ++ env_list (str "NZBPO") (Some (cut (script ++ [58]))) options ++
  env_list (str "NZBOP") None options.

(** ** Arguments *)

(** The text from the last dot on. *)
Fixpoint from_dot (s : list Z) : option (list Z) :=
  match s with
  | [] => None
  | c :: r => match from_dot r with Some e => Some e | None => if c =? 46 then Some s else None end
  end.
(** Script.cpp:241-259: one after another "extension=program"; without a dot in the path of the script a null pointer is used. *)
Fixpoint override (ext : option (list Z)) (l : list (list Z)) : result (option (list Z)) :=
  match l with
  | [] => Fine None
  | t :: r => match split_eq t with
              | None => override ext r
              | Some (e, cmd) => match ext with
                                 | None => Undefined
                                 | Some x => if nocase_eq x e then Fine (Some cmd) else override ext r
                                 end
              end
  end.
(** Script.cpp:237-261, [PrepareArgs]: the arguments of the process. *)
Definition prepare_args (shell : list Z) (args : list (list Z)) : result (list (list Z)) :=
  match args, shell with
  | [a], _ :: _ =>
    match tokens (str ",;") shell with
    | Some l => match override (from_dot a) l with Fine (Some c) => Fine [c; a] | Fine None => Fine args | Undefined => Undefined | Endless => Endless end
    | None => Undefined
    end
  | _, _ => Fine args
  end.
