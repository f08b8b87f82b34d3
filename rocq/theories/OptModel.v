(** Options: daemon/main/Options.cpp (POSIX), and the reading and writing of the configuration file by the web
    interface, daemon/extension/ScriptConfig.cpp:47-143.
    Texts are C strings (no zero bytes). Inputs of the model: the expansion of paths that start with the home
    directory, the contents of files. Not modelled: the spelling (letter case) of stored names, which FindOption
    adjusts at every use; line numbers and texts of messages (an error is recorded as the name it is about);
    creation of directories; the search for the configuration file; the numbers made of the parsed options
    (multiplications at lines 708, 733-739); options of builds without TLS, curses or par2. *)
From Coq Require Import String.
From Verif Require Import Base NumFmt LineModel WildModel WebModel.
Open Scope list_scope. Open Scope Z_scope.

(** ** The table of options *)

(** Options.h:102-124, [OptEntry]. *)
Record entry := mkE { e_name : list Z; e_value : option (list Z); e_def : option (list Z) }.

(** Options.cpp:226-242, 934-959, [FindOption], [GetOption]. *)
Fixpoint find_opt (n : list Z) (t : list entry) : option entry :=
  match t with
  | [] => None
  | e :: r => if nocase_eq (e_name e) n then Some e else find_opt n r
  end.
Definition get (t : list entry) (n : list Z) : option (list Z) :=
  match find_opt n t with Some e => e_value e | None => None end.

(** Options.cpp:193-200, [SetValue], for the first entry with the name. *)
Definition set_value (v : list Z) (e : entry) : entry :=
  mkE (e_name e) (Some v) (match e_def e with Some d => Some d | None => Some v end).
Fixpoint put (t : list entry) (n v : list Z) : list entry :=
  match t with
  | [] => []
  | e :: r => if nocase_eq (e_name e) n then set_value v e :: r else e :: put r n v
  end.

(** ** References to other options *)

(** daemon/util/NString.cpp:33-39, [BString<100>::Set]: a length of zero takes everything. *)
Definition var_name (rest : list Z) (k : nat) : list Z :=
  firstn (match k with O => 99 | _ => Nat.min 99 k end) rest.
(** Options.cpp:905-929; [None]: not finished with this fuel. *)
Fixpoint expand (fuel : nat) (t : list entry) (cur : list Z) : option (list Z) :=
  match fuel with
  | O => None
  | S f =>
    match strstr cur (str "${") with
    | None => Some cur
    | Some at_ =>
      let pre := firstn (length cur - length at_) cur in
      let rest := skipn 2 at_ in
      match index 125 rest with
      | None => Some cur
      | Some k =>
        match get t (var_name rest k) with
        | Some v => expand f t (pre ++ v ++ skipn (S k) rest)
        | None => Some cur
        end
      end
    end
  end.

(** Options.cpp:875-932, [SetOption]. *)
Definition add_entry (t : list entry) (n : list Z) : list entry :=
  match find_opt n t with Some _ => t | None => t ++ [mkE n None None] end.
Definition home_path (home : list Z -> list Z) (v : list Z) : list Z :=
  match v with
  | a :: b :: _ => if (a =? 126) && (b =? 47) then home v else v
  | _ => v
  end.
Definition set_option (home : list Z -> list Z) (fuel : nat) (t : list entry) (n v : list Z) : option (list entry) :=
  let t1 := add_entry t n in
  match expand fuel t1 (home_path home v) with
  | None => None
  | Some x => Some (put t1 n x)
  end.

(** strtol with base 8 or 10 on a 64-bit long: the value and the rest of the text. *)
Fixpoint digits (base : Z) (acc : Z) (s : list Z) : Z * list Z :=
  match s with
  | c :: r => if (48 <=? c) && (c <? 48 + base) then digits base (acc * base + (c - 48)) r else (acc, s)
  | [] => (acc, [])
  end.
Definition strtol (base : Z) (s : list Z) : Z * list Z :=
  let p := skip_space s in
  let '(neg, q) := match p with
                   | c :: r => if c =? 45 then (true, r) else if c =? 43 then (false, r) else (false, p)
                   | [] => (false, p)
                   end in
  match q with
  | c :: _ => if (48 <=? c) && (c <? 48 + base)
              then let '(v, rest) := digits base 0 q in
                   (Z.max (- 2 ^ 63) (Z.min (2 ^ 63 - 1) (if neg then - v else v)), rest)
              else (0, s)
  | [] => (0, s)
  end.
(** ** Names *)

(** Options.cpp:1643-1743, [ConvertOldOption]. *)
Definition renamed (from to : string) (o : list Z * list Z) : list Z * list Z :=
  if nocase_eq (fst o) (str from) then (str to, snd o) else o.
Definition revalued (name from to : string) (o : list Z * list Z) : list Z * list Z :=
  if nocase_eq (fst o) (str name) && nocase_eq (snd o) (str from) then (fst o, str to) else o.
(** strcasecmp of the end of the name, which is longer than that. *)
Definition nocase_end (s e : list Z) : bool :=
  (length e <? length s)%nat && nocase_eq (skipn (length s - length e) s) e.
(** NString.cpp:218-228, [CString::Replace]. *)
Fixpoint replace_all (fuel : nat) (from to s : list Z) : list Z :=
  match fuel with
  | O => s
  | S f =>
    match strstr s from with
    | None => s
    | Some at_ => firstn (length s - length at_) s ++ to ++ replace_all f from to (skipn (length from) at_)
    end
  end.
Definition replaced (from to : string) (s : list Z) : list Z := replace_all (length s) (str from) (str to) s.
Definition old_category (o : list Z * list Z) : list Z * list Z :=
  if nocase_prefix (str "Category") (fst o) && (nocase_end (fst o) (str ".DefScript") || nocase_end (fst o) (str ".PostScript"))
  then (replaced ".PostScript" ".Extensions" (replaced ".DefScript" ".Extensions" (fst o)), snd o) else o.
Definition old_feed (o : list Z * list Z) : list Z * list Z :=
  if nocase_prefix (str "Feed") (fst o) && nocase_end (fst o) (str ".FeedScript")
  then (replaced ".FeedScript" ".Extensions" (fst o), snd o) else o.
Definition old_buffer (o : list Z * list Z) : list Z * list Z :=
  if nocase_eq (fst o) (str "WriteBufferSize")
  then (str "WriteBuffer", zdec (let v := to_i32 (fst (strtol 10 (snd o))) in if v =? -1 then 1024 else Z.quot v 1024)) else o.
Definition old_decode (o : list Z * list Z) : list Z * list Z :=
  if nocase_eq (fst o) (str "Decode") then (str "RawArticle", if nocase_eq (snd o) (str "no") then str "yes" else str "no") else o.
Definition convert_old (o : list Z * list Z) : list Z * list Z :=
  let o := renamed "$MAINDIR" "MainDir" o in
  let o := renamed "ServerIP" "ControlIP" o in
  let o := renamed "ServerPort" "ControlPort" o in
  let o := renamed "ServerPassword" "ControlPassword" o in
  let o := renamed "PostPauseQueue" "ScriptPauseQueue" o in
  let o := revalued "ParCheck" "yes" "always" o in
  let o := revalued "ParCheck" "no" "auto" o in
  let o := revalued "ParScan" "auto" "extended" o in
  let o := renamed "DefScript" "Extensions" o in
  let o := renamed "PostScript" "Extensions" o in
  let o := old_category o in
  let o := old_feed o in
  let o := old_buffer o in
  let o := renamed "ConnectionTimeout" "ArticleTimeout" o in
  let o := renamed "Retries" "ArticleRetries" o in
  let o := renamed "RetryInterval" "ArticleInterval" o in
  let o := renamed "DumpCore" "CrashDump" o in
  let o := old_decode o in
  renamed "LogBufferSize" "LogBuffer" o.

(** Options.cpp:1495-1509, [SplitOptionString]. *)
Definition split_option (s : list Z) : option (list Z * list Z) :=
  match index 61 s with
  | None | Some O => None
  | Some i => Some (convert_old (firstn i s, skipn (S i) s))
  end.

Definition read_only : list (list Z) := map str ["ConfigFile"; "AppBin"; "AppDir"; "Version"]%string.
Fixpoint drop_digits (s : list Z) : list Z :=
  match s with c :: r => if is_digit c then drop_digits r else s | [] => [] end.
Definition one_of (l : list (list Z)) (n : list Z) : bool := existsb (fun x => nocase_eq n x) l.
(** "server", a number, and one of the names. *)
Definition numbered (prefix : list Z) (l : list (list Z)) (n : list Z) : bool :=
  nocase_prefix prefix n && one_of l (drop_digits (skipn (length prefix) n)).
Definition server_names : list (list Z) := map str [".active"; ".name"; ".level"; ".host"; ".port"; ".username";
  ".password"; ".joingroup"; ".encryption"; ".connections"; ".cipher"; ".group"; ".retention"; ".optional"; ".notes"; ".ipversion"]%string.
Definition task_names : list (list Z) := map str [".time"; ".weekdays"; ".command"; ".param"; ".downloadrate"; ".process"]%string.
Definition category_names : list (list Z) := map str [".name"; ".destdir"; ".extensions"; ".unpack"; ".aliases"]%string.
Definition feed_names : list (list Z) := map str [".name"; ".url"; ".interval"; ".filter"; ".backlog"; ".pausenzb";
  ".category"; ".priority"; ".extensions"]%string.
(** Names that give a warning; 1589-1615, 1636-1640. *)
Definition obsolete : list (list Z) := map str ["RetryOnCrcError"; "AllowReProcess"; "LoadPars"; "ThreadLimit"; "PostLogKind";
  "NZBLogKind"; "ProcessLogKind"; "AppendNzbDir"; "RenameBroken"; "MergeNzb"; "StrictParName"; "ReloadUrlQueue";
  "ReloadPostQueue"; "ParCleanupQueue"; "DeleteCleanupDisk"; "HistoryCleanupDisk"; "SaveQueue"; "ReloadQueue";
  "TerminateTimeout"; "AccurateRate"; "CreateBrokenLog"; "BrokenLog"; "CreateLog"; "ResetLog"]%string.
Definition obsolete_scripts : list (list Z) := map str ["PostProcess"; "NZBProcess"; "NZBAddedProcess"]%string.
Definition merged_scripts : list (list Z) := map str ["ScanScript"; "QueueScript"; "FeedScript"]%string.

(** Options.cpp:1511-1641, [ValidateOptionName]: accepted, and the errors. [None]: a warning without a configuration
    file (ConfigWarn at line 390 takes the name of no file). *)
Definition validate (has_file : bool) (t : list entry) (n v : list Z) : option (bool * list (list Z)) :=
  if one_of read_only n then Some (false, [])
  else if match get t n with Some _ => true | None => false end then Some (true, [])
  else if numbered (str "server") server_names n || numbered (str "task") task_names n ||
          numbered (str "category") category_names n || numbered (str "feed") feed_names n ||
          match index 58 n with Some _ => true | None => false end then Some (true, [])
  else if one_of obsolete n then (if has_file then Some (true, []) else None)
  else if one_of obsolete_scripts n then Some (true, match v with [] => [] | _ => [n] end)
  else if one_of merged_scripts n then Some (true, [])
  else Some (false, []).

(** Options.cpp:1466-1488, [SetOptionString]: the table and the errors. *)
Definition set_string (home : list Z -> list Z) (fuel : nat) (has_file : bool) (t : list entry) (s : list Z)
  : option (list entry * list (list Z)) :=
  match split_option s with
  | None => Some (t, [s])
  | Some (n, v) =>
    match validate has_file t n v with
    | None => None
    | Some (true, errs) => option_map (fun t' => (t', errs)) (set_option home fuel t n v)
    | Some (false, errs) => Some (t, errs ++ [n])
    end
  end.
Fixpoint set_strings (home : list Z -> list Z) (fuel : nat) (has_file : bool) (t : list entry) (l : list (list Z))
  : option (list entry * list (list Z)) :=
  match l with
  | [] => Some (t, [])
  | s :: r =>
    match set_string home fuel has_file t s with
    | None => None
    | Some (t', e) => option_map (fun '(t'', e') => (t'', e ++ e')) (set_strings home fuel has_file t' r)
    end
  end.

(** ** The configuration file *)

(** Options.cpp:1427-1451: lines are read with a buffer of the size of the file; [None]: not finished with this fuel. *)
Fixpoint file_lines (fuel : nat) (size : nat) (f : list Z) : option (list (list Z)) :=
  match fuel with
  | O => None
  | S k => match fgets size f with
           | None => Some []
           | Some (raw, rest) => option_map (cons (cstr raw)) (file_lines k size rest)
           end
  end.
(** Removes the last character if it is [c]. *)
Definition chop (c : Z) (s : list Z) : list Z :=
  match rev s with x :: r => if x =? c then rev r else s | [] => s end.
Definition config_line (s : list Z) : list Z := chop 13 (chop 10 s).
Definition skipped (s : list Z) : bool :=
  match s with
  | [] => true
  | c :: _ => (c =? 35) || forallb (Z.eqb 32) s
  end.
Definition config_strings (lines : list (list Z)) : list (list Z) :=
  filter (fun s => negb (skipped s)) (map config_line lines).
Definition load_config_file (home : list Z -> list Z) (fuel : nat) (t : list entry) (f : list Z)
  : option (list entry * list (list Z)) :=
  match file_lines fuel (length f) f with
  | None => None
  | Some lines => set_strings home fuel true t (config_strings lines)
  end.

(** Options.cpp:407-528, [InitDefaults]. *)
Definition defaults : list (list Z * list Z) := map (fun p => (str (fst p), str (snd p))) [
  ("MainDir", "~/downloads"); ("WebDir", ""); ("ConfigTemplate", ""); ("TempDir", "${MainDir}/tmp"); ("DestDir", "${MainDir}/dst");
  ("InterDir", ""); ("QueueDir", "${MainDir}/queue"); ("NzbDir", "${MainDir}/nzb"); ("LockFile", "${MainDir}/nzbget.lock");
  ("LogFile", "${MainDir}/nzbget.log"); ("ScriptDir", "${MainDir}/scripts"); ("RequiredDir", ""); ("WriteLog", "append");
  ("RotateLog", "3"); ("AppendCategoryDir", "yes"); ("OutputMode", "curses"); ("DupeCheck", "yes"); ("DownloadRate", "0");
  ("ControlIp", "0.0.0.0"); ("ControlUsername", "nzbget"); ("ControlPassword", "tegbzn6789"); ("RestrictedUsername", "");
  ("RestrictedPassword", ""); ("AddUsername", ""); ("AddPassword", ""); ("ControlPort", "6789"); ("FormAuth", "no");
  ("SecureControl", "no"); ("SecurePort", "6791"); ("SecureCert", ""); ("SecureKey", ""); ("CertStore", ""); ("CertCheck", "no");
  ("AuthorizedIP", ""); ("ArticleTimeout", "60"); ("UrlTimeout", "60"); ("RemoteTimeout", "90"); ("FlushQueue", "yes");
  ("NzbLog", "yes"); ("RawArticle", "no"); ("SkipWrite", "no"); ("ArticleRetries", "3"); ("ArticleInterval", "10");
  ("UrlRetries", "3"); ("UrlInterval", "10"); ("ContinuePartial", "no"); ("UrlConnections", "4"); ("LogBuffer", "1000");
  ("InfoTarget", "both"); ("WarningTarget", "both"); ("ErrorTarget", "both"); ("DebugTarget", "none"); ("DetailTarget", "both");
  ("ParCheck", "auto"); ("ParRepair", "yes"); ("ParScan", "extended"); ("ParQuick", "yes"); ("PostStrategy", "sequential");
  ("FileNaming", "article"); ("ParRename", "yes"); ("ParBuffer", "16"); ("ParThreads", "1"); ("RarRename", "yes");
  ("HealthCheck", "none"); ("DirectRename", "no"); ("ScriptOrder", ""); ("Extensions", ""); ("DaemonUsername", "root");
  ("UMask", "1000"); ("UpdateInterval", "200"); ("CursesNzbName", "yes"); ("CursesTime", "no"); ("CursesGroup", "no");
  ("CrcCheck", "yes"); ("DirectWrite", "yes"); ("WriteBuffer", "0"); ("NzbDirInterval", "5"); ("NzbDirFileAge", "60");
  ("DiskSpace", "250"); ("CrashTrace", "no"); ("CrashDump", "no"); ("ParPauseQueue", "no"); ("ScriptPauseQueue", "no");
  ("NzbCleanupDisk", "no"); ("ParTimeLimit", "0"); ("KeepHistory", "7"); ("Unpack", "no"); ("DirectUnpack", "no");
  ("UnpackCleanupDisk", "no"); ("UnrarCmd", "unrar"); ("SevenZipCmd", "7z"); ("UnpackPassFile", ""); ("UnpackPauseQueue", "no");
  ("ExtCleanupDisk", ""); ("ParIgnoreExt", ""); ("UnpackIgnoreExt", ""); ("FeedHistory", "7"); ("UrlForce", "yes");
  ("TimeCorrection", "0"); ("PropagationDelay", "0"); ("ArticleCache", "0"); ("EventInterval", "0"); ("ShellOverride", "");
  ("MonthlyQuota", "0"); ("QuotaStartDay", "1"); ("DailyQuota", "0"); ("ReorderFiles", "no"); ("UpdateCheck", "none")]%string.
Fixpoint set_options (home : list Z -> list Z) (fuel : nat) (t : list entry) (l : list (list Z * list Z)) : option (list entry) :=
  match l with
  | [] => Some t
  | (n, v) :: r => match set_option home fuel t n v with Some t' => set_options home fuel t' r | None => None end
  end.
(** Options.cpp:289-331, 574-595, [Init] up to the command line: program file and directory, version, the configuration file
    with its name ([None]: run without one), the options of the command line. *)
Definition load (home : list Z -> list Z) (fuel : nat) (bin dir version : list Z) (file : option (list Z * list Z))
  (cmdline : list (list Z)) : option (list entry * list (list Z)) :=
  match set_options home fuel [] ((str "ConfigFile", []) :: (str "AppBin", bin) :: (str "AppDir", dir) :: (str "Version", version) :: defaults) with
  | None => None
  | Some t =>
    match file with
    | None => set_strings home fuel false t cmdline
    | Some (name, f) =>
      match set_option home fuel t (str "ConfigFile") name with
      | None => None
      | Some t1 =>
        match set_option home fuel t1 (str "ConfigFile") name with       (* once more, line 1416 *)
        | None => None
        | Some t1 =>
        match load_config_file home fuel t1 f with
        | None => None
        | Some (t2, e) => option_map (fun '(t3, e') => (t3, e ++ e')) (set_strings home fuel true t2 cmdline)
        end
        end
      end
    end
  end.

(** ** Values *)

(** Options.cpp:852-873, [ParseIntValue]: the number, the table, the errors. *)
Definition parse_int (base : Z) (t : list entry) (n : list Z) : Z * list entry * list (list Z) :=
  match find_opt n t with
  | Some (mkE _ (Some v) d) =>
    let '(x, rest) := strtol base v in
    match rest with
    | [] => (to_i32 x, t, [])
    | _ => let d := match d with Some d => d | None => [] end in
           (to_i32 (fst (strtol base d)), put t n d, [n])
    end
  | _ => (0, t, [n])
  end.
Definition int_options : list (list Z * Z) := map (fun p => (str (fst p), snd p)) [
  ("DownloadRate", 10); ("ArticleTimeout", 10); ("UrlTimeout", 10); ("RemoteTimeout", 10); ("ArticleRetries", 10);
  ("ArticleInterval", 10); ("UrlRetries", 10); ("UrlInterval", 10); ("ControlPort", 10); ("SecurePort", 10);
  ("UrlConnections", 10); ("LogBuffer", 10); ("RotateLog", 10); ("UMask", 8); ("UpdateInterval", 10); ("WriteBuffer", 10);
  ("NzbDirInterval", 10); ("NzbDirFileAge", 10); ("DiskSpace", 10); ("ParTimeLimit", 10); ("KeepHistory", 10);
  ("FeedHistory", 10); ("TimeCorrection", 10); ("PropagationDelay", 10); ("ArticleCache", 10); ("EventInterval", 10);
  ("ParBuffer", 10); ("ParThreads", 10); ("MonthlyQuota", 10); ("QuotaStartDay", 10); ("DailyQuota", 10)]%string.

(** A set of words: the words with their values, and the number of words given to the search. *)
Record words := mkW { w_names : list (list Z * Z); w_count : nat }.
(** The first word with the value. *)
Definition first_word (l : list (list Z * Z)) (x : Z) : list Z :=
  match find (fun p => snd p =? x) l with Some (w, _) => w | None => [] end.
(** Options.cpp:809-850, [ParseEnumValue]; [k] words are still to be compared, the first of them is number [i]; [d] is the
    number of the default. [None]: reading behind the words. *)
Fixpoint enum_go (l all : list (list Z * Z)) (k i : nat) (t : list entry) (n v def : list Z) (d : nat)
  : option (Z * list entry * list (list Z)) :=
  match k with
  | O => match nth_error all d with
         | Some (w, x) => Some (x, put t n w, [n])
         | None => None
         end
  | S k' =>
    match l with
    | [] => None
    | (w, x) :: r =>
      if nocase_eq v w then Some (x, put t n (first_word all x), [])
      else enum_go r all k' (S i) t n v def (if nocase_eq def w then i else d)
    end
  end.
Definition parse_enum (w : words) (t : list entry) (n : list Z) : option (Z * list entry * list (list Z)) :=
  match find_opt n t with
  | Some (mkE _ (Some v) d) => enum_go (w_names w) (w_names w) (w_count w) 0 t n v (match d with Some d => d | None => [] end) 0
  | _ => match w_names w with (_, x) :: _ => Some (x, t, [n]) | [] => None end
  end.
Definition mkwords (l : list (string * Z)) (count : nat) : words := mkW (map (fun p => (str (fst p), snd p)) l) count.
(** Options.cpp:171-173. *)
Definition bool_words : words := mkwords [("yes", 1); ("no", 0); ("true", 1); ("false", 0); ("1", 1); ("0", 0); ("on", 1); ("off", 0);
  ("enable", 1); ("disable", 0); ("enabled", 1); ("disabled", 0)]%string 12.
Definition bool_options : list (list Z) := map str ["NzbLog"; "AppendCategoryDir"; "ContinuePartial"; "FlushQueue"; "DupeCheck";
  "ParRepair"; "ParQuick"; "ParRename"; "RarRename"; "DirectRename"; "CursesNzbName"; "CursesTime"; "CursesGroup"; "CrcCheck";
  "DirectWrite"; "RawArticle"; "SkipWrite"; "CrashTrace"; "CrashDump"; "ParPauseQueue"; "ScriptPauseQueue"; "NzbCleanupDisk";
  "FormAuth"; "SecureControl"; "Unpack"; "DirectUnpack"; "UnpackCleanupDisk"; "UnpackPauseQueue"; "UrlForce"; "CertCheck"; "ReorderFiles"]%string.
(** Options.cpp:758-806; the values are those of the enumerations in Options.h:34-99. *)
Definition enum_options : list (list Z * words) := [
  (str "OutputMode", mkwords [("loggable", 0); ("logable", 0); ("log", 0); ("colored", 1); ("color", 1); ("ncurses", 2); ("curses", 2)]%string 7);
  (str "ParCheck", mkwords [("auto", 0); ("always", 1); ("force", 2); ("manual", 3)]%string 6);
  (str "ParScan", mkwords [("limited", 0); ("extended", 1); ("full", 2); ("dupe", 3)]%string 4);
  (str "PostStrategy", mkwords [("sequential", 0); ("balanced", 1); ("aggressive", 2); ("rocket", 3)]%string 4);
  (str "FileNaming", mkwords [("auto", 0); ("article", 1); ("nzb", 2)]%string 4);
  (str "HealthCheck", mkwords [("pause", 0); ("delete", 1); ("park", 2); ("none", 3)]%string 4);
  (str "InfoTarget", mkwords [("screen", 1); ("log", 2); ("both", 3); ("none", 0)]%string 4);
  (str "WarningTarget", mkwords [("screen", 1); ("log", 2); ("both", 3); ("none", 0)]%string 4);
  (str "ErrorTarget", mkwords [("screen", 1); ("log", 2); ("both", 3); ("none", 0)]%string 4);
  (str "DebugTarget", mkwords [("screen", 1); ("log", 2); ("both", 3); ("none", 0)]%string 4);
  (str "DetailTarget", mkwords [("screen", 1); ("log", 2); ("both", 3); ("none", 0)]%string 4);
  (str "WriteLog", mkwords [("none", 0); ("append", 1); ("reset", 2); ("rotate", 3)]%string 4)].

(** ** Times of tasks *)

(** Options.cpp:1303-1361, [ParseTime]: hour (-1: "*", at the start of the program; -2: every hour) and minute ([None]: not set). *)
Definition time_char (c : Z) : bool := is_digit c || (c =? 58) || (c =? 32) || (c =? 42).
Definition parse_time (s : list Z) : option (Z * option Z) :=
  if beqb s (str "*") then Some (-1, None)
  else if negb (forallb time_char s) then None
  else if negb (Z.of_nat (length (filter (Z.eqb 58) s)) =? 1) then None
  else match index 58 s with
       | None => None
       | Some i =>
         let hour := match s with c :: _ => if c =? 42 then Some (-2) else
                       let h := atoi s in if (h <? 0) || (23 <? h) then None else Some h
                     | [] => None end in
         let rest := skipn (S i) s in
         match hour with
         | None => None
         | Some h =>
           if match rest with c :: _ => c =? 42 | [] => false end then None
           else let m := atoi rest in
                if (m <? 0) || (59 <? m) then None else Some (h, Some m)
         end
       end.
(** Options.cpp:1363-1412, [ParseWeekDays]: the bits. *)
Fixpoint week_go (s : list Z) (bits first : Z) (range : bool) : option Z :=
  match s with
  | [] => Some bits
  | c :: r =>
    if (49 <=? c) && (c <=? 55) then
      let day := c - 48 in
      if range then
        if (day <=? first) || (first =? 0) then None
        else week_go r (Z.lor bits (2 ^ day - 2 ^ (first - 1))) 0 false
      else week_go r (Z.lor bits (2 ^ (day - 1))) day false
    else if c =? 44 then week_go r bits first false
    else if c =? 45 then week_go r bits first true
    else if c =? 32 then week_go r bits first range
    else None
  end.
Definition parse_week (s : list Z) : option Z := week_go s 0 0 false.

(** Options.cpp:1261-1301, [CreateSchedulerTask]: the times of the tasks, and whether there was an error. *)
Definition hours24 : list Z := map Z.of_nat (seq 0 24).
Fixpoint task_times (l : list (list Z)) (last : option Z) : list (Z * option Z) * bool :=
  match l with
  | [] => ([], true)
  | s :: r =>
    match parse_time s with
    | None => ([], false)
    | Some (h, m) =>
      let m := match m with Some _ => m | None => last end in
      let '(x, ok) := task_times r m in
      ((if h =? -2 then map (fun k => (k, m)) hours24 else [(h, m)]) ++ x, ok)
    end
  end.
Definition create_task (time : list Z) (days : option (list Z)) : option (list (Z * option Z) * Z * bool) :=
  match match days with None => Some 0 | Some d => parse_week d end with
  | None => Some ([], 0, false)
  | Some bits => option_map (fun l => let '(x, ok) := task_times l None in (x, bits, ok)) (tokens (str ";,") time)
  end.

(** ** Numbered definitions *)

(** A name like "Server1.Host". *)
Definition numbered_name (prefix : string) (n : Z) (suffix : string) : list Z := str prefix ++ zdec n ++ str suffix.
Definition given (t : list entry) (n : list Z) : bool := match get t n with Some _ => true | None => false end.
Definition defined (t : list entry) (prefix : string) (n : Z) (fields : list string) : bool :=
  existsb (fun f => given t (numbered_name prefix n f)) fields.
(** Options.cpp:961-1058, [InitServers]: what is passed to AddNewsServer; texts: name, host, user, password, cipher;
    numbers: port, connections, retention, level, group; switches: active, join group, encryption, optional; IP version. *)
Record server := mkS { s_id : Z; s_texts : list (option (list Z)); s_numbers : list Z; s_switches : list Z; s_ip : Z }.
Definition server_fields : list string := [".Active"; ".Name"; ".Level"; ".Group"; ".Host"; ".Port"; ".Optional"; ".Username"; ".Password";
  ".Connections"; ".JoinGroup"; ".Encryption"; ".Cipher"; ".Retention"]%string.
Definition switch (w : words) (d : Z) (t : list entry) (n : list Z) : option (Z * list entry * list (list Z)) :=
  if given t n then parse_enum w t n else Some (d, t, []).
Definition number (d : Z) (t : list entry) (n : list Z) : Z := match get t n with Some v => atoi v | None => d end.
Definition ip_words : words := mkwords [("auto", 0); ("ipv4", 4); ("ipv6", 6)]%string 3.
(** One server; [Some None]: there is none with this number. *)
Definition one_server (t : list entry) (n : Z) : option (option (list entry * list (list Z) * option server)) :=
  let nm := numbered_name "Server" n in
  match switch bool_words 1 t (nm ".Active"%string) with
  | None => None
  | Some (active, t, e1) =>
  match switch bool_words 0 t (nm ".JoinGroup"%string) with
  | None => None
  | Some (join, t, e2) =>
  match switch bool_words 0 t (nm ".Optional"%string) with
  | None => None
  | Some (opt, t, e3) =>
  match switch bool_words 0 t (nm ".Encryption"%string) with
  | None => None
  | Some (tls, t, e4) =>
  match switch ip_words 0 t (nm ".IpVersion"%string) with
  | None => None
  | Some (ip, t, e5) =>
    let errs := e1 ++ e2 ++ e3 ++ e4 ++ e5 in
    if negb (defined t "Server" n server_fields) then Some None
    else if given t (nm ".Host"%string) && given t (nm ".Port"%string) && given t (nm ".Connections"%string) then
      Some (Some (t, errs, Some (mkS n
        (map (fun f => get t (nm f)) [".Name"; ".Host"; ".Username"; ".Password"; ".Cipher"]%string)
        [number 119 t (nm ".Port"%string); number 1 t (nm ".Connections"%string); number 0 t (nm ".Retention"%string);
         number 0 t (nm ".Level"%string); number 0 t (nm ".Group"%string)]
        [active; join; tls; opt] ip)))
    else Some (Some (t, errs ++ [str "Server" ++ zdec n], None))
  end end end end end.
(** The loop over the numbers 1, 2, ... until there is no definition. *)
Fixpoint definitions {A} (one : list entry -> Z -> option (option (list entry * list (list Z) * option A)))
  (fuel : nat) (t : list entry) (n : Z) : option (list entry * list (list Z) * list A) :=
  match fuel with
  | O => None
  | S k =>
    match one t n with
    | None => None
    | Some None => Some (t, [], [])
    | Some (Some (t', e, s)) =>
      match definitions one k t' (n + 1) with
      | None => None
      | Some (t'', e', l) => Some (t'', e ++ e', match s with Some s => s :: l | None => l end)
      end
    end
  end.

(** Options.cpp:1170-1259, [InitScheduler] without the creation of the tasks: command, times, days and parameter of a task. Checks of
    parameters of scripts and processes (1218-1223: command line) are not modelled. *)
Definition command_words : words := mkwords [("pausedownload", 0); ("pause", 0); ("unpausedownload", 1); ("resumedownload", 1);
  ("unpause", 1); ("resume", 1); ("pausepostprocess", 2); ("unpausepostprocess", 3); ("resumepostprocess", 3); ("pausepost", 2);
  ("unpausepost", 3); ("resumepost", 3); ("downloadrate", 4); ("setdownloadrate", 4); ("rate", 4); ("speed", 4); ("script", 5);
  ("process", 6); ("pausescan", 7); ("unpausescan", 8); ("resumescan", 8); ("activateserver", 9); ("activateservers", 9);
  ("deactivateserver", 10); ("deactivateservers", 10); ("fetchfeed", 11); ("fetchfeeds", 11)]%string 27.
Record task := mkT { t_id : Z; t_command : Z; t_time : list Z; t_days : option (list Z); t_param : option (list Z) }.
Definition empty (v : option (list Z)) : bool := match v with None | Some [] => true | _ => false end.
Definition task_param (t : list entry) (n : Z) : option (list Z) :=
  let nm f := get t (numbered_name "Task" n f) in
  let p := if empty (nm ".Param"%string) && negb (empty (nm ".Process"%string)) then nm ".Process"%string else nm ".Param"%string in
  if empty p && negb (empty (nm ".DownloadRate"%string)) then nm ".DownloadRate"%string else p.
Definition one_task (t : list entry) (n : Z) : option (option (list entry * list (list Z) * option task)) :=
  let nm := numbered_name "Task" n in
  let param := task_param t n in
  let err := [str "Task" ++ zdec n] in
  if negb (defined t "Task" n [".Time"; ".WeekDays"; ".Command"; ".DownloadRate"]%string || match param with Some _ => true | None => false end)
  then Some None
  else match get t (nm ".Time"%string), given t (nm ".Command"%string) with
  | Some time, true =>
    let days := get t (nm ".WeekDays"%string) in
    match parse_enum command_words t (nm ".Command"%string) with
    | None => None
    | Some (c, t', e) =>
      let bad := if c =? 4 then match param with
                                | Some p => let '(x, rest) := strtol 10 p in negb (match rest with [] => true | _ => false end) || (to_i32 x <? 0)
                                | None => true end
                 else ((c =? 5) || (c =? 6) || (9 <=? c)) && empty param in
      if bad then Some (Some (t', e ++ err, None)) else Some (Some (t', e, Some (mkT n c time days param)))
    end
  | _, _ => Some (Some (t, err, None))
  end.

(** ** Categories *)

(** Options.cpp:139-156 of Options.h: name and aliases. Options.cpp:245-278, [FindCategory]: the number of the category. *)
Record category := mkC { c_name : list Z; c_aliases : list (list Z) }.
Fixpoint find_index {A} (f : A -> bool) (l : list A) : option nat :=
  match l with
  | [] => None
  | x :: r => if f x then Some O else option_map S (find_index f r)
  end.
Definition wild (mask n : list Z) : bool := match wild_match false mask n with Some (b, _) => b | None => false end.
Definition find_category (l : list category) (n : list Z) (aliases : bool) : option nat :=
  match find_index (fun c => nocase_eq (c_name c) n) l with
  | Some i => Some i
  | None => if aliases then find_index (fun c => existsb (fun a => wild a n) (c_aliases c)) l else None
  end.

(** ** Old script options *)

(** Options.cpp:1926-1936, [HasScript]. *)
Definition has_script (l : list Z) (s : list Z) : option bool :=
  option_map (fun ts => existsb (fun x => nocase_eq x s) ts) (tokens (str ",;") l).
Definition text (e : entry) : list Z := match e_value e with Some v => v | None => [] end.
Definition with_value (e : entry) (v : list Z) : entry := mkE (e_name e) (Some v) (e_def e).
Definition is_category_ext (n : list Z) : bool :=
  nocase_prefix (str "category") n && nocase_eq (drop_digits (skipn 8 n)) (str ".extensions").
(** Appends a script unless it is there, or unless the list is empty and [empty_too] is false. *)
Definition append_script (empty_too : bool) (s : list Z) (e : entry) : option entry :=
  match has_script (text e) s with
  | None => None
  | Some true => Some e
  | Some false => match text e with
                  | [] => if empty_too then Some (with_value e s) else Some e
                  | v => Some (with_value e (v ++ [44] ++ s))
                  end
  end.
Fixpoint map_opt {A B} (f : A -> option B) (l : list A) : option (list B) :=
  match l with
  | [] => Some []
  | x :: r => match f x, map_opt f r with Some y, Some z => Some (y :: z) | _, _ => None end
  end.
Definition ext_name : list Z := str "Extensions".
(** The first entry with the name. *)
Fixpoint on_first (f : entry -> option entry) (n : list Z) (t : list entry) : option (list entry) :=
  match t with
  | [] => Some []
  | e :: r => if nocase_eq (e_name e) n then option_map (fun e' => e' :: r) (f e) else option_map (cons e) (on_first f n r)
  end.
Fixpoint merge_scripts (cats : bool) (l : list (list Z)) (t : list entry) : option (list entry) :=
  match l with
  | [] => Some t
  | s :: r =>
    match on_first (append_script true s) ext_name t with
    | None => None
    | Some t1 =>
      match (if cats then map_opt (fun e => if is_category_ext (e_name e) then append_script false s e else Some e) t1 else Some t1) with
      | None => None
      | Some t2 => merge_scripts cats r t2
      end
    end
  end.
(** Options.cpp:1872-1924, [MergeOldScriptOption], 1865-1870, [ConvertOldOptions]. *)
Definition merge_old (n : list Z) (cats : bool) (t : list entry) : option (list entry) :=
  match get t n with
  | None | Some [] => Some t
  | Some v =>
    let t1 := match find_opt ext_name t with Some _ => t | None => t ++ [mkE ext_name (Some []) None] end in
    match tokens (str ",;") v with
    | None => None
    | Some l => merge_scripts cats l t1
    end
  end.
Definition convert_options (t : list entry) : option (list entry) :=
  match merge_old (str "ScanScript") true t with
  | None => None
  | Some t1 => match merge_old (str "QueueScript") true t1 with
               | None => None
               | Some t2 => merge_old (str "FeedScript") false t2
               end
  end.

(** ** Restricted users *)

(** Options.cpp:202-224, [Restricted]; the name in lower case is cut at 1023 characters. *)
Definition restricted_names : list (list Z) := map str ["ControlIp"; "ControlPort"; "FormAuth"; "SecureControl"; "SecurePort"; "SecureCert";
  "SecureKey"; "CertStore"; "CertCheck"; "AuthorizedIP"; "DaemonUsername"; "UMask"]%string.
Definition contains_ (p s : list Z) : bool := match strstr s p with Some _ => true | None => false end.
Definition restricted (n : list Z) : bool :=
  let lo := map lower (firstn (Z.to_nat 1023) n) in
  one_of restricted_names n || match index 58 n with Some _ => true | None => false end ||
  contains_ (str "username") lo || contains_ (str "password") lo.
(** daemon/remote/XmlRpc.cpp:2614-2625, 2654-2665: what a restricted user sees. *)
Definition shown (full : bool) (n v : list Z) : list Z := if negb full && restricted n then str "***" else v.

(** ** The configuration file in the web interface *)

(** Util::TrimRight, daemon/util/Util.cpp:384-392. *)
Definition trim_right (s : list Z) : list Z := rev (drop_blank (rev s)).
(** ScriptConfig.cpp:47-84, [LoadConfig], before the conversion of old script options: names and values in the order of the file. *)
Definition ui_strings (lines : list (list Z)) : list (list Z) :=
  filter (fun s => negb (skipped s)) (map trim_right lines).
Definition ui_entries (lines : list (list Z)) : list (list Z * list Z) :=
  flat_map (fun s => match split_option s with Some o => [o] | None => [] end) (ui_strings lines).
Definition ui_load (fuel : nat) (f : list Z) : option (list (list Z * list Z)) :=
  option_map ui_entries (file_lines fuel (length f + 1) f).

(** ScriptConfig.cpp:86-143, [SaveConfig] for the settings given (names and values). One line of the old file: what is written
    and the number of the setting written. *)
Definition find_setting (n : list Z) (l : list (list Z * list Z)) : option nat := find_index (fun o => nocase_eq (fst o) n) l.
Definition setting_line (o : list Z * list Z) : list Z := fst o ++ [61] ++ snd o ++ [10].
Definition has_eq (s : list Z) : bool := match index 61 s with Some _ => true | None => false end.
Definition is_option_line (s : list Z) : bool := has_eq s && negb (match s with c :: _ => c =? 35 | [] => false end).
Definition save_line (l : list (list Z * list Z)) (s : list Z) : list Z * option nat :=
  if is_option_line s then
    match split_option (trim_right s) with
    | None => ([], None)
    | Some (n, _) => match find_setting n l with
                     | Some i => match nth_error l i with Some o => (setting_line o, Some i) | None => ([], None) end
                     | None => ([], None)
                     end
    end
  else (s, None).
Definition written (l : list (list Z * list Z)) (lines : list (list Z)) (i : nat) : bool :=
  existsb (fun s => match snd (save_line l s) with Some j => (i =? j)%nat | None => false end) lines.
Definition save_config (l : list (list Z * list Z)) (f : list Z) (fuel : nat) : option (list Z) :=
  option_map (fun lines =>
    flat_map (fun s => fst (save_line l s)) lines ++
    flat_map (fun '(i, o) => if written l lines i then [] else setting_line o) (combine (seq 0 (length l)) l))
  (file_lines fuel (length f + 2) f).
