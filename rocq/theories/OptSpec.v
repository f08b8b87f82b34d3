(** What options mean, said without the program: names, settings, references, numbers, words, lines of the file, times, days. *)
From Coq Require Import String.
From Verif Require Import Base NumFmt WildSpec.
Open Scope list_scope. Open Scope Z_scope.

(** ** Names and settings *)

(** The same name, whatever the letter case. *)
Definition same (a b : list Z) : Prop := map lc a = map lc b.
Definition sameb (a b : list Z) : bool := beqb (map lc a) (map lc b).
Definition listed (l : list string) (n : list Z) : Prop := exists x, In x l /\ same n (str x).

(** Old names of options. *)
Definition old_names : list (string * string) := [("$MAINDIR", "MainDir"); ("ServerIP", "ControlIP"); ("ServerPort", "ControlPort");
  ("ServerPassword", "ControlPassword"); ("PostPauseQueue", "ScriptPauseQueue"); ("DefScript", "Extensions"); ("PostScript", "Extensions");
  ("ConnectionTimeout", "ArticleTimeout"); ("Retries", "ArticleRetries"); ("RetryInterval", "ArticleInterval"); ("DumpCore", "CrashDump");
  ("LogBufferSize", "LogBuffer")]%string.
(** Old values: name, old value, new value. *)
Definition old_values : list (string * string * string) := [("ParCheck", "yes", "always"); ("ParCheck", "no", "auto"); ("ParScan", "auto", "extended")]%string.
(** Old names within numbered definitions: start, old end, new end. *)
Definition old_ends : list (string * string * string) := [("Category", ".DefScript", ".Extensions"); ("Category", ".PostScript", ".Extensions");
  ("Feed", ".FeedScript", ".Extensions")]%string.
(** Names the other rules are about. *)
Definition old_others : list string := ["WriteBufferSize"; "Decode"]%string.
Definition starts_same (p : string) (n : list Z) : Prop := exists a r, n = a ++ r /\ same a (str p).
Definition ends_same (e : string) (n : list Z) : Prop := exists r a, n = r ++ a /\ same a (str e).
(** None of the old names and values. *)
Definition modern (n v : list Z) : Prop :=
  (forall o w, In (o, w) old_names -> ~ same n (str o)) /\ (forall m o w, In (m, o, w) old_values -> ~ (same n (str m) /\ same v (str o))) /\
  (forall p e w, In (p, e, w) old_ends -> ~ (starts_same p n /\ ends_same e n)) /\ (forall x, In x old_others -> ~ same n (str x)).

(** A line of the configuration file or of the command line sets an option. *)
Definition sets (s n v : list Z) : Prop := s = n ++ [61] ++ v /\ n <> [] /\ ~ In 61 n.

(** Valid names: options with a value, fields of numbered definitions, options of scripts, old options without effect. *)
Definition fixed_names : list string := ["ConfigFile"; "AppBin"; "AppDir"; "Version"]%string.
Definition fields_of : list (string * list string) := [
  ("Server", [".Active"; ".Name"; ".Level"; ".Host"; ".Port"; ".Username"; ".Password"; ".JoinGroup"; ".Encryption"; ".Connections";
    ".Cipher"; ".Group"; ".Retention"; ".Optional"; ".Notes"; ".IpVersion"]);
  ("Task", [".Time"; ".WeekDays"; ".Command"; ".Param"; ".DownloadRate"; ".Process"]);
  ("Category", [".Name"; ".DestDir"; ".Extensions"; ".Unpack"; ".Aliases"]);
  ("Feed", [".Name"; ".URL"; ".Interval"; ".Filter"; ".Backlog"; ".PauseNzb"; ".Category"; ".Priority"; ".Extensions"])]%string.
Definition field_name (n : list Z) : Prop := exists kind fs a ds b f, In (kind, fs) fields_of /\ In f fs /\ n = a ++ ds ++ b /\
  same a (str kind) /\ Forall digit ds /\ same b (str f).
Definition retired : list string := ["RetryOnCrcError"; "AllowReProcess"; "LoadPars"; "ThreadLimit"; "PostLogKind"; "NZBLogKind"; "ProcessLogKind";
  "AppendNzbDir"; "RenameBroken"; "MergeNzb"; "StrictParName"; "ReloadUrlQueue"; "ReloadPostQueue"; "ParCleanupQueue"; "DeleteCleanupDisk";
  "HistoryCleanupDisk"; "SaveQueue"; "ReloadQueue"; "TerminateTimeout"; "AccurateRate"; "CreateBrokenLog"; "BrokenLog"; "CreateLog"; "ResetLog"]%string.
Definition retired_scripts : list string := ["PostProcess"; "NZBProcess"; "NZBAddedProcess"]%string.
Definition scripts_before : list string := ["ScanScript"; "QueueScript"; "FeedScript"]%string.
Definition valid_name (look : list Z -> option (list Z)) (n : list Z) : Prop := ~ listed fixed_names n /\
  (look n <> None \/ field_name n \/ In 58 n \/ listed retired n \/ listed retired_scripts n \/ listed scripts_before n).

(** A value taken as it is: no reference, no home directory. *)
Definition plain (v : list Z) : Prop := ~ In 36 v /\ (forall r, v <> str "~/" ++ r).

(** ** References *)

Inductive piece := PText (s : list Z) | PRef (n : list Z).
Definition piece_text (p : piece) : list Z := match p with PText s => s | PRef n => str "${" ++ n ++ [125] end.
Definition piece_value (look : list Z -> option (list Z)) (p : piece) : list Z :=
  match p with PText s => s | PRef n => match look n with Some v => v | None => [] end end.
(** Texts without dollar signs, names of options with a value without dollar signs. *)
Definition piece_ok (look : list Z -> option (list Z)) (p : piece) : Prop :=
  match p with
  | PText s => ~ In 36 s
  | PRef n => n <> [] /\ ~ In 125 n /\ Z.of_nat (length n) <= 99 /\ exists v, look n = Some v /\ ~ In 36 v
  end.
Definition within (s p : list Z) : Prop := exists a b, s = a ++ p ++ b.

(** ** Numbers and words *)

Definition space (c : Z) : Prop := c = 32 \/ 9 <= c <= 13.
Definition dvalue (base : Z) (ds : list Z) : Z := fold_left (fun a c => a * base + (c - 48)) ds 0.
Definition numeral (base : Z) (s : list Z) (x : Z) : Prop := exists sp sg ds, s = sp ++ sg ++ ds /\ Forall space sp /\
  ds <> [] /\ Forall (fun c => 48 <= c < 48 + base) ds /\
  (((sg = [] \/ sg = str "+") /\ x = dvalue base ds) \/ (sg = str "-" /\ x = - dvalue base ds)).
Definition int32 (x : Z) : Prop := - 2 ^ 31 <= x < 2 ^ 31.
(** [w] is the first of the words with the meaning [x]. *)
Definition first_with (l : list (list Z * Z)) (x : Z) (w : list Z) : Prop :=
  exists a b, l = a ++ (w, x) :: b /\ forall w' y, In (w', y) a -> y <> x.

(** ** The configuration file *)

Definition eol (crlf : bool) : list Z := if crlf then [13; 10] else [10].
Definition line_ok (l : list Z) : Prop := ~ In 10 l /\ ~ In 0 l /\ forall a, l <> a ++ [13].
Definition file_of (ls : list (list Z * bool)) (last : list Z) : list Z := flat_map (fun p => fst p ++ eol (snd p)) ls ++ last.
(** Not empty, not blank, not a comment. *)
Definition says (l : list Z) : bool := negb (forallb (Z.eqb 32) l) && negb (match l with c :: _ => c =? 35 | [] => false end).

(** ** Times and days *)

(** One or two digits. *)
Definition two (x : Z) (s : list Z) : Prop := s = [48 + x / 10; 48 + x mod 10] \/ (0 <= x < 10 /\ s = [48 + x]).
(** Days of the week, 1 (Monday) to 7, and ranges of them. *)
Inductive days := DDay (d : Z) | DRange (a b : Z).
Definition days_ok (d : days) : Prop := match d with DDay d => 1 <= d <= 7 | DRange a b => 1 <= a /\ a < b /\ b <= 7 end.
Definition days_text (d : days) : list Z := match d with DDay d => [48 + d] | DRange a b => [48 + a; 45; 48 + b] end.
Definition on_day (d : days) (x : Z) : Prop := match d with DDay d => x = d | DRange a b => a <= x <= b end.
Fixpoint joined (sep : list Z) (l : list (list Z)) : list Z :=
  match l with [] => [] | [x] => x | x :: r => x ++ sep ++ joined sep r end.
(** What times are made of. *)
Definition time_char_ok (c : Z) : Prop := digit c \/ c = 58 \/ c = 32 \/ c = 42.
(** A time of day, or every hour at a minute. *)
Inductive when := WAt (h m : Z) | WEvery (m : Z).
Definition when_ok (w : when) : Prop := match w with WAt h m => 0 <= h < 24 /\ 0 <= m < 60 | WEvery m => 0 <= m < 60 end.
Definition when_text (w : when) (s : list Z) : Prop :=
  match w with
  | WAt h m => exists a b, two h a /\ two m b /\ s = a ++ [58] ++ b
  | WEvery m => exists b, two m b /\ s = str "*:" ++ b
  end.
Definition when_times (w : when) : list (Z * Z) :=
  match w with WAt h m => [(h, m)] | WEvery m => map (fun k => (Z.of_nat k, m)) (seq 0 24) end.

(** ** Servers *)

Definition field (kind : string) (n : Z) (f : string) : list Z := str kind ++ zdec n ++ str f.
Definition isset (v : option (list Z)) : bool := match v with Some _ => true | None => false end.
(** Fields that make a definition, and those it needs. *)
Definition server_part : list string := [".Active"; ".Name"; ".Level"; ".Group"; ".Host"; ".Port"; ".Optional"; ".Username"; ".Password";
  ".Connections"; ".JoinGroup"; ".Encryption"; ".Cipher"; ".Retention"]%string.
Definition server_need : list string := [".Host"; ".Port"; ".Connections"]%string.
Definition present (look : list Z -> option (list Z)) (n : Z) : bool := existsb (fun f => isset (look (field "Server" n f))) server_part.
Definition whole (look : list Z -> option (list Z)) (n : Z) : bool := forallb (fun f => isset (look (field "Server" n f))) server_need.
Definition switch_words : list (string * Z) := [("yes", 1); ("no", 0); ("true", 1); ("false", 0); ("1", 1); ("0", 0); ("on", 1); ("off", 0);
  ("enable", 1); ("disable", 0); ("enabled", 1); ("disabled", 0)]%string.
Definition ip_versions : list (string * Z) := [("auto", 0); ("ipv4", 4); ("ipv6", 6)]%string.
(** A word, or the default if nothing is set. *)
Definition word_value (ws : list (string * Z)) (d : Z) (v : option (list Z)) (x : Z) : Prop :=
  match v with None => x = d | Some v => forall w y, In (w, y) ws -> same v (str w) -> x = y end.
Definition number_value (d : Z) (v : option (list Z)) (x : Z) : Prop :=
  match v with None => x = d | Some v => forall y, numeral 10 v y -> int32 y -> x = y end.
Definition numbers_from (n : Z) (k : nat) : list Z := map (fun i => n + Z.of_nat i) (seq 0 k).

(** ** Scripts *)

(** The script is one of the list. *)
Definition script_in (v s : list Z) : Prop := exists f, In f (fields (fun c => (c =? 44) || (c =? 59)) v) /\ trimmed f s /\ s <> [].
Definition script_known (v s : list Z) : Prop := exists s', script_in v s' /\ same s' s.
Definition value_of (v : option (list Z)) : list Z := match v with Some v => v | None => [] end.
(** "Category1.Extensions". *)
Definition category_extensions (n : list Z) : Prop := exists a ds b, n = a ++ ds ++ b /\ same a (str "Category") /\ Forall digit ds /\ same b (str ".Extensions").

(** ** Categories *)

(** The first one of the list. *)
Definition first_that {A} (P : A -> Prop) (l : list A) (i : nat) : Prop :=
  exists x, nth_error l i = Some x /\ P x /\ forall j y, (j < i)%nat -> nth_error l j = Some y -> ~ P y.

(** ** The file in the web interface *)

(** A setting that can be written on a line and read back. *)
Definition setting_ok (o : list Z * list Z) : Prop := let '(n, v) := o in
  n <> [] /\ ~ In 61 n /\ (forall r, n <> 35 :: r) /\ Forall (fun c => c <> 10 /\ c <> 0) (n ++ v) /\
  (forall a c, v = a ++ [c] -> ~ blank c) /\ modern n v.
(** Lines that set nothing: comments and lines without an equal sign. *)
Definition remark (p : list Z * bool) : bool :=
  match fst p with c :: _ => c =? 35 | [] => false end || negb (existsb (Z.eqb 61) (fst p)).

(** ** Restricted users *)

Definition secret_names : list string := ["ControlIP"; "ControlPort"; "FormAuth"; "SecureControl"; "SecurePort"; "SecureCert"; "SecureKey"; "CertStore";
  "CertCheck"; "AuthorizedIP"; "DaemonUsername"; "UMask"]%string.
(** A text within a name, whatever the letter case. *)
Definition mentions (w : string) (n : list Z) : Prop := exists a m b, n = a ++ m ++ b /\ same m (str w).
Definition secret (n : list Z) : Prop := listed secret_names n \/ In 58 n \/ mentions "username" n \/ mentions "password" n.

(** ** Tables of words *)

(** No word twice. *)
Definition distinct (l : list (list Z * Z)) : Prop := NoDup (map (fun p => map lc (fst p)) l).

(** ** Tasks *)

(** Meanings of commands that need a parameter, and the one that needs a number. *)
Definition needs_param (x : Z) : Prop := x = 5 \/ x = 6 \/ 9 <= x.
Definition filled (v : option (list Z)) : Prop := exists c r, v = Some (c :: r).
(** The parameter: the first one filled. *)
Definition task_value (look : list Z -> option (list Z)) (n : Z) (p : list Z) : Prop :=
  let f x := look (field "Task" n x) in
  p <> [] /\ (f ".Param" = Some p \/ (~ filled (f ".Param") /\ (f ".Process" = Some p \/ (~ filled (f ".Process") /\ f ".DownloadRate" = Some p))))%string.
Definition no_task_value (look : list Z -> option (list Z)) (n : Z) : Prop :=
  let f x := look (field "Task" n x) in ~ filled (f ".Param"%string) /\ ~ filled (f ".Process"%string) /\ ~ filled (f ".DownloadRate"%string).

(** The words of commands: what is done joined with what it is done to, without a space. *)
Definition all_of (l r : list string) (x : Z) : list (list Z * Z) := flat_map (fun a => map (fun b => (str a ++ str b, x)) r) l.
Definition command_meaning : list (list Z * Z) :=
  all_of ["pause"]%string [""; "download"]%string 0 ++ all_of ["unpause"; "resume"]%string [""; "download"]%string 1 ++
  all_of ["pause"]%string ["post"; "postprocess"]%string 2 ++ all_of ["unpause"; "resume"]%string ["post"; "postprocess"]%string 3 ++
  all_of [""; "set"]%string ["downloadrate"]%string 4 ++ all_of ["rate"; "speed"]%string [""]%string 4 ++ all_of ["script"]%string [""]%string 5 ++ all_of ["process"]%string [""]%string 6 ++
  all_of ["pause"]%string ["scan"]%string 7 ++ all_of ["unpause"; "resume"]%string ["scan"]%string 8 ++ all_of ["activate"]%string ["server"; "servers"]%string 9 ++
  all_of ["deactivate"]%string ["server"; "servers"]%string 10 ++ all_of ["fetch"]%string ["feed"; "feeds"]%string 11.
(** The words for yes and no. *)
Definition bool_meaning : list (list Z * Z) :=
  all_of ["yes"; "true"; "1"; "on"; "enable"; "enabled"]%string [""]%string 1 ++ all_of ["no"; "false"; "0"; "off"; "disable"; "disabled"]%string [""]%string 0.
(** Where messages go. *)
Definition target_meaning : list (list Z * Z) := all_of ["none"]%string [""]%string 0 ++ all_of ["screen"]%string [""]%string 1 ++ all_of ["log"]%string [""]%string 2 ++ all_of ["both"]%string [""]%string 3.
