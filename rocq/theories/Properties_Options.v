(** C124-C133: settings, references, numbers and words, the configuration file, times, numbered definitions, old options,
    categories, the configuration file in the web interface, restricted users. *)
From Coq Require Import String.
From Verif Require Import Base NumFmt LineModel WildSpec WildModel WebModel WebSpec OptModel OptSpec OptProofs OptProofs2 OptProofs3 OptProofs4 OptProofs5 OptProofs6 OptProofs7 OptProofs8 OptProofs9.
Open Scope list_scope. Open Scope Z_scope.

Definition ox_home (v : list Z) : list Z := str "/home/me" ++ skipn 1 v.
Definition ox_load (file : list Z) (cmd : list (list Z)) := load ox_home 1000 (str "/usr/bin/nzbget") (str "/usr/bin") (str "21.2") (Some (str "/etc/nzbget.conf", file)) cmd.
Definition lf : list Z := [10].
Definition ox_file : list Z := str "# main" ++ lf ++ str "MainDir=/data" ++ lf ++ str "DestDir=${MainDir}/done" ++ lf ++ str "ControlPort=6800" ++ lf ++ str "Nonsense=1" ++ lf.
Definition ox_value (r : option (list entry * list (list Z))) (n : string) : option (list Z) := match r with Some (t, _) => get t (str n) | None => None end.

Lemma ox_modern n v : (forallb (fun p => negb (sameb n (str (fst p)))) old_names && forallb (fun p => negb (sameb n (str (fst (fst p))))) old_values &&
  forallb (fun x => negb (sameb n (str x))) old_others && forallb (fun p => negb (nocase_prefix (str (fst (fst p))) n)) old_ends) = true -> modern n v.
Proof.
  rewrite !andb_true_iff, !forallb_forall. intros (((H1 & H2) & H3) & H4).
  assert (B : forall x, negb (sameb n x) = true -> ~ same n x) by (intros x Q S1; apply negb_true_iff in Q; unfold sameb in Q; apply beqb_neq in Q; contradiction).
  repeat split.
  - intros o w H. apply B, (H1 (o, w) H).
  - intros m o w H (S1 & _). revert S1. apply B, (H2 (m, o, w) H).
  - intros p e w H ((a & r & E & S1) & _). specialize (H4 (p, e, w) H). cbn [fst] in H4. apply negb_true_iff in H4.
    assert (T : nocase_prefix (str p) n = true) by (apply prefix_same; eauto). congruence.
  - intros x H. apply B, (H3 x H).
Qed.

(** ** C124: settings *)

(** One setting: taken if the name is valid, and nothing else changes; otherwise nothing changes and the user is told. *)
Theorem C124_setting home f hf t s t' errs : set_string home f hf t s = Some (t', errs) ->
  (exists n v x, split_option s = Some (n, v) /\ valid_name (get t) n /\ expand f t (home_path home v) = Some x /\
     (forall m, get t' m = if nocase_eq n m then Some x else get t m) /\ (errs <> [] -> listed retired_scripts n)) \/
  ((forall n v, split_option s = Some (n, v) -> ~ valid_name (get t) n) /\ t' = t /\ errs <> []).
Proof. exact (set_string_ok home f hf t s t' errs). Qed.
Print Assumptions C124_setting.

(** The last of several settings counts. *)
Theorem C124_last : forall home f hf t l1 s l2 t' e n v, set_strings home f hf t (l1 ++ s :: l2) = Some (t', e) ->
  sets s n v -> modern n v -> plain v -> valid_name (get t) n ->
  (forall s' m w, In s' l2 -> sets s' m w -> modern m w /\ ~ same m n) -> get t' n = Some v.
Proof. exact last_ok. Qed.
Print Assumptions C124_last.

(** Settings of the command line come after those of the file. *)
Theorem C124_cmdline home f bin dir ver name file cmd t e : load home f bin dir ver (Some (name, file)) cmd = Some (t, e) ->
  exists t1 e1 e2, load home f bin dir ver (Some (name, file)) [] = Some (t1, e1) /\ set_strings home f true t1 cmd = Some (t, e2) /\ e = e1 ++ e2.
Proof. exact (cmdline_after home f bin dir ver name file cmd t e). Qed.
Print Assumptions C124_cmdline.

(** The names of the program itself cannot be set. *)
Theorem C124_fixed home f hf n : listed fixed_names n -> forall l t t' e, set_strings home f hf t l = Some (t', e) -> get t' n = get t n.
Proof. exact (fixed_ok home f hf n). Qed.
Print Assumptions C124_fixed.

Example C124_ex : ox_value (ox_load ox_file [str "controlport=7000"; str "Version=1"]) "ControlPort" = Some (str "7000") /\
  ox_value (ox_load ox_file []) "controlport" = Some (str "6800") /\ ox_value (ox_load ox_file [str "Version=1"]) "Version" = Some (str "21.2") /\
  option_map snd (ox_load ox_file [str "Version=1"; str "x"]) = Some [str "Nonsense"; str "Version"; str "x"].
Proof. vm_compute. repeat split. Qed.
Example C124_last_ex : exists t' e, set_strings (fun v => v) 10 true [mkE (str "Port") (Some (str "1")) None] [str "PORT=2"; str "Port=3"; str "a:b=4"] = Some (t', e) /\
  sets (str "Port=3") (str "Port") (str "3") /\ modern (str "Port") (str "3") /\ plain (str "3") /\
  valid_name (get [mkE (str "Port") (Some (str "1")) None]) (str "Port") /\ sets (str "a:b=4") (str "a:b") (str "4") /\ get t' (str "port") = Some (str "3").
Proof.
  eexists. eexists. split; [vm_compute; reflexivity|]. split; [repeat split; try discriminate; vm_compute; intuition discriminate|].
  split; [apply ox_modern; vm_compute; reflexivity|]. split; [split; [vm_compute; intuition discriminate|intros r H; vm_compute in H; discriminate]|].
  split; [|split; [repeat split; try discriminate; vm_compute; intuition discriminate|vm_compute; reflexivity]].
  split; [|left; vm_compute; discriminate]. intros (x & Hx & E). unfold fixed_names in Hx. cbn [In] in Hx.
  destruct Hx as [<-|[<-|[<-|[<-|[]]]]]; vm_compute in E; discriminate.
Qed.

(** Without a configuration file an old option on the command line crashes the program. *)
Theorem C124_crash_refuted : exists t s, (forall home f, set_string home f false t s = None) /\ exists t', set_string (fun v => v) 10 true t s = Some (t', []).
Proof. exists [], (str "ThreadLimit=5"). split; [reflexivity|]. eexists. vm_compute. reflexivity. Qed.
Print Assumptions C124_crash_refuted.

(** ** C125: references *)

Theorem C125_references : forall t ps f a, ~ In 36 a -> Forall (piece_ok (get t)) ps -> (length ps < f)%nat ->
  expand f t (a ++ flat_map piece_text ps) = Some (a ++ flat_map (piece_value (get t)) ps).
Proof. exact refs_ok. Qed.
Print Assumptions C125_references.

(** Nothing that could be replaced is left in front of the first unknown name. *)
Theorem C125_none_left : forall f t s r, expand f t s = Some r -> forall a n b, r = a ++ str "${" ++ n ++ [125] ++ b ->
  ~ In 36 a -> ~ In 125 n -> n <> [] -> Z.of_nat (length n) <= 99 -> get t n = None.
Proof. exact done_ok. Qed.
Print Assumptions C125_none_left.

Example C125_ex : ox_value (ox_load ox_file []) "DestDir" = Some (str "/data/done") /\ ox_value (ox_load ox_file []) "QueueDir" = Some (str "/home/me/downloads/queue") /\
  expand 5 [mkE (str "A") (Some (str "1")) None; mkE (str "B") (Some (str "2")) None] (str "x" ++ flat_map piece_text [PRef (str "A"); PText (str "-"); PRef (str "b")]) = Some (str "x1-2").
Proof. vm_compute. repeat split. Qed.

(** A known name behind an unknown one is not replaced. *)
Theorem C125_order_refuted : exists t s, get t (str "A") = Some (str "1") /\ s = str "${nothing}/${A}" /\ forall f, expand (S f) t s = Some s.
Proof. exists [mkE (str "A") (Some (str "1")) None], (str "${nothing}/${A}"). repeat split. Qed.
Print Assumptions C125_order_refuted.

(** An option that refers to itself: the program does not end. *)
Theorem C125_loop_refuted : exists l, forall f, set_strings (fun v => v) f true [] l = None.
Proof. exists loop_lines. exact loop_ok. Qed.
Print Assumptions C125_loop_refuted.

(** Defaults do not follow the main directory set by the user. *)
Theorem C125_defaults_refuted : exists file, ox_value (ox_load file []) "MainDir" = Some (str "/data") /\ In (str "QueueDir", str "${MainDir}/queue") defaults /\
  ox_value (ox_load file []) "QueueDir" <> Some (str "/data/queue").
Proof. exists ox_file. split; [vm_compute; reflexivity|]. split; [vm_compute; tauto|vm_compute; discriminate]. Qed.
Print Assumptions C125_defaults_refuted.

(** ** C126: numbers and words *)

Theorem C126_number : forall base t n v x, 2 <= base <= 10 -> get t n = Some v -> numeral base v x -> int32 x -> parse_int base t n = (x, t, []).
Proof. exact number_ok. Qed.
Print Assumptions C126_number.
Theorem C126_no_number : forall base t n e v d y, 2 <= base <= 10 -> find_opt n t = Some e -> e_value e = Some v -> e_def e = Some d ->
  v <> [] -> (forall x, ~ numeral base v x) -> numeral base d y -> int32 y ->
  exists t', parse_int base t n = (y, t', [n]) /\ get t' n = Some d /\ forall m, ~ same m n -> get t' m = get t m.
Proof. exact no_number_ok. Qed.
Print Assumptions C126_no_number.
Theorem C126_word : forall w t n v word x, w_count w = length (w_names w) /\ distinct (w_names w) -> get t n = Some v -> In (word, x) (w_names w) -> same v word ->
  exists t' w', parse_enum w t n = Some (x, t', []) /\ first_with (w_names w) x w' /\ get t' n = Some w' /\ (forall m, ~ same m n -> get t' m = get t m).
Proof. exact word_ok. Qed.
Print Assumptions C126_word.
Theorem C126_no_word : forall w t n e v d word x, w_count w = length (w_names w) /\ distinct (w_names w) -> find_opt n t = Some e -> e_value e = Some v -> e_def e = Some d ->
  (forall u y, In (u, y) (w_names w) -> ~ same v u) -> In (word, x) (w_names w) -> same d word ->
  exists t', parse_enum w t n = Some (x, t', [n]) /\ get t' n = Some word /\ (forall m, ~ same m n -> get t' m = get t m).
Proof. exact no_word_ok. Qed.
Print Assumptions C126_no_word.
(** The tables of the program meet these conditions, but two. *)
Theorem C126_tables : (forall n w, In (n, w) enum_options -> n <> str "ParCheck" -> n <> str "FileNaming" ->
    (w_count w = length (w_names w) /\ distinct (w_names w)) /\ exists d word x, In (n, d) defaults /\ In (word, x) (w_names w) /\ same d word) /\
  ((w_count bool_words = length (w_names bool_words) /\ distinct (w_names bool_words)) /\
    forall n, In n bool_options -> exists d word x, In (n, d) defaults /\ In (word, x) (w_names bool_words) /\ same d word) /\
  (forall n base, In (n, base) int_options -> (base = 8 \/ base = 10) /\ exists d x, In (n, d) defaults /\ numeral base d x /\ int32 x).
Proof. exact (conj enum_tables (conj bool_tables int_tables)). Qed.
Print Assumptions C126_tables.

(** The words for yes and no, and for the targets of messages, mean what they say. *)
Theorem C126_meaning : (forall w x, In (w, x) (w_names bool_words) <-> In (w, x) bool_meaning) /\
  (forall n ws w x, In (n, ws) enum_options -> In n (map str ["InfoTarget"; "WarningTarget"; "ErrorTarget"; "DebugTarget"; "DetailTarget"]%string) ->
    In (w, x) (w_names ws) <-> In (w, x) target_meaning).
Proof. exact words_meaning. Qed.
Print Assumptions C126_meaning.
Example C126_meaning_ex : In (str "off", 0) (w_names bool_words) /\ In (str "both", 3) target_meaning.
Proof. split; vm_compute; tauto. Qed.

(** Whatever was set, the default value of an option stays the one of the program. *)
Theorem C126_default home f bin dir ver file cmd t e n d : load home f bin dir ver file cmd = Some (t, e) ->
  In (n, d) defaults -> plain d -> exists en, find_opt n t = Some en /\ e_def en = Some d.
Proof. exact (load_defaults home f bin dir ver file cmd t e n d). Qed.
Print Assumptions C126_default.
Example C126_default_ex : match ox_load ox_file [str "controlport=70x"] with
  | Some (t, _) => parse_int 10 t (str "ControlPort") = (6789, put t (str "ControlPort") (str "6789"), [str "ControlPort"])
  | None => False end.
Proof. vm_compute. reflexivity. Qed.

Definition ox_one (v d : string) : list entry := [mkE (str "X") (Some (str v)) (Some (str d))].
Definition ox_parscan : words := mkwords [("limited", 0); ("extended", 1); ("full", 2); ("dupe", 3)]%string 4.
Example C126_ex : parse_int 10 (ox_one " -12" "5") (str "x") = (-12, ox_one " -12" "5", []) /\ parse_int 8 (ox_one "22" "5") (str "x") = (18, ox_one "22" "5", []) /\
  parse_int 10 (ox_one "12k" "5") (str "x") = (5, ox_one "5" "5", [str "x"]) /\
  parse_enum bool_words (ox_one "ON" "no") (str "x") = Some (1, ox_one "yes" "no", []) /\
  parse_enum ox_parscan (ox_one "all" "extended") (str "x") = Some (1, ox_one "extended" "extended", [str "x"]) /\ In (str "ParScan", ox_parscan) enum_options.
Proof. split; [vm_compute; reflexivity|]. split; [vm_compute; reflexivity|]. split; [vm_compute; reflexivity|]. split; [vm_compute; reflexivity|]. split; [vm_compute; reflexivity|]. right. right. left. reflexivity. Qed.

(** An empty number is zero, a large one is taken modulo 2^32; nobody is told. *)
Theorem C126_silent_refuted : exists t1 t2, get t1 (str "x") = Some [] /\ parse_int 10 t1 (str "x") = (0, t1, []) /\
  get t2 (str "x") = Some (str "4294967297") /\ parse_int 10 t2 (str "x") = (1, t2, []).
Proof. exists (ox_one "" "5"), (ox_one "4294967297" "5"). vm_compute. repeat split. Qed.
Print Assumptions C126_silent_refuted.
(** An unknown word for ParCheck or FileNaming: memory behind the table is read. *)
Theorem C126_bounds_refuted : exists w1 w2, In (str "ParCheck", w1) enum_options /\ In (str "FileNaming", w2) enum_options /\
  parse_enum w1 (ox_one "sometimes" "auto") (str "x") = None /\ parse_enum w2 (ox_one "sometimes" "auto") (str "x") = None.
Proof.
  exists (mkwords [("auto", 0); ("always", 1); ("force", 2); ("manual", 3)]%string 6), (mkwords [("auto", 0); ("article", 1); ("nzb", 2)]%string 4).
  split; [right; left; reflexivity|]. split; [do 4 right; left; reflexivity|]. split; vm_compute; reflexivity.
Qed.
Print Assumptions C126_bounds_refuted.

(** ** C127: the configuration file *)

Theorem C127_lines : forall home f t ls last, Forall (fun p => line_ok (fst p)) ls -> line_ok last -> (last = [] \/ ls <> []) ->
  (2 <= length (file_of ls last))%nat -> (length (file_of ls last) + 1 < f)%nat ->
  load_config_file home f t (file_of ls last) = set_strings home f true t (filter says (map fst ls ++ [last])).
Proof. exact config_ok. Qed.
Print Assumptions C127_lines.

Example C127_ex : let ls := [(str "#x=1", false); (str "MainDir=/a", true); (str "  ", true); ([], false)] in let last := str "DestDir=/b c" in
  Forall (fun p => line_ok (fst p)) ls /\ line_ok last /\ filter says (map fst ls ++ [last]) = [str "MainDir=/a"; str "DestDir=/b c"] /\
  ox_value (ox_load (file_of ls last) []) "DestDir" = Some (str "/b c").
Proof.
  cbv zeta. assert (L : forall s, existsb (Z.eqb 10) s || existsb (Z.eqb 0) s || existsb (Z.eqb 13) s = false -> line_ok s).
  { intros s H. rewrite !orb_false_iff in H. destruct H as ((A & B) & C).
    assert (N : forall c, existsb (Z.eqb c) s = false -> ~ In c s) by (intros c Q X; assert (T : existsb (Z.eqb c) s = true) by (apply existsb_exists; exists c; split; [exact X|apply Z.eqb_refl]); congruence).
    repeat split; [apply N, A|apply N, B|]. intros a ->. apply (N 13 C). apply in_or_app. right. left. reflexivity. }
  split; [repeat constructor; apply L; vm_compute; reflexivity|]. split; [apply L; vm_compute; reflexivity|]. vm_compute. split; reflexivity.
Qed.

(** A file with nothing but a line feed: the program does not end. *)
Theorem C127_hang_refuted : exists file, forall home f t, load_config_file home f t file = None.
Proof.
  exists [10]. intros home f t. unfold load_config_file. assert (E : file_lines f (length [10]) [10] = None); [|rewrite E; reflexivity].
  induction f as [|f IH]; [reflexivity|]. assert (Q : file_lines (S f) (length [10]) [10] = option_map (cons []) (file_lines f (length [10]) [10])) by reflexivity.
  rewrite Q, IH. reflexivity.
Qed.
Print Assumptions C127_hang_refuted.
(** A file of one line without line feed at its end loses the last character of the value. *)
Theorem C127_cut_refuted : exists file n v, sets file n v /\ line_ok file /\ valid_name (get [mkE n (Some []) None]) n /\ v = str "8080" /\
  load_config_file (fun v => v) 20 [mkE n (Some []) None] file = Some ([mkE n (Some (str "808")) (Some (str "808"))], [str "0"]).
Proof.
  exists (str "ControlPort=8080"), (str "ControlPort"), (str "8080"). split; [repeat split; try discriminate; vm_compute; intuition discriminate|].
  split; [split; [vm_compute; intuition discriminate|]; split; [vm_compute; intuition discriminate|]; intros a H; apply (f_equal (@rev Z)) in H; rewrite rev_app_distr in H; vm_compute in H; discriminate|].
  split; [|split; vm_compute; reflexivity]. split; [|left; vm_compute; discriminate]. intros (x & Hx & E). unfold fixed_names in Hx. cbn [In] in Hx.
  destruct Hx as [<-|[<-|[<-|[<-|[]]]]]; vm_compute in E; discriminate.
Qed.
Print Assumptions C127_cut_refuted.

(** ** C128: times and days of tasks *)

Theorem C128_times : forall sep ws ss ds, sep = 44 \/ sep = 59 -> Forall2 (fun w s => when_ok w /\ when_text w s) ws ss -> Forall days_ok ds ->
  exists bits, create_task (joined [sep] ss) (Some (joined [44] (map days_text ds))) =
    Some (map (fun p => (fst p, Some (snd p))) (flat_map when_times ws), bits, true) /\
  forall x, 1 <= x -> Z.testbit bits (x - 1) = true <-> exists d, In d ds /\ on_day d x.
Proof. exact task_ok. Qed.
Print Assumptions C128_times.
(** What is taken as a time lies in the day and is written with digits, colons, blanks and stars. *)
Theorem C128_sane s h m : parse_time s = Some (h, m) -> Forall time_char_ok s /\ (h = -1 \/ h = -2 \/ 0 <= h < 24) /\ (h <> -1 -> exists x, m = Some x /\ 0 <= x < 60).
Proof. exact (time_chars s h m). Qed.
Print Assumptions C128_sane.
Theorem C128_days s b : parse_week s = Some b -> Forall (fun c => 49 <= c <= 55 \/ c = 44 \/ c = 45 \/ c = 32) s.
Proof. exact (week_chars s 0 0 false b). Qed.
Print Assumptions C128_days.

(** Wrong days: no task at all, and an error. *)
Theorem C128_bad_days time d c : In c d -> ~ (49 <= c <= 55 \/ c = 44 \/ c = 45 \/ c = 32) -> create_task time (Some d) = Some ([], 0, false).
Proof.
  intros I1 N. unfold create_task. destruct (parse_week d) as [b|] eqn:E; [|reflexivity].
  apply C128_days in E. rewrite Forall_forall in E. destruct (N (E c I1)).
Qed.
Print Assumptions C128_bad_days.

Example C128_ex : Forall2 (fun w s => when_ok w /\ when_text w s) [WAt 7 30; WEvery 5] [str "07:30"; str "*:5"] /\ Forall days_ok [DRange 1 5; DDay 7] /\
  OptSpec.joined [44] (map days_text [DRange 1 5; DDay 7]) = str "1-5,7" /\ create_task (str "07:30") (Some (str "1-5,7")) = Some ([(7, Some 30)], 95, true) /\
  create_task (str "24:00") (Some (str "1-5,7")) = Some ([], 95, false) /\ create_task (str "12:00") (Some (str "8")) = Some ([], 0, false).
Proof.
  split; [|split; [repeat constructor; lia|vm_compute; repeat split]].
  constructor; [|constructor; [|constructor]].
  - split; [cbn; lia|]. exists (str "07"), (str "30"). split; [left; reflexivity|]. split; [left; reflexivity|reflexivity].
  - split; [cbn; lia|]. exists (str "5"). split; [right; split; [lia|reflexivity]|reflexivity].
Qed.
(** Incomplete times and days are taken. *)
Theorem C128_incomplete_refuted : exists t1 t2 d, parse_time t1 = Some (12, Some 0) /\ parse_time t2 = Some (0, Some 30) /\ parse_week d = Some 1 /\
  t1 = str "12:" /\ t2 = str ":30" /\ d = str "1-".
Proof. exists (str "12:"), (str ":30"), (str "1-"). vm_compute. repeat split. Qed.
Print Assumptions C128_incomplete_refuted.
(** The minute of a task at the start of the program is not set. *)
Theorem C128_minute_refuted : exists s bits, create_task s None = Some ([(-1, None)], bits, true).
Proof. exists (str "*"), 0. vm_compute. reflexivity. Qed.
Print Assumptions C128_minute_refuted.

(** ** C129: numbered definitions *)

Theorem C129_servers : forall k t fuel, (k < fuel)%nat ->
  (forall i, 1 <= i < 1 + Z.of_nat k -> present (get t) i = true) -> present (get t) (1 + Z.of_nat k) = false ->
  exists t' e l, definitions one_server fuel t 1 = Some (t', e, l) /\ map s_id l = filter (whole (get t)) (numbers_from 1 k) /\
    Forall (server_of (get t)) l /\ (forall i, 1 <= i < 1 + Z.of_nat k -> whole (get t) i = false -> In (str "Server" ++ zdec i) e).
Proof. intros k t fuel Hk H1 H2. apply (servers_ok k t t 1 fuel); auto; lia. Qed.
Print Assumptions C129_servers.
(** The words of commands mean what they say. *)
Theorem C129_commands : forall w x, In (w, x) (w_names command_words) <-> In (w, x) command_meaning.
Proof. exact commands_meaning. Qed.
Print Assumptions C129_commands.
Theorem C129_tasks : forall t n tm v word x, get t (field "Task" n ".Time") = Some tm -> get t (field "Task" n ".Command") = Some v ->
  In (word, x) (w_names command_words) -> same v word ->
  exists t', (forall p, task_value (get t) n p -> x <> 4 \/ (exists y, numeral 10 p y /\ int32 y /\ 0 <= y) ->
      one_task t n = Some (Some (t', [], Some (mkT n x tm (get t (field "Task" n ".WeekDays")) (Some p))))) /\
    (forall p, task_value (get t) n p -> x = 4 -> ((exists y, numeral 10 p y /\ int32 y /\ y < 0) \/ (forall y, ~ numeral 10 p y)) ->
      one_task t n = Some (Some (t', [str "Task" ++ zdec n], None))) /\
    (no_task_value (get t) n -> needs_param x -> one_task t n = Some (Some (t', [str "Task" ++ zdec n], None))) /\
    (no_task_value (get t) n -> ~ needs_param x -> x <> 4 ->
      exists p, one_task t n = Some (Some (t', [], Some (mkT n x tm (get t (field "Task" n ".WeekDays")) p))) /\ ~ filled p).
Proof. exact tasks_ok. Qed.
Print Assumptions C129_tasks.

Definition ox_table (l : list (string * string)) : list entry := map (fun p => mkE (str (fst p)) (Some (str (snd p))) (Some (str (snd p)))) l.
Definition ox_servers : list entry := ox_table [("Server1.Host", "news.a.com"); ("server1.port", "563"); ("Server1.Connections", "8"); ("Server1.Encryption", "yes");
  ("Server2.Host", "news.b.com"); ("Server3.Host", "c"); ("Server3.Port", "119"); ("Server3.Connections", "2"); ("Server3.Active", "off"); ("Server5.Host", "e")]%string.
Example C129_ex : (forall i, 1 <= i < 1 + Z.of_nat 3 -> present (get ox_servers) i = true) /\ present (get ox_servers) (1 + Z.of_nat 3) = false /\
  filter (whole (get ox_servers)) (numbers_from 1 3) = [1; 3] /\
  match definitions one_server 10 ox_servers 1 with Some (_, e, l) => e = [str "Server2"] /\ map s_numbers l = [[563; 8; 0; 0; 0]; [119; 2; 0; 0; 0]] /\ map s_switches l = [[1; 0; 1; 0]; [0; 0; 0; 0]]
  | None => False end.
Proof. split; [intros i H; assert (C : i = 1 \/ i = 2 \/ i = 3) by lia; destruct C as [->|[->| ->]]; vm_compute; reflexivity|]. vm_compute. repeat split. Qed.
Definition ox_tasks : list entry := ox_table [("Task1.Time", "08:00"); ("Task1.Command", "Speed"); ("Task1.DownloadRate", "500"); ("Task2.Time", "*:00"); ("Task2.Command", "FetchFeed")]%string.
Example C129_commands_ex : In (str "unpausepost", 3) (w_names command_words) /\ In (str "unpausepost", 3) command_meaning.
Proof. split; vm_compute; tauto. Qed.
Example C129_tasks_ex : get ox_tasks (field "Task" 1 ".Time") = Some (str "08:00") /\ In (str "speed", 4) (w_names command_words) /\ task_value (get ox_tasks) 1 (str "500") /\ no_task_value (get ox_tasks) 2 /\
  match definitions one_task 10 ox_tasks 1 with Some (_, e, l) => e = [str "Task2"] /\ l = [mkT 1 4 (str "08:00") None (Some (str "500"))] | None => False end.
Proof.
  split; [vm_compute; reflexivity|]. split; [vm_compute; tauto|]. split.
  - split; [discriminate|]. right. split; [intros (c & r & H); vm_compute in H; discriminate|]. right. split; [intros (c & r & H); vm_compute in H; discriminate|vm_compute; reflexivity].
  - split; [repeat split; intros (c & r & H); vm_compute in H; discriminate|]. vm_compute. repeat split.
Qed.

(** A task with an unknown command pauses the downloads. *)
Theorem C129_command_refuted : exists t, get t (str "Task1.Command") = Some (str "unpuase") /\
  match definitions one_task 10 t 1 with Some (_, e, l) => e = [str "Task1.Command"] /\ l = [mkT 1 0 (str "08:00") None None] | None => False end.
Proof. exists (ox_table [("Task1.Time", "08:00"); ("Task1.Command", "unpuase")]%string). vm_compute. repeat split. Qed.
Print Assumptions C129_command_refuted.
(** A definition with nothing but an IP version is none: nobody is told, and the servers behind it are lost. *)
Theorem C129_ip_refuted : exists t, get t (str "Server1.IpVersion") = Some (str "ipv4") /\ whole (get t) 2 = true /\
  match definitions one_server 10 t 1 with Some (_, e, l) => e = [] /\ l = [] | None => False end.
Proof. exists (ox_table [("Server1.IpVersion", "ipv4"); ("Server2.Host", "b"); ("Server2.Port", "119"); ("Server2.Connections", "2")]%string). vm_compute. repeat split. Qed.
Print Assumptions C129_ip_refuted.

(** ** C130: old options *)

Theorem C130_names o w n v : In (o, w) old_names -> same n (str o) -> convert_old (n, v) = (str w, v).
Proof. exact (rename_one o w n v). Qed.
Print Assumptions C130_names.
Theorem C130_values m o w n v : In (m, o, w) old_values -> same n (str m) -> same v (str o) -> convert_old (n, v) = (n, str w).
Proof. exact (revalue_one m o w n v). Qed.
Print Assumptions C130_values.
Theorem C130_ends : forall p e w ds v, In (p, e, w) old_ends -> Forall digit ds -> convert_old (str p ++ ds ++ str e, v) = (str p ++ ds ++ str w, v).
Proof. exact ends_ok. Qed.
Print Assumptions C130_ends.
Theorem C130_decode n v : same n (str "Decode") -> convert_old (n, v) = (str "RawArticle", if sameb v (str "no") then str "yes" else str "no").
Proof. exact (decode_one n v). Qed.
Print Assumptions C130_decode.
Theorem C130_buffer n v x : same n (str "WriteBufferSize") -> numeral 10 v x -> int32 x ->
  convert_old (n, v) = (str "WriteBuffer", zdec (if x =? -1 then 1024 else Z.quot x 1024)).
Proof. exact (buffer_one n v x). Qed.
Print Assumptions C130_buffer.
Theorem C130_modern n v : modern n v -> convert_old (n, v) = (n, v).
Proof. exact (modern_same n v). Qed.
Print Assumptions C130_modern.
Theorem C130_scripts : forall t, exists t', convert_options t = Some t' /\
  (forall m, ~ same m (str "Extensions") -> ~ category_extensions m -> get t' m = get t m) /\
  (exists r, value_of (get t' (str "Extensions")) = value_of (get t (str "Extensions")) ++ r) /\
  (forall s, script_known (value_of (get t' (str "Extensions"))) s <-> script_known (value_of (get t (str "Extensions"))) s \/
     exists n, In n scripts_before /\ script_known (value_of (get t (str n))) s) /\
  (forall m, category_extensions m -> (exists r, value_of (get t' m) = value_of (get t m) ++ r) /\ (value_of (get t m) = [] -> value_of (get t' m) = []) /\
     (value_of (get t m) <> [] -> forall s, script_known (value_of (get t' m)) s <-> script_known (value_of (get t m)) s \/
       script_known (value_of (get t (str "ScanScript"))) s \/ script_known (value_of (get t (str "QueueScript"))) s)).
Proof. exact scripts_merged. Qed.
Print Assumptions C130_scripts.

Example C130_ex : convert_old (str "postSCRIPT", str "a.py") = (str "Extensions", str "a.py") /\ convert_old (str "Category12.DefScript", str "a") = (str "Category12.Extensions", str "a") /\
  convert_old (str "ParCheck", str "NO") = (str "ParCheck", str "auto") /\ convert_old (str "WriteBufferSize", str "4096") = (str "WriteBuffer", str "4") /\
  option_map (fun t => map (fun n => get t (str n)) ["Extensions"; "Category1.Extensions"; "Category2.Extensions"]%string)
    (convert_options (ox_table [("ScanScript", "a; b"); ("Extensions", "B"); ("FeedScript", "c"); ("Category1.Extensions", "x"); ("Category2.Extensions", "")]%string)) =
  Some [Some (str "B,a,c"); Some (str "x,a,b"); Some []].
Proof. vm_compute. repeat split. Qed.
(** In another letter case the old names of categories are taken as old but not renamed. *)
Theorem C130_case_refuted : exists n v, same n (str "Category1.DefScript") /\ convert_old (n, v) = (n, v) /\ ~ valid_name (fun _ => None) n.
Proof.
  exists (str "category1.defscript"), (str "a"). split; [vm_compute; reflexivity|]. split; [vm_compute; reflexivity|].
  intros V. assert (T : validate true [] (str "category1.defscript") [] = Some (false, [])) by (vm_compute; reflexivity).
  destruct (validate_ok [] (str "category1.defscript") []) as (ok & errs & E & H & _). rewrite T in E. injection E as <- _.
  apply H in V. discriminate.
Qed.
Print Assumptions C130_case_refuted.

(** ** C131: categories *)

Theorem C131_category : forall l n aliases i, ~ In 0 n ->
  find_category l n aliases = Some i <->
  first_that (fun c => same (c_name c) n) l i \/
  (aliases = true /\ (forall c, In c l -> ~ same (c_name c) n) /\ first_that (fun c => exists a, In a (c_aliases c) /\ glob wild_char a n) l i).
Proof. exact category_ok. Qed.
Print Assumptions C131_category.
Example C131_ex : let l := [mkC (str "Movies") [str "film*"; str "*hd"]; mkC (str "FilmHD") []; mkC (str "TV") [str "*"]] in
  find_category l (str "filmhd") true = Some 1%nat /\ find_category l (str "Films") true = Some 0%nat /\ find_category l (str "other") true = Some 2%nat /\
  find_category l (str "other") false = None.
Proof. vm_compute. repeat split. Qed.

(** ** C132: the configuration file in the web interface *)

Theorem C132_saved : forall l ls f, Forall setting_ok l -> Forall (fun p => line_ok (fst p)) ls -> (length (file_of ls []) < f)%nat ->
  exists ls', save_config l (file_of ls []) f = Some (file_of ls' []) /\ Forall (fun p => line_ok (fst p)) ls' /\ filter remark ls' = filter remark ls /\
  forall g, (length (file_of ls' []) < g)%nat -> exists l', ui_load g (file_of ls' []) = Some l' /\ forall o, In o l' <-> In o l.
Proof. exact save_ok. Qed.
Print Assumptions C132_saved.

Definition ox_set : list (list Z * list Z) := [(str "MainDir", str "/new"); (str "a:b", str "x=y"); (str "DestDir", [])].
Example C132_ex : Forall setting_ok ox_set /\
  save_config ox_set (str "# dirs" ++ lf ++ str "maindir=/old" ++ lf ++ str "Gone=1" ++ [13] ++ lf ++ lf ++ str "#x=1" ++ [13] ++ lf) 100 =
    Some (str "# dirs" ++ lf ++ str "MainDir=/new" ++ lf ++ lf ++ str "#x=1" ++ [13] ++ lf ++ str "a:b=x=y" ++ lf ++ str "DestDir=" ++ lf) /\
  ui_load 100 (str "# dirs" ++ lf ++ str "MainDir=/new" ++ lf ++ lf ++ str "#x=1" ++ [13] ++ lf ++ str "a:b=x=y" ++ lf ++ str "DestDir=" ++ lf) = Some ox_set.
Proof.
  split; [|split; vm_compute; reflexivity].
  assert (K : forall n v, (forallb (fun c => negb (c =? 10) && negb (c =? 0)) (n ++ v) && negb (existsb (Z.eqb 61) n) && negb (match n with [] => true | c :: _ => c =? 35 end) &&
    match rev v with [] => true | c :: _ => negb (is_blank c) end) = true -> modern n v -> setting_ok (n, v)).
  { intros n v H M. rewrite !andb_true_iff in H. destruct H as (((A & B) & C) & D). unfold setting_ok. split; [|split; [|split; [|split; [|split]]]].
    - intros ->. discriminate.
    - intros X. apply negb_true_iff in B. assert (T : existsb (Z.eqb 61) n = true) by (apply existsb_exists; exists 61; split; [exact X|reflexivity]). congruence.
    - intros r ->. discriminate.
    - apply Forall_forall. intros c Hc. rewrite forallb_forall in A. specialize (A c Hc). lia.
    - intros a c -> Hb. rewrite rev_app_distr in D. cbn [rev app] in D. apply blank_is in Hb. rewrite Hb in D. discriminate.
    - exact M. }
  unfold ox_set. apply Forall_cons; [|apply Forall_cons; [|apply Forall_cons; [|apply Forall_nil]]]; (apply K; [vm_compute; reflexivity|apply ox_modern; vm_compute; reflexivity]).
Qed.

(** A last line without line feed swallows the first new setting. *)
Theorem C132_glued_refuted : exists l file file', Forall setting_ok l /\ save_config l file 100 = Some file' /\ ui_load 100 file' = Some [] /\ l <> [].
Proof.
  exists [(str "MainDir", str "/new")], (str "# end"), (str "# endMainDir=/new" ++ lf). split; [|split; [vm_compute; reflexivity|split; [vm_compute; reflexivity|discriminate]]].
  constructor; [|constructor]. unfold setting_ok. split; [discriminate|]. split; [vm_compute; intuition discriminate|]. split; [intros r H; vm_compute in H; discriminate|].
  split; [apply Forall_forall; intros c Hc; vm_compute in Hc; lia|]. split; [|apply ox_modern; vm_compute; reflexivity].
  intros a c H Hb. apply (f_equal (@rev Z)) in H. rewrite rev_app_distr in H. vm_compute in H. injection H as <- _. unfold blank in Hb. lia.
Qed.
Print Assumptions C132_glued_refuted.
(** A value with a line feed in it sets another option. *)
Theorem C132_inject_refuted : exists n v file', save_config [(n, v)] [] 100 = Some file' /\ n = str "Category1.Name" /\
  ui_load 100 file' = Some [(n, str "tv"); (str "ControlPassword", [])].
Proof. exists (str "Category1.Name"), (str "tv" ++ lf ++ str "ControlPassword="). eexists. split; [vm_compute; reflexivity|]. split; vm_compute; reflexivity. Qed.
Print Assumptions C132_inject_refuted.
(** Blanks at the end of a value are lost. *)
Theorem C132_blanks_refuted : exists n v file', save_config [(n, v ++ [32])] [] 100 = Some file' /\ ui_load 100 file' = Some [(n, v)].
Proof. exists (str "ControlPassword"), (str "secret"). eexists. split; [vm_compute; reflexivity|vm_compute; reflexivity]. Qed.
Print Assumptions C132_blanks_refuted.

(** ** C133: restricted users *)

Theorem C133_restricted : forall n, Z.of_nat (length n) <= 1023 -> restricted n = true <-> secret n.
Proof. exact restricted_ok. Qed.
Print Assumptions C133_restricted.
Theorem C133_shown : forall n v, Z.of_nat (length n) <= 1023 -> (secret n -> shown false n v = str "***") /\ (~ secret n -> shown false n v = v) /\ shown true n v = v.
Proof.
  intros n v L. unfold shown. destruct (restricted n) eqn:R; cbn [negb andb].
  - apply restricted_ok in R; [|exact L]. repeat split; auto. intros N. contradiction.
  - assert (N : ~ secret n) by (intros X; apply restricted_ok in X; [congruence|exact L]). repeat split; auto. intros X. contradiction.
Qed.
Print Assumptions C133_shown.
Example C133_ex : secret (str "Server1.PassWord") /\ shown false (str "Server1.PassWord") (str "x") = str "***" /\ shown false (str "controlip") (str "x") = str "***" /\
  shown false (str "email:to") (str "x") = str "***" /\ shown false (str "DestDir") (str "x") = str "x" /\ shown true (str "Server1.PassWord") (str "x") = str "x".
Proof. split; [right; right; right; exists (str "Server1."), (str "PassWord"), []; split; vm_compute; reflexivity|]. vm_compute. repeat split. Qed.
(** The password behind a name of more than 1023 characters is shown. *)
Theorem C133_long_refuted : exists n v, secret n /\ v <> str "***" /\ shown false n v = v.
Proof.
  exists (repeat 120 (Z.to_nat 1020) ++ str "password"), (str "x"). split; [right; right; right; exists (repeat 120 (Z.to_nat 1020)), (str "password"), []; split; [rewrite app_nil_r; reflexivity|reflexivity]|].
  split; [discriminate|vm_compute; reflexivity].
Qed.
Print Assumptions C133_long_refuted.
