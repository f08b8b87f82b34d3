(** Properties of the command line. *)
From Coq Require Import String.
From Verif Require Import Base NumFmt WildModel ArgModel ArgSpec ArgSpec2 ArgProofs ArgProofs2 ArgProofs3 ArgProofs4 ArgProofs5.
Open Scope list_scope. Open Scope Z_scope.

(** ** C176: lists of ids *)
(** Ids and ranges, upwards or downwards, in one word or several: exactly these, in the order written. *)
Theorem C176_ids : forall pss ws, Forall2 listed pss ws -> Forall ids_ok (concat pss) -> exists ls, id_list ws = Some (concat ls) /\ Forall2 ids_mean (concat pss) ls.
Proof. exact id_list_ok. Qed.
Print Assumptions C176_ids.

(** One piece that is no id refuses the whole list. *)
Theorem C176_refuses : forall ws, Exists has_no_id ws -> id_list ws = None.
Proof. exact id_list_refused. Qed.
Print Assumptions C176_refuses.

Example C176_example : listed [Range 1 5; One 3; Range 22 20] (str "1-5, 3,22-20") /\ Forall ids_ok [Range 1 5; One 3; Range 22 20] /\
  id_list [str "1-5, 3,22-20"; str "7"] = Some [1; 2; 3; 4; 5; 3; 22; 21; 20; 7] /\ has_no_id (str "3,x,4") /\ id_list [str "3,x,4"] = None.
Proof.
  split; [|split; [|split; [|split]]].
  - change (listed [Range 1 5; One 3; Range 22 20] ([] ++ ids_text (Range 1 5) ++ 44 :: [32] ++ ids_text (One 3) ++ 44 :: [] ++ ids_text (Range 22 20))).
    apply l_cons; [constructor|left; reflexivity|]. apply l_cons; [constructor; [right; reflexivity|constructor]|left; reflexivity|]. apply l_one. constructor.
  - repeat (constructor; [cbn [ids_ok]; unfold id; lia|]). constructor.
  - vm_compute. reflexivity.
  - exists (str "3,"), (str "x"), (str ",4"). split; [reflexivity|]. split; [right; right; exists 120, []; repeat split; discriminate|]. split; [constructor; [intros [Q | Q]; discriminate Q|constructor]|].
    split; right; [exists (str "3"), 44|exists 44, (str "4")]; (split; [reflexivity|left; reflexivity]).
  - reflexivity.
Qed.

(** What stands behind a number is dropped: ids are taken from what is no list of ids. *)
Theorem C176_behind_refuted : exists a b, a = str "5x7" /\ b = str "1-2-900" /\ id_list [a] = Some [5] /\ id_list [b] = Some [1; 2].
Proof. exists (str "5x7"), (str "1-2-900"). repeat split; vm_compute; reflexivity. Qed.
Print Assumptions C176_behind_refuted.

(** ** C177: adding a file *)
(** The settings in any order and letter case, the last one counts where several contradict. *)
Theorem C177_append : forall cwd gs pws sw os ows f g, Forall2 given_words gs pws -> (sw = str "-A" \/ sw = str "--append") -> Forall2 aopt_words os ows -> file_word f -> full_name cwd f g ->
  exists s, parse cwd (concat pws ++ sw :: concat ows ++ [f]) = Parsed s /\ c_op s = RequestDownload /\ c_file s = Some g /\ added_is os (c_add s) /\ settings gs s.
Proof. exact append_parse. Qed.
Print Assumptions C177_append.

(** Without a file, with a setting that lacks its value or with an unknown mode for duplicates nothing is added. *)
Theorem C177_refuses : forall cwd gs pws sw os ows rest, Forall2 given_words gs pws -> (sw = str "-A" \/ sw = str "--append") -> Forall2 aopt_words os ows -> append_wrong rest ->
  parse cwd (concat pws ++ sw :: concat ows ++ rest) = Wrong.
Proof. exact append_refused. Qed.
Print Assumptions C177_refuses.

Example C177_example : Forall2 given_words [GConfig (str "/etc/n.conf"); GOption (str "A=b")] [[str "-c"; str "/etc/n.conf"]; [str "--option"; str "A=b"]] /\
  Forall2 aopt_words [OTop; OPriority (-50); OCategory (str "tv"); OMode DForce] [[str "t"]; [str "I"; str "-50"]; [str "c"; str "tv"]; [str "dm"; str "Force"]] /\
  file_word (str "show.nzb") /\ full_name (str "/home/u") (str "show.nzb") (str "/home/u/show.nzb") /\
  match parse (str "/home/u") [str "-c"; str "/etc/n.conf"; str "-A"; str "t"; str "I"; str "-50"; str "show.nzb"] with
  | Parsed s => c_file s = Some (str "/home/u/show.nzb") /\ a_priority (c_add s) = -50 /\ c_config s = Some (str "/etc/n.conf")
  | _ => False
  end.
Proof.
  split; [|split; [|split; [|split]]].
  - constructor; [left; reflexivity|]. constructor; [right; reflexivity|]. constructor.
  - constructor; [exists (str "t"); split; reflexivity|]. constructor; [exists (str "I"); split; [reflexivity|split; [reflexivity|unfold int32; lia]]|].
    constructor; [exists (str "c"); split; reflexivity|]. constructor; [exists (str "dm"), (str "Force"); repeat split; reflexivity|]. constructor.
  - split; [intros r; discriminate|]. intros n I0. cbv [aopt_names In] in I0. repeat (destruct I0 as [<- | I0]; [discriminate|]). destruct I0.
  - right. repeat split; intros (a & r & Q & L); (destruct a as [|c a]; [discriminate L|]); injection Q as <- _; discriminate L.
  - vm_compute. repeat split; reflexivity.
Qed.

(** A file with the name of a setting is taken for the setting. *)
Theorem C177_word_refuted : exists f, no_switch f /\ f = str "t" /\ forall cwd, parse cwd [str "-A"; f] = Wrong.
Proof. exists (str "t"). split; [intros r; discriminate|]. split; [reflexivity|]. intros cwd. vm_compute. reflexivity. Qed.
Print Assumptions C177_word_refuted.

(** Of several files only the first is added, the others are not refused. *)
Theorem C177_several_refuted : exists a b s, a <> b /\ file_word a /\ file_word b /\ parse (str "/u") [str "-A"; a; b] = Parsed s /\ c_file s = Some a.
Proof.
  exists (str "/u/a.nzb"), (str "/u/b.nzb"). eexists. split; [discriminate|]. split; [|split; [|split; [vm_compute; reflexivity|reflexivity]]].
  all: split; [intros r; discriminate|]; intros n I0; cbv [aopt_names In] in I0; repeat (destruct I0 as [<- | I0]; [discriminate|]); destruct I0.
Qed.
Print Assumptions C177_several_refuted.

(** A setting behind the file: the file added is not the one named but the value of the setting. *)
Theorem C177_behind_refuted : exists f o s s', file_word f /\ f <> o /\ parse (str "/u") [str "-o"; o; str "-A"; f] = Parsed s /\ c_file s = Some f /\
  parse (str "/u") [str "-A"; f; str "-o"; o] = Parsed s' /\ c_options s' = [o] /\ c_file s' = Some o.
Proof.
  exists (str "/u/show.nzb"), (str "/etc/nzbget"). eexists _, _. split; [|split; [discriminate|split; [vm_compute; reflexivity|split; [reflexivity|split; [vm_compute; reflexivity|split; reflexivity]]]]].
  split; [intros r; discriminate|]. intros n I0. cbv [aopt_names In] in I0. repeat (destruct I0 as [<- | I0]; [discriminate|]). destruct I0.
Qed.
Print Assumptions C177_behind_refuted.

(** ** C178: editing *)
(** Every command of the help text, in any letter case, asks for its action, with its value, for the items given. *)
Theorem C178_edit : forall cwd gs pws sw sc m sws name act k w vws t fs, Forall2 given_words gs pws -> (sw = str "-E" \/ sw = str "--edit") -> scope_words sc m sws ->
  In (sc, name, act, k) commands -> like w (str name) -> value_words k vws t -> items_ok m fs ->
  exists s, parse cwd (concat pws ++ sw :: sws ++ w :: vws ++ fs) = Parsed s /\ c_op s = RequestEditQueue /\ c_action s = act /\ c_mode s = m /\ c_text s = t /\ items m fs s /\ settings gs s.
Proof. exact edit_parse. Qed.
Print Assumptions C178_edit.

Theorem C178_move : forall cwd gs pws sw sc m sws z w fs, Forall2 given_words gs pws -> (sw = str "-E" \/ sw = str "--edit") -> (sc = SFile \/ sc = SGroup) -> scope_words sc m sws ->
  offset_word z w -> items_ok m fs ->
  exists s, parse cwd (concat pws ++ sw :: sws ++ w :: fs) = Parsed s /\ c_op s = RequestEditQueue /\ c_action s = move_of sc /\ c_offset s = z /\ c_mode s = m /\ items m fs s /\ settings gs s.
Proof. exact move_parse. Qed.
Print Assumptions C178_move.

(** Setting category, name, priority or a parameter, and merging, are refused for files. *)
Theorem C178_group_only : forall cwd gs pws sw m sws name w rest, Forall2 given_words gs pws -> (sw = str "-E" \/ sw = str "--edit") -> scope_words SFile m sws ->
  In name group_only -> like w (str name) -> (sws = [] -> name <> "O"%string) -> parse cwd (concat pws ++ sw :: sws ++ w :: rest) = Wrong.
Proof. exact group_only_refused. Qed.
Print Assumptions C178_group_only.

Theorem C178_unknown : forall cwd gs pws sw sc m sws w rest, Forall2 given_words gs pws -> (sw = str "-E" \/ sw = str "--edit") -> scope_words sc m sws -> unknown w ->
  parse cwd (concat pws ++ sw :: sws ++ w :: rest) = Wrong.
Proof. exact unknown_refused. Qed.
Print Assumptions C178_unknown.

(** A command without its value is refused. *)
Theorem C178_missing : forall cwd gs pws sw sc m sws name act k w, Forall2 given_words gs pws -> (sw = str "-E" \/ sw = str "--edit") -> scope_words sc m sws ->
  In (sc, name, act, k) commands -> like w (str name) -> k <> VNone -> parse cwd (concat pws ++ sw :: sws ++ [w]) = Wrong.
Proof. exact missing_refused. Qed.
Print Assumptions C178_missing.

Theorem C178_no_id : forall cwd gs pws sw sc sws name act k w vws t fs, Forall2 given_words gs pws -> (sw = str "-E" \/ sw = str "--edit") -> scope_words sc MId sws ->
  In (sc, name, act, k) commands -> like w (str name) -> value_words k vws t -> Forall no_switch fs -> Exists has_no_id fs -> parse cwd (concat pws ++ sw :: sws ++ w :: vws ++ fs) = Wrong.
Proof. exact bad_ids_refused. Qed.
Print Assumptions C178_no_id.

(** A parameter without "=". *)
Theorem C178_param : forall cwd gs pws sw sc m sws name act w v rest, Forall2 given_words gs pws -> (sw = str "-E" \/ sw = str "--edit") -> scope_words sc m sws ->
  In (sc, name, act, VParam) commands -> like w (str name) -> ~ In 61 v -> parse cwd (concat pws ++ sw :: sws ++ w :: v :: rest) = Wrong.
Proof. exact param_refused. Qed.
Print Assumptions C178_param.

Example C178_example : scope_words SGroup MId [str "g"] /\ scope_words SFile MId [] /\ In (SGroup, "CP"%string, GroupApplyCategory, VText) commands /\ value_words VText [str "tv"] (Some (str "tv")) /\
  items_ok MId [str "3"] /\ items_ok MName [str "My show"] /\ offset_word 5 (str "+5") /\ offset_word (-5) (str "-5") /\ unknown (str "X") /\
  match parse [] [str "-E"; str "g"; str "cp"; str "tv"; str "3-4"] with
  | Parsed s => c_action s = GroupApplyCategory /\ c_text s = Some (str "tv") /\ c_ids s = [3; 4]
  | _ => False
  end.
Proof.
  split; [exists (str "g"); split; reflexivity|]. split; [left; reflexivity|]. split; [cbv [commands In]; tauto|]. split; [exists (str "tv"); split; reflexivity|].
  split; [exists [[One 3]]; split; [constructor; [change (str "3") with ([] ++ ids_text (One 3)); apply l_one; constructor|constructor]|constructor; [cbn [ids_ok]; unfold id; lia|constructor]]|].
  split; [constructor; [intros r; discriminate|constructor]|]. split; [split; [unfold int32; lia|split; [discriminate|right; split; [lia|reflexivity]]]|].
  split; [split; [unfold int32; lia|split; [discriminate|left; reflexivity]]|]. split.
  - split; [|split].
    + intros n I0. cbv [action_names commands map fst snd In] in I0. repeat (destruct I0 as [<- | I0]; [discriminate|]). destruct I0.
    + intros n I0. cbv [scope_names In] in I0. repeat (destruct I0 as [<- | I0]; [discriminate|]). destruct I0.
    + intros c r Q. injection Q as <- _. repeat split; discriminate.
  - vm_compute. repeat split; reflexivity.
Qed.

(** A setting behind the names: the command is for the value of the setting and not for the item named. *)
Theorem C178_behind_refuted : exists n c s s', n <> c /\ parse [] [str "-c"; c; str "-E"; str "GN"; str "D"; n] = Parsed s /\ c_names s = [n] /\
  parse [] [str "-E"; str "GN"; str "D"; n; str "-c"; c] = Parsed s' /\ c_action s' = GroupDelete /\ c_names s' = [c].
Proof.
  exists (str "My show"), (str "/etc/nzbget.conf"). eexists _, _. split; [discriminate|]. split; [vm_compute; reflexivity|]. split; [reflexivity|]. split; [vm_compute; reflexivity|]. split; reflexivity.
Qed.
Print Assumptions C178_behind_refuted.

(** Deleting with parking and sorting are for groups, splitting is for files: in the other scope they are not refused, the ids of files are taken for ids of groups and the
    other way round. *)
Theorem C178_scope_refuted : exists s1 s2 s3, parse [] [str "-E"; str "F"; str "DP"; str "5"] = Parsed s1 /\ c_action s1 = GroupParkDelete /\ c_ids s1 = [5] /\
  parse [] [str "-E"; str "SF"; str "5"] = Parsed s2 /\ c_action s2 = GroupSortFiles /\ c_ids s2 = [5] /\
  parse [] [str "-E"; str "G"; str "S"; str "New"; str "5"] = Parsed s3 /\ c_action s3 = FileSplit /\ c_ids s3 = [5].
Proof. eexists _, _, _. split; [vm_compute; reflexivity|]. split; [reflexivity|]. split; [reflexivity|]. split; [vm_compute; reflexivity|]. split; [reflexivity|]. split; [reflexivity|]. split; [vm_compute; reflexivity|]. split; reflexivity. Qed.
Print Assumptions C178_scope_refuted.

(** ** C179: the other commands *)
(** Every command without items asks for what the help text says. *)
Theorem C179_commands : forall cwd gs pws sw a b sub o ws, Forall2 given_words gs pws -> In (a, b, sub, o) simple -> is_of a b sw -> sub_words sub ws ->
  exists s, parse cwd (concat pws ++ sw :: ws) = Parsed s /\ c_op s = o /\ c_server s = false /\ settings gs s.
Proof. exact simple_parse. Qed.
Print Assumptions C179_commands.

(** Words that do not belong to them are refused. *)
Theorem C179_too_many : forall cwd gs pws sw a b n o w f fs, Forall2 given_words gs pws -> In (a, b, Some n, o) simple -> is_of a b sw -> like w (str n) -> Forall no_switch (f :: fs) ->
  parse cwd (concat pws ++ sw :: w :: f :: fs) = Wrong.
Proof. exact simple_too_many. Qed.
Print Assumptions C179_too_many.

Theorem C179_bare : forall cwd gs pws sw a b f fs, Forall2 given_words gs pws -> In (a, b) bare -> is_of a b sw -> Forall no_switch (f :: fs) -> parse cwd (concat pws ++ sw :: f :: fs) = Wrong.
Proof. exact bare_too_many. Qed.
Print Assumptions C179_bare.

Theorem C179_unknown : forall cwd gs pws sw a b ns w rest, Forall2 given_words gs pws -> In (a, b, ns) optional -> is_of a b sw -> no_switch w -> (forall n, In n ns -> ~ like w (str n)) ->
  parse cwd (concat pws ++ sw :: w :: rest) = Wrong.
Proof. exact optional_refused. Qed.
Print Assumptions C179_unknown.

(** With the switch for the server the pause is one of the server to be started. *)
Theorem C179_server : forall cwd gs pws sv pz ws, Forall2 given_words gs pws -> is_of "-s" "--server" sv \/ is_of "-D" "--daemon" sv -> is_of "-P" "--pause" pz -> ws = [sv; pz] \/ ws = [pz; sv] ->
  exists s, parse cwd (concat pws ++ ws) = Parsed s /\ c_op s = NoOperation /\ c_server s = true /\ c_pause s = true /\ settings gs s.
Proof. exact server_paused. Qed.
Print Assumptions C179_server.

Example C179_example : In ("-P"%string, "--pause"%string, Some "O"%string, RequestPostPause) simple /\ is_of "-P" "--pause" (str "--pause") /\ sub_words (Some "O"%string) [str "o"] /\
  In ("-S"%string, "--scan"%string, ["W"]%string) optional /\ no_switch (str "D") /\ ~ like (str "D") (str "W") /\ parse [] [str "-S"; str "D"] = Wrong /\
  match parse [] [str "--pause"; str "o"] with Parsed s => c_op s = RequestPostPause | _ => False end.
Proof.
  split; [cbv [simple In]; tauto|]. split; [right; reflexivity|]. split; [exists (str "o"); split; reflexivity|]. split; [cbv [optional In]; tauto|]. split; [intros r; discriminate|].
  split; [discriminate|]. split; vm_compute; reflexivity.
Qed.
