(** What scripts say and are told: commands of post-processing scripts and scan-scripts, parameters of new downloads, environment, arguments. *)
From Coq Require Import String.
From Verif Require Import Base NumFmt WildModel WildSpec CodecModel NameModel InfoModel WebModel OptModel QScrModel QScrSpec ScrModel ScrSpec.
From Verif Require Import ScrProofs ScrProofs2 ScrProofs3.
From Verif Require InfoProofs.
Open Scope list_scope. Open Scope Z_scope.

Ltac fits := unfold fitting, named_well; repeat match goal with |- Forall _ (_ :: _) => apply Forall_cons | |- Forall _ [] => apply Forall_nil | |- _ /\ _ => split | |- ~ In _ _ => cbn; lia
  | |- (_ <= _)%nat => apply Nat.leb_le; vm_compute; reflexivity end.

(** ** C158: the commands a post-processing script prints take effect, and only these *)

Theorem C158_commands : forall f name disp ls x, quiet name disp -> fitting disp ls ->
  exists y, run_post (S (S f)) name disp (written ls) x = Fine y /\ heard (post_effect name disp) ls x y.
Proof. exact run_post_ok. Qed.
Print Assumptions C158_commands.
Theorem C158_determined : forall f name disp ls x y z, quiet name disp -> fitting disp ls ->
  run_post (S (S f)) name disp (written ls) x = Fine y -> heard (post_effect name disp) ls x z -> y = z.
Proof. exact run_post_unique. Qed.
Print Assumptions C158_determined.

Definition x_start : pstate := PState [] (str "/dst/show") [] false [].
Definition x_out : list (list Z) := [str "[INFO] hello  "; []; str "[NZB] FINALDIR=/tv/show"; str "[NZB] NZBPR_a=b=c"; str "[NZB] MARK=BAD"; str "[NZB] NZBPR_a"; str "[ERROR] no"].
Example C158_example : quiet (str "a show") (str "Move") /\ fitting (str "Move") x_out /\
  run_post 2 (str "a show") (str "Move") (written x_out) x_start =
    Fine (PState (str "/tv/show") (str "/dst/show") [(str "a", str "b=c")] true
      [Said KInfo (str "Move: hello"); Said KWarning (str "Marking a show as bad"); Invalid (str "[NZB] NZBPR_a"); Said KError (str "Move: no")]).
Proof.
  split; [|split; [|vm_compute; reflexivity]].
  - split; [apply Nat.leb_le; vm_compute; reflexivity|]. split; [apply Nat.leb_le; vm_compute; reflexivity|]. intros (a & b & Q). assert (I : In 91 (mark_message (str "a show"))) by (rewrite Q; apply in_or_app; right; left; reflexivity).
    cbn in I. lia.
  - unfold x_out; fits.
Qed.

(** The name of a download can act as a command: the message about the mark is examined like the output of the script. *)
Theorem C158_injected_refuted : exists name disp ls y, fitting disp ls /\ run_post 2 name disp (written ls) x_start = Fine y /\
  Forall (fun l => forall k m, speaks l k m -> forall d, m <> str "[NZB] DIRECTORY=" ++ d) ls /\ p_dest y <> p_dest x_start.
Proof.
  exists (str "[NZB] DIRECTORY=/"), (str "Sorter"), [str "[NZB] MARK=BAD"]. eexists. split; [fits|]. split; [vm_compute; reflexivity|]. split; [|discriminate].
  constructor; [|constructor]. intros k m Sp d ->. assert (K : speaks (str "[NZB] MARK=BAD") KInfo (str "[NZB] MARK=BAD")) by exact (process_ok (str "[NZB] MARK=BAD")).
  destruct (speaks_unique _ _ _ _ _ Sp K) as (_ & Q). discriminate Q.
Qed.
Print Assumptions C158_injected_refuted.
(** With such a name the program calls itself until the stack overflows. *)
Lemma endless_message skip text : skip = 8%nat -> text = str "Sorter: [NZB] MARK=BAD" \/ text = str "Marking [NZB] MARK=BAD as bad" -> forall fuel k x, post_message fuel (str "[NZB] MARK=BAD") skip k text x = Endless.
Proof.
  intros -> H fuel. revert text H. induction fuel as [|f IH]; intros text H k x; [reflexivity|].
  assert (E : post_message (S f) (str "[NZB] MARK=BAD") 8 k text x = match post_message f (str "[NZB] MARK=BAD") 8 KWarning (str "Marking [NZB] MARK=BAD as bad") x with
    | Fine y => Fine (PState (p_final y) (p_dest y) (p_params y) true (p_log y)) | r => r end).
  { cbn [post_message]. replace (message None (str "Marking " ++ str "[NZB] MARK=BAD" ++ str " as bad")) with (str "Marking [NZB] MARK=BAD as bad") by (vm_compute; reflexivity).
    destruct H as [-> | ->]; reflexivity. }
  rewrite E, IH; [reflexivity|right; reflexivity].
Qed.
Theorem C158_endless_refuted : exists name disp ls x, fitting disp ls /\ forall fuel, run_post fuel name disp (written ls) x = Endless.
Proof.
  exists (str "[NZB] MARK=BAD"), (str "Sorter"), [str "[NZB] MARK=BAD"], x_start. split; [fits|].
  intros fuel. unfold run_post. replace (output (written [str "[NZB] MARK=BAD"])) with [str "[NZB] MARK=BAD" ++ [10]] by (vm_compute; reflexivity). cbn [post_lines].
  replace (process_output (str "[NZB] MARK=BAD" ++ [10])) with (Some (KInfo, str "[NZB] MARK=BAD")) by (vm_compute; reflexivity).
  replace (message (Some (str "Sorter")) (str "[NZB] MARK=BAD")) with (str "Sorter: [NZB] MARK=BAD") by (vm_compute; reflexivity).
  rewrite endless_message; auto.
Qed.
Print Assumptions C158_endless_refuted.
(** With a display name longer than the message memory behind the text is read. *)
Theorem C158_undefined_refuted : exists name disp ls x, fitting disp ls /\ run_post 2 name disp (written ls) x = Undefined.
Proof.
  exists (str "a"), (str "Sort the files of shows"), [str "[NZB] MARK=BAD"], x_start. split; [fits|]. vm_compute. reflexivity.
Qed.
Print Assumptions C158_undefined_refuted.
(** The values of commands are cut without a message. *)
Theorem C158_cut_refuted : exists name disp d y, quiet name disp /\ ~ In 10 d /\ ~ In 0 d /\
  run_post 2 name disp (written [str "[NZB] FINALDIR=" ++ d]) x_start = Fine y /\ p_final y <> d /\ p_log y = [].
Proof.
  exists (str "a show"), (str "Move"), (repeat 97 (Z.to_nat 1100)). eexists. split.
  - split; [apply Nat.leb_le; vm_compute; reflexivity|]. split; [apply Nat.leb_le; vm_compute; reflexivity|]. intros (a & b & Q). assert (I : In 91 (mark_message (str "a show"))) by (rewrite Q; apply in_or_app; right; left; reflexivity). cbn in I. lia.
  - split; [intros I; apply repeat_spec in I; discriminate I|]. split; [intros I; apply repeat_spec in I; discriminate I|]. split; [vm_compute; reflexivity|]. split; [|reflexivity].
    intros Q. apply (f_equal (@length Z)) in Q. vm_compute in Q. discriminate Q.
Qed.
Print Assumptions C158_cut_refuted.

(** The scripts executed: those assigned to the download, in the order of all scripts. *)
Theorem C158_assigned : forall names params, (forall n, assigned params n -> plain_name n) ->
  exists l, script_list names (assigned_list params) = filter (fun n => existsb (fun t => beqb t n) l) names /\ forall n, In n l <-> assigned params n.
Proof. exact script_list_ok. Qed.
Print Assumptions C158_assigned.
Example C158_assigned_example : script_list [str "A.sh"; str "B.sh"; str "C.sh"] (assigned_list [(str "C.sh:", str "yes"); (str "B.sh:", str "no"); (str "*Unpack:", str "yes"); (str "A.sh:", str "On")]) = [str "A.sh"; str "C.sh"].
Proof. vm_compute. reflexivity. Qed.
(** A script with a comma in its name is assigned and not executed. *)
Theorem C158_comma_refuted : exists names params n, In n names /\ assigned params n /\ ~ In n (script_list names (assigned_list params)).
Proof.
  exists [str "a,b.sh"], [(str "a,b.sh:", str "yes")], (str "a,b.sh"). split; [left; reflexivity|]. split.
  - exists (str "yes"). split; [left; reflexivity|]. split; [discriminate|left; reflexivity].
  - vm_compute. tauto.
Qed.
Print Assumptions C158_comma_refuted.

(** ** C159: scan-scripts change what they ask for; new downloads get the parameters of their category *)

Theorem C159_commands : forall g scripts file l skip x, scan_fits file skip l ->
  exists y, run_scan g scripts file skip (map (fun e => (fst e, written (snd e))) l) x = Fine y /\ scanned g scripts file l x y.
Proof. exact run_scan_ok. Qed.
Print Assumptions C159_commands.
Theorem C159_parameters : forall g scripts cat params n, NoDup (InfoProofs.keys params) -> Forall (fun s : pscript => (length (fst s) <= Z.to_nat 1000)%nat) scripts ->
  match find_parameter params n with
  | Some v => find_parameter (init_params g scripts cat false params) n = Some v
  | None => forall v, find_parameter (init_params g scripts cat false params) n = Some v <-> default_value g scripts cat n v
  end.
Proof. exact init_ok. Qed.
Print Assumptions C159_parameters.
Theorem C159_category : forall g scripts cat params n, NoDup (InfoProofs.keys params) -> Forall (fun s : pscript => (length (fst s) <= Z.to_nat 1000)%nat) scripts ->
  (of_script scripts n \/ find_parameter params n = None -> forall v, find_parameter (init_params g scripts cat true params) n = Some v <-> default_value g scripts cat n v) /\
  (~ of_script scripts n -> forall v, find_parameter params n = Some v -> find_parameter (init_params g scripts cat true params) n = Some v).
Proof. exact category_ok. Qed.
Print Assumptions C159_category.

Definition x_cats : icfg := ICfg true (str "A.sh, B.sh") [(mkC (str "TV") [], (false, [])); (mkC (str "Raw") [], (false, str "B.sh"))].
Definition x_scripts : list pscript := [(str "A.sh", true); (str "B.sh", true); (str "S.sh", false)].
Definition x_new : sstate := SState (str "n") (str "tv") (init_params x_cats x_scripts (str "tv") false [(str "B.sh:", str "no")]) 0 false false [] 0 0 [].
Definition x_scan : list (list Z * list Z * list (list Z)) :=
  [(str "S.sh", str "S", [str "[NZB] CATEGORY=Raw"; str "[NZB] PRIORITY=50"; str "[NZB] DUPEMODE=Force"; str "[NZB] NZBPR_x=1"])].
Example C159_example : a_params x_new = [(str "B.sh:", str "no"); (str "*Unpack:", str "no"); (str "A.sh:", str "yes")] /\ scan_fits (str "n.nzb") 0 x_scan /\
  run_scan x_cats x_scripts (str "n.nzb") 0 (map (fun e => (fst e, written (snd e))) x_scan) x_new =
    Fine (SState (str "n") (str "Raw") [(str "*Unpack:", str "no"); (str "B.sh:", str "yes"); (str "x", str "1")] 50 false false [] 0 2 [Said KInfo (str "Executing scan-script S.sh for n.nzb")]).
Proof.
  split; [vm_compute; reflexivity|]. split; [|vm_compute; reflexivity]. cbn [scan_fits x_scan]. split; [|split; [|exact Logic.I]].
  - split; [apply Nat.leb_le; vm_compute; reflexivity|]. split; [lia|]. intros (a & b & Q). assert (I : In 91 (start_message (str "S.sh") (str "n.nzb"))) by (rewrite Q; apply in_or_app; right; left; reflexivity). cbn in I. lia.
  - fits.
Qed.
(** A category given by a scan-script: the download keeps the choice about unpacking of the category before. *)
Theorem C159_unpack_refuted : exists g scripts old new v, let p := init_params g scripts old false [] in
  find_parameter (init_params g scripts new true p) (str "*Unpack:") = Some v /\ ~ default_value g scripts new (str "*Unpack:") v.
Proof.
  exists x_cats, x_scripts, [], (str "TV"), (str "yes"). cbv zeta. split; [vm_compute; reflexivity|]. intros D.
  assert (N : NoDup (InfoProofs.keys [])) by constructor. assert (F : Forall (fun s : pscript => (length (fst s) <= Z.to_nat 1000)%nat) x_scripts) by (unfold x_scripts; fits).
  pose proof (init_ok x_cats x_scripts (str "TV") [] (str "*Unpack:") N F) as R. cbn [find_parameter] in R. apply R in D. vm_compute in D. discriminate D.
Qed.
Print Assumptions C159_unpack_refuted.
(** The name of the file can act as a command: the message about the start of the second script is examined with the prefix of the first. *)
Theorem C159_injected_refuted : exists file l y, Forall (fun e => fitting (snd (fst e)) (snd e)) l /\ Forall (fun e => snd e = []) l /\
  run_scan x_cats x_scripts file 0 (map (fun e => (fst e, written (snd e))) l) x_new = Fine y /\ a_name y <> a_name x_new.
Proof.
  exists (str "[NZB] NZBNAME=other"), [(str "S.sh", str "The name has 26 letters...", []); (str "2", str "2", [])]. eexists. split; [repeat constructor|]. split; [repeat constructor|].
  split; [vm_compute; reflexivity|]. discriminate.
Qed.
Print Assumptions C159_injected_refuted.

(** ** C160: the environment of a script *)

Theorem C160_environment : forall env own params options script n w, named_well own -> named_well params -> named_well options -> (length script <= Z.to_nat 1000)%nat -> ~ In 61 n ->
  In (set_env n w) (script_env env own params options script) <->
  (In (set_env n w) env /\ ~ ours (set_env n w)) \/ In (n, w) own \/ told (str "NZBPR") [] params n w \/ told (str "NZBPR") (script ++ [58]) params n w \/
  told (str "NZBPO") (script ++ [58]) options n w \/ told (str "NZBOP") [] options n w.
Proof. exact script_env_ok. Qed.
Print Assumptions C160_environment.
Example C160_example : script_env [str "HOME=/root"; str "NZBOP_X=1"; str "NZBX=1"] [(str "NZBNA_NAME", str "n")] [(str "S.sh:", str "yes"); (str "S.sh:x", str "2")] [(str "S.sh:Dir", str "/d"); (str "T", str "3")] (str "S.sh") =
  [str "HOME=/root"; str "NZBX=1"; str "NZBNA_NAME=n"; str "NZBPR_S.sh:=yes"; str "NZBPR_S_SH_=yes"; str "NZBPR_S.sh:x=2"; str "NZBPR_S_SH_X=2"; str "NZBPR_x=2"; str "NZBPR_X=2";
   str "NZBPO_Dir=/d"; str "NZBPO_DIR=/d"; str "NZBOP_S.sh:Dir=/d"; str "NZBOP_S_SH_DIR=/d"; str "NZBOP_T=3"].
Proof. vm_compute. reflexivity. Qed.
(** One variable with two values: names that differ in special characters only. *)
Theorem C160_ambiguous_refuted : exists options n v w, named_well options /\ NoDup (map fst options) /\ ~ In 61 n /\ v <> w /\
  In (set_env n v) (script_env [] [] [] options (str "S")) /\ In (set_env n w) (script_env [] [] [] options (str "S")).
Proof.
  exists [(str "S:a.b", str "1"); (str "S:a_b", str "2")], (str "NZBPO_A_B"), (str "1"), (str "2"). split; [fits|].
  split; [repeat constructor; cbn; intuition discriminate|]. split; [cbn; lia|]. split; [discriminate|]. vm_compute. tauto.
Qed.
Print Assumptions C160_ambiguous_refuted.

(** ** C161: the program configured for the extension executes the script *)

Theorem C161_override : forall shell path ext, extension path ext ->
  (forall c, overrides (entries shell) ext c -> prepare_args shell [path] = Fine [c; path]) /\ ((forall c, ~ overrides (entries shell) ext c) -> prepare_args shell [path] = Fine [path]).
Proof. exact prepare_ok. Qed.
Print Assumptions C161_override.
Example C161_example : extension (str "/s/a.b.PY") (str ".PY") /\ prepare_args (str ".sh=/bin/bash; .py=/usr/bin/python2, .py=python3") [str "/s/a.b.PY"] = Fine [str "/usr/bin/python2"; str "/s/a.b.PY"].
Proof. split; [|vm_compute; reflexivity]. exists (str "/s/a.b"), (str "PY"). split; [reflexivity|]. split; [reflexivity|cbn; lia]. Qed.
(** With several arguments nothing is changed. *)
Theorem C161_others : forall shell a b l, prepare_args shell (a :: b :: l) = Fine (a :: b :: l).
Proof. reflexivity. Qed.
Print Assumptions C161_others.
(** A script without a dot in its path: a null pointer is used. *)
Theorem C161_null_refuted : exists shell path, prepare_args shell [path] = Undefined.
Proof. exists (str ".py=/usr/bin/python2"), (str "/scripts/Notify"). vm_compute. reflexivity. Qed.
Print Assumptions C161_null_refuted.
