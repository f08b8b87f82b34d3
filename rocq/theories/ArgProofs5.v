(** Proofs about the command line: the commands without items. *)
From Coq Require Import String.
From Verif Require Import Base NumFmt WildModel WebModel RpProofs LineProofs ArgModel ArgSpec ArgSpec2 ArgProofs ArgProofs2 ArgProofs3 ArgProofs4.
Open Scope list_scope. Open Scope Z_scope.

Lemma like_plain w n : like w (str n) -> (exists x y, str n = x :: y /\ 65 <= x <= 90) -> prefixb (str "-") w = false.
Proof.
  intros L (x & y & Q & B). rewrite Q in L. destruct w as [|c w]; [reflexivity|]. unfold like in L. cbn [map] in L. injection L as L _. change (str "-") with [45]. cbn [prefixb].
  destruct (45 =? c) eqn:A; [|reflexivity]. exfalso. apply Z.eqb_eq in A. subst c. revert L. unfold lower. change ((65 <=? 45) && (45 <=? 90)) with false. destruct ((65 <=? x) && (x <=? 90)) eqn:A2; lia.
Qed.
Lemma plain_prefix w : no_switch w -> prefixb (str "-") w = false.
Proof. intros H. destruct w as [|c w]; [reflexivity|]. change (str "-") with [45]. cbn [prefixb]. destruct (45 =? c) eqn:A; [|reflexivity]. apply Z.eqb_eq in A. subst c. destruct (H w). reflexivity. Qed.
(** The switch [c] with the words [ws] asks for [o] and leaves the rest. *)
Definition asks (c : string) (ws : list (list Z)) (o : oper) : Prop := forall rest s, (ws = [] -> rest = []) -> switch (str c) (ws ++ rest) s = SGo (with_op o s) rest.
Lemma plain_asks c o : (forall rest s, switch (str c) rest s = SGo (with_op o s) rest) -> asks c [] o.
Proof. intros H rest s _. apply H. Qed.
Lemma simple_asks a b sub o sw ws : In (a, b, sub, o) simple -> is_of a b sw -> sub_words sub ws -> exists c, word_of c sw /\ asks c ws o.
Proof.
  intros I0 W H. cbv [simple In] in I0.
  repeat (destruct I0 as [I0 | I0]; [injection I0 as <- <- <- <-; cbn [sub_words] in H|]).
  all: try (destruct I0).
  1-4: exists "P"%string. 5-8: exists "U"%string. 9-15: exists "L"%string. 16-17: exists "S"%string. 18: exists "Q"%string. 19: exists "O"%string. 20: exists "V"%string.
  all: split; [destruct W as [-> | ->]; (split; [|split]; vm_compute; reflexivity)|].
  all: intros rest s R; match type of H with ex _ => destruct H as (w & -> & K) | _ => subst ws; try (specialize (R eq_refl); subst rest) end; cbn [app].
  all: try reflexivity.
  all: match goal with |- switch ?c (?w :: ?rest) ?s = _ => first
    [ change (switch c (w :: rest) s) with (of_step (pause_words true (w :: rest) s)) | change (switch c (w :: rest) s) with (of_step (pause_words false (w :: rest) s))
    | change (switch c (w :: rest) s) with (of_step (list_words (w :: rest) s)) | change (switch c (w :: rest) s) with (of_step (scan_words (w :: rest) s)) ] end.
  all: unfold pause_words, list_words, scan_words; match goal with K : like _ _ |- _ => rewrite (like_plain _ _ K) by (eexists _, _; split; [reflexivity|split; vm_compute; discriminate]); known K end; reflexivity.
Qed.
Lemma simple_op a b sub o : In (a, b, sub, o) simple -> o <> NoOperation /\ o <> RequestDownload /\ o <> RequestWriteLog /\ o <> RequestEditQueue.
Proof. intros I0. cbv [simple In] in I0. repeat (destruct I0 as [I0 | I0]; [injection I0 as <- <- <- <-; repeat split; discriminate|]). destruct I0. Qed.
Lemma simple_run gs pws sw a b sub o ws fs : Forall2 given_words gs pws -> In (a, b, sub, o) simple -> is_of a b sw -> sub_words sub ws -> Forall no_switch fs -> (ws = [] -> fs = []) ->
  exists nc, run (concat pws ++ sw :: ws ++ fs) cl0 0 = LDone (with_op o (pre nc (config_of gs) (options_of gs))) (length fs).
Proof.
  intros P I0 W H N E0. destruct (simple_asks a b sub o sw ws I0 W H) as (c & C & A). destruct (run_pre gs pws P false None [] (sw :: ws ++ fs) 0%nat) as (nc & R). cbn [app] in R. exists nc.
  change cl0 with (pre false None []). rewrite R, (run_switch c sw _ _ _ C), (A fs _ E0). fold (config_of gs). apply run_others. exact N.
Qed.
Lemma simple_parse cwd gs pws sw a b sub o ws : Forall2 given_words gs pws -> In (a, b, sub, o) simple -> is_of a b sw -> sub_words sub ws ->
  exists s, parse cwd (concat pws ++ sw :: ws) = Parsed s /\ c_op s = o /\ c_server s = false /\ settings gs s.
Proof.
  intros P I0 W H. destruct (simple_run gs pws sw a b sub o ws [] P I0 W H (Forall_nil _) (fun _ => eq_refl)) as (nc & R). rewrite app_nil_r in R.
  rewrite (parse_run _ _ _ _ _ _ R) by reflexivity. cbn [length]. rewrite Nat.sub_0_r, skipn_all. cbn [init_file_arg]. unfold wants_file. cbn [c_server c_remote c_op with_op pre negb andb].
  destruct (simple_op _ _ _ _ I0) as (A & B & C & _). eexists. split; [destruct o; try congruence; reflexivity|]. repeat split; reflexivity.
Qed.
Lemma simple_too_many cwd gs pws sw a b n o w f fs : Forall2 given_words gs pws -> In (a, b, Some n, o) simple -> is_of a b sw -> like w (str n) -> Forall no_switch (f :: fs) ->
  parse cwd (concat pws ++ sw :: w :: f :: fs) = Wrong.
Proof.
  intros P I0 W K N. destruct (simple_run gs pws sw a b (Some n) o [w] (f :: fs) P I0 W (ex_intro _ w (conj eq_refl K)) N ltac:(discriminate)) as (nc & R). cbn [app] in R.
  rewrite (parse_run _ _ _ _ _ _ R) by reflexivity. change (concat pws ++ sw :: w :: f :: fs) with (concat pws ++ [sw; w] ++ f :: fs). rewrite app_assoc, skipn_end.
  cbn [init_file_arg]. cbn [c_op with_op]. unfold wants_file. cbn [c_server c_remote c_op with_op pre negb andb]. destruct (simple_op _ _ _ _ I0) as (A & B & C & D). destruct o; try congruence; reflexivity.
Qed.
Lemma optional_refused cwd gs pws sw a b ns w rest : Forall2 given_words gs pws -> In (a, b, ns) optional -> is_of a b sw -> no_switch w -> (forall n, In n ns -> ~ like w (str n)) ->
  parse cwd (concat pws ++ sw :: w :: rest) = Wrong.
Proof.
  intros P I0 W N H. apply parse_wrong. destruct (run_pre gs pws P false None [] (sw :: w :: rest) 0%nat) as (nc & R). cbn [app] in R. change cl0 with (pre false None []). rewrite R. clear R.
  assert (F : forall n, In n ns -> is w n = false) by (intros n K; apply is_false, H, K). pose proof (plain_prefix w N) as B.
  match goal with |- run _ ?s _ = _ => set (st := s) end.
  cbv [optional In] in I0. destruct I0 as [I0 | [I0 | [I0 | [I0 | []]]]]; injection I0 as <- <- <-.
  - rewrite (run_switch "P") by (destruct W as [-> | ->]; (split; [|split]; vm_compute; reflexivity)). change (switch (str "P") (w :: rest) st) with (of_step (pause_words true (w :: rest) st)).
    unfold pause_words. rewrite B. repeat (rewrite F by (cbv [In]; tauto)). reflexivity.
  - rewrite (run_switch "U") by (destruct W as [-> | ->]; (split; [|split]; vm_compute; reflexivity)). change (switch (str "U") (w :: rest) st) with (of_step (pause_words false (w :: rest) st)).
    unfold pause_words. rewrite B. repeat (rewrite F by (cbv [In]; tauto)). reflexivity.
  - rewrite (run_switch "L") by (destruct W as [-> | ->]; (split; [|split]; vm_compute; reflexivity)). change (switch (str "L") (w :: rest) st) with (of_step (list_words (w :: rest) st)).
    unfold list_words. rewrite B. repeat (rewrite F by (cbv [In]; tauto)). reflexivity.
  - rewrite (run_switch "S") by (destruct W as [-> | ->]; (split; [|split]; vm_compute; reflexivity)). change (switch (str "S") (w :: rest) st) with (of_step (scan_words (w :: rest) st)).
    unfold scan_words. rewrite B. repeat (rewrite F by (cbv [In]; tauto)). reflexivity.
Qed.
(** The server started paused. *)
Lemma server_paused cwd gs pws sv pz ws : Forall2 given_words gs pws -> is_of "-s" "--server" sv \/ is_of "-D" "--daemon" sv -> is_of "-P" "--pause" pz -> ws = [sv; pz] \/ ws = [pz; sv] ->
  exists s, parse cwd (concat pws ++ ws) = Parsed s /\ c_op s = NoOperation /\ c_server s = true /\ c_pause s = true /\ settings gs s.
Proof.
  intros P V Z0 W. destruct (run_pre gs pws P false None [] ws 0%nat) as (nc & R). cbn [app] in R. change (pre false None []) with cl0 in R. fold (config_of gs) in R.
  assert (NE : concat pws ++ ws <> []) by (destruct W as [-> | ->]; destruct (concat pws); discriminate).
  unfold parse. destruct (concat pws ++ ws) as [|x l]; [congruence|]. unfold init_command_line. fold (run (x :: l) cl0 0). rewrite R. clear R.
  destruct W as [-> | ->]; destruct V as [[-> | ->] | [-> | ->]]; destruct Z0 as [-> | ->]; (match goal with |- context [run ?ws ?s 0%nat] => let r := eval vm_compute in (fun c g => run ws (pre nc c g) 0%nat) in change (run ws s 0%nat) with (r (config_of gs) (options_of gs)) end; cbv beta iota;
    cbn [c_server c_op andb with_pause c_print]; rewrite Nat.sub_0_r, skipn_all; eexists; repeat split; reflexivity).
Qed.
Lemma bare_too_many cwd gs pws sw a b f fs : Forall2 given_words gs pws -> In (a, b) bare -> is_of a b sw -> Forall no_switch (f :: fs) -> parse cwd (concat pws ++ sw :: f :: fs) = Wrong.
Proof.
  intros P I0 W N. destruct (run_pre gs pws P false None [] (sw :: f :: fs) 0%nat) as (nc & R). cbn [app] in R. change (pre false None []) with cl0 in R.
  assert (K : exists c o, word_of c sw /\ (o = RequestShutdown \/ o = RequestReload \/ o = RequestVersion) /\ forall r s, switch (str c) r s = SGo (with_op o s) r).
  { cbv [bare In] in I0. destruct I0 as [I0 | [I0 | [I0 | []]]]; injection I0 as <- <-; [exists "Q"%string, RequestShutdown|exists "O"%string, RequestReload|exists "V"%string, RequestVersion];
    (split; [destruct W as [-> | ->]; (split; [|split]; vm_compute; reflexivity)|]); (split; [tauto|]); intros r s; reflexivity. }
  destruct K as (c & o & C & O0 & A). rewrite (run_switch c sw _ _ _ C), A, (run_others _ N) in R.
  rewrite (parse_run _ _ _ _ _ _ R) by reflexivity. change (concat pws ++ sw :: f :: fs) with (concat pws ++ [sw] ++ f :: fs). rewrite app_assoc. change (0 + length (f :: fs))%nat with (length (f :: fs)). rewrite skipn_end.
  cbn [init_file_arg]. cbn [c_op with_op]. unfold wants_file. cbn [c_server c_remote c_op with_op pre negb andb]. destruct O0 as [-> | [-> | ->]]; reflexivity.
Qed.
