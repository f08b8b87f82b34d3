(** Proofs about the command line: editing. *)
From Coq Require Import String.
From Verif Require Import Base NumFmt WildModel WebModel RpProofs LineProofs ArgModel ArgSpec ArgProofs ArgProofs2 ArgProofs3.
Open Scope list_scope. Open Scope Z_scope.

Definition set_text (t : option (list Z)) (s : cl) : cl := match t with Some v => with_text v s | None => s end.
Definition edit_opt (ws : list (list Z)) (s : cl) : step := match ws with v :: r => edit_words v r s | [] => None end.
Lemma has_eq_param n v : has_eq (n ++ str "=" ++ v) = true.
Proof. unfold has_eq. rewrite existsb_app. change (str "=") with [61]. cbn [app existsb]. rewrite Z.eqb_refl, orb_true_r. reflexivity. Qed.
Lemma priority_ok z : int32 z -> (atoi (zdec z) =? 0) && negb (beqb (zdec z) (str "0")) = false.
Proof. intros H. rewrite (atoi_int z H). destruct (z =? 0) eqn:Q; [|reflexivity]. apply Z.eqb_eq in Q. subst z. reflexivity. Qed.
(** What comes behind the word for the scope. *)
Definition act_of (sc : scope) (w : list Z) (r : list (list Z)) (s : cl) : step :=
  match sc with SFile => queue_action false w r s | SGroup => queue_action true w r s | SPost => post_action w r s | SHistory => history_action w r s end.
Lemma act_ok sc name act k w vws t rest s : In (sc, name, act, k) commands -> like w (str name) -> value_words k vws t ->
  act_of sc w (vws ++ rest) s = Some (set_text t (with_action act s), rest).
Proof.
  intros I0 K V. cbv [commands In] in I0.
  repeat (destruct I0 as [I0 | I0]; [injection I0 as <- <- <- <-; cbn [act_of value_words] in *; unfold queue_action, history_action, post_action, take_text, take_param; known K;
    repeat match type of V with ex _ => let x := fresh "x" in destruct V as (x & V) | _ /\ _ => let V1 := fresh "V" in destruct V as (V1 & V) end;
    subst; cbn [app set_text]; try rewrite has_eq_param; try (match goal with P : int32 ?z |- _ => let PK := fresh in pose proof (priority_ok z P) as PK; cbv beta iota delta [orb andb negb] in PK; rewrite PK end); reflexivity|]).
  destruct I0.
Qed.
Lemma scope_step sc m sws w r s : scope_words sc m sws -> (sws = [] -> forall n, In n scope_names -> ~ like w (str n)) ->
  edit_opt (sws ++ w :: r) s = act_of sc w r (with_mode m (with_op RequestEditQueue s)).
Proof.
  intros H N. destruct sc, m; cbn [scope_words] in H; try contradiction; try (destruct H as (w0 & -> & K); cbn [app edit_opt]; unfold edit_words; known K; reflexivity).
  destruct H as [-> | (w0 & -> & K)]; [|cbn [app edit_opt]; unfold edit_words; known K; reflexivity].
  cbn [app edit_opt]. unfold edit_words. repeat (rewrite (is_false w) by (apply N; [reflexivity|cbv [scope_names In]; tauto])). reflexivity.
Qed.

(** ** The whole command *)
Lemma edit_run sw gs pws xs s0 s rest : (sw = str "-E" \/ sw = str "--edit") -> Forall2 given_words gs pws -> Forall no_switch rest ->
  (forall nc, edit_opt xs (pre nc (config_of gs) (options_of gs)) = Some (s nc, rest)) -> (forall nc, c_op (s nc) = s0) ->
  exists nc, run (concat pws ++ sw :: xs) cl0 0 = LDone (s nc) (length rest).
Proof.
  intros W P N H _. destruct (run_pre gs pws P false None [] (sw :: xs) 0%nat) as (nc & R). cbn [app] in R. exists nc.
  assert (WA : word_of "E" sw) by (destruct W as [-> | ->]; (split; [|split]; vm_compute; reflexivity)).
  change cl0 with (pre false None []). rewrite R, (run_switch "E" sw _ _ _ WA). fold (config_of gs). specialize (H nc). destruct xs as [|v r]; [discriminate|]. cbn [edit_opt] in H.
  match goal with |- context [switch (str "E") (v :: r) ?s] => change (switch (str "E") (v :: r) s) with (of_step (edit_words v r s)) end. rewrite H. cbn [of_step]. apply run_others. exact N.
Qed.
Lemma edit_wrong cwd sw gs pws xs : (sw = str "-E" \/ sw = str "--edit") -> Forall2 given_words gs pws ->
  (forall s, edit_opt xs s = None) -> parse cwd (concat pws ++ sw :: xs) = Wrong.
Proof.
  intros W P H. apply parse_wrong. destruct (run_pre gs pws P false None [] (sw :: xs) 0%nat) as (nc & R). cbn [app] in R.
  assert (WA : word_of "E" sw) by (destruct W as [-> | ->]; (split; [|split]; vm_compute; reflexivity)).
  change cl0 with (pre false None []). rewrite R, (run_switch "E" sw _ _ _ WA). destruct xs as [|v r]; [reflexivity|]. specialize (H (pre nc (config_of gs) (options_of gs))). cbn [edit_opt] in H.
  match goal with |- context [switch (str "E") (v :: r) ?s] => change (switch (str "E") (v :: r) s) with (of_step (edit_words v r s)) end. fold (config_of gs). rewrite H. reflexivity.
Qed.
Lemma listed_no_switch ps w : listed ps w -> Forall ids_ok ps -> no_switch w.
Proof.
  assert (T : forall p, ids_ok p -> exists c r, ids_text p = c :: r /\ is_digit c = true).
  { intros p K. destruct p as [n|a b]; cbn [ids_ok ids_text] in *.
    - pose proof (udec_nodash n ltac:(unfold id in K; lia)) as D. pose proof (zdec_ne n) as E0. destruct (zdec n) as [|c r]; [congruence|]. exists c, r. split; [reflexivity|]. inversion D; assumption.
    - destruct K as [K _]. pose proof (udec_nodash a ltac:(unfold id in K; lia)) as D. pose proof (zdec_ne a) as E0. destruct (zdec a) as [|c r]; [congruence|]. exists c. eexists. split; [reflexivity|]. inversion D; assumption. }
  assert (G : forall w p x, Forall sep w -> ids_ok p -> no_switch (w ++ ids_text p ++ x)).
  { intros v p x S0 K r Q. destruct v as [|c v]; cbn [app] in Q.
    - destruct (T p K) as (c & y & Q2 & D). rewrite Q2 in Q. injection Q as -> _. discriminate D.
    - injection Q as -> _. inversion S0 as [|? ? [B | B] _]; discriminate B. }
  intros [v H|v p H|v p c ps' t H C _] K.
  - intros r ->. inversion H as [|? ? [B | B] _]; discriminate B.
  - rewrite <- (app_nil_r (ids_text p)). apply G; [exact H|]. inversion K; assumption.
  - apply G; [exact H|]. inversion K; assumption.
Qed.
Lemma items_no_switch m fs : items_ok m fs -> Forall no_switch fs.
Proof.
  destruct m; cbn [items_ok]; try exact (fun x => x). intros (pss & H & K). induction H as [|ps w pss ws H _ IH]; [constructor|]. cbn [concat] in K. apply Forall_app in K as [K1 K2].
  constructor; [apply (listed_no_switch _ _ H K1)|apply IH, K2].
Qed.
Lemma items_done cwd m fs s : c_op s = RequestEditQueue -> c_mode s = m -> c_ids s = [] -> c_names s = [] -> c_server s = false -> items_ok m fs ->
  exists i n, init_file_arg cwd fs s = Parsed (with_files i n (c_file s) s) /\ items m fs (with_files i n (c_file s) s).
Proof.
  intros O0 M I0 N0 V0 H. destruct fs as [|f fs].
  - exists [], []. split.
    + cbn [init_file_arg]. unfold wants_file. rewrite O0, andb_false_r. rewrite <- I0 at 1. rewrite <- N0. destruct s; reflexivity.
    + destruct m; cbn [items]; try reflexivity. intros pss F K. inversion F; subst. exists []. split; [constructor|reflexivity].
  - cbn [init_file_arg]. rewrite O0, M. destruct m; cbn [items_ok items] in *.
    + destruct H as (pss & F & K). destruct (id_list_ok _ _ F K) as (ls & Q & _). rewrite Q. eexists _, _. split; [reflexivity|]. intros pss2 F2 K2. destruct (id_list_ok _ _ F2 K2) as (ls2 & Q2 & M2).
      exists ls2. split; [exact M2|]. cbn [c_ids with_files]. rewrite Q in Q2. injection Q2 as ->. reflexivity.
    + rewrite N0. eexists _, _. split; reflexivity.
    + rewrite N0. eexists _, _. split; reflexivity.
Qed.
Lemma command_not_scope name sc act k w : In (sc, name, act, k) commands -> sc = SFile -> like w (str name) -> forall n, In n scope_names -> ~ like w (str n).
Proof.
  intros I0 -> K n In0 L. rewrite <- is_true in L. rewrite (is_like _ _ _ K) in L. cbv [commands In] in I0.
  repeat (destruct I0 as [I0 | I0]; [try discriminate I0; injection I0 as <- <- <-; cbv [scope_names In] in In0; repeat (destruct In0 as [<- | In0]; [vm_compute in L; discriminate L|]); destruct In0|]). destruct I0.
Qed.
Lemma scope_nil sc m : scope_words sc m [] -> sc = SFile.
Proof. destruct sc, m; cbn [scope_words]; try reflexivity; try contradiction; intros (w & Q & _); discriminate Q. Qed.
Lemma edit_parse cwd gs pws sw sc m sws name act k w vws t fs : Forall2 given_words gs pws -> (sw = str "-E" \/ sw = str "--edit") -> scope_words sc m sws ->
  In (sc, name, act, k) commands -> like w (str name) -> value_words k vws t -> items_ok m fs ->
  exists s, parse cwd (concat pws ++ sw :: sws ++ w :: vws ++ fs) = Parsed s /\ c_op s = RequestEditQueue /\ c_action s = act /\ c_mode s = m /\ c_text s = t /\ items m fs s /\ settings gs s.
Proof.
  intros P W S0 C K V F. set (st nc := set_text t (with_action act (with_mode m (with_op RequestEditQueue (pre nc (config_of gs) (options_of gs)))))).
  destruct (edit_run sw gs pws (sws ++ w :: vws ++ fs) RequestEditQueue st fs W P (items_no_switch m fs F)) as (nc & R).
  { intros nc. rewrite (scope_step sc m sws w (vws ++ fs) _ S0); [apply (act_ok sc name act k); assumption|]. intros ->. apply (command_not_scope name sc act k); try assumption. apply (scope_nil sc m S0). }
  { intros nc. unfold st. destruct t; reflexivity. }
  rewrite (parse_run _ _ _ _ _ _ R) by (unfold st; destruct t; reflexivity).
  replace (concat pws ++ sw :: sws ++ w :: vws ++ fs) with ((concat pws ++ sw :: sws ++ w :: vws) ++ fs) by (rewrite <- !app_assoc; cbn [app]; rewrite <- !app_assoc; reflexivity).
  rewrite skipn_end. destruct (items_done cwd m fs (st nc)) as (i & n & Q & T); try (unfold st; destruct t; reflexivity); [exact F|]. rewrite Q. eexists. split; [reflexivity|].
  repeat split; try exact T; unfold st; destruct t; reflexivity.
Qed.

(** ** Moving *)
Lemma zdec_cons z : exists c r, zdec z = c :: r /\ (is_digit c = true \/ c = 45).
Proof. destruct (zdec_chars z) as [A (c & r & Q & _)]. exists c, r. split; [exact Q|]. rewrite Q in A. inversion A; assumption. Qed.
Lemma offset_head z w : offset_word z w -> exists c r, w = c :: r /\ (is_digit c = true \/ c = 45 \/ c = 43).
Proof.
  intros (_ & _ & [-> | [_ ->]]); [|exists 43, (zdec z); split; [reflexivity|right; right; reflexivity]]. destruct (zdec_cons z) as (c & r & -> & D). exists c, r. split; [reflexivity|]. tauto.
Qed.
Lemma head_not w c r n : w = c :: r -> (is_digit c = true \/ c = 45 \/ c = 43) -> (exists x y, str n = x :: y /\ 65 <= x <= 90) -> ~ like w (str n).
Proof.
  intros -> D (x & y & -> & B) L. unfold like in L. cbn [map] in L. injection L as L _. revert L. unfold lower, is_digit in *. destruct ((65 <=? c) && (c <=? 90)) eqn:A, ((65 <=? x) && (x <=? 90)) eqn:A2; lia.
Qed.
Lemma atoi_offset z w : offset_word z w -> atoi w = z.
Proof.
  intros (B & _ & [-> | [P ->]]); [apply atoi_int, B|]. pose proof (atoi_int z B) as Q. unfold atoi, atoll in *. cbn [skip_space]. change (is_space 43) with false. change (43 =? 45) with false. change (43 =? 43) with true. cbv iota.
  pose proof (udec_nodash z ltac:(lia)) as D. destruct (zdec z) as [|c r]; [exact Q|]. inversion D as [|? ? D1 _]. cbn [skip_space] in Q.
  assert (S1 : is_space c = false) by (unfold is_space, is_digit in *; lia). rewrite S1 in Q. destruct (c =? 45) eqn:E1; [unfold is_digit in *; lia|]. destruct (c =? 43) eqn:E2; [unfold is_digit in *; lia|]. exact Q.
Qed.
Lemma queue_move g z w r s : offset_word z w -> queue_action g w r s = Some (with_action (if g then GroupMoveOffset else FileMoveOffset) (with_offset z s), r).
Proof.
  intros H. destruct (offset_head z w H) as (c & x & Q & D).
  assert (N : forall n, (exists x y, str n = x :: y /\ 65 <= x <= 90) -> is w n = false) by (intros n L; apply is_false, (head_not w c x n Q D L)).
  unfold queue_action. repeat (rewrite N by (eexists _, _; split; [reflexivity|split; vm_compute; discriminate])). cbn [orb]. rewrite (atoi_offset z w H). destruct H as (_ & NZ & _). destruct (z =? 0) eqn:E0; [apply Z.eqb_eq in E0; congruence|]. reflexivity.
Qed.
Lemma move_parse cwd gs pws sw sc m sws z w fs : Forall2 given_words gs pws -> (sw = str "-E" \/ sw = str "--edit") -> (sc = SFile \/ sc = SGroup) -> scope_words sc m sws ->
  offset_word z w -> items_ok m fs ->
  exists s, parse cwd (concat pws ++ sw :: sws ++ w :: fs) = Parsed s /\ c_op s = RequestEditQueue /\ c_action s = move_of sc /\ c_offset s = z /\ c_mode s = m /\ items m fs s /\ settings gs s.
Proof.
  intros P W SC S0 H F. set (st nc := with_action (move_of sc) (with_offset z (with_mode m (with_op RequestEditQueue (pre nc (config_of gs) (options_of gs)))))).
  destruct (edit_run sw gs pws (sws ++ w :: fs) RequestEditQueue st fs W P (items_no_switch m fs F)) as (nc & R).
  { intros nc. destruct (offset_head z w H) as (c & x & Q & D). rewrite (scope_step sc m sws w fs _ S0).
    - destruct SC as [-> | ->]; cbn [act_of]; rewrite (queue_move _ z w _ _ H); reflexivity.
    - intros _ n I0. apply (head_not w c x n Q D). cbv [scope_names In] in I0. repeat (destruct I0 as [<- | I0]; [eexists _, _; split; [reflexivity|split; vm_compute; discriminate]|]). destruct I0. }
  { intros nc. reflexivity. }
  rewrite (parse_run _ _ _ _ _ _ R) by reflexivity.
  replace (concat pws ++ sw :: sws ++ w :: fs) with ((concat pws ++ sw :: sws ++ [w]) ++ fs) by (rewrite <- !app_assoc; cbn [app]; rewrite <- !app_assoc; reflexivity).
  rewrite skipn_end. destruct (items_done cwd m fs (st nc)) as (i & n & Q & T); try reflexivity; [exact F|]. rewrite Q. eexists. split; [reflexivity|]. repeat split; try exact T; reflexivity.
Qed.

(** ** Refused *)
Lemma group_only_refused cwd gs pws sw m sws name w rest : Forall2 given_words gs pws -> (sw = str "-E" \/ sw = str "--edit") -> scope_words SFile m sws ->
  In name group_only -> like w (str name) -> (sws = [] -> name <> "O"%string) -> parse cwd (concat pws ++ sw :: sws ++ w :: rest) = Wrong.
Proof.
  intros P W S0 I0 K N. apply (edit_wrong cwd sw gs pws _ W P). intros s. rewrite (scope_step SFile m sws w rest s S0).
  - cbn [act_of]. unfold queue_action. cbv [group_only In] in I0. repeat (destruct I0 as [<- | I0]; [known K; reflexivity|]). destruct I0.
  - intros E0 n In0 L. specialize (N E0). rewrite <- is_true in L. rewrite (is_like _ _ _ K) in L. cbv [group_only In] in I0.
    repeat (destruct I0 as [<- | I0]; [try congruence; cbv [scope_names In] in In0; repeat (destruct In0 as [<- | In0]; [vm_compute in L; discriminate L|]); destruct In0|]). destruct I0.
Qed.
Lemma unknown_refused cwd gs pws sw sc m sws w rest : Forall2 given_words gs pws -> (sw = str "-E" \/ sw = str "--edit") -> scope_words sc m sws -> unknown w ->
  parse cwd (concat pws ++ sw :: sws ++ w :: rest) = Wrong.
Proof.
  intros P W S0 (U & N & H). apply (edit_wrong cwd sw gs pws _ W P). intros s. rewrite (scope_step sc m sws w rest s S0); [|intros _; exact N].
  assert (A : forall n, In n action_names -> is w n = false) by (intros n I0; apply is_false, U, I0).
  assert (Z0 : atoi w = 0). { destruct w as [|c r]; [reflexivity|]. destruct (H c r eq_refl) as (D & SP & PL & MI). apply atoi_bad; assumption. }
  destruct sc; cbn [act_of]; unfold queue_action, post_action, history_action; repeat (rewrite A by (cbv [action_names commands map fst snd In]; tauto)); cbn [orb]; try rewrite Z0; reflexivity.
Qed.
(** A value that is missing. *)
Lemma missing_refused cwd gs pws sw sc m sws name act k w : Forall2 given_words gs pws -> (sw = str "-E" \/ sw = str "--edit") -> scope_words sc m sws ->
  In (sc, name, act, k) commands -> like w (str name) -> k <> VNone -> parse cwd (concat pws ++ sw :: sws ++ [w]) = Wrong.
Proof.
  intros P W S0 C K V. apply (edit_wrong cwd sw gs pws _ W P). intros s. rewrite (scope_step sc m sws w [] s S0).
  2:{ intros ->. apply (command_not_scope name sc act k); try assumption. apply (scope_nil sc m S0). }
  cbv [commands In] in C. repeat (destruct C as [C | C]; [injection C as <- <- <- <-; try congruence; cbn [act_of]; unfold queue_action, history_action, post_action, take_text, take_param; known K; reflexivity|]). destruct C.
Qed.
(** Ids that are none. *)
Lemma bad_ids_refused cwd gs pws sw sc sws name act k w vws t fs : Forall2 given_words gs pws -> (sw = str "-E" \/ sw = str "--edit") -> scope_words sc MId sws ->
  In (sc, name, act, k) commands -> like w (str name) -> value_words k vws t -> Forall no_switch fs -> Exists has_no_id fs -> parse cwd (concat pws ++ sw :: sws ++ w :: vws ++ fs) = Wrong.
Proof.
  intros P W S0 C K V N B. set (st nc := set_text t (with_action act (with_mode MId (with_op RequestEditQueue (pre nc (config_of gs) (options_of gs)))))).
  destruct (edit_run sw gs pws (sws ++ w :: vws ++ fs) RequestEditQueue st fs W P N) as (nc & R).
  { intros nc. rewrite (scope_step sc MId sws w (vws ++ fs) _ S0); [apply (act_ok sc name act k); assumption|]. intros ->. apply (command_not_scope name sc act k); try assumption. apply (scope_nil sc MId S0). }
  { intros nc. unfold st. destruct t; reflexivity. }
  rewrite (parse_run _ _ _ _ _ _ R) by (unfold st; destruct t; reflexivity).
  replace (concat pws ++ sw :: sws ++ w :: vws ++ fs) with ((concat pws ++ sw :: sws ++ w :: vws) ++ fs) by (rewrite <- !app_assoc; cbn [app]; rewrite <- !app_assoc; reflexivity).
  rewrite skipn_end. pose proof (id_list_refused fs B) as Q. destruct fs as [|f fs]; [inversion B|]. cbn [init_file_arg].
  replace (c_op (st nc)) with RequestEditQueue by (unfold st; destruct t; reflexivity). replace (c_mode (st nc)) with MId by (unfold st; destruct t; reflexivity). rewrite Q. reflexivity.
Qed.
Lemma param_refused cwd gs pws sw sc m sws name act w v rest : Forall2 given_words gs pws -> (sw = str "-E" \/ sw = str "--edit") -> scope_words sc m sws ->
  In (sc, name, act, VParam) commands -> like w (str name) -> ~ In 61 v -> parse cwd (concat pws ++ sw :: sws ++ w :: v :: rest) = Wrong.
Proof.
  intros P W S0 C K V. apply (edit_wrong cwd sw gs pws _ W P). intros s. rewrite (scope_step sc m sws w (v :: rest) s S0).
  2:{ intros ->. apply (command_not_scope name sc act VParam); try assumption. apply (scope_nil sc m S0). }
  assert (E0 : has_eq v = false). { unfold has_eq. destruct (existsb (Z.eqb 61) v) eqn:Q; [|reflexivity]. apply existsb_exists in Q as (x & I1 & Q). apply Z.eqb_eq in Q. subst x. contradiction. }
  cbv [commands In] in C. repeat (destruct C as [C | C]; [try discriminate C; injection C as <- <- <-; cbn [act_of]; unfold queue_action, history_action, take_param; known K; rewrite E0; reflexivity|]). destruct C.
Qed.
