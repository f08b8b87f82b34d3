(** Connections to news servers: what is sent, authorization, groups. *)
From Coq Require Import String.
From Verif Require Import Base NntpModel NntpSpec.
From Verif Require NntpProofs.
Open Scope list_scope. Open Scope Z_scope.

(** ** C162: authorization *)

(** Whatever the server sends: the password is sent only directly after an answer asking for it, the name only after the greeting or
    when authorization is asked for. *)
Theorem C162_asked : forall n s ops, asked (c_hist (nrun n s ops)) (pass_line s) /\ invited (c_hist (nrun n s ops)) (user_line s).
Proof. intros n s ops. exact (proj2 (NntpProofs.run_ok n s ops)). Qed.
Print Assumptions C162_asked.
(** A connection newly made is told to be good only if the server has greeted and, if there are name and password, has let the user in. *)
Theorem C162_connected : forall n s c c1, c_status c <> Conn -> connect n s c = (true, c1) ->
  exists l e, c_hist c1 = c_hist c ++ Open :: R l :: e /\ begins (str "2") l /\ ~ In Open e /\ c_status c1 = Conn /\ (s_user s <> [] -> s_pass s <> [] -> accepted s e).
Proof. exact NntpProofs.connect_true. Qed.
Print Assumptions C162_connected.
(** A request is answered by the server as such: the answer is that to the request, sent last; whatever the server asks for at most 13
    commands are sent. *)
Theorem C162_request : forall n s t c,
  (sends (c_hist (snd (request n s t c))) <= sends (c_hist c) + 13)%nat /\
  (forall l, fst (request n s t c) = Some l -> exists a, c_hist (snd (request n s t c)) = a ++ [W t; R l]).
Proof.
  intros n s t c. split; [apply NntpProofs.request_sends|]. intros l E. destruct (request n s t c) as (a, c1) eqn:Q. cbn [fst snd] in *. subst a.
  destruct (NntpProofs.request_again n s t c c1 l Q) as (h & Eh & _). eauto.
Qed.
Print Assumptions C162_request.

(** Servers answering by what was sent last; [pw]: authorization is needed; [again]: also the password is always asked for again. *)
Definition x_s : server := Server (str "me") (str "secret").
Definition opens (h : list ev) : nat := length (filter (fun e => match e with Open => true | _ => false end) h).
Definition x_answer (h : list ev) : incoming :=
  match rev h with
  | Open :: _ => Line (str "200 hi" ++ crlf)
  | W t :: r => if prefixb (str "AUTHINFO USER") t then Line (str "381 more" ++ crlf)
                else if prefixb (str "AUTHINFO PASS") t then Line (str "281 ok" ++ crlf)
                else if prefixb (str "GROUP") t then Line (str "211 group" ++ crlf)
                else if prefixb (str "quit") t then Closed
                else match r with R l :: _ => if prefixb (str "281") l then Line (str "222 body" ++ crlf) else Line (str "480 who" ++ crlf) | _ => Line (str "480 who" ++ crlf) end
  | _ => Failed
  end.
Definition x_net : net := Net (fun _ => true) (fun _ => true) x_answer.
Example C162_example : c_hist (nrun x_net x_s [OConnect; OJoin (str "a.b"); OGet false (str "<1>")]) =
  [Open; R (str "200 hi" ++ crlf); W (str "AUTHINFO USER me" ++ crlf); R (str "381 more" ++ crlf); W (str "AUTHINFO PASS secret" ++ crlf); R (str "281 ok" ++ crlf);
   W (str "GROUP a.b" ++ crlf); R (str "211 group" ++ crlf); W (str "BODY <1>" ++ crlf); R (str "480 who" ++ crlf); W (str "AUTHINFO USER me" ++ crlf);
   R (str "381 more" ++ crlf); W (str "AUTHINFO PASS secret" ++ crlf); R (str "281 ok" ++ crlf); W (str "BODY <1>" ++ crlf); R (str "222 body" ++ crlf)] /\
  fst (connect x_net x_s (C [] Disc [] false)) = true.
Proof. split; vm_compute; reflexivity. Qed.
(** A server always asking for the password again: eleven lines, then it is given up. *)
Definition x_ask : net := Net (fun _ => true) (fun _ => true) (fun h => match rev h with Open :: _ => Line (str "200 hi") | _ => Line (str "381 again") end).
Example C162_again_example : fst (connect x_ask x_s (C [] Disc [] false)) = false /\ sends (c_hist (snd (connect x_ask x_s (C [] Disc [] false)))) = 11%nat.
Proof. split; vm_compute; reflexivity. Qed.

(** Not so if authorization has failed: the connection stays open, the next try to connect is told to be good at once. *)
Theorem C162_refused_refuted : exists n s c1 c2, s_user s <> [] /\ s_pass s <> [] /\ connect n s (C [] Disc [] false) = (false, c1) /\ connect n s c1 = (true, c2) /\
  c_hist c2 = c_hist c1 /\ ~ (exists a e, c_hist c2 = a ++ e /\ accepted s e).
Proof.
  exists (Net (fun _ => true) (fun _ => true) (fun h => match rev h with Open :: _ => Line (str "200 hi") | _ => Line (str "481 no") end)), x_s.
  eexists. eexists. split; [discriminate|]. split; [discriminate|]. split; [vm_compute; reflexivity|]. split; [vm_compute; reflexivity|]. split; [reflexivity|].
  intros (a & e & Ee & (b & t & l & -> & (r & B) & _)). apply (f_equal (fun h => last h Open)) in Ee. rewrite app_assoc in Ee. change [W t; R l] with ([W t] ++ [R l]) in Ee.
  rewrite app_assoc, last_last in Ee. cbn in Ee. injection Ee as Ee. subst l. discriminate B.
Qed.
Print Assumptions C162_refused_refuted.

(** ** C163: groups *)

(** If the group is told to be joined it is the one the server has selected last, on this connection, if connections are not opened
    again after an error. *)
Theorem C163_group_partial : forall n s ops g l c1, kept_up n s ops ->
  join n s g (nrun n s ops) = (Some l, c1) -> begins (str "2") l -> selected (c_hist c1) g.
Proof. exact NntpProofs.group_ok. Qed.
Print Assumptions C163_group_partial.
(** The same for the groups of a file, tried one after another: one of them is selected. *)
Theorem C163_groups_partial : forall n s ops gs l c1, kept_up n s ops ->
  join_any n s gs None (nrun n s ops) = (Some l, c1) -> begins (str "2") l -> exists g, In g gs /\ selected (c_hist c1) g.
Proof. exact NntpProofs.groups_ok. Qed.
Print Assumptions C163_groups_partial.

Example C163_example : let ops := [OConnect; OJoin (str "a.b"); OGet false (str "<1>"); OJoin (str "a.c"); OJoin (str "a.b")] in
  kept_up x_net x_s ops /\ c_status (nrun x_net x_s ops) = Conn /\ fst (join x_net x_s (str "a.b") (nrun x_net x_s ops)) = Some (str "211 ") /\
  sends (c_hist (snd (join x_net x_s (str "a.c") (nrun x_net x_s ops)))) = S (sends (c_hist (nrun x_net x_s ops))).
Proof.
  cbv zeta. split; [|split; [vm_compute; reflexivity|split; vm_compute; reflexivity]].
  intros p o q E [-> | ->].
  - destruct p as [|o1 p]; [right; reflexivity|]. injection E as <- E. do 4 (destruct p as [|? p]; [discriminate E|injection E as <- E]). destruct p; discriminate E.
  - do 5 (destruct p as [|? p]; [discriminate E|injection E as <- E]). destruct p; discriminate E.
Qed.

(** Not so after an error: the group remembered is told to be joined on a new connection where nothing was sent. *)
Theorem C163_lost_refuted : exists n s ops g l c1, c_status (nrun n s ops) = Conn /\ join n s g (nrun n s ops) = (Some l, c1) /\ begins (str "2") l /\
  exists a r, c_hist c1 = a ++ [Open; R r].
Proof.
  exists (Net (fun _ => true) (fun _ => true) (fun h => match rev h with Open :: _ => Line (str "200 hi") | W t :: _ => if prefixb (str "GROUP") t then Line (str "211 group") else Failed | _ => Failed end)),
    (Server [] []), [OConnect; OJoin (str "a.b"); OGet false (str "<1>"); ODisconnect; OConnect], (str "a.b").
  eexists. eexists. split; [vm_compute; reflexivity|]. split; [vm_compute; reflexivity|]. split; [exists (str "11 "); reflexivity|].
  exists [Open; R (str "200 hi"); W (str "GROUP a.b" ++ crlf); R (str "211 group"); W (str "BODY <1>" ++ crlf)], (str "200 hi"). vm_compute. reflexivity.
Qed.
Print Assumptions C163_lost_refuted.

(** ** C164: commands *)

(** Only commands for what was asked for are sent; each is one line if names have no line ends and are not too long. *)
Theorem C164_commands : forall n s ops t, In (W t) (c_hist (nrun n s ops)) -> command s ops t.
Proof. intros n s ops t. exact (proj1 (NntpProofs.run_ok n s ops) t). Qed.
Print Assumptions C164_commands.
Theorem C164_one_line_partial : forall n s ops t, clean (s_user s) -> clean (s_pass s) -> Forall clean_op ops -> In (W t) (c_hist (nrun n s ops)) -> one_line t.
Proof. intros n s ops t U P F I. exact (NntpProofs.command_line s ops t U P F (C164_commands n s ops t I)). Qed.
Print Assumptions C164_one_line_partial.
Example C164_example : clean (s_user x_s) /\ clean (s_pass x_s) /\ Forall clean_op [OConnect; OJoin (str "a.b"); OGet false (str "<1>")].
Proof.
  assert (L : forall x : list Z, (length x <=? Z.to_nat 1000)%nat = true -> (length x <= Z.to_nat 1000)%nat) by (intros x H; apply Nat.leb_le, H).
  assert (Cl : forall x, existsb (fun b => (b =? 13) || (b =? 10)) x = false -> (length x <=? Z.to_nat 1000)%nat = true -> clean x).
  { intros x N Le. split; [|split; [|apply L, Le]]; intros I1; assert (X : existsb (fun b => (b =? 13) || (b =? 10)) x = true) by (apply existsb_exists; eexists; split; [exact I1|reflexivity]); congruence. }
  split; [apply Cl; vm_compute; reflexivity|]. split; [apply Cl; vm_compute; reflexivity|]. repeat apply Forall_cons; try apply Forall_nil; cbn [clean_op]; try exact Logic.I; apply Cl; vm_compute; reflexivity.
Qed.
(** Not so in general: an identifier or a group of an nzb-file may have line ends and bring a command of its own. *)
Theorem C164_injected_refuted : exists n s ops t a, In (W t) (c_hist (nrun n s ops)) /\ t = str "BODY <1>" ++ crlf ++ a ++ crlf /\ a = str "POST".
Proof.
  exists x_net, (Server [] []), [OConnect; OGet false (str "<1>" ++ crlf ++ str "POST")], (str "BODY <1>" ++ crlf ++ str "POST" ++ crlf), (str "POST").
  split; [vm_compute; tauto|]. split; reflexivity.
Qed.
Print Assumptions C164_injected_refuted.
(** Nor for names too long: the command has no line end. *)
Theorem C164_cut_refuted : exists n s ops t, ~ In 13 (s_user s) /\ ~ In 10 (s_user s) /\ In (W t) (c_hist (nrun n s ops)) /\ ~ In 10 t.
Proof.
  exists x_net, (Server (repeat 97 (Z.to_nat 1010)) (str "secret")), [OConnect], (firstn (Z.to_nat 1023) (str "AUTHINFO USER " ++ repeat 97 (Z.to_nat 1010))).
  split; [intros I1; apply repeat_spec in I1; discriminate I1|]. split; [intros I1; apply repeat_spec in I1; discriminate I1|]. split; [vm_compute; tauto|].
  intros I1. assert (X : In 10 (str "AUTHINFO USER " ++ repeat 97 (Z.to_nat 1010))) by (rewrite <- (firstn_skipn (Z.to_nat 1023)); apply in_or_app; left; exact I1).
  apply in_app_or in X as [X|X]; [cbn in X; lia|]. apply repeat_spec in X. discriminate X.
Qed.
Print Assumptions C164_cut_refuted.
