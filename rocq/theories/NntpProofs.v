(** Proofs about connections to news servers. *)
From Coq Require Import String.
From Verif Require Import Base NntpModel NntpSpec.
Open Scope list_scope. Open Scope Z_scope.

Lemma begins_iff w l : prefixb w l = true <-> begins w l.
Proof. apply prefixb_iff. Qed.
Lemma cut_pre p x : (length p <= 20)%nat -> cut (p ++ x) = p ++ firstn (Z.to_nat 1023 - length p) x.
Proof. intros L. unfold cut. rewrite firstn_app, firstn_all2 by lia. reflexivity. Qed.

Lemma user_cut s : user_line s = cut (ended (str "AUTHINFO USER " ++ s_user s)).
Proof. unfold user_line, ended. rewrite <- app_assoc. reflexivity. Qed.
Lemma pass_cut s : pass_line s = cut (ended (str "AUTHINFO PASS " ++ s_pass s)).
Proof. unfold pass_line, ended. rewrite <- app_assoc. reflexivity. Qed.
Lemma user_pre s : exists x, user_line s = str "AUTHINFO USER " ++ x.
Proof. unfold user_line. rewrite cut_pre by (cbn; lia). eauto. Qed.
Lemma pass_pre s : exists x, pass_line s = str "AUTHINFO PASS " ++ x.
Proof. unfold pass_line. rewrite cut_pre by (cbn; lia). eauto. Qed.
Lemma group_pre g : exists x, cut (ended (str "GROUP " ++ g)) = str "GROUP " ++ x.
Proof. unfold ended. rewrite <- app_assoc, cut_pre by (cbn; lia). eauto. Qed.
Lemma body_pre g : exists x, cut (ended (str "BODY " ++ g)) = str "BODY " ++ x.
Proof. unfold ended. rewrite <- app_assoc, cut_pre by (cbn; lia). eauto. Qed.
Lemma article_pre g : exists x, cut (ended (str "ARTICLE " ++ g)) = str "ARTICLE " ++ x.
Proof. unfold ended. rewrite <- app_assoc, cut_pre by (cbn; lia). eauto. Qed.

Lemma ask_cases n t c : let '(a, c1) := read n (write n t c) in c_group c1 = c_group c /\ c_error c1 = c_error c /\
  ((a = None /\ (c_hist c1 = c_hist c \/ c_hist c1 = c_hist c ++ [W t]) /\ (c_status c1 = Disc -> c_status c = Disc)) \/
   (exists l, a = Some l /\ l <> [] /\ c_hist c1 = c_hist c ++ [W t; R l] /\ c_status c1 = Conn /\ c_status c = Conn)).
Proof.
  unfold write. destruct c as [h st g e]. destruct st; cbn; try (repeat split; left; auto; fail).
  destruct (n_write n h); cbn; [|repeat split; left; repeat split; auto; discriminate]. destruct (n_read n (h ++ [W t])) as [[|x l]| | |]; cbn; try (repeat split; left; repeat split; auto; discriminate).
  repeat split. right. exists (x :: l). rewrite <- app_assoc. repeat split; auto. discriminate.
Qed.

(** ** What is sent *)

Definition trace_ok (s : server) (ops : list nop) (h : list ev) : Prop :=
  (forall t, In (W t) h -> command s ops t) /\ asked h (pass_line s) /\ invited h (user_line s).
Lemma split_snoc {A} (h : list A) x a y b : h ++ [x] = a ++ y :: b -> (b = [] /\ h = a /\ x = y) \/ exists b1, b = b1 ++ [x] /\ h = a ++ y :: b1.
Proof.
  destruct b as [|z b] using rev_ind; intros E.
  - left. apply app_inj_tail in E as (-> & ->). auto.
  - right. exists b. change (a ++ y :: b ++ [z]) with (a ++ (y :: b) ++ [z]) in E. rewrite app_assoc in E. apply app_inj_tail in E as (-> & ->). auto.
Qed.
Lemma ok_other s ops h x : trace_ok s ops h -> (forall t, x <> W t) -> trace_ok s ops (h ++ [x]).
Proof.
  intros (A & B & D) N. split; [|split].
  - intros t I. apply in_app_or in I as [I|[I|[]]]; [exact (A t I)|destruct (N t I)].
  - intros a b E. apply split_snoc in E as [(_ & _ & E)|(b1 & _ & E)]; [destruct (N _ E)|exact (B _ _ E)].
  - intros a b E. apply split_snoc in E as [(_ & _ & E)|(b1 & _ & E)]; [destruct (N _ E)|exact (D _ _ E)].
Qed.
Lemma ok_write s ops h t : trace_ok s ops h -> command s ops t -> (t = pass_line s -> exists h1 l, h = h1 ++ [R l] /\ begins (str "381") l) ->
  (t = user_line s -> exists h1 l, h = h1 ++ [R l] /\ (begins (str "2") l \/ begins (str "480") l)) -> trace_ok s ops (h ++ [W t]).
Proof.
  intros (A & B & D) Cm P U. split; [|split].
  - intros u I. apply in_app_or in I as [I|[I|[]]]; [exact (A u I)|injection I as <-; exact Cm].
  - intros a b E. apply split_snoc in E as [(_ & <- & E)|(b1 & _ & E)]; [injection E as E; exact (P E)|exact (B _ _ E)].
  - intros a b E. apply split_snoc in E as [(_ & <- & E)|(b1 & _ & E)]; [injection E as E; exact (U E)|exact (D _ _ E)].
Qed.
Lemma ask_ok n s ops t c : trace_ok s ops (c_hist c) -> command s ops t -> (t = pass_line s -> exists h1 l, c_hist c = h1 ++ [R l] /\ begins (str "381") l) ->
  (t = user_line s -> exists h1 l, c_hist c = h1 ++ [R l] /\ (begins (str "2") l \/ begins (str "480") l)) -> trace_ok s ops (c_hist (snd (read n (write n t c)))).
Proof.
  intros T Cm P U. pose proof (ask_cases n t c) as H. destruct (read n (write n t c)) as (a, c1). destruct H as (_ & _ & [(_ & [E|E] & _)|(l & _ & _ & E & _)]); cbn [snd]; rewrite E.
  - exact T.
  - apply ok_write; assumption.
  - change [W t; R l] with ([W t] ++ [R l]). rewrite app_assoc. apply ok_other; [apply ok_write; assumption|discriminate].
Qed.
Lemma user_not_pass s : user_line s <> pass_line s.
Proof. destruct (user_pre s) as (x & ->), (pass_pre s) as (y & ->). discriminate. Qed.
Lemma auth_ok n s ops : forall k (p : bool) c, trace_ok s ops (c_hist c) ->
  (exists h1 l, c_hist c = h1 ++ [R l] /\ if p then begins (str "381") l else begins (str "2") l \/ begins (str "480") l) -> trace_ok s ops (c_hist (snd (auth k p n s c))).
Proof.
  induction k as [|k IH]; intros p c T Pre; [exact T|]. cbn [auth].
  assert (T1 : trace_ok s ops (c_hist (snd (read n (write n (if p then pass_line s else user_line s) c))))).
  { apply ask_ok; [exact T| | |].
    - destruct p; [rewrite pass_cut; apply cm_pass|rewrite user_cut; apply cm_user].
    - destruct p; [intros _; exact Pre|intros E; destruct (user_not_pass s E)].
    - destruct p; [intros E; destruct (user_not_pass s (eq_sym E))|intros _; exact Pre]. }
  pose proof (ask_cases n (if p then pass_line s else user_line s) c) as H. destruct (read n (write n (if p then pass_line s else user_line s) c)) as (a, c1). cbn [snd] in T1.
  destruct H as (_ & _ & [(-> & _)|(l & -> & _ & E & _)]); [exact T1|].
  assert (L : exists h1, c_hist c1 = h1 ++ [R l]) by (exists (c_hist c ++ [W (if p then pass_line s else user_line s)]); rewrite E, <- app_assoc; reflexivity). destruct L as (h1 & L).
  destruct p.
  - destruct (prefixb (str "2") l); [exact T1|]. destruct (prefixb (str "381") l) eqn:Q; [|exact T1]. apply IH; [exact T1|]. exists h1, l. split; [exact L|apply begins_iff, Q].
  - destruct (prefixb (str "281") l); [exact T1|]. destruct (prefixb (str "381") l) eqn:Q; [apply IH; [exact T1|]; exists h1, l; split; [exact L|apply begins_iff, Q]|].
    destruct (prefixb (str "480") l) eqn:Q2; [|exact T1]. apply IH; [exact T1|]. exists h1, l. split; [exact L|right; apply begins_iff, Q2].
Qed.
Lemma authenticate_ok n s ops c : trace_ok s ops (c_hist c) -> (exists h1 l, c_hist c = h1 ++ [R l] /\ (begins (str "2") l \/ begins (str "480") l)) -> trace_ok s ops (c_hist (snd (authenticate n s c))).
Proof.
  intros T P. unfold authenticate. destruct (is_nil (s_user s) || is_nil (s_pass s)); [exact T|]. pose proof (auth_ok n s ops 11 false c T P) as H. destruct (auth 11 false n s c) as (ok, c1). exact H.
Qed.
Definition plain_cmd (s : server) (t : list Z) : Prop := t <> user_line s /\ t <> pass_line s.
Lemma request_ok n s ops t c : trace_ok s ops (c_hist c) -> command s ops t -> plain_cmd s t -> trace_ok s ops (c_hist (snd (request n s t c))).
Proof.
  intros T Cm (Nu & Np). unfold request. assert (A : forall c, trace_ok s ops (c_hist c) -> trace_ok s ops (c_hist (snd (read n (write n t c))))) by (intros d Td; apply ask_ok; [exact Td|exact Cm|congruence|congruence]).
  pose proof (A (with_error false c) T) as T1. pose proof (ask_cases n t (with_error false c)) as H. destruct (read n (write n t (with_error false c))) as (a, c1). cbn [snd] in T1.
  destruct H as (_ & _ & [(-> & _)|(l & -> & _ & E & _)]); [exact T1|]. destruct (prefixb (str "480") l) eqn:Q; [|exact T1].
  pose proof (authenticate_ok n s ops c1 T1) as T2. destruct (authenticate n s c1) as (ok, c2). cbn [snd] in T2.
  assert (T3 : trace_ok s ops (c_hist c2)).
  { apply T2. exists (c_hist c ++ [W t]), l. split; [rewrite E, <- app_assoc; reflexivity|right; apply begins_iff, Q]. }
  destruct ok; [apply A, T3|exact T3].
Qed.
Lemma plain_quit s : plain_cmd s (str "quit" ++ crlf).
Proof. unfold plain_cmd. destruct (user_pre s) as (x & ->), (pass_pre s) as (y & ->). split; discriminate. Qed.
Lemma plain_group s g : plain_cmd s (cut (str "GROUP " ++ g ++ crlf)).
Proof. unfold plain_cmd. rewrite cut_pre by (cbn; lia). destruct (user_pre s) as (x & ->), (pass_pre s) as (y & ->). split; discriminate. Qed.
Lemma get_pre (raw : bool) id : exists x, cut ((if raw then str "ARTICLE" else str "BODY") ++ str " " ++ id ++ crlf) = (if raw then str "ARTICLE " else str "BODY ") ++ x.
Proof. destruct raw; [change (str "ARTICLE" ++ str " " ++ id ++ crlf) with (str "ARTICLE " ++ id ++ crlf)|change (str "BODY" ++ str " " ++ id ++ crlf) with (str "BODY " ++ id ++ crlf)]; rewrite cut_pre by (cbn; lia); eauto. Qed.
Lemma plain_get s (raw : bool) id : plain_cmd s (cut ((if raw then str "ARTICLE" else str "BODY") ++ str " " ++ id ++ crlf)).
Proof. unfold plain_cmd. destruct (get_pre raw id) as (z & ->), (user_pre s) as (x & ->), (pass_pre s) as (y & ->). destruct raw; split; discriminate. Qed.
Lemma disconnect_ok n s ops c : trace_ok s ops (c_hist c) -> trace_ok s ops (c_hist (disconnect n s c)).
Proof.
  intros T. unfold disconnect. destruct (c_status c); try exact T. pose proof (request_ok n s ops (str "quit" ++ crlf) c T (cm_quit s ops) (plain_quit s)) as H.
  destruct (request n s (str "quit" ++ crlf) c) as (a, c1). exact H.
Qed.
Lemma connect_ok n s ops c : trace_ok s ops (c_hist c) -> trace_ok s ops (c_hist (snd (connect n s c))).
Proof.
  intros T. unfold connect.
  assert (Go : trace_ok s ops (c_hist (snd (if n_open n (c_hist c) then
      let '(a, c1) := read n (C (c_hist c ++ [Open]) Conn (c_group c) (c_error c)) in
      match a with
      | None => (false, disconnect n s c1)
      | Some l => if prefixb (str "2") l then if negb (is_nil (s_user s)) && negb (is_nil (s_pass s)) then authenticate n s c1 else (true, c1) else (false, disconnect n s c1)
      end else (false, C (c_hist c) Disc (c_group c) (c_error c)))))).
  { destruct (n_open n (c_hist c)); [|exact T]. assert (T0 : trace_ok s ops (c_hist c ++ [Open])) by (apply ok_other; [exact T|discriminate]).
    unfold read. cbn [c_status c_hist]. destruct (n_read n (c_hist c ++ [Open])) as [[|x l]| | |]; try (apply disconnect_ok; exact T0).
    assert (T1 : trace_ok s ops ((c_hist c ++ [Open]) ++ [R (x :: l)])) by (apply ok_other; [exact T0|discriminate]).
    destruct (prefixb (str "2") (x :: l)) eqn:Q; [|apply disconnect_ok; exact T1]. destruct (negb (is_nil (s_user s)) && negb (is_nil (s_pass s))); [|exact T1].
    apply authenticate_ok; [exact T1|]. exists (c_hist c ++ [Open]), (x :: l). split; [reflexivity|left; apply begins_iff, Q]. }
  destruct (c_status c); [exact Go|exact T|exact Go|exact Go].
Qed.
Lemma join_ok n s ops g c : trace_ok s ops (c_hist c) -> In (OJoin g) ops -> trace_ok s ops (c_hist (snd (join n s g c))).
Proof.
  intros T I. unfold join. destruct (negb (is_nil (c_group c)) && beqb (c_group c) g); [exact T|].
  assert (Cm : command s ops (cut (str "GROUP " ++ g ++ crlf))) by exact (cm_group s ops g I).
  pose proof (request_ok n s ops _ c T Cm (plain_group s g)) as H. destruct (request n s (cut (str "GROUP " ++ g ++ crlf)) c) as ([l|], c1); [destruct (prefixb (str "2") l)|]; exact H.
Qed.
Lemma get_ok n s ops (raw : bool) id c : trace_ok s ops (c_hist c) -> In (OGet raw id) ops -> trace_ok s ops (c_hist (snd (get n s raw id c))).
Proof.
  intros T I. unfold get. apply request_ok; [exact T| |apply plain_get]. destruct raw; [exact (cm_article s ops id I)|exact (cm_body s ops id I)].
Qed.
Lemma fold_inv {A B} (f : A -> B -> A) (P : A -> Prop) : forall l x, P x -> (forall y b, In b l -> P y -> P (f y b)) -> P (fold_left f l x).
Proof. induction l as [|b l IH]; intros x H F; [exact H|]. cbn [fold_left]. apply IH; [apply F; [left; reflexivity|exact H]|]. intros y c I. apply F. right. exact I. Qed.
Lemma run_ok n s ops : trace_ok s ops (c_hist (nrun n s ops)).
Proof.
  unfold nrun. apply (fold_inv (nstep n s) (fun c => trace_ok s ops (c_hist c))).
  - split; [intros t []|]. split; intros a b E; destruct a; discriminate E.
  - intros c o I T. destruct o as [|g|raw id|]; cbn [nstep]; [apply connect_ok|apply join_ok|apply get_ok|apply disconnect_ok]; assumption.
Qed.
Lemma clean_cut p x : (length p <= 20)%nat -> ~ In 13 p -> ~ In 10 p -> clean x -> one_line (cut (ended (p ++ x))).
Proof.
  intros L N1 N2 (M1 & M2 & Lx). exists (p ++ x). split; [unfold cut; apply firstn_all2; unfold ended; rewrite !app_length; cbn [length]; lia|]. split; intros I; apply in_app_or in I as [I|I]; auto.
Qed.
Lemma command_line s ops t : clean (s_user s) -> clean (s_pass s) -> Forall clean_op ops -> command s ops t -> one_line t.
Proof.
  intros U P F H. destruct H as [| |g I|id I|id I|]; try (apply clean_cut; [cbn; lia|cbn; lia|cbn; lia|]); auto; try (exact (proj1 (Forall_forall _ _) F _ I)).
  exists (str "quit"). split; [reflexivity|]. cbn. lia.
Qed.

(** ** Authorization *)

Lemma auth_true n s : forall k p c c1, auth k p n s c = (true, c1) -> exists e, c_hist c1 = c_hist c ++ e /\ ~ In Open e /\ accepted s e /\ c_status c1 = Conn.
Proof.
  induction k as [|k IH]; intros p c c1 E; [discriminate E|]. cbn [auth] in E.
  pose proof (ask_cases n (if p then pass_line s else user_line s) c) as H. destruct (read n (write n (if p then pass_line s else user_line s) c)) as (a, c2).
  destruct H as (_ & _ & [(-> & _)|(l & -> & _ & Eh & Es & _)]); [discriminate E|].
  assert (Tl : (if p then pass_line s else user_line s) = user_line s \/ (if p then pass_line s else user_line s) = pass_line s) by (destruct p; auto).
  assert (Done : begins (str "2") l -> c1 = c2 -> exists e, c_hist c1 = c_hist c ++ e /\ ~ In Open e /\ accepted s e /\ c_status c1 = Conn).
  { intros B ->. exists [W (if p then pass_line s else user_line s); R l]. split; [exact Eh|]. split; [intros [Q|[Q|[]]]; discriminate Q|]. split; [|exact Es]. exists [], (if p then pass_line s else user_line s), l. auto. }
  assert (Next : forall q, auth k q n s c2 = (true, c1) -> exists e, c_hist c1 = c_hist c ++ e /\ ~ In Open e /\ accepted s e /\ c_status c1 = Conn).
  { intros q Q. destruct (IH q c2 c1 Q) as (e & Eh2 & No & (a & t & l1 & -> & B & T) & Es2). exists ([W (if p then pass_line s else user_line s); R l] ++ a ++ [W t; R l1]).
    split; [rewrite Eh2, Eh, <- app_assoc; reflexivity|]. split; [intros I; apply in_app_or in I as [[I|[I|[]]]|I]; [discriminate I|discriminate I|exact (No I)]|]. split; [|exact Es2].
    exists ([W (if p then pass_line s else user_line s); R l] ++ a), t, l1. split; [rewrite <- app_assoc; reflexivity|auto]. }
  destruct p.
  - destruct (prefixb (str "2") l) eqn:Q; [injection E as <-; apply Done; [apply begins_iff, Q|reflexivity]|]. destruct (prefixb (str "381") l); [exact (Next true E)|discriminate E].
  - destruct (prefixb (str "281") l) eqn:Q; [injection E as <-; apply Done; [|reflexivity]|].
    + apply begins_iff in Q as (r & ->). exists (str "81" ++ r). reflexivity.
    + destruct (prefixb (str "381") l); [exact (Next true E)|]. destruct (prefixb (str "480") l); [exact (Next false E)|discriminate E].
Qed.
Lemma connect_true n s c c1 : c_status c <> Conn -> connect n s c = (true, c1) -> exists l e, c_hist c1 = c_hist c ++ Open :: R l :: e /\ begins (str "2") l /\ ~ In Open e /\ c_status c1 = Conn /\
  (s_user s <> [] -> s_pass s <> [] -> accepted s e).
Proof.
  intros N E. unfold connect in E.
  assert (Go : (if n_open n (c_hist c) then
      let '(a, c1) := read n (C (c_hist c ++ [Open]) Conn (c_group c) (c_error c)) in
      match a with
      | None => (false, disconnect n s c1)
      | Some l => if prefixb (str "2") l then if negb (is_nil (s_user s)) && negb (is_nil (s_pass s)) then authenticate n s c1 else (true, c1) else (false, disconnect n s c1)
      end else (false, C (c_hist c) Disc (c_group c) (c_error c))) = (true, c1)) by (destruct (c_status c); congruence). clear E.
  destruct (n_open n (c_hist c)); [|discriminate Go]. unfold read in Go. cbn [c_status c_hist c_group c_error] in Go.
  destruct (n_read n (c_hist c ++ [Open])) as [[|x l]| | |]; try discriminate Go. destruct (prefixb (str "2") (x :: l)) eqn:Q; [|discriminate Go]. apply begins_iff in Q.
  destruct (is_nil (s_user s)) eqn:Nu; cbn [negb andb] in Go; [|destruct (is_nil (s_pass s)) eqn:Np; cbn [negb] in Go].
  - injection Go as <-. exists (x :: l), []. split; [cbn; rewrite <- app_assoc; reflexivity|]. split; [exact Q|]. split; [intros []|]. split; [reflexivity|]. intros U. destruct (s_user s); [congruence|discriminate Nu].
  - injection Go as <-. exists (x :: l), []. split; [cbn; rewrite <- app_assoc; reflexivity|]. split; [exact Q|]. split; [intros []|]. split; [reflexivity|]. intros _ P. destruct (s_pass s); [congruence|discriminate Np].
  - unfold authenticate in Go. rewrite Nu, Np in Go. cbn [orb] in Go. destruct (auth 11 false n s _) as (ok, c2) eqn:A in Go. injection Go as -> <-. apply auth_true in A as (e & Eh & No & Ac & Es).
    exists (x :: l), e. cbn [with_error c_hist c_status] in *. split; [rewrite Eh, <- !app_assoc; reflexivity|]. auto.
Qed.
Lemma sends_app a b : sends (a ++ b) = (sends a + sends b)%nat.
Proof. unfold sends. rewrite filter_app, app_length. reflexivity. Qed.
Lemma ask_sends n t c : (sends (c_hist (snd (read n (write n t c)))) <= sends (c_hist c) + 1)%nat.
Proof.
  pose proof (ask_cases n t c) as H. destruct (read n (write n t c)) as (a, c1). destruct H as (_ & _ & [(_ & [E|E] & _)|(l & _ & _ & E & _)]); cbn [snd]; rewrite E; [lia| |]; rewrite sends_app; cbn; lia.
Qed.
Lemma auth_sends n s : forall k p c, (sends (c_hist (snd (auth k p n s c))) <= sends (c_hist c) + k)%nat.
Proof.
  induction k as [|k IH]; intros p c; [cbn; lia|]. cbn [auth]. pose proof (ask_sends n (if p then pass_line s else user_line s) c) as H. destruct (read n (write n (if p then pass_line s else user_line s) c)) as ([l|], c1); cbn [snd] in *; [|lia].
  pose proof (IH true c1) as I1. pose proof (IH false c1) as I2. destruct p; repeat (destruct (prefixb _ l)); cbn [snd]; lia.
Qed.
Lemma request_sends n s t c : (sends (c_hist (snd (request n s t c))) <= sends (c_hist c) + 13)%nat.
Proof.
  unfold request. pose proof (ask_sends n t (with_error false c)) as H. destruct (read n (write n t (with_error false c))) as ([l|], c1); cbn [snd with_error c_hist] in *; [|lia].
  destruct (prefixb (str "480") l); cbn [snd]; [|lia]. unfold authenticate. destruct (is_nil (s_user s) || is_nil (s_pass s)); [cbn [snd with_error c_hist]; lia|].
  pose proof (auth_sends n s 11 false c1) as A. destruct (auth 11 false n s c1) as (ok, c2). cbn [snd] in A. destruct ok; [|cbn [snd with_error c_hist]; lia].
  pose proof (ask_sends n t (with_error (negb true) c2)) as B. cbn [with_error c_hist] in B. lia.
Qed.
Lemma request_again n s t c c1 l : request n s t c = (Some l, c1) -> exists a, c_hist c1 = a ++ [W t; R l] /\ c_status c1 = Conn.
Proof.
  unfold request. intros E. pose proof (ask_cases n t (with_error false c)) as H. destruct (read n (write n t (with_error false c))) as (a, c2).
  destruct H as (_ & _ & [(-> & _)|(l1 & -> & _ & Eh & Es & _)]); [discriminate E|]. destruct (prefixb (str "480") l1).
  - destruct (authenticate n s c2) as (ok, c3). destruct ok; [|discriminate E]. pose proof (ask_cases n t c3) as H. rewrite E in H.
    destruct H as (_ & _ & [(Q & _)|(l2 & Q & _ & Eh2 & Es2 & _)]); [discriminate Q|]. injection Q as ->. eauto.
  - injection E as -> <-. eauto.
Qed.

(** ** Groups *)

Definition not_group (t : list Z) : Prop := forall g, t <> cut (ended (str "GROUP " ++ g)).
Lemma sel_w e g t : selected e g -> selected (e ++ [W t]) g.
Proof. intros H. apply sel_other; [exact H|discriminate|discriminate]. Qed.
Lemma sel_wr e g t l : selected e g -> (not_group t \/ ~ begins (str "2") l) -> selected (e ++ [W t; R l]) g.
Proof.
  intros H D. change [W t; R l] with ([W t] ++ [R l]). rewrite app_assoc. apply sel_other; [apply sel_w, H| |discriminate].
  intros g1 l1 Q B (e1 & E). injection Q as <-. apply app_inj_tail in E as (_ & E). injection E as E. destruct D as [D|D]; [exact (D g1 E)|exact (D B)].
Qed.
Lemma user_ng s : not_group (user_line s).
Proof. intros g. destruct (user_pre s) as (x & ->), (group_pre g) as (y & ->). discriminate. Qed.
Lemma pass_ng s : not_group (pass_line s).
Proof. intros g. destruct (pass_pre s) as (x & ->), (group_pre g) as (y & ->). discriminate. Qed.
(** Selected groups stay selected, the group remembered is the same. *)
Definition keeps (c c1 : conn) : Prop := c_group c1 = c_group c /\ (forall g, selected (c_hist c) g -> selected (c_hist c1) g) /\ (c_status c1 = Disc -> c_status c = Disc).
Lemma keeps_refl c : keeps c c.
Proof. repeat split; auto. Qed.
Lemma keeps_trans a b c : keeps a b -> keeps b c -> keeps a c.
Proof. intros (A & B & D) (E & F & G). split; [congruence|]. auto. Qed.
Lemma keeps_error e c : keeps c (with_error e c).
Proof. repeat split; auto. Qed.
Lemma ask_keeps n t c : let '(a, c1) := read n (write n t c) in (not_group t \/ (forall l, a = Some l -> ~ begins (str "2") l)) -> keeps c c1.
Proof.
  pose proof (ask_cases n t c) as H. destruct (read n (write n t c)) as (a, c1). destruct H as (Eg & _ & [(-> & D & Es)|(l & -> & _ & E & Es & _)]); intros Q.
  - split; [exact Eg|]. split; [|exact Es]. intros g S1. destruct D as [-> | ->]; [exact S1|apply sel_w, S1].
  - split; [exact Eg|]. split; [|congruence]. intros g S1. rewrite E. apply sel_wr; [exact S1|]. destruct Q as [Q|Q]; [left; exact Q|right; exact (Q l eq_refl)].
Qed.
Lemma auth_keeps n s : forall k p c, keeps c (snd (auth k p n s c)).
Proof.
  induction k as [|k IH]; intros p c; [apply keeps_refl|]. cbn [auth]. pose proof (ask_keeps n (if p then pass_line s else user_line s) c) as H.
  destruct (read n (write n (if p then pass_line s else user_line s) c)) as (a, c1). assert (K : keeps c c1) by (apply H; left; destruct p; [apply pass_ng|apply user_ng]). clear H.
  destruct a as [l|]; [|exact K]. destruct p; repeat (destruct (prefixb _ l)); cbn [snd]; first [exact K|exact (keeps_trans _ _ _ K (IH _ _))].
Qed.
Lemma authenticate_keeps n s c : keeps c (snd (authenticate n s c)).
Proof.
  unfold authenticate. destruct (is_nil (s_user s) || is_nil (s_pass s)); [apply keeps_error|]. pose proof (auth_keeps n s 11 false c) as K. destruct (auth 11 false n s c) as (ok, c1). exact K.
Qed.
Lemma request_keeps n s t c : let '(a, c1) := request n s t c in (not_group t \/ (forall l, a = Some l -> ~ begins (str "2") l)) -> keeps c c1.
Proof.
  unfold request. pose proof (ask_keeps n t (with_error false c)) as H. pose proof (ask_cases n t (with_error false c)) as Hc. destruct (read n (write n t (with_error false c))) as (a, c1).
  destruct a as [l|]; [|intros _; apply (keeps_trans _ (with_error false c)); [apply keeps_error|apply H; right; discriminate]].
  destruct (prefixb (str "480") l) eqn:Q.
  - assert (K1 : keeps c c1). { apply (keeps_trans _ (with_error false c)); [apply keeps_error|]. apply H. right. intros l1 E. injection E as <-. apply begins_iff in Q as (r & ->). intros (x & B). discriminate B. }
    pose proof (authenticate_keeps n s c1) as K2. destruct (authenticate n s c1) as (ok, c2). destruct ok; [|intros _; exact (keeps_trans _ _ _ K1 K2)].
    pose proof (ask_keeps n t c2) as H2. destruct (read n (write n t c2)) as (a, c3). intros D. exact (keeps_trans _ _ _ K1 (keeps_trans _ _ _ K2 (H2 D))).
  - intros D. apply (keeps_trans _ (with_error false c)); [apply keeps_error|]. exact (H D).
Qed.

(** Nothing is remembered when closed; what is remembered is selected. *)
Definition group_inv (c : conn) : Prop := (c_status c = Disc -> c_group c = []) /\ (c_group c <> [] -> selected (c_hist c) (c_group c)).
Lemma keeps_inv c c1 : keeps c c1 -> group_inv c -> group_inv c1.
Proof. intros (Kg & Ks & Kd) (A & B). split; rewrite Kg; auto. Qed.
Lemma group_of_request n s t c : not_group t -> group_inv c -> group_inv (snd (request n s t c)).
Proof. intros N. pose proof (request_keeps n s t c) as K. destruct (request n s t c) as (a, c1). apply keeps_inv, K. left. exact N. Qed.
Lemma quit_ng : not_group (str "quit" ++ crlf).
Proof. intros g. destruct (group_pre g) as (y & ->). discriminate. Qed.
Lemma get_ng (raw : bool) id : not_group (cut ((if raw then str "ARTICLE" else str "BODY") ++ str " " ++ id ++ crlf)).
Proof. intros g. destruct (get_pre raw id) as (x & ->), (group_pre g) as (y & ->). destruct raw; discriminate. Qed.
Lemma join_selects n s g c : group_inv c -> group_inv (snd (join n s g c)) /\ (forall l, fst (join n s g c) = Some l -> begins (str "2") l -> selected (c_hist (snd (join n s g c))) g).
Proof.
  intros I. unfold join. destruct (negb (is_nil (c_group c)) && beqb (c_group c) g) eqn:E.
  - apply andb_true_iff in E as (E1 & E2). apply beqb_eq in E2. assert (N : c_group c <> []) by (destruct (c_group c); [discriminate E1|discriminate]). cbn [fst snd]. split; [exact I|].
    intros l _ _. rewrite <- E2. exact (proj2 I N).
  - pose proof (request_keeps n s (cut (str "GROUP " ++ g ++ crlf)) c) as K. pose proof (request_again n s (cut (str "GROUP " ++ g ++ crlf)) c) as Ra.
    destruct (request n s (cut (str "GROUP " ++ g ++ crlf)) c) as ([l|], c1).
    + destruct (Ra c1 l eq_refl) as (h & Eh & Es). destruct (prefixb (str "2") l) eqn:Q.
      * apply begins_iff in Q. assert (Sel : selected (c_hist c1) g) by (rewrite Eh; exact (sel_yes h g l Q)). cbn [fst snd c_hist]. split; [split; cbn [c_status c_group c_hist]; [congruence|auto]|]. intros l1 _ _. exact Sel.
      * assert (Nb : ~ begins (str "2") l) by (intros Bb; apply begins_iff in Bb; congruence). cbn [fst snd]. split.
        -- apply (keeps_inv c); [apply K|exact I]. right. intros l1 El. injection El as <-. exact Nb.
        -- intros l1 El Bb. injection El as <-. contradiction.
    + cbn [fst snd]. split; [|discriminate]. apply (keeps_inv c); [apply K|exact I]. right. discriminate.
Qed.
Lemma any_selects n s : forall gs a c l c1, group_inv c -> join_any n s gs a c = (Some l, c1) -> begins (str "2") l -> (forall l0, a = Some l0 -> ~ begins (str "2") l0) -> exists g, In g gs /\ selected (c_hist c1) g.
Proof.
  induction gs as [|g gs IH]; intros a c l c1 G E B Na; cbn [join_any] in E.
  - injection E as -> <-. destruct (Na l eq_refl B).
  - destruct (join_selects n s g c G) as (G1 & H). destruct (join n s g c) as (a1, c2). cbn [fst snd] in *. destruct a1 as [l1|].
    + destruct (prefixb (str "2") l1) eqn:Q; [injection E as -> <-; exists g; split; [left; reflexivity|exact (H l eq_refl B)]|].
      destruct (IH (Some l1) c2 l c1 G1 E B) as (g1 & I1 & S1); [intros l0 E0; injection E0 as <-; intros Bb; apply begins_iff in Bb; congruence|]. exists g1. split; [right; exact I1|exact S1].
    + destruct (IH None c2 l c1 G1 E B) as (g1 & I1 & S1); [discriminate|]. exists g1. split; [right; exact I1|exact S1].
Qed.
Lemma disconnect_group n s c : c_status c = Conn \/ c_group c = [] -> group_inv (disconnect n s c).
Proof.
  intros H. assert (G : c_group (disconnect n s c) = []).
  { unfold disconnect. destruct (c_status c) eqn:E; cbn [c_group]; try (destruct H as [H|H]; [discriminate H|exact H]). destruct (request n s (str "quit" ++ crlf) c) as (a, c1). reflexivity. }
  split; [intros _; exact G|congruence].
Qed.
Lemma connect_group n s c : (c_status c = Conn \/ c_status c = Disc) -> group_inv c -> group_inv (snd (connect n s c)).
Proof.
  intros H I. unfold connect. destruct (c_status c) eqn:E; try (destruct H as [H|H]; discriminate H); [|exact I]. destruct I as (A & B). pose proof (A E) as G.
  destruct (n_open n (c_hist c)); [|split; cbn; [intros _; exact G|congruence]]. unfold read. cbn [c_status c_hist c_group c_error]. rewrite G.
  destruct (n_read n (c_hist c ++ [Open])) as [[|x l]| | |]; try (apply disconnect_group; right; reflexivity). destruct (prefixb (str "2") (x :: l)); [|apply disconnect_group; right; reflexivity].
  assert (I1 : group_inv (C ((c_hist c ++ [Open]) ++ [R (x :: l)]) Conn [] (c_error c))) by (split; cbn; [discriminate|congruence]).
  destruct (negb (is_nil (s_user s)) && negb (is_nil (s_pass s))); [|exact I1]. exact (keeps_inv _ _ (authenticate_keeps n s _) I1).
Qed.
Lemma run_group n s : forall ops, kept_up n s ops -> group_inv (nrun n s ops).
Proof.
  induction ops as [|o ops IH] using rev_ind; intros K; [split; cbn; [reflexivity|congruence]|].
  assert (K1 : kept_up n s ops) by (intros p o1 q E; apply (K p o1 (q ++ [o])); rewrite E, <- app_assoc; reflexivity). specialize (IH K1).
  unfold nrun in *. rewrite fold_left_app. cbn [fold_left]. fold (nrun n s ops) in *. destruct o as [|g|raw id|]; cbn [nstep].
  - apply connect_group; [apply (K ops OConnect []); auto|exact IH].
  - apply join_selects, IH.
  - apply group_of_request; [apply get_ng|exact IH].
  - apply disconnect_group. destruct (K ops ODisconnect [] eq_refl (or_intror eq_refl)) as [H|H]; [left; exact H|right; apply IH, H].
Qed.
Lemma group_ok n s ops g l c1 : kept_up n s ops -> join n s g (nrun n s ops) = (Some l, c1) -> begins (str "2") l -> selected (c_hist c1) g.
Proof.
  intros K E B. destruct (join_selects n s g _ (run_group n s ops K)) as (_ & H). rewrite E in H. exact (H l eq_refl B).
Qed.
Lemma groups_ok n s ops gs l c1 : kept_up n s ops -> join_any n s gs None (nrun n s ops) = (Some l, c1) -> begins (str "2") l -> exists g, In g gs /\ selected (c_hist c1) g.
Proof. intros K E B. apply (any_selects n s gs None (nrun n s ops) l c1 (run_group n s ops K) E B). discriminate. Qed.
