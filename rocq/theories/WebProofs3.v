(** Requests of one connection. *)
From Coq Require Import String.
From Verif Require Import Base NumFmt WildModel WildSpec WildProofs TextProofs CodecModel CodecSpec CodecProofs2 NameModel NameSpec NameProofs WebModel WebSpec WebProofs WebProofs2.
Open Scope list_scope. Open Scope Z_scope.

Lemma prefix_firstn (a s : list Z) n : prefixb a s = true -> prefixb (firstn n a) s = true.
Proof.
  intros H. apply prefixb_iff in H as [t ->]. apply prefixb_iff. exists (skipn n a ++ t). rewrite app_assoc, firstn_skipn. reflexivity.
Qed.
Lemma prefix_two (a b s : list Z) : length a = length b -> prefixb a s = true -> prefixb b s = true -> a = b.
Proof.
  intros L A B. apply prefixb_iff in A as [t ->]. apply prefixb_iff in B as [u E].
  apply (f_equal (firstn (length a))) in E. rewrite firstn_app, firstn_all, Nat.sub_diag in E. cbn [firstn] in E. rewrite app_nil_r in E.
  rewrite E, L, firstn_app, firstn_all, Nat.sub_diag. cbn [firstn]. apply app_nil_r.
Qed.
Lemma nocase_other k p q s : nocase_prefix p s = true -> beqb (firstn k (map lower p)) (firstn k (map lower q)) = false ->
  length (firstn k (map lower p)) = length (firstn k (map lower q)) -> nocase_prefix q s = false.
Proof.
  unfold nocase_prefix. intros H N L. destruct (prefixb (map lower q) (map lower s)) eqn:E; [|reflexivity].
  apply (prefix_firstn _ _ k) in H, E. rewrite (prefix_two _ _ _ L H E), beqb_refl in N. discriminate.
Qed.

Lemma step_keep l h : h_keep (step_of h l) = nocase_prefix (str "Connection: keep-alive") l || h_keep h.
Proof.
  destruct (nocase_prefix (str "Connection: keep-alive") l) eqn:K.
  - cbn [orb]. assert (X : forall q, beqb (firstn 4 (map lower (str "Connection: keep-alive"))) (firstn 4 (map lower q)) = false ->
      length (firstn 4 (map lower q)) = 4%nat -> nocase_prefix q l = false).
    { intros q A B. apply (nocase_other 4 _ _ _ K A). rewrite B. reflexivity. }
    unfold step_of, header_step.
    rewrite (nocase_other 6 _ (str "Content-Length: ") _ K eq_refl eq_refl).
    rewrite (X (str "Authorization: Basic ") eq_refl eq_refl), (X (str "X-Authorization: Basic ") eq_refl eq_refl),
      (X (str "Accept-Encoding: ") eq_refl eq_refl), (X (str "Origin: ") eq_refl eq_refl), (X (str "Cookie: ") eq_refl eq_refl),
      (X (str "X-Forwarded-For: ") eq_refl eq_refl), (X (str "If-None-Match: ") eq_refl eq_refl), K. reflexivity.
  - cbn [orb]. unfold step_of, header_step. rewrite K.
    destruct (nocase_prefix (str "Content-Length: ") l); [reflexivity|].
    destruct (nocase_prefix (str "Authorization: Basic ") l && beqb (h_auth h) []).
    { destruct (basic (skipn 21 l)); reflexivity. }
    destruct (nocase_prefix (str "X-Authorization: Basic ") l).
    { destruct (basic (skipn 23 l)); reflexivity. }
    destruct (nocase_prefix (str "Accept-Encoding: ") l); [reflexivity|].
    destruct (nocase_prefix (str "Origin: ") l); [reflexivity|].
    destruct (nocase_prefix (str "Cookie: ") l).
    { destruct (strstr l (str "Auth-Token=")) as [t|]; [|reflexivity]. destruct (skipn 11 t) as [|c r]; [reflexivity|].
      destruct (c =? 59); reflexivity. }
    destruct (nocase_prefix (str "X-Forwarded-For: ") l); [reflexivity|].
    destruct (nocase_prefix (str "If-None-Match: ") l); [reflexivity|].
    destruct (beqb l []); reflexivity.
Qed.

Lemma fold_keep hs : forall h, h_keep (fold_left step_of hs h) = existsb (nocase_prefix (str "Connection: keep-alive")) hs || h_keep h.
Proof.
  induction hs as [|l hs IH]; intros h; [reflexivity|]. cbn [fold_left existsb]. rewrite IH, step_keep.
  destruct (nocase_prefix (str "Connection: keep-alive") l), (existsb (nocase_prefix (str "Connection: keep-alive")) hs); reflexivity.
Qed.
Lemma asks_iff hs : existsb (nocase_prefix (str "Connection: keep-alive")) hs = true <-> asks_to_keep hs.
Proof.
  split.
  - intros H. apply existsb_exists in H as (l & I & E). apply nocase_prefix_field in E. eexists _, _. split; [exact I|exact E].
  - intros (l & v & I & E). apply existsb_exists. exists l. split; [exact I|]. apply nocase_prefix_field.
    rewrite <- (field_value _ _ _ E). exact E.
Qed.

Lemma execute_keep cfg toks ip fs m url hs t rs s2 keep : Forall header_ok hs ->
  execute cfg toks ip fs m url (render hs ++ t) = Some (rs, s2, keep) -> (keep = true <-> asks_to_keep hs).
Proof.
  intros F. unfold execute. rewrite (parse_rendered hs F) by apply fuel_rendered.
  rewrite <- asks_iff. assert (K := fold_keep hs hdrs0). cbn [h_keep hdrs0] in K. rewrite orb_false_r in K. rewrite <- K. clear K.
  set (h := fold_left step_of hs hdrs0).
  destruct (match m with HPost => h_len h <=? 0 | _ => false end); [intros H; injection H as <- <- <-; tauto|].
  destruct (match m with HOptions => true | _ => false end); [intros H; injection H as <- <- <-; tauto|].
  destruct (parse_url url (h_auth h)) as [[[red auth] u]|]; [|discriminate].
  destruct (check_credentials cfg toks ip auth (h_token h)) as [who|]; [|discriminate].
  destruct ((negb (w_form cfg) || is_rpc u) && (match who with None => true | _ => false end)); [intros H; injection H as <- <- <-; tauto|].
  destruct (length t <? match m with HPost => Z.to_nat (h_len h) | _ => O end)%nat; [intros H; injection H as <- <- <-; tauto|].
  destruct (dispatch cfg fs who m u _) as [r|]; [|discriminate]. intros H; injection H as <- <- <-; tauto.
Qed.

Lemma cut_blank_ok u v : ~ In 32 u -> cut_blank (u ++ 32 :: v) = u.
Proof.
  intros N. unfold cut_blank. assert (E : index 32 (u ++ 32 :: v) = Some (length u)).
  { clear -N. induction u as [|c u IH]; [reflexivity|]. cbn [app index]. destruct (c =? 32) eqn:E; [exfalso; apply N; left; lia|].
    rewrite IH by (intros X; apply N; right; exact X). reflexivity. }
  rewrite E, firstn_app, firstn_all, Nat.sub_diag. cbn [firstn]. apply app_nil_r.
Qed.

Lemma serve_request cfg toks ip fs m url t : url_text url ->
  let s := request_line m url ++ t in
  serve cfg toks ip fs (firstn 4 s) (skipn 4 s) = execute cfg toks ip fs m url t /\ (length s <? 4)%nat = false.
Proof.
  intros (NE & T & B & L).
  assert (G : forall pre n, (pre = [] \/ pre = [32] \/ pre = str "ONS ") -> n = length pre ->
    let l := pre ++ url ++ str " HTTP/1.1" ++ [13; 10] in
    take_line line_room (l ++ t) = l /\ cut_blank (c_string (skipn n l)) = url /\ skipn (length l) (l ++ t) = t /\ c_string l = l).
  { intros pre n P -> l. subst l.
    assert (N10 : ~ In 10 url) by exact (text_not _ _ T (or_intror (or_introl eq_refl))).
    assert (N0 : ~ In 0 url) by exact (text_not _ _ T (or_introl eq_refl)).
    assert (PN : ~ In 10 pre /\ ~ In 0 pre /\ (length pre <= 4)%nat).
    { destruct P as [-> | [-> | ->]]; repeat split; try (intros X; vm_compute in X; intuition discriminate); vm_compute; repeat constructor. }
    destruct PN as (P10 & P0 & PL).
    assert (C : ~ In 0 (pre ++ url ++ str " HTTP/1.1" ++ [13; 10])).
    { intros I. repeat (apply in_app_or in I as [I|I]); [exact (P0 I)|exact (N0 I)| |]; vm_compute in I; intuition discriminate. }
    split; [|split; [|split]].
    - replace ((pre ++ url ++ str " HTTP/1.1" ++ [13; 10]) ++ t) with ((pre ++ url ++ str " HTTP/1.1" ++ [13]) ++ 10 :: t)
        by (rewrite <- !app_assoc; reflexivity).
      rewrite take_line_whole.
      + rewrite <- !app_assoc. reflexivity.
      + intros I. repeat (apply in_app_or in I as [I|I]); [exact (P10 I)|exact (N10 I)| |]; vm_compute in I; intuition discriminate.
      + rewrite !app_length. change (length (str " HTTP/1.1")) with 9%nat. cbn [length]. unfold line_room. lia.
    - rewrite skipn_app, skipn_all, Nat.sub_diag. cbn [skipn app]. rewrite c_string_id.
      + change (str " HTTP/1.1" ++ [13; 10]) with (32 :: str "HTTP/1.1" ++ [13; 10]). apply cut_blank_ok. exact B.
      + intros I. apply C. apply in_or_app. right. exact I.
    - rewrite skipn_app, skipn_all, Nat.sub_diag. reflexivity.
    - apply c_string_id. exact C. }
  cbv zeta. assert (U : exists c u, url = c :: u) by (destruct url; [contradiction|eauto]).
  split.
  2:{ apply Nat.ltb_ge. unfold request_line. rewrite !app_length. cbn [length]. rewrite !app_length. destruct m; vm_compute; lia. }
  destruct m.
  - assert (E : request_line HPost url ++ t = str "POST" ++ ([32] ++ url ++ str " HTTP/1.1" ++ [13; 10]) ++ t)
      by (unfold request_line; rewrite <- app_assoc; reflexivity).
    rewrite E. change (firstn 4 (str "POST" ++ ([32] ++ url ++ str " HTTP/1.1" ++ [13; 10]) ++ t)) with (str "POST").
    change (skipn 4 (str "POST" ++ ([32] ++ url ++ str " HTTP/1.1" ++ [13; 10]) ++ t)) with (([32] ++ url ++ str " HTTP/1.1" ++ [13; 10]) ++ t).
    destruct (G [32] 1%nat (or_intror (or_introl eq_refl)) eq_refl) as (A & B' & C & D). unfold serve. rewrite A.
    remember ([32] ++ url ++ str " HTTP/1.1" ++ [13; 10]) as l eqn:El. destruct l as [|c0 l0]; [discriminate|].
    change (beqb (str "POST") (str "POST")) with true. cbv iota zeta. rewrite B', C. reflexivity.
  - assert (E : request_line HGet url ++ t = str "GET " ++ ([] ++ url ++ str " HTTP/1.1" ++ [13; 10]) ++ t)
      by (unfold request_line; rewrite <- app_assoc; reflexivity).
    rewrite E. change (firstn 4 (str "GET " ++ ([] ++ url ++ str " HTTP/1.1" ++ [13; 10]) ++ t)) with (str "GET ").
    change (skipn 4 (str "GET " ++ ([] ++ url ++ str " HTTP/1.1" ++ [13; 10]) ++ t)) with (([] ++ url ++ str " HTTP/1.1" ++ [13; 10]) ++ t).
    destruct (G [] 0%nat (or_introl eq_refl) eq_refl) as (A & B' & C & D). unfold serve. rewrite A.
    destruct U as (c & u & ->).
    remember ([] ++ (c :: u) ++ str " HTTP/1.1" ++ [13; 10]) as l eqn:El. destruct l as [|c0 l0]; [discriminate|].
    change (beqb (str "GET ") (str "POST")) with false. change (beqb (str "GET ") (str "OPTI")) with false.
    change (beqb (str "GET ") (str "GET ")) with true. cbn [andb]. cbv iota zeta. cbn [skipn] in B'. rewrite B', C. reflexivity.
  - assert (E : request_line HOptions url ++ t = str "OPTI" ++ (str "ONS " ++ url ++ str " HTTP/1.1" ++ [13; 10]) ++ t)
      by (unfold request_line; rewrite <- app_assoc; reflexivity).
    rewrite E. change (firstn 4 (str "OPTI" ++ (str "ONS " ++ url ++ str " HTTP/1.1" ++ [13; 10]) ++ t)) with (str "OPTI").
    change (skipn 4 (str "OPTI" ++ (str "ONS " ++ url ++ str " HTTP/1.1" ++ [13; 10]) ++ t)) with ((str "ONS " ++ url ++ str " HTTP/1.1" ++ [13; 10]) ++ t).
    destruct (G (str "ONS ") 4%nat (or_intror (or_intror eq_refl)) eq_refl) as (A & B' & C & D). unfold serve. rewrite A.
    assert (L4 : (4 <? Z.of_nat (length (c_string (str "ONS " ++ url ++ str " HTTP/1.1" ++ [13; 10])))) = true).
    { rewrite D, !app_length. cbn [length]. change (length (str "ONS ")) with 4%nat. lia. }
    remember (str "ONS " ++ url ++ str " HTTP/1.1" ++ [13; 10]) as l eqn:El. destruct l as [|c0 l0]; [discriminate|].
    change (beqb (str "OPTI") (str "POST")) with false. change (beqb (str "OPTI") (str "OPTI")) with true. rewrite L4.
    cbn [andb]. cbv iota zeta. rewrite B', C. reflexivity.
Qed.

(** One request at the beginning of a connection: one response, and the rest of the connection is served exactly if the client
    asked to keep it. *)
Theorem session_step : forall fuel cfg toks ip fs m url hs body rest rs,
  url_text url -> Forall header_ok hs ->
  (m = HPost -> declares hs (Z.of_nat (length body)) /\ 0 < Z.of_nat (length body) < 2 ^ 31) ->
  (m <> HPost -> body = []) ->
  ~ plain_url url (str "/nzbget") ->
  session (S fuel) cfg toks ip fs (request_line m url ++ render hs ++ body ++ rest) = Some rs ->
  exists r rs', rs = r :: rs' /\
    (~ asks_to_keep hs -> rs' = []) /\
    (asks_to_keep hs -> session fuel cfg toks ip fs rest = Some rs' \/
       (r = RAuth /\ session fuel cfg toks ip fs (body ++ rest) = Some rs')).
Proof.
  intros fuel cfg toks ip fs m url hs body rest rs U F P NP NU H. cbn [session] in H.
  destruct (serve_request cfg toks ip fs m url (render hs ++ body ++ rest) U) as [Sv Ln]. rewrite Ln, Sv in H.
  destruct (execute cfg toks ip fs m url (render hs ++ body ++ rest)) as [[[rs1 s2] keep]|] eqn:E; [|discriminate].
  destruct (one_response _ _ _ _ _ _ _ _ _ _ _ _ F P NP NU E) as (r & -> & S2).
  assert (K := execute_keep _ _ _ _ _ _ _ _ _ _ _ F E). destruct keep.
  - destruct (session fuel cfg toks ip fs s2) as [rs'|] eqn:X; [|discriminate]. injection H as <-.
    exists r, rs'. split; [reflexivity|]. split; [intros N; exfalso; apply N, K; reflexivity|]. intros _.
    destruct S2 as [-> | [A ->]]; [left; exact X|right; split; [exact A|exact X]].
  - injection H as <-. exists r, []. split; [reflexivity|]. split; [reflexivity|]. intros A. apply K in A. discriminate.
Qed.
