(** Requests as clients send them, remote procedures, response heads. *)
From Coq Require Import String.
From Verif Require Import Base NumFmt WildModel WildSpec WildProofs TextProofs CodecModel CodecSpec CodecProofs2 NameModel NameSpec NameProofs WebModel WebSpec WebProofs.
Open Scope list_scope. Open Scope Z_scope.

(** ** Requests *)

Lemma take_line_whole l r n : ~ In 10 l -> (length l < n)%nat -> take_line n (l ++ 10 :: r) = l ++ [10].
Proof.
  revert n. induction l as [|c l IH]; intros n N L; (destruct n as [|n]; [cbn [length] in L; lia|]); cbn [app take_line].
  - reflexivity.
  - destruct (c =? 10) eqn:E; [exfalso; apply N; left; lia|]. f_equal. apply IH; [intros X; apply N; right; exact X|].
    cbn [length] in L. lia.
Qed.

Lemma c_string_id s : ~ In 0 s -> c_string s = s.
Proof.
  induction s as [|c s IH]; [reflexivity|]. intros N. cbn [c_string]. destruct (c =? 0) eqn:E; [exfalso; apply N; left; lia|].
  f_equal. apply IH. intros X. apply N. right. exact X.
Qed.

Definition step_of (h : hdrs) (l : list Z) : hdrs := match header_step l h with HNext x => x | HEnd x => x end.

Lemma text_not l x : Forall text_char l -> x = 0 \/ x = 10 \/ x = 13 -> ~ In x l.
Proof. intros F X I. rewrite Forall_forall in F. destruct (F _ I) as (A & B & C). destruct X as [-> | [-> | ->]]; auto. Qed.

Lemma line_of_text l : Forall text_char l -> cut_cr (c_string (l ++ [13; 10])) = l.
Proof.
  intros F. rewrite c_string_id.
  - unfold cut_cr. rewrite strrchr_app by (intros [X | []]; discriminate). reflexivity.
  - intros I. apply in_app_or in I as [I | [X | [X | []]]]; try discriminate. exact (text_not l 0 F (or_introl eq_refl) I).
Qed.

Lemma header_ok_next l h : header_ok l -> header_step l h = HNext (step_of h l).
Proof.
  intros (_ & NE & _ & V). unfold step_of.
  assert (G : forall b x, b = basic x -> Z.of_nat (length x) <= 257 -> exists a, b = Some a).
  { intros b x -> L. unfold basic. destruct (Z.of_nat (length x) >? 257) eqn:E; [lia|]. eexists; reflexivity. }
  unfold header_step.
  destruct (nocase_prefix (str "Content-Length: ") l); [reflexivity|].
  destruct (nocase_prefix (str "Authorization: Basic ") l && beqb (h_auth h) []) eqn:A.
  { apply andb_true_iff in A as [A _]. apply nocase_prefix_field in A.
    destruct (G _ _ eq_refl (V _ (or_introl A))) as [a E]. change (length (str "Authorization: Basic ")) with 21%nat in E. rewrite E. reflexivity. }
  destruct (nocase_prefix (str "X-Authorization: Basic ") l) eqn:X.
  { apply nocase_prefix_field in X. destruct (G _ _ eq_refl (V _ (or_intror X))) as [a E].
    change (length (str "X-Authorization: Basic ")) with 23%nat in E. rewrite E. reflexivity. }
  destruct (nocase_prefix (str "Accept-Encoding: ") l); [reflexivity|].
  destruct (nocase_prefix (str "Origin: ") l); [reflexivity|].
  destruct (nocase_prefix (str "Cookie: ") l).
  { destruct (strstr l (str "Auth-Token=")) as [t|]; [|reflexivity]. destruct (skipn 11 t) as [|c r]; [reflexivity|].
    destruct (c =? 59); reflexivity. }
  destruct (nocase_prefix (str "X-Forwarded-For: ") l); [reflexivity|].
  destruct (nocase_prefix (str "If-None-Match: ") l); [reflexivity|].
  destruct (nocase_prefix (str "Connection: keep-alive") l); [reflexivity|].
  destruct (beqb l []) eqn:B; [apply beqb_eq in B; contradiction|reflexivity].
Qed.

Lemma parse_rendered hs : Forall header_ok hs -> forall fuel h t, (length hs < fuel)%nat ->
  parse_headers fuel (render hs ++ t) h = Some (fold_left step_of hs h, t).
Proof.
  intros F. induction F as [|l hs Hl F IH]; intros fuel h t L; (destruct fuel as [|f]; [cbn [length] in L; lia|]).
  - reflexivity.
  - assert (R : render (l :: hs) ++ t = (l ++ [13]) ++ 10 :: render hs ++ t).
    { unfold render. cbn [flat_map]. rewrite <- !app_assoc. reflexivity. }
    rewrite R. cbn [parse_headers]. destruct Hl as (TX & NE & LL & V). 
    rewrite take_line_whole.
    2:{ intros I. apply in_app_or in I as [I | [X | []]]; [|discriminate]. exact (text_not l 10 TX (or_intror (or_introl eq_refl)) I). }
    2:{ rewrite app_length. cbn [length]. unfold line_room. lia. }
    rewrite <- !app_assoc. cbn [app].
    assert (LT := line_of_text l TX). assert (HN := header_ok_next l h (conj TX (conj NE (conj LL V)))).
    assert (X : skipn (length (l ++ [13; 10])) (l ++ 13 :: 10 :: render hs ++ t) = render hs ++ t).
    { change (l ++ 13 :: 10 :: render hs ++ t) with (l ++ [13; 10] ++ (render hs ++ t)). rewrite app_assoc.
      rewrite skipn_app, skipn_all, Nat.sub_diag. reflexivity. }
    destruct (l ++ [13; 10]) as [|c0 l0] eqn:E; [destruct l; discriminate|].
    rewrite LT, HN. cbn [fold_left]. rewrite X. apply IH. cbn [length] in L. lia.
Qed.

Lemma fuel_rendered hs t : (length hs < S (length (render hs ++ t)))%nat.
Proof.
  unfold render. rewrite !app_length. enough (X : (length hs <= length (flat_map (fun l => l ++ [13%Z; 10%Z]) hs))%nat) by lia.
  induction hs as [|l hs IH]; [auto|]. cbn [flat_map length]. rewrite !app_length. cbn [length]. lia.
Qed.

Lemma step_len l h : h_len (step_of h l) = if nocase_prefix (str "Content-Length: ") l then atoi (skipn 16 l) else h_len h.
Proof.
  unfold step_of, header_step.
  destruct (nocase_prefix (str "Content-Length: ") l); [reflexivity|].
  destruct (nocase_prefix (str "Authorization: Basic ") l && beqb (h_auth h) []).
  { destruct (basic (skipn 21 l)); reflexivity. }
  destruct (nocase_prefix (str "X-Authorization: Basic ") l).
  { destruct (basic (skipn 23 l)); reflexivity. }
  destruct (nocase_prefix (str "Accept-Encoding: ") l); [reflexivity|].
  destruct (nocase_prefix (str "Origin: ") l); [reflexivity|].
  destruct (nocase_prefix (str "Cookie: ") l).
  { destruct (strstr l (str "Auth-Token=")) as [t|]; [|reflexivity]. destruct (skipn 11 t) as [|c r]; [reflexivity|].
    destruct (c =? 59); reflexivity. }
  destruct (nocase_prefix (str "X-Forwarded-For: ") l); [reflexivity|].
  destruct (nocase_prefix (str "If-None-Match: ") l); [reflexivity|].
  destruct (nocase_prefix (str "Connection: keep-alive") l); [reflexivity|].
  destruct (beqb l []); reflexivity.
Qed.

Lemma fold_len_none hs h : Forall (fun x => forall v, ~ field (str "Content-Length: ") x v) hs ->
  h_len (fold_left step_of hs h) = h_len h.
Proof.
  intros F. revert h. induction F as [|l hs Hl F IH]; intros h; [reflexivity|]. cbn [fold_left]. rewrite IH, step_len.
  destruct (nocase_prefix (str "Content-Length: ") l) eqn:E; [|reflexivity]. apply nocase_prefix_field in E. exfalso. exact (Hl _ E).
Qed.

Lemma declared hs n h : declares hs n -> 0 <= n < 2 ^ 31 -> h_len (fold_left step_of hs h) = n.
Proof.
  intros (a & l & b & -> & Fl & F) R. apply Forall_app in F as [_ Fb]. rewrite fold_left_app. cbn [fold_left].
  rewrite fold_len_none by exact Fb. rewrite step_len.
  assert (V := field_value _ _ _ Fl). change (length (str "Content-Length: ")) with 16%nat in V.
  assert (E : nocase_prefix (str "Content-Length: ") l = true).
  { apply nocase_prefix_field. change (length (str "Content-Length: ")) with 16%nat. rewrite <- V. exact Fl. }
  rewrite E, <- V. unfold atoi. assert (X := atoll_zdec n [] I). rewrite app_nil_r in X. rewrite X. unfold to_i32. lia.
Qed.

Theorem one_response : forall cfg toks ip fs m url hs body rest rs s2 keep,
  Forall header_ok hs ->
  (m = HPost -> declares hs (Z.of_nat (length body)) /\ 0 < Z.of_nat (length body) < 2 ^ 31) ->
  (m <> HPost -> body = []) ->
  ~ plain_url url (str "/nzbget") ->
  execute cfg toks ip fs m url (render hs ++ body ++ rest) = Some (rs, s2, keep) ->
  exists r, rs = [r] /\ (s2 = rest \/ (r = RAuth /\ s2 = body ++ rest)).
Proof.
  intros cfg toks ip fs m url hs body rest rs s2 keep F P NP NU. unfold execute.
  rewrite (parse_rendered hs F) by apply fuel_rendered. set (h := fold_left step_of hs hdrs0).
  assert (HL : m = HPost -> h_len h = Z.of_nat (length body)).
  { intros M. destruct (P M) as [D R]. apply declared; [exact D|lia]. }
  assert (Z0 : match m with HPost => h_len h <=? 0 | _ => false end = false).
  { destruct m; try reflexivity. rewrite (HL eq_refl). destruct (P eq_refl) as [_ R]. lia. }
  rewrite Z0. destruct (match m with HOptions => true | _ => false end) eqn:Opt.
  { intros H. injection H as <- <- <-. eexists. split; [reflexivity|]. left. rewrite NP; [reflexivity|]. destruct m; discriminate. }
  destruct (parse_url url (h_auth h)) as [[[red auth] u]|] eqn:U; [|discriminate].
  assert (R : red = false).
  { destruct (parse_url_ok _ _ _ _ _ U) as [[_ X] | (_ & Pl & X)]; [exact X|]. destruct red; [|reflexivity].
    exfalso. apply NU. rewrite <- (proj1 X eq_refl). exact Pl. }
  subst red. destruct (check_credentials cfg toks ip auth (h_token h)) as [who|]; [|discriminate]. cbn [app].
  destruct ((negb (w_form cfg) || is_rpc u) && (match who with None => true | _ => false end)).
  { intros H. injection H as <- <- <-. eexists. split; [reflexivity|]. right. auto. }
  set (n := match m with HPost => Z.to_nat (h_len h) | _ => O end).
  assert (N : n = length body).
  { unfold n. destruct m; [rewrite (HL eq_refl); lia| |]; (rewrite NP; [reflexivity|discriminate]). }
  clearbody n. subst n. destruct (length (body ++ rest) <? length body)%nat eqn:L.
  { apply Nat.ltb_lt in L. rewrite app_length in L. lia. }
  destruct (dispatch cfg fs who m u _) as [r|]; [|discriminate]. intros H. injection H as <- <- <-.
  exists r. split; [reflexivity|]. left. rewrite skipn_app, skipn_all, Nat.sub_diag. reflexivity.
Qed.

Lemma parse_headers_some : forall fuel s h, (length s < fuel)%nat -> parse_headers fuel s h <> None.
Proof.
  induction fuel as [|f IH]; intros s h L; [lia|]. cbn [parse_headers].
  assert (P := take_line_prefix line_room s). destruct (take_line line_room s) as [|c l]; [discriminate|].
  destruct (header_step (cut_cr (c_string (c :: l))) h); [|discriminate]. apply IH.
  apply (f_equal (@length Z)) in P. rewrite app_length in P. cbn [length] in P |- *. lia.
Qed.

Lemma parse_url_some url auth : url <> [] -> ~ In 37 url -> parse_url url auth <> None.
Proof.
  intros NE NP. unfold parse_url. assert (Fo := folder url). cbv zeta in Fo |- *.
  assert (W : (if prefixb (str "/nzbget/") url then skipn 7 url else url) <> []).
  { destruct (prefixb (str "/nzbget/") url) eqn:E; [|exact NE]. apply prefixb_iff in E as [t ->]. discriminate. }
  set (w := if prefixb (str "/nzbget/") url then skipn 7 url else url) in *. clearbody w.
  destruct Fo as (pre & _ & E). destruct (beqb w (str "/nzbget")); [discriminate|]. destruct w as [|c t]; [congruence|].
  destruct (index 58 t) as [i|]; [|discriminate]. destruct (index 47 t) as [j|]; [|discriminate]. destruct (i <? j)%nat; [|discriminate].
  destruct (url_decode (firstn (Nat.min j (Z.to_nat 256)) t)) eqn:U; [discriminate|]. exfalso. revert U. apply url_safe.
  intros u v X. exfalso. apply NP. rewrite E. apply in_or_app. right. right. rewrite <- (firstn_skipn (Nat.min j (Z.to_nat 256)) t), X.
  apply in_or_app. left. apply in_or_app. right. left. reflexivity.
Qed.

Theorem execute_defined : forall cfg toks ip fs m url s, ~ In 0 ip -> url <> [] -> ~ In 37 url ->
  execute cfg toks ip fs m url s <> None.
Proof.
  intros cfg toks ip fs m url s N NE NP. unfold execute.
  assert (P := parse_headers_some (S (length s)) s hdrs0 ltac:(lia)).
  destruct (parse_headers (S (length s)) s hdrs0) as [[h s1]|]; [|congruence].
  destruct (match m with HPost => h_len h <=? 0 | _ => false end); [discriminate|].
  destruct (match m with HOptions => true | _ => false end); [discriminate|].
  assert (U := parse_url_some url (h_auth h) NE NP). destruct (parse_url url (h_auth h)) as [[[red auth] u]|]; [|congruence].
  destruct (check_ok cfg toks ip auth (h_token h) N) as (who & -> & _).
  destruct ((negb (w_form cfg) || is_rpc u) && (match who with None => true | _ => false end)); [discriminate|].
  destruct (length s1 <? _)%nat; [discriminate|].
  assert (D : dispatch cfg fs who m u (c_string (firstn (match m with HPost => Z.to_nat (h_len h) | _ => O end) s1)) <> None).
  { generalize (c_string (firstn (match m with HPost => Z.to_nat (h_len h) | _ => O end) s1)). intros body. unfold dispatch.
    destruct u as [|c u0]; [discriminate|]. destruct (negb (c =? 47)); [discriminate|]. destruct (is_rpc (c :: u0)); [discriminate|].
    destruct (beqb (w_dir cfg) []); [discriminate|]. destruct m; try discriminate.
    destruct (negb (url_ok (c :: u0))); [discriminate|].
    destruct (prefixb (str "/combined.") (c :: u0) && has 63 (c :: u0)) eqn:C.
    - apply andb_true_iff in C as [_ C]. unfold has in C. apply existsb_exists in C as (x & I & X). apply Z.eqb_eq in X. subst x.
      destruct (index 63 (c :: u0)) as [i|] eqn:E; [|exfalso; exact (index_none _ _ E I)]. rewrite tokens_ok.
      destruct (load_all fs _); discriminate.
    - destruct (fs _); discriminate. }
  destruct (dispatch cfg fs who m u _); [discriminate|congruence].
Qed.

(** A login by header. *)
Lemma base64_chars data : bytes_ok data -> Forall (fun c => b64_char c = true) (base64 data).
Proof.
  assert (G : forall n data, (length data <= n)%nat -> bytes_ok data -> Forall (fun c => b64_char c = true) (base64 data)).
  { induction n as [|n IH]; intros [|a [|b [|c t]]] L H; try (cbn [length] in L; lia); cbn [base64].
    all: try solve [constructor].
    all: unfold bytes_ok in H; repeat match goal with H : Forall _ (_ :: _) |- _ => apply Forall_cons_iff in H as [? H] end; unfold is_byte in *; cbv beta in *.
    - repeat (constructor; [first [reflexivity | apply b64_digit_ok; lia]|]). constructor.
    - repeat (constructor; [first [reflexivity | apply b64_digit_ok; lia]|]). constructor.
    - do 4 (constructor; [apply b64_digit_ok; lia|]). apply IH; [cbn [length] in L; lia|assumption]. }
  intros H. apply (G (length data)); [lia|exact H].
Qed.

Lemma b64_text c : b64_char c = true -> text_char c.
Proof. unfold b64_char, text_char. lia. Qed.

(** A client that sends a user name and a password gets the rights of that user. *)
Theorem login_works : forall cfg toks ip fs user pw a u rest, ~ In 0 ip ->
  bytes_ok (user ++ 58 :: pw) -> ~ In 0 (user ++ 58 :: pw) -> Z.of_nat (length (base64 (user ++ 58 :: pw))) <= 257 ->
  granted cfg toks ip (user ++ 58 :: pw) [] a ->
  is_rpc u = true -> ~ In 58 u ->
  execute cfg toks ip fs HGet u (render [str "Authorization: Basic " ++ base64 (user ++ 58 :: pw)] ++ rest)
    = Some ([RRpc a HGet u []], rest, false).
Proof.
  intros cfg toks ip fs user pw a u rest N B NZ L G R NC.
  set (auth := user ++ 58 :: pw) in *. set (line := str "Authorization: Basic " ++ base64 auth).
  assert (TX : Forall text_char line).
  { unfold line. apply Forall_app. split; [|].
    - assert (X : forallb (fun c => negb (c =? 0) && negb (c =? 10) && negb (c =? 13)) (str "Authorization: Basic ") = true) by reflexivity.
      rewrite forallb_forall in X. apply Forall_forall. intros c I. apply X in I. unfold text_char. lia.
    - eapply Forall_impl; [|apply base64_chars, B]. exact b64_text. }
  assert (LL : Z.of_nat (length line) <= 278).
  { unfold line. rewrite app_length. change (length (str "Authorization: Basic ")) with 21%nat. lia. }
  assert (Hok : header_ok line).
  { split; [exact TX|]. split; [discriminate|]. split; [lia|]. intros v [V | V]; apply field_value in V.
    - change (length (str "Authorization: Basic ")) with 21%nat in V. subst v. unfold line. rewrite skipn_length, app_length.
      change (length (str "Authorization: Basic ")) with 21%nat. lia.
    - change (length (str "X-Authorization: Basic ")) with 23%nat in V. subst v. rewrite skipn_length. lia. }
  assert (St : step_of hdrs0 line = Hdrs 0 auth [] [] false).
  { unfold step_of, header_step. assert (X1 : nocase_prefix (str "Content-Length: ") line = false) by reflexivity. rewrite X1.
    assert (X2 : nocase_prefix (str "Authorization: Basic ") line = true).
    { unfold nocase_prefix, line. rewrite map_app. apply prefixb_app. }
    rewrite X2. cbn [h_auth hdrs0 andb]. change (beqb [] []) with true. cbv iota.
    change (skipn 21 line) with (base64 auth). unfold basic.
    destruct (Z.of_nat (length (base64 auth)) >? 257) eqn:E; [lia|]. rewrite base64_roundtrip by exact B.
    rewrite c_string_id by exact NZ. reflexivity. }
  unfold execute. rewrite (parse_rendered [line] (Forall_cons _ Hok (Forall_nil _))) by apply fuel_rendered.
  cbn [fold_left]. rewrite St. cbn [h_auth h_token h_keep].
  assert (U : parse_url u auth = Some (false, auth, u)).
  { unfold parse_url. assert (NF : prefixb (str "/nzbget/") u = false /\ beqb u (str "/nzbget") = false).
    { unfold is_rpc, under in R. rewrite !orb_true_iff, !beqb_eq, !prefixb_iff in R.
      destruct R as [[[-> | [t ->]] | [-> | [t ->]]] | [-> | [t ->]]]; split; reflexivity. }
    destruct NF as [-> ->]. cbv zeta. destruct u as [|c t]; [discriminate|].
    destruct (index 58 t) as [i|] eqn:I; [|reflexivity]. exfalso. apply NC. right.
    destruct (index_some _ _ _ I) as [X _]. rewrite X. apply in_or_app. right. left. reflexivity. }
  rewrite U. destruct (check_ok cfg toks ip auth [] N) as (who & -> & W). rewrite (proj2 (W a) G).
  cbn [andb]. rewrite andb_false_r. cbn [Nat.ltb Nat.leb app firstn skipn c_string].
  unfold dispatch. destruct u as [|c t]; [discriminate|].
  assert (C : c = 47).
  { unfold is_rpc, under in R. rewrite !orb_true_iff, !beqb_eq, !prefixb_iff in R.
    destruct R as [[[E | [x E]] | [E | [x E]]] | [E | [x E]]]; injection E; auto. }
  subst c. rewrite R. reflexivity.
Qed.

(** ** Remote procedures *)

Lemma create_rights a name n : create_command a name = CRun n -> may_run a n /\ member n procedures = true.
Proof.
  unfold create_command. cbv zeta.
  destruct (match a with UAdd => true | _ => false end && negb (beqb (map lower name) (str "append") || beqb (map lower name) (str "appendurl") || beqb (map lower name) (str "version"))) eqn:A; [discriminate|].
  destruct (match a with URestricted => true | _ => false end && beqb (map lower name) (str "saveconfig")) eqn:R; [discriminate|].
  destruct (member (map lower name) procedures) eqn:M; [|discriminate]. intros H. injection H as <-. split; [|exact M].
  destruct a; cbn [may_run].
  - exact I.
  - cbn [andb] in R. apply beqb_neq in R. exact R.
  - cbn [andb] in A. apply negb_false_iff in A. rewrite !orb_true_iff, !beqb_eq in A. cbn [In]. intuition.
Qed.

Lemma multicall_calls : forall fuel a req cs, multicall fuel a req = Some cs ->
  Forall (fun c => exists name, c = (create_command a name, None)) cs.
Proof.
  induction fuel as [|f IH]; intros a req cs; [discriminate|]. cbn [multicall].
  destruct (strstr req (str "</struct>")) as [q|]; [|intros H; injection H as <-; constructor].
  destruct (strstr _ (str "</name>")) as [nm|]; [|intros H; injection H as <-; constructor].
  destruct (multicall f a (skipn 9 q)) as [r|] eqn:E; [|discriminate]. intros H. injection H as <-.
  constructor; [eexists; reflexivity|exact (IH _ _ _ E)].
Qed.

Lemma rpc_calls_inv a m p u req cs : rpc_calls a m p u req = Some cs -> Forall (fun c => exists name, fst c = create_command a name) cs.
Proof.
  unfold rpc_calls. cbv zeta. match goal with |- (if ?b then _ else _) = _ -> _ => destruct b end.
  - intros H. apply multicall_calls in H. eapply Forall_impl; [|exact H]. cbv beta. intros c [name ->]. exists name. reflexivity.
  - match goal with |- (if ?b then _ else _) = _ -> _ => destruct b end; intros H; injection H as <-; [|constructor].
    constructor; [|constructor]. eexists. reflexivity.
Qed.

Theorem rpc_rights : forall a m url req cs n seen,
  rpc a m url req = Some cs -> In (CRun n, seen) cs -> may_run a n.
Proof.
  intros a m url req cs n seen H I. unfold rpc in H. destruct (url_decode url) as [u|]; [|discriminate].
  destruct (protocol u) as [p|]; [|injection H as <-; destruct I].
  apply rpc_calls_inv in H. rewrite Forall_forall in H. destruct (H _ I) as [name E]. cbn [fst] in E.
  exact (proj1 (create_rights _ _ _ (eq_sym E))).
Qed.

Theorem get_is_safe : forall a url req cs n seen,
  rpc a HGet url req = Some cs -> In (CRun n, seen) cs ->
  read_only n \/ exists u, url_decode url = Some u /\ (u = str "/jsonprpc" \/ exists v, u = str "/jsonprpc/" ++ v).
Proof.
  intros a url req cs n seen H I. unfold rpc in H. destruct (url_decode url) as [u|] eqn:D; [|discriminate].
  destruct (protocol u) as [p|] eqn:P; [|injection H as <-; destruct I].
  unfold rpc_calls in H. cbv zeta in H. rewrite andb_false_r in H.
  match type of H with (if ?b then _ else _) = _ => destruct b eqn:C end; [|injection H as <-; destruct I].
  injection H as <-. destruct I as [I | []]. injection I as I _. rewrite I in C.
  rewrite !orb_false_r in C. apply orb_true_iff in C as [C | C].
  - left. unfold member in C. apply existsb_exists in C as (x & In1 & E). apply beqb_eq in E. subst x. exact In1.
  - right. exists u. split; [reflexivity|]. destruct p; try discriminate.
    unfold protocol, under in P. destruct (beqb u (str "/xmlrpc") || prefixb (str "/xmlrpc" ++ [47]) u); [discriminate|].
    destruct (beqb u (str "/jsonrpc") || prefixb (str "/jsonrpc" ++ [47]) u); [discriminate|].
    destruct (beqb u (str "/jsonprpc") || prefixb (str "/jsonprpc" ++ [47]) u) eqn:E; [|discriminate].
    rewrite orb_true_iff, beqb_eq, prefixb_iff in E. destruct E as [E | [v E]]; [left; exact E|right; exists v; exact E].
Qed.

Lemma strstr_some_within s p : within s p -> strstr s p <> None.
Proof.
  intros (u & v & ->). induction u as [|c u IH].
  - cbn [app]. assert (X := prefixb_app p v). destruct (p ++ v); cbn [strstr]; rewrite X; discriminate.
  - cbn [app strstr]. destruct (prefixb p (c :: u ++ p ++ v)); [discriminate|exact IH].
Qed.

Lemma within_firstn s p n : within s p -> (length s <= n)%nat -> within (firstn n s) p.
Proof. intros W L. rewrite firstn_all2 by exact L. exact W. Qed.

Lemma secret_hidden name : secret name -> Z.of_nat (length name) <= 1023 -> restricted_option name = true.
Proof.
  intros S L. unfold restricted_option. cbv zeta.
  assert (F : forall p, within (lower_text name) p -> is_some (strstr (firstn (Z.to_nat 1023) (map lower name)) p) = true).
  { intros p W. change (lower_text name) with (map lower name) in W.
    assert (X := strstr_some_within _ _ (within_firstn _ _ (Z.to_nat 1023) W ltac:(rewrite map_length; lia))).
    destruct (strstr _ p); [reflexivity|congruence]. }
  destruct S as [S | [S | [S | S]]].
  - rewrite (F _ S), orb_true_r. reflexivity.
  - rewrite (F _ S), orb_true_r. reflexivity.
  - assert (X : has 58 name = true) by (apply existsb_exists; exists 58; auto). rewrite X, orb_true_r. reflexivity.
  - assert (X : member (map lower name) hidden_names = true); [|rewrite X; reflexivity].
    destruct S as (n & E & I). change (map lower name) with (lower_text name). rewrite E. clear - I.
    assert (G : forall l, forallb (fun n => member (lower_text n) hidden_names) l = true -> In n l -> member (lower_text n) hidden_names = true).
    { intros l A B. rewrite forallb_forall in A. exact (A _ B). }
    refine (G _ _ I). vm_compute. reflexivity.
Qed.

Theorem config_hides : forall junk opts n v, In (n, v) (config_answer junk (Some URestricted) opts) ->
  secret n -> Z.of_nat (length n) <= 1023 -> v = str "***".
Proof.
  intros junk opts n v I S L. unfold config_answer in I. apply in_map_iff in I as ([n0 v0] & E & I).
  cbn [andb] in E. injection E as <- <-. rewrite (secret_hidden _ S L). reflexivity.
Qed.
Theorem config_shows : forall junk opts a, a <> URestricted -> config_answer junk (Some a) opts = opts.
Proof.
  intros junk opts a H. unfold config_answer. cbv zeta. assert (E : (match a with URestricted => true | _ => false end) = false) by (destruct a; congruence).
  rewrite E. cbn [andb]. induction opts as [|[n v] r IH]; [reflexivity|]. cbn [map]. rewrite IH. reflexivity.
Qed.

(** A single call sees its rights. *)
Theorem single_sees : forall a m url req cs c seen, rpc a m url req = Some cs -> In (c, seen) cs ->
  seen = Some a \/ (seen = None /\ m <> HGet /\ exists u, url_decode url = Some u /\ protocol u = Some PXml).
Proof.
  intros a m url req cs c seen H I. unfold rpc in H. destruct (url_decode url) as [u|] eqn:D; [|discriminate].
  destruct (protocol u) as [p|] eqn:P; [|injection H as <-; destruct I].
  unfold rpc_calls in H. cbv zeta in H.
  match type of H with (if ?b then _ else _) = _ => destruct b eqn:C end.
  - apply multicall_calls in H. rewrite Forall_forall in H. destruct (H _ I) as [name E]. injection E as _ ->.
    right. split; [reflexivity|]. rewrite !andb_true_iff in C. destruct C as [[_ C1] C2]. split; [destruct m; congruence|].
    exists u. split; [reflexivity|]. destruct p; congruence.
  - match type of H with (if ?b then _ else _) = _ => destruct b end; injection H as <-; [|destruct I].
    destruct I as [I | []]. injection I as _ <-. left. reflexivity.
Qed.

(** ** Heads *)

Theorem head_ok : forall status keep origin form token len ctype tag version,
  let text := body_head_text status keep origin form token len ctype tag version in
  Z.of_nat (length text) <= 1023 -> head_complete (body_head status keep origin form token len ctype tag version) len.
Proof.
  intros. unfold body_head. fold text. rewrite firstn_all2 by lia. unfold text, body_head_text, head_complete. clear. split.
  - eexists. unfold crlf. rewrite !app_assoc. reflexivity.
  - unfold crlf.
    set (x := str "; HttpOnly; SameSite=Lax").
    eexists (_ ++ x), (ctype ++ tag ++ str "Server: nzbget-" ++ version ++ [13; 10] ++ [13; 10]).
    rewrite !app_assoc. reflexivity.
Qed.
Theorem head_fits : forall status keep origin form token len ctype tag version,
  Z.of_nat (length status) <= 16 -> Z.of_nat (length keep) <= 10 -> Z.of_nat (length form) <= 4 -> Z.of_nat (length token) <= 48 ->
  Z.of_nat (length (zdec len)) <= 10 -> Z.of_nat (length ctype) <= 42 -> Z.of_nat (length tag) <= 42 -> Z.of_nat (length version) <= 50 ->
  Z.of_nat (length origin) <= 300 ->
  Z.of_nat (length (body_head_text status keep origin form token len ctype tag version)) <= 1023.
Proof.
  intros. unfold body_head_text. rewrite !app_length.
  repeat match goal with |- context [length (str ?x)] => let n := eval vm_compute in (length (str x)) in change (length (str x)) with n end.
  cbn [length]. lia.
Qed.
