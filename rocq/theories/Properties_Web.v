(** The web server: theorems for C45, C46, C92 - C95. *)
From Coq Require Import String.
From Verif Require Import Base NumFmt WildModel WildSpec CodecModel CodecSpec NameSpec WebModel WebSpec WebProofs WebProofs2 WebProofs3.
Open Scope list_scope. Open Scope Z_scope.

Definition ex_cfg : wcfg :=
  WCfg (str "nzbget") (str "secret") (str "guest") (str "look") (str "adder") (str "add") (str "192.168.*") (str "/web") false.
Definition ex_toks : token3 := (str "T0", str "T1", str "T2").
Definition ex_fs (p : list Z) : option (list Z) :=
  if beqb p (str "/web/index.html") then Some (str "<html>")
  else if beqb p (str "/web/a.js") then Some (str "aa")
  else if beqb p (str "/web/b.js") then Some (str "bb") else None.
Definition ex_ip : list Z := str "10.0.0.9".
Definition ex_line (s : string) : list Z := str s ++ [13; 10].

(** ** C45: access *)

(** The check of the credentials: exactly the rights described. *)
Theorem C45_check : forall cfg toks ip auth token, ~ In 0 ip ->
  exists r, check_credentials cfg toks ip auth token = Some r /\ forall a, r = Some a <-> granted cfg toks ip auth token a.
Proof. exact check_ok. Qed.
Print Assumptions C45_check.
(** Whatever is sent: a remote call is processed only with the rights of credentials which are in the request;
    files are sent to those who have rights, to others only when the login form is switched on, and
    these get no token. *)
Theorem C45_served : forall cfg toks ip fs m url s rs s2 keep, ~ In 0 ip ->
  execute cfg toks ip fs m url s = Some (rs, s2, keep) ->
  exists head s1 auth token, s = head ++ s1 /\
    ((exists u, from_url url auth u) \/ from_header head auth) /\ from_cookie head token /\
    (forall a m' u b, In (RRpc a m' u b) rs -> granted cfg toks ip auth token a) /\
    (forall who paths b, In (RFile who paths b) rs ->
       (forall a, who = Some a <-> granted cfg toks ip auth token a) /\
       (w_form cfg = false -> exists a, granted cfg toks ip auth token a)).
Proof. exact execute_served. Qed.
Print Assumptions C45_served.
(** The other way round: who sends a user name and the password gets in. *)
Theorem C45_login : forall cfg toks ip fs user pw a u rest, ~ In 0 ip ->
  bytes_ok (user ++ 58 :: pw) -> ~ In 0 (user ++ 58 :: pw) -> Z.of_nat (length (base64 (user ++ 58 :: pw))) <= 257 ->
  granted cfg toks ip (user ++ 58 :: pw) [] a ->
  is_rpc u = true -> ~ In 58 u ->
  execute cfg toks ip fs HGet u (render [str "Authorization: Basic " ++ base64 (user ++ 58 :: pw)] ++ rest)
    = Some ([RRpc a HGet u []], rest, false).
Proof. exact login_works. Qed.
Print Assumptions C45_login.
Example C45_ex :
  execute ex_cfg ex_toks ex_ip ex_fs HGet (str "/jsonrpc/version") (render [str "Authorization: Basic " ++ base64 (str "guest:look")])
    = Some ([RRpc URestricted HGet (str "/jsonrpc/version") []], [], false) /\
  execute ex_cfg ex_toks ex_ip ex_fs HGet (str "/jsonrpc/version") (render [str "Authorization: Basic " ++ base64 (str "guest:look!")])
    = Some ([RAuth], [], false) /\
  execute ex_cfg ex_toks ex_ip ex_fs HGet (str "/adder:add/jsonrpc/version") (render []) = Some ([RRpc UAdd HGet (str "/jsonrpc/version") []], [], false) /\
  execute ex_cfg ex_toks ex_ip ex_fs HGet (str "/") (render [str "Cookie: x=1; Auth-Token=T0"]) = Some ([RFile (Some UControl) [str "/web/index.html"] (str "<html>")], [], false) /\
  execute ex_cfg ex_toks (str "192.168.1.7") ex_fs HGet (str "/jsonrpc") (render []) = Some ([RRpc UControl HGet (str "/jsonrpc") []], [], false).
Proof. repeat split; vm_compute; reflexivity. Qed.
Example C45_ex_granted : granted ex_cfg ex_toks ex_ip (str "guest:look") [] URestricted.
Proof.
  destruct (C45_check ex_cfg ex_toks ex_ip (str "guest:look") []) as (r & E & H).
  { intros I. apply (in_map (Z.eqb 0)) in I. vm_compute in I. intuition discriminate. }
  apply H. assert (X : check_credentials ex_cfg ex_toks ex_ip (str "guest:look") [] = Some (Some URestricted)) by (vm_compute; reflexivity).
  congruence.
Qed.

(** ** C46: files *)

Theorem C46_inside_partial : forall cfg toks ip fs m url s rs s2 keep who paths b,
  execute cfg toks ip fs m url s = Some (rs, s2, keep) -> In (RFile who paths b) rs ->
  Z.of_nat (length (w_dir cfg)) <= 1023 ->
  m = HGet /\ Forall (below (w_dir cfg)) paths /\
  ((exists p, paths = [p] /\ fs p = Some b) \/
   (exists bs, Forall2 (fun p c => fs p = Some c) paths bs /\ b = concat (map c_string bs))).
Proof. exact execute_files. Qed.
Print Assumptions C46_inside_partial.
(** A longer web directory is cut: the file is one outside of it. *)
Theorem C46_long_refuted : exists cfg toks ip fs s rs who p b,
  execute cfg toks ip fs HGet (str "/x") s = Some (rs, [], false) /\ In (RFile who [p] b) rs /\ ~ below (w_dir cfg) p.
Proof.
  pose (up := flat_map (fun _ => str "/abcdefghi") (seq 0 102) ++ str "/..").
  pose (dir := up ++ str ".secret").
  exists (WCfg (w_cuser ex_cfg) [] [] [] [] [] [] dir false), ex_toks, ex_ip,
    (fun p => if beqb p up then Some (str "!") else None), (render []), [RFile (Some UControl) [up] (str "!")], (Some UControl), up, (str "!").
  split; [vm_compute; reflexivity|]. split; [left; reflexivity|].
  intros [r E]. apply (f_equal (@length (list Z))) in E. rewrite app_length in E.
  assert (A : length (place up) = 101%nat) by (vm_compute; reflexivity).
  cbn [w_dir] in E. assert (B : length (place dir) = 103%nat) by (vm_compute; reflexivity). rewrite A, B in E. clear - E. lia.
Qed.
Print Assumptions C46_long_refuted.
Example C46_ex :
  execute ex_cfg ex_toks (str "192.168.1.7") ex_fs HGet (str "/combined.js?a.js+b.js") (render [])
    = Some ([RFile (Some UControl) [str "/web/a.js"; str "/web/b.js"] (str "aabb")], [], false) /\
  execute ex_cfg ex_toks (str "192.168.1.7") ex_fs HGet (str "/../etc/passwd") (render []) = Some ([RError 404], [], false) /\
  below (str "/web") (str "/web/a.js") /\ ~ below (str "/web") (str "/web/../etc/passwd").
Proof.
  split; [vm_compute; reflexivity|]. split; [vm_compute; reflexivity|]. split.
  - exists [str "a.js"]. vm_compute. reflexivity.
  - intros [r E]. vm_compute in E. discriminate.
Qed.

(** ** C92: one response per request *)

(** Missing: addresses without end slash, and the rest of the connection after a refused request with a body. *)
Theorem C92_one_partial : forall cfg toks ip fs m url hs body rest rs s2 keep,
  Forall header_ok hs ->
  (m = HPost -> declares hs (Z.of_nat (length body)) /\ 0 < Z.of_nat (length body) < 2 ^ 31) ->
  (m <> HPost -> body = []) ->
  ~ plain_url url (str "/nzbget") ->
  execute cfg toks ip fs m url (render hs ++ body ++ rest) = Some (rs, s2, keep) ->
  exists r, rs = [r] /\ (s2 = rest \/ (r = RAuth /\ s2 = body ++ rest)).
Proof. exact one_response. Qed.
Print Assumptions C92_one_partial.
(** On the connection: what follows is served exactly if the client asked to keep the connection. *)
Theorem C92_session_partial : forall fuel cfg toks ip fs m url hs body rest rs,
  url_text url -> Forall header_ok hs ->
  (m = HPost -> declares hs (Z.of_nat (length body)) /\ 0 < Z.of_nat (length body) < 2 ^ 31) ->
  (m <> HPost -> body = []) ->
  ~ plain_url url (str "/nzbget") ->
  session (S fuel) cfg toks ip fs (request_line m url ++ render hs ++ body ++ rest) = Some rs ->
  exists r rs', rs = r :: rs' /\
    (~ asks_to_keep hs -> rs' = []) /\
    (asks_to_keep hs -> session fuel cfg toks ip fs rest = Some rs' \/
       (r = RAuth /\ session fuel cfg toks ip fs (body ++ rest) = Some rs')).
Proof. exact session_step. Qed.
Print Assumptions C92_session_partial.
Theorem C92_redirect_refuted : exists cfg toks ip fs s rs, serve cfg toks ip fs (str "GET ") s = Some (rs, [], false) /\ length rs = 2%nat /\
  s = ex_line "/nzbget HTTP/1.1" ++ render [].
Proof.
  exists ex_cfg, ex_toks, ex_ip, ex_fs, (ex_line "/nzbget HTTP/1.1" ++ render []), [RRedirect (str "/nzbget/"); RAuth].
  split; [vm_compute; reflexivity|]. split; reflexivity.
Qed.
Print Assumptions C92_redirect_refuted.
(** The body of a refused request is taken for the next request. *)
Theorem C92_smuggled_refuted : exists cfg toks ip fs hs body rs rs',
  header_ok (hd [] hs) /\ declares hs (Z.of_nat (length body)) /\
  session 10 cfg toks ip fs (ex_line "POST /jsonrpc HTTP/1.1" ++ render hs ++ body) = Some (rs ++ rs') /\
  rs = [RAuth] /\ rs' = [RRpc UControl HGet (str "/jsonrpc/version") []].
Proof.
  pose (body := ex_line "GET /nzbget:secret/jsonrpc/version HTTP/1.1" ++ render []).
  exists ex_cfg, ex_toks, ex_ip, ex_fs, [str "Content-Length: 47"; str "Connection: keep-alive"], body, [RAuth], [RRpc UControl HGet (str "/jsonrpc/version") []].
  split; [|split; [|split; [vm_compute; reflexivity|split; reflexivity]]].
  - cbn [hd]. split; [|split; [discriminate|split; [vm_compute; discriminate|]]].
    + assert (X : forallb (fun c => negb (c =? 0) && negb (c =? 10) && negb (c =? 13)) (str "Content-Length: 47") = true) by reflexivity.
      rewrite forallb_forall in X. apply Forall_forall. intros c I. apply X in I. unfold text_char. lia.
    + intros v [(n & E & _) | (n & E & _)]; apply (f_equal (@length Z)) in E; rewrite app_length in E;
        change (length (str "Content-Length: 47")) with 18%nat in E; clear - E; lia.
  - exists [], (str "Content-Length: 47"), [str "Connection: keep-alive"]. split; [reflexivity|]. split.
    + exists (str "Content-Length: "). split; vm_compute; reflexivity.
    + constructor; [|constructor]. intros v (n & E & L). apply (f_equal lower_text) in E. unfold lower_text in *. rewrite map_app, L in E.
      vm_compute in E. discriminate.
Qed.
Print Assumptions C92_smuggled_refuted.
Example C92_ex : let hs := [str "content-length: 3"; str "Connection: Keep-Alive"] in
  execute ex_cfg ex_toks (str "192.168.1.7") ex_fs HPost (str "/jsonrpc") (render hs ++ str "{1}" ++ str "GET /")
    = Some ([RRpc UControl HPost (str "/jsonrpc") (str "{1}")], str "GET /", true) /\
  session 10 ex_cfg ex_toks (str "192.168.1.7") ex_fs
    (ex_line "POST /jsonrpc HTTP/1.1" ++ render hs ++ str "{1}" ++ ex_line "GET /nzbget/a.js HTTP/1.1" ++ render [str "Connection: keep-alive"] ++
     ex_line "OPTIONS / HTTP/1.1" ++ render [str "Origin: me"])
    = Some [RRpc UControl HPost (str "/jsonrpc") (str "{1}"); RFile (Some UControl) [str "/web/a.js"] (str "aa"); ROptions (str "me")].
Proof. split; vm_compute; reflexivity. Qed.

(** ** C93: complete heads *)

(** Missing: long values (see below). *)
Theorem C93_head_partial : forall status keep origin form token len ctype tag version,
  Z.of_nat (length (body_head_text status keep origin form token len ctype tag version)) <= 1023 ->
  head_complete (body_head status keep origin form token len ctype tag version) len.
Proof. exact head_ok. Qed.
Print Assumptions C93_head_partial.
Theorem C93_origin_partial : forall status keep origin form token len ctype tag version,
  Z.of_nat (length status) <= 16 -> Z.of_nat (length keep) <= 10 -> Z.of_nat (length form) <= 4 -> Z.of_nat (length token) <= 48 ->
  Z.of_nat (length (zdec len)) <= 10 -> Z.of_nat (length ctype) <= 42 -> Z.of_nat (length tag) <= 42 -> Z.of_nat (length version) <= 50 ->
  Z.of_nat (length origin) <= 300 ->
  head_complete (body_head status keep origin form token len ctype tag version) len.
Proof. intros. apply head_ok, head_fits; assumption. Qed.
Print Assumptions C93_origin_partial.
(** With a long Origin header the head is cut before the declared length: the client takes the body for something else. *)
Theorem C93_origin_refuted : exists status keep origin form token len ctype tag version,
  Z.of_nat (length origin) <= 900 /\ Forall text_char origin /\
  ~ within (body_head status keep origin form token len ctype tag version) (str "Content-Length") /\
  ~ exists u, body_head status keep origin form token len ctype tag version = u ++ crlf.
Proof.
  exists (str "200 OK"), (str "close"), (repeat 97 (Z.to_nat 900)), (str "http"), (str "T0"), 10, (str "Content-Type: text/html" ++ crlf), [], (str "26").
  split; [vm_compute; discriminate|]. split.
  { apply Forall_forall. intros c I. apply repeat_spec in I. subst c. unfold text_char. lia. }
  split.
  - intros W. apply strstr_some_within in W. apply W. vm_compute. reflexivity.
  - intros [u E]. apply (f_equal (@rev Z)) in E. rewrite rev_app_distr in E. vm_compute in E. discriminate.
Qed.
Print Assumptions C93_origin_refuted.
Example C93_ex : head_complete (body_head (str "200 OK") (str "keep-alive") (str "https://example.com") (str "http") (str "T0") 1234 (str "Content-Type: text/html" ++ crlf) [] (str "26")) 1234.
Proof. apply C93_head_partial. vm_compute. discriminate. Qed.

(** ** C94: rights of remote calls *)

(** A user for adding runs only append, appendurl and version; a restricted user does not write the configuration. *)
Theorem C94_rights : forall a m url req cs n seen,
  rpc a m url req = Some cs -> In (CRun n, seen) cs -> may_run a n.
Proof. exact rpc_rights. Qed.
Print Assumptions C94_rights.
(** Following a link changes nothing. Missing: JSON-P. *)
Theorem C94_get_partial : forall a url req cs n seen,
  rpc a HGet url req = Some cs -> In (CRun n, seen) cs ->
  read_only n \/ exists u, url_decode url = Some u /\ (u = str "/jsonprpc" \/ exists v, u = str "/jsonprpc/" ++ v).
Proof. exact get_is_safe. Qed.
Print Assumptions C94_get_partial.
Theorem C94_jsonp_refuted : exists url req, rpc UControl HGet url req = Some [(CRun (str "shutdown"), Some UControl)] /\ ~ read_only (str "shutdown").
Proof.
  exists (str "/jsonprpc/shutdown"), []. split; [vm_compute; reflexivity|]. intros I. unfold read_only in I.
  apply (in_map (beqb (str "shutdown"))) in I. vm_compute in I. intuition discriminate.
Qed.
Print Assumptions C94_jsonp_refuted.
(** A restricted user does not see names, passwords and the options about access in the answer to a single call. *)
Theorem C94_hidden_partial : forall a m url req cs c seen junk opts n v, rpc a m url req = Some cs -> In (c, seen) cs ->
  (m = HGet \/ exists u, url_decode url = Some u /\ protocol u <> Some PXml) ->
  a = URestricted -> In (n, v) (config_answer junk seen opts) -> secret n -> Z.of_nat (length n) <= 1023 -> v = str "***".
Proof.
  intros a m url req cs c seen junk opts n v R I S A O H L. subst a.
  destruct (single_sees _ _ _ _ _ _ _ R I) as [-> | (_ & M & u & U & P)].
  - exact (config_hides _ _ _ _ O H L).
  - exfalso. destruct S as [S | (u' & U' & P')]; [contradiction|]. congruence.
Qed.
Print Assumptions C94_hidden_partial.
(** The calls inside of system.multicall see rights which were never set: with the full rights as old contents of the memory the
    password is shown to a restricted user. *)
Theorem C94_multicall_refuted : exists req seen junk, rpc URestricted HPost (str "/xmlrpc") req = Some [(CRun (str "config"), seen)] /\
  secret (str "ControlPassword") /\
  config_answer junk seen [(str "ControlPassword", str "secret")] = [(str "ControlPassword", str "secret")].
Proof.
  exists (str "<methodCall><methodName>system.multicall</methodName><params><struct><name>methodName</name><value><string>config</string></value></struct></params></methodCall>"), None, UControl.
  split; [vm_compute; reflexivity|]. split; [|vm_compute; reflexivity]. left. exists (str "control"), []. vm_compute. reflexivity.
Qed.
Print Assumptions C94_multicall_refuted.
(** The owner sees everything. *)
Theorem C94_shown : forall junk opts a, a <> URestricted -> config_answer junk (Some a) opts = opts.
Proof. exact config_shows. Qed.
Print Assumptions C94_shown.
Example C94_ex :
  rpc UAdd HPost (str "/jsonrpc") (str "{""method"" : ""append"", ""params"" : []}") = Some [(CRun (str "append"), Some UAdd)] /\
  rpc UAdd HPost (str "/jsonrpc") (str "{""method"" : ""config""}") = Some [(CDenied, Some UAdd)] /\
  rpc URestricted HGet (str "/jsonrpc/config?x") [] = Some [(CRun (str "config"), Some URestricted)] /\
  rpc UControl HGet (str "/jsonrpc/shutdown") [] = Some [] /\
  config_answer UControl (Some URestricted) [(str "Server1.Password", str "x"); (str "WebDir", str "/web"); (str "Email.py:To", str "y"); (str "ControlIP", str "::")]
    = [(str "Server1.Password", str "***"); (str "WebDir", str "/web"); (str "Email.py:To", str "***"); (str "ControlIP", str "***")].
Proof. repeat split; vm_compute; reflexivity. Qed.

(** ** C95: every request is processed in a defined way *)

(** Missing: addresses which are empty or contain a percent sign. *)
Theorem C95_defined_partial : forall cfg toks ip fs m url s, ~ In 0 ip -> url <> [] -> ~ In 37 url ->
  execute cfg toks ip fs m url s <> None.
Proof. exact execute_defined. Qed.
Print Assumptions C95_defined_partial.
Theorem C95_empty_refuted : exists cfg toks ip fs s, serve cfg toks ip fs (str "POST") s = None /\ s = [10] ++ render [str "Content-Length: 1"].
Proof. exists ex_cfg, ex_toks, ex_ip, ex_fs, ([10] ++ render [str "Content-Length: 1"]). split; [vm_compute; reflexivity|reflexivity]. Qed.
Print Assumptions C95_empty_refuted.
Theorem C95_percent_refuted : exists cfg toks ip fs s, serve cfg toks ip fs (str "GET ") s = None /\ s = ex_line "/a:%/ HTTP/1.1" ++ render [].
Proof. exists ex_cfg, ex_toks, ex_ip, ex_fs, (ex_line "/a:%/ HTTP/1.1" ++ render []). split; [vm_compute; reflexivity|reflexivity]. Qed.
Print Assumptions C95_percent_refuted.
Example C95_ex : execute ex_cfg ex_toks ex_ip ex_fs HGet (str "x:y/:/") (str "junk") = Some ([RAuth], [], false).
Proof. vm_compute. reflexivity. Qed.
