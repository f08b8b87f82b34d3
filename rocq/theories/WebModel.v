(** The built-in web server: daemon/remote/RemoteServer.cpp (ServWebRequest),
    daemon/remote/WebServer.cpp and the front part of daemon/remote/XmlRpc.cpp.
    The connection is the stream of bytes still to be read (see ConnModel: how they arrive is irrelevant).
    Not modelled: gzip, entity tags, writing of log messages, the bodies of the remote procedures (except
    config/loadconfig), the texts of error pages. Files below the web directory are a partial map from
    paths to contents. [None] as result: the behaviour is undefined. *)
From Coq Require Import String.
From Verif Require Import Base NumFmt WildModel CodecModel NameModel.
Open Scope list_scope. Open Scope Z_scope.

(** ** Reading *)

(** Connection::ReadLine with a buffer of 1024 bytes, as a function of the stream. *)
Fixpoint take_line (n : nat) (s : list Z) : list Z :=
  match n, s with
  | O, _ | _, [] => []
  | S m, c :: r => if c =? 10 then [c] else c :: take_line m r
  end.
Definition line_room : nat := Z.to_nat 1023.

(** strncasecmp(s, p, strlen(p)) == 0. *)
Definition nocase_prefix (p s : list Z) : bool := prefixb (map lower p) (map lower s).
(** strcasecmp(a, b) == 0. *)
Definition nocase_eq (a b : list Z) : bool := beqb (map lower a) (map lower b).
(** atoi; values beyond 64 bits are not modelled. *)
Definition to_i32 (x : Z) : Z := (x + 2 ^ 31) mod 2 ^ 32 - 2 ^ 31.
Definition atoi (s : list Z) : Z := to_i32 (atoll s).
(** strchr as offset. *)
Fixpoint index (c : Z) (s : list Z) : option nat :=
  match s with
  | [] => None
  | x :: r => if x =? c then Some O else match index c r with Some n => Some (S n) | None => None end
  end.
Definition has (c : Z) (s : list Z) : bool := existsb (Z.eqb c) s.

(** ** Options and requests *)

(** WebServer.h:30-35 and 47-52. *)
Inductive hmethod := HPost | HGet | HOptions.
Inductive access := UControl | URestricted | UAdd.

(** The options used (Options.h:224-236). *)
Record wcfg := WCfg {
  w_cuser : list Z; w_cpass : list Z; w_ruser : list Z; w_rpass : list Z; w_auser : list Z; w_apass : list Z;
  w_ips : list Z; w_dir : list Z; w_form : bool }.

(** WebServer.h:59-69: what is kept of the headers. *)
Record hdrs := Hdrs { h_len : Z; h_auth : list Z; h_token : list Z; h_origin : list Z; h_keep : bool }.

(** WebServer.cpp:79-82 and 128, WebServer.h:70. *)
Definition hdrs0 : hdrs := Hdrs 0 [] [] [] false.

(** WebServer.cpp:141-147 and 151-157: at most sizeof(m_authInfo) = 257 characters of base64. *)
Definition basic (s : list Z) : option (list Z) :=
  if (Z.of_nat (length s) >? 257) then None else Some (c_string (decode_base64 s)).

Inductive hstep := HNext (h : hdrs) | HEnd (h : hdrs).
(** WebServer.cpp:131-197, one header line [p] without line end. *)
Definition header_step (p : list Z) (h : hdrs) : hstep :=
  if nocase_prefix (str "Content-Length: ") p then
    HNext (Hdrs (atoi (skipn 16 p)) (h_auth h) (h_token h) (h_origin h) (h_keep h))
  else if nocase_prefix (str "Authorization: Basic ") p && beqb (h_auth h) [] then
    match basic (skipn 21 p) with
    | None => HEnd h
    | Some a => HNext (Hdrs (h_len h) a (h_token h) (h_origin h) (h_keep h))
    end
  else if nocase_prefix (str "X-Authorization: Basic ") p then
    match basic (skipn 23 p) with
    | None => HEnd h
    | Some a => HNext (Hdrs (h_len h) a (h_token h) (h_origin h) (h_keep h))
    end
  else if nocase_prefix (str "Accept-Encoding: ") p then HNext h
  else if nocase_prefix (str "Origin: ") p then
    HNext (Hdrs (h_len h) (h_auth h) (h_token h) (skipn 8 p) (h_keep h))
  else if nocase_prefix (str "Cookie: ") p then
    match strstr p (str "Auth-Token=") with
    | Some t =>
      match skipn 11 t with
      | c :: _ => if c =? 59 then HNext h
                  else HNext (Hdrs (h_len h) (h_auth h) (firstn 48 (skipn 11 t)) (h_origin h) (h_keep h))
      | [] => HNext h
      end
    | None => HNext h
    end
  else if nocase_prefix (str "X-Forwarded-For: ") p then HNext h
  else if nocase_prefix (str "If-None-Match: ") p then HNext h
  else if nocase_prefix (str "Connection: keep-alive") p then
    HNext (Hdrs (h_len h) (h_auth h) (h_token h) (h_origin h) true)
  else if beqb p [] then HEnd h
  else HNext h.

(** WebServer.cpp:131: the line without its last carriage return and what follows. *)
Definition cut_cr (p : list Z) : list Z := match strrchr 13 p with Some (a, _) => a | None => p end.

(** WebServer.cpp:124-203, [ParseHeaders]. *)
Fixpoint parse_headers (fuel : nat) (s : list Z) (h : hdrs) : option (hdrs * list Z) :=
  match fuel with
  | O => None
  | S f =>
    match take_line line_room s with
    | [] => Some (h, s)
    | l =>
      let rest := skipn (length l) s in
      match header_step (cut_cr (c_string l)) h with
      | HNext h' => parse_headers f rest h'
      | HEnd h' => Some (h', rest)
      end
    end
  end.

(** WebServer.cpp:205-237, [ParseUrl]: whether a redirection is sent, credentials, address. *)
Definition parse_url (url auth : list Z) : option (bool * list Z * list Z) :=
  let u := if prefixb (str "/nzbget/") url then skipn 7 url else url in
  if beqb u (str "/nzbget") then Some (true, auth, u)
  else
    match u with
    | [] => None
    | _ :: r =>
      match index 58 r, index 47 r with
      | Some i, Some j =>
        if (i <? j)%nat then
          match url_decode (firstn (Nat.min j (Z.to_nat 256)) r) with
          | Some a => Some (false, a, skipn j r)
          | None => None
          end
        else Some (false, auth, u)
      | _, _ => Some (false, auth, u)
      end
    end.

(** ** Who is asking *)

(** WebServer.cpp:294-314, [IsAuthorizedIp]. *)
Fixpoint any_mask (masks : list (list Z)) (ip : list Z) : option bool :=
  match masks with
  | [] => Some false
  | m :: r => match wild_match false m ip with
              | Some (true, _) => Some true
              | Some (false, _) => any_mask r ip
              | None => None
              end
  end.
Definition authorized_ip (ips ip : list Z) : option bool :=
  match tokens (str ",;") ips with Some ms => any_mask ms ip | None => None end.

(** WebServer.cpp:242-255: the first of the three tokens. *)
Definition by_token (toks : list Z * list Z * list Z) (t : list Z) : option access :=
  let '(t0, t1, t2) := toks in
  if beqb t t0 then Some UControl else if beqb t t1 then Some URestricted else if beqb t t2 then Some UAdd else None.

(** WebServer.cpp:257-289. *)
Definition by_password (cfg : wcfg) (auth : list Z) : option access :=
  match index 58 auth with
  | None => None
  | Some i =>
    let user := firstn i auth in
    let pw := skipn (S i) auth in
    if (beqb (w_cuser cfg) [] || beqb user (w_cuser cfg)) && beqb pw (w_cpass cfg) then Some UControl
    else if negb (beqb (w_ruser cfg) []) && beqb user (w_ruser cfg) && beqb pw (w_rpass cfg) then Some URestricted
    else if negb (beqb (w_auser cfg) []) && beqb user (w_auser cfg) && beqb pw (w_apass cfg) then Some UAdd
    else None
  end.

(** WebServer.cpp:239-292, [CheckCredentials]: the access granted. *)
Definition check_credentials (cfg : wcfg) (toks : list Z * list Z * list Z) (ip auth token : list Z)
  : option (option access) :=
  if beqb (w_cpass cfg) [] then Some (Some UControl)
  else
    match (if beqb (w_ips cfg) [] then Some false else authorized_ip (w_ips cfg) ip) with
    | None => None
    | Some true => Some (Some UControl)
    | Some false => Some (if beqb auth [] then by_token toks token else by_password cfg auth)
    end.

(** ** Answers *)

(** [RRpc]: a remote call is processed with these rights; [RFile]: the contents of these files are sent,
    together with the token of the given access (none for strangers). *)
Inductive resp :=
| RAuth
| ROptions (origin : list Z)
| RRedirect (location : list Z)
| RError (code : Z)
| RRpc (a : access) (m : hmethod) (url body : list Z)
| RFile (who : option access) (paths : list (list Z)) (body : list Z).

(** XmlRpc.cpp:341-346, [IsRpcRequest]. *)
Definition under (p url : list Z) : bool := beqb url p || prefixb (p ++ [47]) url.
Definition is_rpc (url : list Z) : bool :=
  under (str "/xmlrpc") url || under (str "/jsonrpc") url || under (str "/jsonprpc") url.

(** WebServer.cpp:352-360. *)
Definition url_char (c : Z) : bool :=
  ((48 <=? c) && (c <=? 57)) || ((65 <=? c) && (c <=? 90)) || ((97 <=? c) && (c <=? 122)) ||
  (c =? 46) || (c =? 45) || (c =? 43) || (c =? 63) || (c =? 95) || (c =? 47).
Fixpoint url_ok (u : list Z) : bool :=
  match u with
  | [] => true
  | c :: r => url_char c && negb ((c =? 46) && (match r with d :: _ => d =? 46 | [] => false end)) && url_ok r
  end.

(** WebServer.cpp:539-549: the file behind an address, in a buffer of 1024 bytes. *)
Definition single_path (dir url : list Z) : list Z :=
  let def := match rev url with c :: _ => if c =? 47 then str "index.html" else [] | [] => [] end in
  firstn (Z.to_nat 1023) (dir ++ url ++ def).
(** WebServer.cpp:580-591. *)
Definition multi_path (dir name : list Z) : list Z := firstn (Z.to_nat 1023) (dir ++ 47 :: name).

(** WebServer.cpp:593-602. *)
Fixpoint load_all (fs : list Z -> option (list Z)) (paths : list (list Z)) : option (list Z) :=
  match paths with
  | [] => Some []
  | p :: r => match fs p with
              | None => None
              | Some b => match load_all fs r with Some b' => Some (c_string b ++ b') | None => None end
              end
  end.

(** WebServer.cpp:316-372, [Dispatch]; [who] is the result of the check of credentials. *)
Definition dispatch (cfg : wcfg) (fs : list Z -> option (list Z)) (who : option access) (m : hmethod)
    (url body : list Z) : option resp :=
  match url with
  | [] => Some (RError 400)
  | c0 :: _ =>
    if negb (c0 =? 47) then Some (RError 400)
    else if is_rpc url then
      Some (RRpc (match who with Some a => a | None => UControl end) m url body)
    else if beqb (w_dir cfg) [] then Some (RError 503)
    else if (match m with HGet => false | _ => true end) then Some (RError 400)
    else if negb (url_ok url) then Some (RError 404)
    else if prefixb (str "/combined.") url && has 63 url then
      match index 63 url with
      | None => None
      | Some i =>
        match tokens [43] (skipn (S i) url) with
        | None => None
        | Some names =>
          let paths := map (multi_path (w_dir cfg)) names in
          match load_all fs paths with
          | Some b => Some (RFile who paths b)
          | None => Some (RError 404)
          end
        end
      end
    else
      let p := single_path (w_dir cfg) url in
      match fs p with
      | Some b => Some (RFile who [p] b)
      | None => Some (RError 404)
      end
  end.

(** ** One request *)

Definition token3 := (list Z * list Z * list Z)%type.

(** WebServer.cpp:77-122, [Execute]: answers, rest of the stream, whether the connection is kept. *)
Definition execute (cfg : wcfg) (toks : token3) (ip : list Z) (fs : list Z -> option (list Z))
    (m : hmethod) (url s : list Z) : option (list resp * list Z * bool) :=
  match parse_headers (S (length s)) s hdrs0 with
  | None => None
  | Some (h, s1) =>
    if (match m with HPost => h_len h <=? 0 | _ => false end) then Some ([], s1, h_keep h)
    else if (match m with HOptions => true | _ => false end) then Some ([ROptions (h_origin h)], s1, h_keep h)
    else
      match parse_url url (h_auth h) with
      | None => None
      | Some (redirect, auth, u) =>
        let before := if redirect then [RRedirect (u ++ [47])] else [] in
        match check_credentials cfg toks ip auth (h_token h) with
        | None => None
        | Some who =>
          if (negb (w_form cfg) || is_rpc u) && (match who with None => true | _ => false end) then
            Some (before ++ [RAuth], s1, h_keep h)
          else
            let n := match m with HPost => Z.to_nat (h_len h) | _ => O end in
            if (length s1 <? n)%nat then Some (before, [], h_keep h)
            else
              match dispatch cfg fs who m u (c_string (firstn n s1)) with
              | None => None
              | Some r => Some (before ++ [r], skipn n s1, h_keep h)
              end
        end
      end
  end.

(** RemoteServer.cpp:239-278, [ServWebRequest]: [sig] are the first four bytes. *)
Definition cut_blank (s : list Z) : list Z := match index 32 s with Some i => firstn i s | None => s end.
Definition serve (cfg : wcfg) (toks : token3) (ip : list Z) (fs : list Z -> option (list Z))
    (sig s : list Z) : option (list resp * list Z * bool) :=
  match take_line line_room s with
  | [] => Some ([], s, false)
  | l =>
    let rest := skipn (length l) s in
    if beqb sig (str "POST") then execute cfg toks ip fs HPost (cut_blank (c_string (skipn 1 l))) rest
    else if beqb sig (str "OPTI") && (4 <? Z.of_nat (length (c_string l))) then
      execute cfg toks ip fs HOptions (cut_blank (c_string (skipn 4 l))) rest
    else if beqb sig (str "GET ") then execute cfg toks ip fs HGet (cut_blank (c_string l)) rest
    else Some ([], rest, false)
  end.

(** RemoteServer.cpp:196-230: the requests of one connection. *)
Fixpoint session (fuel : nat) (cfg : wcfg) (toks : token3) (ip : list Z) (fs : list Z -> option (list Z))
    (s : list Z) : option (list resp) :=
  match fuel with
  | O => None
  | S f =>
    if (length s <? 4)%nat then Some []
    else
      match serve cfg toks ip fs (firstn 4 s) (skipn 4 s) with
      | None => None
      | Some (rs, s', keep) =>
        if keep then match session f cfg toks ip fs s' with Some rs' => Some (rs ++ rs') | None => None end
        else Some rs
      end
  end.

(** ** Heads of responses *)

(** WebServer.cpp:446-460 and 513-526: the head of a response with a body, in a buffer of 1024 bytes. *)
Definition body_head_text (status keep origin form token : list Z) (len : Z) (ctype tag version : list Z) : list Z :=
  str "HTTP/1.1 " ++ status ++ [13; 10] ++
  str "Connection: " ++ keep ++ [13; 10] ++
  str "Access-Control-Allow-Methods: GET, POST, OPTIONS" ++ [13; 10] ++
  str "Access-Control-Allow-Origin: " ++ origin ++ [13; 10] ++
  str "Access-Control-Allow-Credentials: true" ++ [13; 10] ++
  str "Access-Control-Max-Age: 86400" ++ [13; 10] ++
  str "Access-Control-Allow-Headers: Content-Type, Authorization" ++ [13; 10] ++
  str "Set-Cookie: Auth-Type=" ++ form ++ str "; SameSite=Lax" ++ [13; 10] ++
  str "Set-Cookie: Auth-Token=" ++ token ++ str "; HttpOnly; SameSite=Lax" ++ [13; 10] ++
  str "Content-Length: " ++ zdec len ++ [13; 10] ++
  ctype ++ tag ++
  str "Server: nzbget-" ++ version ++ [13; 10] ++ [13; 10].
Definition body_head (status keep origin form token : list Z) (len : Z) (ctype tag version : list Z) : list Z :=
  firstn (Z.to_nat 1023) (body_head_text status keep origin form token len ctype tag version).

(** ** Remote procedures *)

Inductive proto := PXml | PJson | PJsonP.
(** XmlRpc.cpp:348-367. *)
Definition protocol (url : list Z) : option proto :=
  if under (str "/xmlrpc") url then Some PXml
  else if under (str "/jsonrpc") url then Some PJson
  else if under (str "/jsonprpc") url then Some PJsonP
  else None.

(** XmlRpc.cpp:585-758: the procedures, in lower case. *)
Definition procedures : list (list Z) :=
  map str ["pause"; "pausedownload"; "pausedownload2"; "resume"; "resumedownload"; "resumedownload2"; "shutdown";
    "reload"; "version"; "dump"; "rate"; "status"; "log"; "listfiles"; "listgroups"; "editqueue"; "append"; "appendurl";
    "postqueue"; "writelog"; "clearlog"; "loadlog"; "scan"; "pausepost"; "resumepost"; "pausescan"; "resumescan";
    "scheduleresume"; "history"; "urlqueue"; "config"; "loadconfig"; "saveconfig"; "configtemplates"; "viewfeed";
    "previewfeed"; "fetchfeed"; "editserver"; "readurl"; "checkupdates"; "startupdate"; "logupdate"; "servervolumes";
    "resetservervolume"; "testserver"; "startscript"; "logscript"]%string.
(** XmlRpc.cpp:43-47, 99-290 and 325: the classes derived from SafeXmlCommand. *)
Definition safe_procedures : list (list Z) :=
  map str ["version"; "dump"; "status"; "log"; "listfiles"; "listgroups"; "postqueue"; "loadlog"; "history"; "urlqueue";
    "config"; "loadconfig"; "configtemplates"; "readurl"; "logupdate"; "servervolumes"; "logscript"]%string.
Definition member (n : list Z) (l : list (list Z)) : bool := existsb (beqb n) l.

Inductive command := CDenied | CInvalid | CRun (name : list Z).
(** XmlRpc.cpp:567-763, [CreateCommand]. *)
Definition create_command (a : access) (name : list Z) : command :=
  let n := map lower name in
  if (match a with UAdd => true | _ => false end) &&
     negb (beqb n (str "append") || beqb n (str "appendurl") || beqb n (str "version")) then CDenied
  else if (match a with URestricted => true | _ => false end) && beqb n (str "saveconfig") then CDenied
  else if member n procedures then CRun n
  else CInvalid.

(** daemon/util/Util.cpp:915-956, [XmlFindTag] and [XmlParseTagValue] with a buffer of 100 bytes. *)
Definition xml_tag_value (tag xml : list Z) : option (list Z) :=
  let opn := 60 :: tag ++ [62] in
  let cls := 60 :: 47 :: tag ++ [62] in
  match strstr xml opn, strstr xml (60 :: tag ++ [47; 62]) with
  | None, None => None
  | None, Some _ => Some []
  | Some p, e =>
    if (match e with Some q => (length p <? length q)%nat | None => false end) then Some []
    else match strstr p cls with
         | None => None
         | Some q => Some (firstn (Nat.min 99 (length p - length q - length opn)) (skipn (length opn) p))
         end
  end.

(** XmlRpc.cpp:375-400 (GET): procedure and parameters in the address. BString::Set with length 0 copies all. *)
Definition get_name (url : list Z) : list Z :=
  match index 47 (tl url) with
  | None => []
  | Some i =>
    let r := skipn (S i) (tl url) in
    match index 63 r with
    | Some O | None => firstn 99 r
    | Some j => firstn (Nat.min j 99) r
    end
  end.

(** Util.cpp:1187-1197 with XmlRpc.cpp:405-413: the name in a JSON request. *)
Definition json_name (req : list Z) : list Z :=
  match strstr req (34 :: str "method" ++ [34]) with
  | None => []
  | Some p =>
    let q := skipn 8 p in
    match json_next_value q with
    | None => []
    | Some (start, len) =>
      let len' := Z.min len 99 - 2 in
      firstn (if 0 <? len' then Z.to_nat len' else 99) (skipn (Z.to_nat (start + 1)) q)
    end
  end.

(** What is executed: the procedure, and the rights it sees; [None]: the rights were never set. *)
Notation call := (command * option access)%type.

(** XmlRpc.cpp:446-503, [MutliCall]: the calls up to an error. *)
Fixpoint multicall (fuel : nat) (a : access) (req : list Z) : option (list call) :=
  match fuel with
  | O => None
  | S f =>
    match strstr req (str "</struct>") with
    | None => Some []
    | Some q =>
      let one := firstn (length req - length q) req in
      match strstr one (str "</name>") with
      | None => Some []
      | Some nm =>
        let name := match xml_tag_value (str "string") nm with Some v => v | None => [] end in
        match multicall f a (skipn 9 q) with
        | Some r => Some ((create_command a name, None) :: r)
        | None => None
        end
      end
    end
  end.

(** XmlRpc.cpp:369-444, [Dispatch]: the commands that are executed. *)
Definition rpc_calls (a : access) (m : hmethod) (p : proto) (url req : list Z) : option (list call) :=
  let name :=
    match m with
    | HGet => get_name url
    | _ => match p with
           | PXml => match xml_tag_value (str "methodName") req with Some v => v | None => [] end
           | PJson => json_name req
           | PJsonP => []
           end
    end in
  let post := match m with HGet => false | _ => true end in
  if nocase_eq name (str "system.multicall") && (match p with PXml => true | _ => false end) && post then
    multicall (S (length req)) a req
  else
    let c := create_command a name in
    let safe := match c with CRun n => member n safe_procedures | _ => false end in
    let error := match c with CRun _ => false | _ => true end in
    if safe || post || (match p with PJsonP => true | _ => false end) || error then Some [(c, Some a)]
    else Some [].

(** XmlRpc.cpp:335-339 and 348-367: a call that came in as [RRpc]. *)
Definition rpc (a : access) (m : hmethod) (url req : list Z) : option (list call) :=
  match url_decode url with
  | None => None
  | Some u => match protocol u with Some p => rpc_calls a m p u req | None => Some [] end
  end.

(** ** The configuration as seen from outside *)

(** daemon/main/Options.cpp:202-222, [OptEntry::Restricted]. *)
Definition hidden_names : list (list Z) :=
  map str ["controlip"; "controlport"; "formauth"; "securecontrol"; "secureport"; "securecert"; "securekey";
    "certstore"; "certcheck"; "authorizedip"; "daemonusername"; "umask"]%string.
Definition is_some {A} (o : option A) : bool := match o with Some _ => true | None => false end.
Definition restricted_option (name : list Z) : bool :=
  let lo := firstn (Z.to_nat 1023) (map lower name) in
  member (map lower name) hidden_names || has 58 name ||
  is_some (strstr lo (str "username")) || is_some (strstr lo (str "password")).

(** XmlRpc.cpp:2598-2626 and 2629-2665: names and values of the answer to config and loadconfig.
    [junk] is what an uninitialised variable holds. *)
Definition config_answer (junk : access) (seen : option access) (opts : list (list Z * list Z)) : list (list Z * list Z) :=
  let a := match seen with Some a => a | None => junk end in
  map (fun '(n, v) =>
    (n, if (match a with URestricted => true | _ => false end) && restricted_option n then str "***" else v)) opts.
