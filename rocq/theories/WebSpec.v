(** What the web server owes its clients and its owner. *)
From Coq Require Import String.
From Verif Require Import Base WildSpec CodecModel WebModel NameSpec.
Open Scope list_scope. Open Scope Z_scope.

(** ** Access *)

(** An address listed in the option AuthorizedIP: a list of masks separated by ',' or ';'. *)
Definition list_sep (c : Z) : bool := (c =? 44) || (c =? 59).
Definition ip_allowed (ips ip : list Z) : Prop :=
  exists f m, In f (fields list_sep ips) /\ trimmed f m /\ m <> [] /\ glob wild_char m ip.

(** No credentials are needed. *)
Definition open_to (cfg : wcfg) (ip : list Z) : Prop := w_cpass cfg = [] \/ ip_allowed (w_ips cfg) ip.

(** The user name and the password of [auth] are those of the user with these rights. *)
Definition login (cfg : wcfg) (user pw : list Z) (a : access) : Prop :=
  match a with
  | UControl => (w_cuser cfg = [] \/ user = w_cuser cfg) /\ pw = w_cpass cfg
  | URestricted => w_ruser cfg <> [] /\ user = w_ruser cfg /\ pw = w_rpass cfg
  | UAdd => w_auser cfg <> [] /\ user = w_auser cfg /\ pw = w_apass cfg
  end.
Definition token_of (toks : token3) (a : access) : list Z :=
  let '(t0, t1, t2) := toks in match a with UControl => t0 | URestricted => t1 | UAdd => t2 end.

(** Credentials: a login if there is one, a token otherwise. *)
Definition vouches (cfg : wcfg) (toks : token3) (auth token : list Z) (a : access) : Prop :=
  (auth = [] /\ token = token_of toks a) \/
  (auth <> [] /\ exists user pw, auth = user ++ 58 :: pw /\ ~ In 58 user /\ login cfg user pw a).

Definition rank (a : access) : Z := match a with UControl => 0 | URestricted => 1 | UAdd => 2 end.
(** The rights a request has: all without need of credentials, else the widest that are vouched for. *)
Definition granted (cfg : wcfg) (toks : token3) (ip auth token : list Z) (a : access) : Prop :=
  (open_to cfg ip /\ a = UControl) \/
  (~ open_to cfg ip /\ vouches cfg toks auth token a /\
   forall b, vouches cfg toks auth token b -> rank a <= rank b).

(** ** Requests *)

Definition lower_text (s : list Z) : list Z := map lc s.
(** [part] occurs in [s]. *)
Definition within (s part : list Z) : Prop := exists u v, s = u ++ part ++ v.

(** Credentials in the address: /user:password/..., after the optional folder. *)
Definition from_url (url auth u : list Z) : Prop :=
  exists pre c t, (pre = [] \/ pre = str "/nzbget") /\ url = pre ++ c :: t ++ u /\
    In 58 t /\ ~ In 47 t /\ (exists u', u = 47 :: u') /\ url_decode (firstn (Z.to_nat 256) t) = Some auth.
(** Without credentials, only the folder is removed. *)
Definition plain_url (url u : list Z) : Prop := url = u \/ url = str "/nzbget" ++ u.
(** Credentials in a header: the text after a name, in base64. *)
Definition from_header (head auth : list Z) : Prop :=
  auth = [] \/ exists n b, within head (n ++ b) /\ lower_text n = lower_text (str "Authorization: Basic ") /\
    auth = c_string (decode_base64 b).
Definition from_cookie (head token : list Z) : Prop :=
  token = [] \/ within head (str "Auth-Token=" ++ token).

(** A request as clients send it. *)
Definition text_char (c : Z) : Prop := c <> 0 /\ c <> 10 /\ c <> 13.
Definition render (hs : list (list Z)) : list Z := flat_map (fun l => l ++ [13; 10]) hs ++ [13; 10].
(** [line] is the header [name] (in any case) with value [v]. *)
Definition field (name line v : list Z) : Prop := exists n, line = n ++ v /\ lower_text n = lower_text name.
Definition header_ok (l : list Z) : Prop :=
  Forall text_char l /\ l <> [] /\ Z.of_nat (length l) <= 1021 /\
  (forall v, field (str "Authorization: Basic ") l v \/ field (str "X-Authorization: Basic ") l v -> Z.of_nat (length v) <= 257).
(** The length of the body is declared once. *)
Definition declares (hs : list (list Z)) (n : Z) : Prop :=
  exists a l b, hs = a ++ l :: b /\ field (str "Content-Length: ") l (NumFmt.zdec n) /\
    Forall (fun x => forall v, ~ field (str "Content-Length: ") x v) (a ++ b).

(** The name of a method, and a whole request in front of its headers. *)
Definition method_text (m : hmethod) : list Z :=
  match m with HPost => str "POST" | HGet => str "GET" | HOptions => str "OPTIONS" end.
Definition request_line (m : hmethod) (url : list Z) : list Z :=
  method_text m ++ 32 :: url ++ str " HTTP/1.1" ++ [13; 10].
Definition url_text (url : list Z) : Prop :=
  url <> [] /\ Forall text_char url /\ ~ In 32 url /\ Z.of_nat (length url) <= 1000.
(** The client asks to keep the connection. *)
Definition asks_to_keep (hs : list (list Z)) : Prop :=
  exists l v, In l hs /\ field (str "Connection: keep-alive") l v.

(** ** Files *)

(** Below or at a directory, without leaving it. *)
Definition below (dir p : list Z) : Prop := exists rest, place p = place dir ++ rest.

(** ** Remote procedures *)

Definition may_run (a : access) (name : list Z) : Prop :=
  match a with
  | UControl => True
  | URestricted => name <> str "saveconfig"
  | UAdd => In name [str "append"; str "appendurl"; str "version"]
  end.
(** Procedures that change nothing. *)
Definition read_only (name : list Z) : Prop :=
  In name (map str ["version"; "dump"; "status"; "log"; "listfiles"; "listgroups"; "postqueue"; "loadlog"; "history";
    "urlqueue"; "config"; "loadconfig"; "configtemplates"; "readurl"; "logupdate"; "servervolumes"; "logscript"]%string).
(** Options that hold a user name or a password, all options of extensions, and the options about access to the program. *)
Definition access_option (name : list Z) : Prop :=
  exists n, lower_text name = lower_text n /\
    In n (map str ["ControlIP"; "ControlPort"; "FormAuth"; "SecureControl"; "SecurePort"; "SecureCert"; "SecureKey";
      "CertStore"; "CertCheck"; "AuthorizedIP"; "DaemonUsername"; "UMask"]%string).
Definition secret (name : list Z) : Prop :=
  within (lower_text name) (str "password") \/ within (lower_text name) (str "username") \/ In 58 name \/ access_option name.

(** ** Responses *)

Definition crlf : list Z := [13; 10].
(** The head of a response ends with an empty line and declares the length of the body. *)
Definition head_complete (head : list Z) (len : Z) : Prop :=
  (exists u, head = u ++ crlf ++ crlf) /\ within head (crlf ++ str "Content-Length: " ++ NumFmt.zdec len ++ crlf).
