(** Downloads from web servers: daemon/connect/WebDownloader.cpp and class URL of daemon/util/Util.cpp:1409-1484.
    The peer's answer is a stream of bytes; the lines of its head do not depend on how it arrives (ConnModel), the
    body is a list of pieces. Unpacking of gzip is a parameter: what comes out of the bytes given so far.
    Not modelled: stopping and pausing, TLS, names of hosts, errors of the file system, the additional headers of
    UrlDownloader (see NameModel). [None]: the behaviour is undefined. *)
From Coq Require Import String.
From Verif Require Import Base NumFmt WildModel CodecModel NameModel WebModel.
Open Scope list_scope. Open Scope Z_scope.

(** ** Addresses *)

Record url := Url { u_prot : list Z; u_user : list Z; u_pass : list Z; u_host : list Z; u_port : Z; u_res : list Z }.

(** daemon/util/NString.cpp:108-125, [CString::Set]: the length 0 stands for the whole text. *)
Definition cset (s : list Z) (len : nat) : list Z := match len with O => s | _ => firstn len s end.

(** strstr(a, "://"): what is before and what is after it. *)
Fixpoint scheme (s : list Z) : option (list Z * list Z) :=
  match s with
  | [] => None
  | c :: r => if prefixb (str "://") s then Some ([], skipn 3 s)
              else match scheme r with Some (a, b) => Some (c :: a, b) | None => None end
  end.

(** Util.cpp:1418-1484, [ParseUrl]; none: not valid. *)
Definition parse_address (a : list Z) : option url :=
  match scheme a with
  | None => None
  | Some (prot, h) =>
    let protocol := cset a (length prot) in
    let slash := index 47 h in
    let amp := match index 64 h, slash with
               | Some i, Some j => if (i <? j)%nat then Some i else None
               | Some i, None => Some i
               | None, _ => None
               end in
    let '(user, pass, host) :=
      match amp with
      | None => ([], [], h)
      | Some i =>
        match index 58 h with
        | Some k =>
          if (k <? i)%nat then (firstn k h, firstn (i - k - 1) (skipn (S k) h), skipn (S i) h)
          else (firstn i h, [], skipn (S i) h)
        | None => (firstn i h, [], skipn (S i) h)
        end
      end in
    (* [host] starts at hostStart; [len]: hostEnd - hostStart + 1 *)
    let len := match index 47 host, slash with Some j, Some _ => j | _, _ => S (length host) end in
    let res := match slash with Some j => skipn j h | None => str "/" end in
    match index 58 host with
    | Some k =>
      if (k <? len - 1)%nat then Some (Url protocol user pass (cset host k) (atoi (skipn (S k) host)) res)
      else Some (Url protocol user pass (cset host len) 0 res)
    | None => Some (Url protocol user pass (cset host len) 0 res)
    end
  end.

(** ** One request *)

(** WebDownloader.h:33-44. *)
Inductive wstatus := WRunning | WFinished | WFailed | WRetry | WNotFound | WRedirect | WConnectError | WFatalError.

(** m_contentLen, m_confirmedLength, m_gzip, m_redirecting, m_redirected, m_url, m_originalFilename. *)
Record wget := WGet {
  g_len : Z; g_conf : bool; g_gzip : bool; g_redirecting : bool; g_redirected : bool;
  g_url : list Z; g_name : option (list Z) }.

(** WebDownloader.cpp:215-248, [CreateConnection]: protocol and port. *)
Definition usable_port (u : url) : option Z :=
  if nocase_eq (u_prot u) (str "http") then Some (if u_port u =? 0 then 80 else u_port u)
  else if nocase_eq (u_prot u) (str "https") then Some (if u_port u =? 0 then 443 else u_port u)
  else None.

(** WebDownloader.cpp:250-273, [SendHeaders]; every line is built in a buffer of 1024 bytes. *)
Definition line1k (s : list Z) : list Z := firstn (Z.to_nat 1023) s.
Definition request_head (version : list Z) (u : url) : list Z :=
  let std := (nocase_eq (u_prot u) (str "http") && ((u_port u =? 80) || (u_port u =? 0))) ||
             (nocase_eq (u_prot u) (str "https") && ((u_port u =? 443) || (u_port u =? 0))) in
  line1k (str "GET " ++ u_res u ++ str " HTTP/1.0" ++ [13; 10]) ++
  line1k (str "User-Agent: nzbget/" ++ version ++ [13; 10]) ++
  line1k (str "Host: " ++ u_host u ++ (if std then [] else 58 :: zdec (u_port u)) ++ [13; 10]) ++
  str "Accept: */*" ++ [13; 10] ++ str "Accept-Encoding: gzip" ++ [13; 10] ++ str "Connection: close" ++ [13; 10] ++ [13; 10].

(** WebDownloader.cpp:410-457, [CheckResponse]: the status, and whether the answer is a redirection. *)
Definition check_response (line : list Z) : wstatus * bool :=
  match index 32 line with
  | Some i =>
    if negb (prefixb (str "HTTP") line) then (WFailed, false)
    else
      let code := skipn (S i) line in
      if prefixb (str "400") code || prefixb (str "499") code then (WConnectError, false)
      else if prefixb (str "404") code then (WNotFound, false)
      else if prefixb (str "301") code || prefixb (str "302") code || prefixb (str "303") code ||
              prefixb (str "307") code || prefixb (str "308") code then (WRunning, true)
      else if prefixb (str "200") code then (WRunning, false)
      else (WFailed, false)
  | None => (WFailed, false)
  end.

(** WebDownloader.cpp:482-521, [ParseFilename]: none when there is no name, [None] outside of the buffer. *)
Fixpoint drop_blanks (s : list Z) : list Z :=
  match s with c :: r => if c =? 32 then drop_blanks r else s | [] => [] end.
Definition end_char (c : Z) : bool := (c =? 32) || (c =? 10) || (c =? 13) || (c =? 59).
(** The first character is never removed. *)
Fixpoint cut_end (r : list Z) : list Z :=
  match r with
  | c :: t => match t with [] => r | _ => if end_char c then cut_end t else r end
  | [] => []
  end.
Definition parse_filename (line : list Z) : option (option (list Z)) :=
  match strstr line (str "filename") with
  | None => Some None
  | Some p =>
    match index 61 p with
    | None => Some None
    | Some i =>
      match firstn (Z.to_nat 1023) (drop_blanks (skipn (S i) p)) with
      | [] => None
      | f => match http_unquote (rev (cut_end (rev f))) with
             | Some n => Some (Some (base_name n))
             | None => None
             end
      end
    end
  end.

(** WebDownloader.cpp:523-572, [ParseRedirect]: the new address, and 42-45, [SetUrl]. *)
Definition redirect_to (old location : list Z) : list Z :=
  match parse_address location with
  | Some _ => location
  | None =>
    match parse_address old with
    | None => location                                (* does not happen: the old address was used *)
    | Some u =>
      let resource :=
        match location with
        | c :: _ => if c =? 47 then line1k location
                    else
                      let r := line1k (u_res u) in
                      let r := match index 63 r with Some i => firstn i r | None => r end in
                      let r := match strrchr 47 r with Some (a, _) => a ++ [47] | None => r end in
                      line1k (r ++ location)
        | [] => let r := line1k (u_res u) in
                let r := match index 63 r with Some i => firstn i r | None => r end in
                match strrchr 47 r with Some (a, _) => a ++ [47] | None => r end
        end in
      line1k (u_prot u ++ str "://" ++ u_host u ++ (if 0 <? u_port u then 58 :: zdec (u_port u) else []) ++ resource)
    end
  end.
Definition set_url (u : list Z) : list Z := url_encode u.

(** WebDownloader.cpp:459-480, [ProcessHeader]. *)
Definition process_header (line : list Z) (g : wget) : option wget :=
  if nocase_prefix (str "Content-Length: ") line then
    Some (WGet (atoi (skipn 16 line)) true (g_gzip g) (g_redirecting g) (g_redirected g) (g_url g) (g_name g))
  else if nocase_prefix (str "Content-Encoding: gzip") line then
    Some (WGet (g_len g) (g_conf g) true (g_redirecting g) (g_redirected g) (g_url g) (g_name g))
  else if nocase_prefix (str "Content-Disposition: ") line then
    match parse_filename line with
    | None => None
    | Some None => Some g
    | Some (Some n) => Some (WGet (g_len g) (g_conf g) (g_gzip g) (g_redirecting g) (g_redirected g) (g_url g) (Some n))
    end
  else if g_redirecting g && nocase_prefix (str "Location: ") line then
    Some (WGet (g_len g) (g_conf g) (g_gzip g) true true (set_url (redirect_to (g_url g) (skipn 10 line))) (g_name g))
  else Some g.

(** daemon/util/Util.cpp, [Util::TrimRight]: line ends and blanks. *)
Definition trim_right (s : list Z) : list Z := rev (drop_blank (rev s)).

(** WebDownloader.cpp:275-333, [DownloadHeaders]: status, what was learned, the rest of the stream. *)
Definition head_room : nat := Z.to_nat 10239.
Fixpoint head_lines (fuel : nat) (first : bool) (s : list Z) (g : wget) : option (wstatus * wget * list Z) :=
  match fuel with
  | O => None
  | S f =>
    let l := take_line head_room s in
    let line := c_string l in
    let '(st, red) := if first then check_response line else (WRunning, g_redirecting g) in
    let g := WGet (g_len g) (g_conf g) (g_gzip g) red (g_redirected g) (g_url g) (g_name g) in
    match st with
    | WRunning =>
      match l with
      | [] => Some (WFailed, g, s)
      | c :: _ =>
        let rest := skipn (length l) s in
        if (c =? 13) || (c =? 10) then Some (WRunning, g, rest)
        else
          match process_header (trim_right line) g with
          | None => None
          | Some g' => if g_redirected g' then Some (WRedirect, g', rest) else head_lines f false rest g'
          end
      end
    | _ => Some (st, g, s)
    end
  end.
Definition download_headers (s : list Z) (u : list Z) (name : option (list Z)) : option (wstatus * wget * list Z) :=
  head_lines (S (S (length s))) true s (WGet (-1) false false false false u name).

(** What inflate makes of the bytes so far: output, error, or the output and the end of the stream. *)
Inductive gz := GOk (out : list Z) | GEnd (out : list Z) | GError.

(** WebDownloader.cpp:335-408 and 574-617, [DownloadBody] and [Write]: [inp] are the bytes so far, [file] the contents of the
    output file; the pieces still to come, and whether the connection ends regularly (len 0) or with an error. *)
Fixpoint body_loop (unz : list Z -> gz) (g : wget) (pieces : list (list Z)) (closed : bool) (inp file : list Z)
  : option (wstatus * list Z) :=
  match pieces with
  | [] => if closed && (g_len g =? -1) && (match inp with [] => false | _ => true end)
          then Some (WFinished, file) else Some (WFailed, [])
  | b :: r =>
    let inp' := inp ++ b in
    let next conf file' :=
      let n := Z.of_nat (length inp') in
      if 2 ^ 31 <=? n then None
      else if (n =? g_len g) || ((g_len g =? -1) && g_gzip g && conf) then Some (WFinished, file')
      else body_loop unz (WGet (g_len g) conf (g_gzip g) (g_redirecting g) (g_redirected g) (g_url g) (g_name g)) r closed inp' file' in
    if g_gzip g then
      match unz inp' with
      | GError => Some (WFatalError, [])
      | GOk out => next (g_conf g) out
      | GEnd out => next true out
      end
    else next (g_conf g) (file ++ b)
  end.

(** A server: none when no connection comes about, otherwise the answer to a request, cut into pieces. *)
Record answer := Answer { a_bytes : list Z; a_sizes : list nat; a_closed : bool }.
(** The pieces in which the rest of the stream is read, of at least one byte each. *)
Fixpoint pieces (fuel : nat) (sizes : list nat) (s : list Z) : list (list Z) :=
  match fuel with
  | O => []
  | S f =>
    match s with
    | [] => []
    | _ => let n := match sizes with [] => length s | k :: _ => Nat.max 1 k end in
           firstn n s :: pieces f (tl sizes) (skipn n s)
    end
  end.

(** WebDownloader.cpp:134-178, [Download]: status, file, address and name for the next request. *)
Definition download (unz : list Z -> gz) (srv : list Z -> option answer) (u : list Z) (name : option (list Z))
  : option (wstatus * list Z * list Z * option (list Z)) :=
  match parse_address u with
  | None => Some (WFatalError, [], u, name)
  | Some p =>
    match usable_port p with
    | None => Some (WFatalError, [], u, name)
    | Some _ =>
      match srv u with
      | None => Some (WConnectError, [], u, name)
      | Some a =>
        match download_headers (a_bytes a) u name with
        | None => None
        | Some (WRunning, g, rest) =>
          match body_loop unz g (pieces (length rest) (a_sizes a) rest) (a_closed a) [] [] with
          | None => None
          | Some (st, file) => Some (st, file, g_url g, g_name g)
          end
        | Some (st, g, _) => Some (st, [], g_url g, g_name g)
        end
      end
    end
  end.

(** WebDownloader.cpp:180-196, [DownloadWithRedirects]; the addresses asked are recorded. The server may answer
    differently each time. *)
Fixpoint with_redirects (n : nat) (unz : list Z -> gz) (srv : nat -> list Z -> option answer) (t : nat) (u : list Z) (name : option (list Z))
  : option (wstatus * list Z * list Z * option (list Z) * list (list Z)) :=
  match download unz (srv t) u name with
  | None => None
  | Some (st, file, u', name') =>
    match st with
    | WRedirect =>
      match n with
      | O => Some (WFailed, [], u', name', [u])
      | S m => match with_redirects m unz srv (S t) u' name' with
               | Some (st', f', u'', nm, asked) => Some (st', f', u'', nm, u :: asked)
               | None => None
               end
      end
    | _ => Some (st, file, u', name', [u])
    end
  end.

(** WebDownloader.cpp:52-132, [Run]: [retries] is the option UrlRetries. *)
Fixpoint run_loop (fuel : nat) (unz : list Z -> gz) (srv : nat -> list Z -> option answer) (t : nat) (dl conn : Z)
    (u : list Z) (name : option (list Z)) (st : wstatus) : option (wstatus * list Z * option (list Z) * list (list (list Z))) :=
  if (0 <? dl) && (0 <? conn) then
    match fuel with
    | O => None
    | S f =>
      match with_redirects 5 unz srv t u name with
      | None => None
      | Some (st', file, u', name', asked) =>
        match st' with
        | WFinished => Some (st', file, name', [asked])
        | WFatalError | WNotFound => Some (WFailed, [], name', [asked])
        | _ =>
          let '(dl', conn') := match st' with WConnectError => (dl, conn - 1) | _ => (dl - 1, conn) end in
          match run_loop f unz srv (t + length asked) dl' conn' u' name' st' with
          | Some (s, file', nm, l) => Some (s, file', nm, asked :: l)
          | None => None
          end
        end
      end
    end
  else Some (WFailed, [], name, []).
Definition run_download (retry : bool) (retries : Z) (unz : list Z -> gz) (srv : nat -> list Z -> option answer) (u : list Z)
  : option (wstatus * list Z * option (list Z) * list (list (list Z))) :=
  let dl := if 0 <? retries then retries else 1 in
  let conn := if 10 <? dl then dl else 10 in
  let '(dl, conn) := if retry then (dl, conn) else (1, 1) in
  run_loop (Z.to_nat (dl + conn)) unz srv 0 dl conn (set_url u) None WFailed.
