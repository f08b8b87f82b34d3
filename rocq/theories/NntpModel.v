(** Model of a connection to a news server: daemon/nntp/NntpConnection.cpp with reading and writing of daemon/connect/Connection.cpp, as used by
    daemon/nntp/ArticleDownloader.cpp. The network and the server are arbitrary: what can be written and what is read next is a function of
    all that happened before, on this and on earlier connections. Lines read are as ReadLine gives them (see ConnModel). Names,
    passwords, groups and identifiers have no NUL inside. Texts sent are cut to 1023 bytes. A write succeeds as a whole or not at all. Not modelled:
    messages, TLS, the choice of the address. *)
From Coq Require Import String.
From Verif Require Import Base.
Open Scope list_scope. Open Scope Z_scope.

(** What happened: a connection was opened, a text was written, a line was read. *)
Inductive ev := Open | W (t : list Z) | R (l : list Z).
(** Connection.cpp:425-445: a line; the end of the data; an error; cancelled by another thread. *)
Inductive incoming := Line (l : list Z) | Closed | Failed | Cancelled.
Record net := Net { n_open : list ev -> bool; n_write : list ev -> bool; n_read : list ev -> incoming }.
(** Connection.h:38-46. *)
Inductive status := Disc | Conn | Brok | Canc.
Record conn := C { c_hist : list ev; c_status : status; c_group : list Z; c_error : bool }.
(** User and password of the server. *)
Record server := Server { s_user : list Z; s_pass : list Z }.

Definition cut (s : list Z) : list Z := firstn (Z.to_nat 1023) s.
Definition crlf : list Z := [13; 10].
(** Connection.cpp:350-366, [WriteLine]. *)
Definition write (n : net) (t : list Z) (c : conn) : conn :=
  match c_status c with
  | Conn => if n_write n (c_hist c) then C (c_hist c ++ [W t]) Conn (c_group c) (c_error c) else C (c_hist c) Brok (c_group c) (c_error c)
  | _ => c
  end.
(** Connection.cpp:392-471, [ReadLine]: a text that is not empty, or nothing. *)
Definition read (n : net) (c : conn) : option (list Z) * conn :=
  match c_status c with
  | Conn => match n_read n (c_hist c) with
            | Line [] => (None, c)
            | Line l => (Some l, C (c_hist c ++ [R l]) Conn (c_group c) (c_error c))
            | Closed => (None, c)
            | Failed => (None, C (c_hist c) Brok (c_group c) (c_error c))
            | Cancelled => (None, C (c_hist c) Canc (c_group c) (c_error c))
            end
  | _ => (None, c)
  end.
Definition user_line (s : server) : list Z := cut (str "AUTHINFO USER " ++ s_user s ++ crlf).
Definition pass_line (s : server) : list Z := cut (str "AUTHINFO PASS " ++ s_pass s ++ crlf).
(** NntpConnection.cpp:88-159, [AuthInfoUser] and [AuthInfoPass]; [left]: 11 minus the argument. *)
Fixpoint auth (left : nat) (pass : bool) (n : net) (s : server) (c : conn) : bool * conn :=
  match left with
  | O => (false, c)
  | S k =>
    let '(a, c1) := read n (write n (if pass then pass_line s else user_line s) c) in
    match a with
    | None => (false, c1)
    | Some l =>
      if pass then
        if prefixb (str "2") l then (true, c1)
        else if prefixb (str "381") l then auth k true n s c1
        else (false, c1)
      else
        if prefixb (str "281") l then (true, c1)
        else if prefixb (str "381") l then auth k true n s c1
        else if prefixb (str "480") l then auth k false n s c1
        else (false, c1)
    end
  end.
Definition is_nil (s : list Z) : bool := match s with [] => true | _ => false end.
Definition with_error (e : bool) (c : conn) : conn := C (c_hist c) (c_status c) (c_group c) e.
(** NntpConnection.cpp:73-86, [Authenticate]. *)
Definition authenticate (n : net) (s : server) (c : conn) : bool * conn :=
  if is_nil (s_user s) || is_nil (s_pass s) then (false, with_error true c)
  else let '(ok, c1) := auth 11 false n s c in (ok, with_error (negb ok) c1).
(** NntpConnection.cpp:39-71, [Request]. *)
Definition request (n : net) (s : server) (req : list Z) (c : conn) : option (list Z) * conn :=
  let '(a, c1) := read n (write n req (with_error false c)) in
  match a with
  | None => (None, c1)
  | Some l =>
    if prefixb (str "480") l then
      let '(ok, c2) := authenticate n s c1 in
      if ok then read n (write n req c2) else (None, c2)
    else (Some l, c1)
  end.
(** NntpConnection.cpp:161-186, [JoinGroup]. *)
Definition join (n : net) (s : server) (g : list Z) (c : conn) : option (list Z) * conn :=
  if negb (is_nil (c_group c)) && beqb (c_group c) g then (Some (str "211 "), c)
  else let '(a, c1) := request n s (cut (str "GROUP " ++ g ++ crlf)) c in
       match a with
       | Some l => if prefixb (str "2") l then (a, C (c_hist c1) (c_status c1) g (c_error c1)) else (a, c1)
       | None => (a, c1)
       end.
(** NntpConnection.cpp:226-234, [Disconnect], and Connection.cpp:185-201. *)
Definition disconnect (n : net) (s : server) (c : conn) : conn :=
  let c1 := match c_status c with
            | Conn => let '(_, c1) := request n s (str "quit" ++ crlf) c in C (c_hist c1) (c_status c1) [] (c_error c1)
            | _ => c
            end in
  C (c_hist c1) Disc (c_group c1) (c_error c1).
(** NntpConnection.cpp:188-224, [Connect], and Connection.cpp:162-183. *)
Definition connect (n : net) (s : server) (c : conn) : bool * conn :=
  match c_status c with
  | Conn => (true, c)
  | _ =>
    if n_open n (c_hist c) then
      let '(a, c1) := read n (C (c_hist c ++ [Open]) Conn (c_group c) (c_error c)) in
      match a with
      | None => (false, disconnect n s c1)
      | Some l =>
        if prefixb (str "2") l then
          if negb (is_nil (s_user s)) && negb (is_nil (s_pass s)) then authenticate n s c1 else (true, c1)
        else (false, disconnect n s c1)
      end
    else (false, C (c_hist c) Disc (c_group c) (c_error c))
  end.
(** ArticleDownloader.cpp:304-328: the groups one after another until one is joined, then the article. *)
Fixpoint join_any (n : net) (s : server) (gs : list (list Z)) (a : option (list Z)) (c : conn) : option (list Z) * conn :=
  match gs with
  | [] => (a, c)
  | g :: r => let '(a1, c1) := join n s g c in
              match a1 with
              | Some l => if prefixb (str "2") l then (a1, c1) else join_any n s r a1 c1
              | None => join_any n s r a1 c1
              end
  end.
Definition get (n : net) (s : server) (raw : bool) (id : list Z) (c : conn) : option (list Z) * conn :=
  request n s (cut ((if raw then str "ARTICLE" else str "BODY") ++ str " " ++ id ++ crlf)) c.

(** ** Executions *)

(** What the downloader does with a connection of the pool. *)
Inductive nop := OConnect | OJoin (g : list Z) | OGet (raw : bool) (id : list Z) | ODisconnect.
Definition nstep (n : net) (s : server) (c : conn) (o : nop) : conn :=
  match o with
  | OConnect => snd (connect n s c)
  | OJoin g => snd (join n s g c)
  | OGet raw id => snd (get n s raw id c)
  | ODisconnect => disconnect n s c
  end.
Definition nrun (n : net) (s : server) (ops : list nop) : conn := fold_left (nstep n s) ops (C [] Disc [] false).
