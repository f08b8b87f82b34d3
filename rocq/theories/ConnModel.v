(** Buffered reading from and writing to a socket, daemon/connect/Connection.cpp.
    The peer's bytes are a stream that ends when the peer closes the connection; the kernel hands them
    over in pieces whose sizes are free (a schedule).  Left out: TLS, time outs, cancellation and
    errors of recv (they end the stream in the same way as closing). *)
From Verif Require Import Base.

(** Connection.h:95-100 (m_readBuf, m_bufPtr, m_bufAvail): the bytes not yet used; what is still to come
    from the network; the sizes of the next pieces. *)
Record conn := Conn { c_buf : list Z; c_net : list Z; c_sched : list nat }.

(** The call recv(socket, .., n): at least one and at most [n] bytes, nothing when the peer has closed. *)
Definition recv (n : nat) (c : conn) : list Z * conn :=
  let k := match c_sched c with [] => n | s :: _ => Nat.min n (Nat.max 1 s) end in
  (firstn k (c_net c), Conn (c_buf c) (skipn k (c_net c)) (tl (c_sched c))).

(** memchr(bufPtr, '\n', bufAvail): offset of the first line feed. *)
Fixpoint find_lf (s : list Z) : option nat :=
  match s with
  | [] => None
  | c :: r => if c =? 10 then Some O else match find_lf r with Some n => Some (S n) | None => None end
  end.

(** Connection.cpp:404-454, the loop of [ReadLine]; [cap] is the size of the read buffer without its last
    byte (CONNECTION_READBUFFER_SIZE), [size] the room left in the caller's buffer. *)
Fixpoint read_loop (fuel cap size : nat) (c : conn) : option (list Z * conn) :=
  match fuel with
  | O => None
  | S f =>
    match size with
    | O => Some ([], c)
    | _ =>
      let c := match c_buf c with
               | [] => let '(got, c') := recv cap c in Conn got (c_net c') (c_sched c')
               | _ => c
               end in
      match c_buf c with
      | [] => Some ([], c)
      | b =>
        let p := find_lf b in
        let len := Nat.min size (match p with Some i => S i | None => length b end) in
        let c' := Conn (skipn len b) (c_net c) (c_sched c) in
        match p with
        | Some _ => Some (firstn len b, c')
        | None => match read_loop f cap (size - len) c' with
                  | Some (l, c'') => Some (firstn len b ++ l, c'')
                  | None => None
                  end
        end
      end
    end
  end.

(** Connection.cpp:392-471, [ReadLine] with a buffer of [size] bytes: the bytes read (none: nullptr). *)
Definition read_line (cap size : nat) (c : conn) : option (list Z * conn) :=
  read_loop (S (S size)) cap (size - 1) c.

(** Connection.cpp:536-549, the loop of [Recv]. *)
Fixpoint recv_loop (fuel need : nat) (c : conn) : option (option (list Z) * conn) :=
  match fuel with
  | O => None
  | S f =>
    match need with
    | O => Some (Some [], c)
    | _ => let '(got, c') := recv need c in
           match got with
           | [] => Some (None, c')
           | _ => match recv_loop f (need - length got) c' with
                  | Some (Some l, c'') => Some (Some (got ++ l), c'')
                  | Some (None, c'') => Some (None, c'')
                  | None => None
                  end
           end
    end
  end.

(** Connection.cpp:517-551, [Recv]: all [size] bytes or failure. *)
Definition recv_all (size : nat) (c : conn) : option (option (list Z) * conn) :=
  let len := Nat.min size (length (c_buf c)) in
  let c' := Conn (skipn len (c_buf c)) (c_net c) (c_sched c) in
  match recv_loop (S size) (size - len) c' with
  | Some (Some l, c'') => Some (Some (firstn len (c_buf c) ++ l), c'')
  | Some (None, c'') => Some (None, c'')
  | None => None
  end.

(** Connection.cpp:892-897 and 497-515, [ReadBuffer] and, when the buffer is empty, [TryRecv], as they are
    combined by ArticleDownloader.cpp:350-358 and WebDownloader.cpp:352-360. *)
Definition fetch (size : nat) (c : conn) : list Z * conn :=
  match c_buf c with
  | [] => recv size c
  | b => (b, Conn [] (c_net c) (c_sched c))
  end.

(** The call send(socket, data, ..): how many bytes are taken, at least one. *)
Definition send (sched : list nat) (data : list Z) : nat * list nat :=
  (match sched with [] => length data | s :: _ => Nat.min (length data) (Nat.max 1 s) end, tl sched).

(** Connection.cpp:368-390, [Send]: the bytes which leave. *)
Fixpoint send_loop (fuel : nat) (sched : list nat) (data : list Z) : option (list Z) :=
  match fuel with
  | O => None
  | S f =>
    match data with
    | [] => Some []
    | _ => let '(n, s) := send sched data in
           match send_loop f s (skipn n data) with
           | Some out => Some (firstn n data ++ out)
           | None => None
           end
    end
  end.
Definition send_all (sched : list nat) (data : list Z) : option (list Z) :=
  send_loop (S (length data)) sched data.

(** Connection.cpp:350-366, [WriteLine]: one call of send; success is reported when anything was sent. *)
Definition write_line (sched : list nat) (data : list Z) : list Z * bool :=
  let '(n, _) := send sched data in (firstn n data, negb (n =? 0)%nat).

(** A run of reading calls. *)
Inductive rcall := CLine (size : nat) | CBytes (size : nat).
Definition rstep (cap : nat) (r : rcall) (c : conn) : option (option (list Z) * conn) :=
  match r with
  | CLine size => match read_line cap size c with Some (l, c') => Some (Some l, c') | None => None end
  | CBytes size => recv_all size c
  end.
Fixpoint rrun (cap : nat) (rs : list rcall) (c : conn) : option (list (option (list Z)) * conn) :=
  match rs with
  | [] => Some ([], c)
  | r :: rs' =>
    match rstep cap r c with
    | Some (o, c') => match rrun cap rs' c' with Some (os, c'') => Some (o :: os, c'') | None => None end
    | None => None
    end
  end.
(** The loop of a downloader: pieces until the stream ends. *)
Fixpoint fetches (fuel size : nat) (c : conn) : list (list Z) :=
  match fuel with
  | O => []
  | S f => let '(b, c') := fetch size c in match b with [] => [] | _ => b :: fetches f size c' end
  end.
