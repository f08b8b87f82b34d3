(** The pool of news server connections.

    daemon/nntp/ServerPool.cpp
      48-90    NormalizeLevels
      92-138   InitConnections
      143-166  GetConnection
      168-230  LockedGetConnection
      232-251  FreeConnection
      253-280  BlockServer, IsServerBlocked
      282-348  CloseUnusedConnections
      350-356  Changed
    daemon/main/Scheduler.cpp 265-310, daemon/remote/XmlRpc.cpp 2939-2957
               activation of servers

    Every function here runs under one mutex and is one step.  Servers and
    connections are identified by numbers instead of pointers.  The random
    choice among the candidates is a parameter.  std::sort is an insertion
    sort; the order among servers of equal level is not used by any statement.
    Access outside of m_levels is [None]. *)
From Verif Require Import Base.

(** NewsServer, NewsServer.h 63-83: the attributes used here. *)
Record nsrv := mkSrv {
  v_id : Z; v_active : bool; v_max : Z; v_level : Z; v_norm : Z; v_group : Z; v_optional : bool; v_block : Z }.

(** PooledConnection, ServerPool.h 54-65: its server, in use, connected, time of the last release. *)
Record pconn := mkPC { k_id : Z; k_srv : Z; k_used : bool; k_open : bool; k_time : Z }.

Record pool := mkPool {
  pl_srvs : list nsrv; pl_conns : list pconn; pl_levels : list Z; pl_max : Z; pl_gen : Z; pl_retry : Z;
  pl_next : Z }.

Definition set_norm (n : Z) (s : nsrv) : nsrv :=
  mkSrv (v_id s) (v_active s) (v_max s) (v_level s) n (v_group s) (v_optional s) (v_block s).
Definition set_block (t : Z) (s : nsrv) : nsrv :=
  mkSrv (v_id s) (v_active s) (v_max s) (v_level s) (v_norm s) (v_group s) (v_optional s) t.
Definition set_active (b : bool) (s : nsrv) : nsrv :=
  mkSrv (v_id s) b (v_max s) (v_level s) (v_norm s) (v_group s) (v_optional s) (v_block s).

Definition on_srv (id : Z) (f : nsrv -> nsrv) (l : list nsrv) : list nsrv :=
  map (fun s => if v_id s =? id then f s else s) l.

(** The server a pointer refers to. *)
Definition no_srv : nsrv := mkSrv (-1) false 0 0 (-1) 0 false 0.
Definition srv (l : list nsrv) (id : Z) : nsrv :=
  match find (fun s => v_id s =? id) l with Some s => s | None => no_srv end.

(** ** Levels *)

(** 55-59. *)
Fixpoint insert_level (s : nsrv) (l : list nsrv) : list nsrv :=
  match l with
  | t :: r => if v_level s <=? v_level t then s :: l else t :: insert_level s r
  | [] => [s]
  end.
Definition sort_level (l : list nsrv) : list nsrv := fold_right insert_level [] l.

(** 61-69. *)
Definition min_level (l : list nsrv) : Z :=
  match l with
  | s :: r => fold_left (fun m t => if v_level t <? m then v_level t else m) l (v_level s)
  | [] => 0
  end.

(** 75-76: servers that get a level. *)
Definition counted (minl : Z) (s : nsrv) : bool :=
  (v_active s && (0 <? v_max s)) || (v_level s =? minl).

(** 71-89. *)
Fixpoint norm_go (minl last mx : Z) (l : list nsrv) : list nsrv * Z :=
  match l with
  | [] => ([], mx)
  | s :: r =>
      if counted minl s then
        let mx' := if v_level s =? last then mx else mx + 1 in
        let '(r', m) := norm_go minl (v_level s) mx' r in (set_norm mx' s :: r', m)
      else
        let '(r', m) := norm_go minl last mx r in (set_norm (-1) s :: r', m)
  end.

(** NormalizeLevels, 48-90. *)
Definition normalize (l : list nsrv) (mx : Z) : list nsrv * Z :=
  match l with
  | [] => (l, mx)
  | _ => let s := sort_level l in norm_go (min_level s) (min_level s) 0 s
  end.

(** ** InitConnections *)

Fixpoint add_at (n : nat) (d : Z) (l : list Z) : option (list Z) :=
  match l, n with
  | x :: r, O => Some (x + d :: r)
  | x :: r, S m => option_map (cons x) (add_at m d r)
  | [], _ => None
  end.

Definition conns_of (id : Z) (l : list pconn) : list pconn := filter (fun c => k_srv c =? id) l.

(** 124-130: new connections, numbered from [next]. *)
Fixpoint new_conns (n : nat) (id next : Z) : list pconn :=
  match n with O => [] | S m => mkPC next id false false 0 :: new_conns m id (next + 1) end.

(** One round of the loop 101-135. *)
Definition init_server (st : list pconn * list Z * Z) (s : nsrv) : option (list pconn * list Z * Z) :=
  let '(conns, levels, next) := st in
  if -1 <? v_norm s then
    let levels := if Z.of_nat (length levels) <=? v_norm s then levels ++ [0] else levels in
    if v_active s then
      let have := Z.of_nat (length (conns_of (v_id s) conns)) in
      let more := Z.to_nat (v_max s - have) in
      match add_at (Z.to_nat (v_norm s)) (have + Z.of_nat more) levels with
      | Some levels' => Some (conns ++ new_conns more (v_id s) next, levels', next + Z.of_nat more)
      | None => None
      end
    else Some (conns, levels, next)
  else Some st.

Fixpoint init_servers (st : list pconn * list Z * Z) (l : list nsrv) : option (list pconn * list Z * Z) :=
  match l with
  | [] => Some st
  | s :: r => match init_server st s with Some st' => init_servers st' r | None => None end
  end.

(** InitConnections, 92-138. *)
Definition init_connections (p : pool) : option pool :=
  let '(srvs, mx) := normalize (pl_srvs p) (pl_max p) in
  match init_servers (pl_conns p, [], pl_next p) srvs with
  | Some (conns, levels, next) =>
      Some (mkPool (map (set_block 0) srvs) conns levels mx (pl_gen p + 1) (pl_retry p) next)
  | None => None
  end.

(** ** GetConnection *)

(** IsServerBlocked, 269-280. *)
Definition blocked (retry now : Z) (s : nsrv) : bool :=
  if v_block s =? 0 then false else (v_block s <=? now) && (now <? v_block s + retry).

(** 184-185. *)
Definition want_ok (srvs : list nsrv) (want : option Z) (s : nsrv) : bool :=
  match want with
  | None => true
  | Some w => (v_id s =? w) || ((0 <? v_group (srv srvs w)) && (v_group (srv srvs w) =? v_group s))
  end.

(** 195-197; also ArticleDownloader.cpp 227-229. *)
Definition excludes (srvs : list nsrv) (s : nsrv) (i : Z) : bool :=
  (i =? v_id s) || ((0 <? v_group (srv srvs i)) && (v_group (srv srvs i) =? v_group s) &&
                    (v_norm (srv srvs i) =? v_norm s)).

(** 182-203 for one connection: free and allowed at the moment; usable. *)
Definition is_candidate (retry now level : Z) (want : option Z) (srvs : list nsrv) (c : pconn) : bool :=
  let s := srv srvs (k_srv c) in
  negb (k_used c) && v_active s && (v_norm s =? level) && want_ok srvs want s &&
  (k_open c || negb (blocked retry now s)).
Definition is_usable (want : option Z) (ignore : list Z) (srvs : list nsrv) (c : pconn) : bool :=
  match want with
  | Some _ => true
  | None => negb (existsb (excludes srvs (srv srvs (k_srv c))) ignore)
  end.

(** The loop 179-212: looking at a candidate clears the block of its server. *)
Fixpoint scan_conns (retry now level : Z) (want : option Z) (ignore : list Z) (srvs : list nsrv) (l : list pconn)
  : list nsrv * list pconn :=
  match l with
  | [] => (srvs, [])
  | c :: r =>
      if is_candidate retry now level want srvs c then
        let '(srvs', cs) := scan_conns retry now level want ignore (on_srv (k_srv c) (set_block 0) srvs) r in
        (srvs', if is_usable want ignore srvs c then c :: cs else cs)
      else scan_conns retry now level want ignore srvs r
  end.

Definition on_conn (id : Z) (f : pconn -> pconn) (l : list pconn) : list pconn :=
  map (fun c => if k_id c =? id then f c else c) l.
Definition set_used (b : bool) (c : pconn) : pconn := mkPC (k_id c) (k_srv c) b (k_open c) (k_time c).

Definition with_srvs (l : list nsrv) (p : pool) : pool :=
  mkPool l (pl_conns p) (pl_levels p) (pl_max p) (pl_gen p) (pl_retry p) (pl_next p).

Definition level_count (p : pool) (level : Z) : Z :=
  if level <? Z.of_nat (length (pl_levels p)) then nth (Z.to_nat level) (pl_levels p) 0 else 0.

(** LockedGetConnection, 168-230; [rnd] is the value of rand(). *)
Definition locked_get (p : pool) (level : Z) (want : option Z) (ignore : list Z) (rnd now : Z)
  : option (pool * option pconn) :=
  if level_count p level =? 0 then Some (p, None) else
  let '(srvs, cands) := scan_conns (pl_retry p) now level want ignore (pl_srvs p) (pl_conns p) in
  match nth_error cands (Z.to_nat (rnd mod Z.of_nat (length cands))) with
  | Some c =>
      match add_at (Z.to_nat level) (-1) (pl_levels p) with
      | Some levels => Some (mkPool srvs (on_conn (k_id c) (set_used true) (pl_conns p)) levels
                                    (pl_max p) (pl_gen p) (pl_retry p) (pl_next p), Some c)
      | None => None
      end
  | None => Some (with_srvs srvs p, None)
  end.

(** GetConnection, 143-166.  The fuel is the number of levels. *)
Fixpoint get_go (fuel : nat) (p : pool) (level : Z) (want : option Z) (ignore : list Z) (rnd now : Z)
  : option (pool * option pconn) :=
  match fuel with
  | O => Some (p, None)
  | S k =>
      if 0 <? level_count p level then
        match locked_get p level want ignore rnd now with
        | None => None
        | Some (p1, Some c) => Some (p1, Some c)
        | Some (p1, None) =>
            if existsb (fun s => (v_norm s =? level) && v_active s && negb (v_optional s && blocked (pl_retry p1) now s))
                       (pl_srvs p1)
            then Some (p1, None)
            else get_go k p1 (level + 1) want ignore rnd now
        end
      else Some (p, None)
  end.
Definition get_connection (p : pool) (level : Z) (want : option Z) (ignore : list Z) (rnd now : Z) :=
  get_go (length (pl_levels p)) p level want ignore rnd now.

(** ** Other operations *)

(** FreeConnection, 232-251. *)
Definition free_connection (p : pool) (cid : Z) (used : bool) (now : Z) : option pool :=
  match find (fun c => k_id c =? cid) (pl_conns p) with
  | None => None
  | Some c =>
      let conns := on_conn cid (fun c => mkPC (k_id c) (k_srv c) false (k_open c) (if used then now else k_time c)) (pl_conns p) in
      let s := srv (pl_srvs p) (k_srv c) in
      if (-1 <? v_norm s) && v_active s then
        match add_at (Z.to_nat (v_norm s)) 1 (pl_levels p) with
        | Some levels => Some (mkPool (pl_srvs p) conns levels (pl_max p) (pl_gen p) (pl_retry p) (pl_next p))
        | None => None
        end
      else Some (mkPool (pl_srvs p) conns (pl_levels p) (pl_max p) (pl_gen p) (pl_retry p) (pl_next p))
  end.

(** BlockServer, 253-261. *)
Definition block_server (p : pool) (id now : Z) : pool := with_srvs (on_srv id (set_block now) (pl_srvs p)) p.

(** 308-347 for one level: all connections of the level are closed when none
    is in use and one was released more than 5 seconds ago. *)
Definition close_level (srvs : list nsrv) (now : Z) (conns : list pconn) (level : Z) : list pconn :=
  let here c := v_norm (srv srvs (k_srv c)) =? level in
  if negb (existsb (fun c => here c && k_used c) conns) && existsb (fun c => here c && (5 <? now - k_time c)) conns
  then map (fun c => if here c then mkPC (k_id c) (k_srv c) (k_used c) false (k_time c) else c) conns
  else conns.

(** CloseUnusedConnections, 282-348. *)
Definition close_unused (p : pool) (now : Z) : pool :=
  let keep c := k_used c || negb ((v_norm (srv (pl_srvs p) (k_srv c)) =? -1) || negb (v_active (srv (pl_srvs p) (k_srv c)))) in
  let conns := filter keep (pl_conns p) in
  let conns := fold_left (close_level (pl_srvs p) now) (map Z.of_nat (seq 0 (Z.to_nat (pl_max p + 1)))) conns in
  mkPool (pl_srvs p) conns (pl_levels p) (pl_max p) (pl_gen p) (pl_retry p) (pl_next p).

(** SetActive on a server. *)
Definition activate (p : pool) (id : Z) (b : bool) : pool := with_srvs (on_srv id (set_active b) (pl_srvs p)) p.

(** Changed, 350-356. *)
Definition changed (p : pool) (now : Z) : option pool :=
  match init_connections p with Some p' => Some (close_unused p' now) | None => None end.

(** ** Histories *)

Inductive pevent :=
| EvGet (level : Z) (want : option Z) (ignore : list Z) (rnd now : Z)
| EvFree (cid : Z) (used : bool) (now : Z)
| EvBlock (id now : Z)
| EvActive (id : Z) (b : bool)        (* SetActive; Changed is called some time later *)
| EvChanged (now : Z)
| EvClose (now : Z)
| EvStatus (cid : Z) (b : bool).      (* the holder connects or disconnects *)

(** A pool together with the connections handed out and not yet given back.
    Only connections that are held are given back or used. *)
Definition pstep (st : pool * list Z) (e : pevent) : option (pool * list Z) :=
  let '(p, held) := st in
  match e with
  | EvGet level want ignore rnd now =>
      match get_connection p level want ignore rnd now with
      | Some (p', Some c) => Some (p', k_id c :: held)
      | Some (p', None) => Some (p', held)
      | None => None
      end
  | EvFree cid used now =>
      if existsb (Z.eqb cid) held then
        match free_connection p cid used now with
        | Some p' => Some (p', remove Z.eq_dec cid held)
        | None => None
        end
      else Some st
  | EvBlock id now => Some (block_server p id now, held)
  | EvActive id b => Some (activate p id b, held)
  | EvChanged now => match changed p now with Some p' => Some (p', held) | None => None end
  | EvClose now => Some (close_unused p now, held)
  | EvStatus cid b =>
      if existsb (Z.eqb cid) held
      then Some (mkPool (pl_srvs p) (on_conn cid (fun c => mkPC (k_id c) (k_srv c) (k_used c) b (k_time c)) (pl_conns p))
                        (pl_levels p) (pl_max p) (pl_gen p) (pl_retry p) (pl_next p), held)
      else Some st
  end.

Fixpoint prun (st : pool * list Z) (es : list pevent) : option (pool * list Z) :=
  match es with
  | [] => Some st
  | e :: r => match pstep st e with Some st' => prun st' r | None => None end
  end.

(** The pool after start: AddServer for every configured server (norm level is
    the level, NewsServer.cpp 31), then InitConnections (nzbget.cpp 323). *)
Definition start_pool (srvs : list nsrv) (retry : Z) : option pool :=
  init_connections (mkPool srvs [] [] 0 0 retry 0).
