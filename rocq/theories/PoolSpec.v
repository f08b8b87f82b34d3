(** Vocabulary for statements about the connection pool. *)
From Verif Require Import Base PoolModel.

(** A configuration: servers with different identifiers. *)
Definition config (srvs : list nsrv) : Prop := NoDup (map v_id srvs).

(** A state reached from a start by some history. *)
Definition reachable (srvs : list nsrv) (retry : Z) (es : list pevent) (p : pool) (held : list Z) : Prop :=
  exists p0, start_pool srvs retry = Some p0 /\ prun (p0, []) es = Some (p, held).

(** What a history hands out and takes back, as seen from outside: the
    connection returned by the last event, if any. *)
Definition handed (srvs : list nsrv) (retry : Z) (es : list pevent) (e : pevent) (cid : Z) : Prop :=
  exists p held p' , reachable srvs retry es p held /\ pstep (p, held) e = Some (p', cid :: held) /\
  match e with EvGet _ _ _ _ _ => True | _ => False end.

Definition is_free (cid : Z) (e : pevent) : Prop :=
  match e with EvFree c _ _ => c = cid | _ => False end.

(** Connections of a server that are in use. *)
Definition in_use (p : pool) (id : Z) : list pconn :=
  filter (fun c => (k_srv c =? id) && k_used c) (pl_conns p).

(** A server is blocked for [retry] seconds after an error. *)
Definition is_blocked (retry now : Z) (s : nsrv) : Prop := v_block s <> 0 /\ v_block s <= now < v_block s + retry.

(** A server that may be passed over: not active, or optional and blocked. *)
Definition passable (p : pool) (now : Z) (s : nsrv) : Prop :=
  v_active s = false \/ (v_optional s = true /\ is_blocked (pl_retry p) now s).

(** Servers are the same one, or members of one group on one level. *)
Definition stands_for (s t : nsrv) : Prop :=
  v_id s = v_id t \/ (0 < v_group s /\ v_group s = v_group t /\ v_norm s = v_norm t).

(** Histories in which servers are only activated together with Changed. *)
Fixpoint settled_history (es : list pevent) : Prop :=
  match es with
  | [] => True
  | EvActive _ _ :: r => match r with
                         | EvChanged _ :: _ => True
                         | EvActive _ _ :: _ => True
                         | _ => False
                         end /\ settled_history r
  | _ :: r => settled_history r
  end.

(** Servers that take part: those of the lowest level, and active ones with connections. *)
Definition takes_part (srvs : list nsrv) (s : nsrv) : Prop :=
  (v_active s = true /\ 0 < v_max s) \/ (forall t, In t srvs -> v_level s <= v_level t).

(** Two views of the same servers: they differ at most in the times of blocks. *)
Definition same_servers (a b : list nsrv) : Prop := map (set_block 0) a = map (set_block 0) b.

(** Requests are made for levels from 0. *)
Definition levels_ok (es : list pevent) : Prop :=
  Forall (fun e => match e with EvGet level _ _ _ _ => 0 <= level | _ => True end) es.

(** What the configuration says about a server. *)
Definition server_option (s : nsrv) : Z * Z * Z * Z * bool :=
  (v_id s, v_max s, v_level s, v_group s, v_optional s).
