(** Vocabulary for statements about the download of an article. *)
From Verif Require Import Base PoolModel PoolSpec FetchModel.

(** A pool as seen at some moment while no server is activated, deactivated or
    reconfigured: reached by any history, with the servers [srvs]. *)
Definition sees (conf : list nsrv) (retry : Z) (srvs : list nsrv) (p : pool) : Prop :=
  same_servers srvs (pl_srvs p) /\ exists es held, levels_ok es /\ reachable conf retry es p held.

(** An attempt sees the pool twice. *)
Definition attempt_ok (conf : list nsrv) (retry : Z) (srvs : list nsrv) (a : attempt) : Prop :=
  sees conf retry srvs (t_pool a) /\ sees conf retry srvs (t_pool2 a).

(** A server was asked for the article and could not deliver it, or is known not to keep it any more. *)
Definition gave_up (id : Z) (e : devent) : Prop :=
  match e with
  | DAsk i (RFailed | RNotFound | RCrc) => i = id
  | DOld i => i = id
  | _ => False
  end.

(** ... or a server of the same group and level was. *)
Definition tried (srvs : list nsrv) (log : list devent) (s : nsrv) : Prop :=
  exists t e, In t srvs /\ stands_for t s /\ In e log /\ gave_up (v_id t) e.

(** An optional server that was found blocked. *)
Definition seen_blocked (l : list attempt) (s : nsrv) : Prop :=
  v_optional s = true /\
  exists a, In a l /\ (is_blocked (pl_retry (t_pool a)) (t_now a) (srv (pl_srvs (t_pool a)) (v_id s)) \/
                       is_blocked (pl_retry (t_pool2 a)) (t_now2 a) (srv (pl_srvs (t_pool2 a)) (v_id s))).

Definition answered (e : devent) : bool := match e with DAsk _ _ | DOld _ => true | _ => false end.
Definition lost (e : devent) : bool := match e with DLost _ => true | _ => false end.
Definition count (f : devent -> bool) (l : list devent) : Z := Z.of_nat (length (filter f l)).

(** The number of failed answers of a server. *)
Definition failures (id : Z) (l : list devent) : Z :=
  count (fun e => match e with DAsk i RFailed => i =? id | _ => false end) l.

(** A server said that it does not have the article, delivered a damaged one or does not keep it any more. *)
Definition refused (id : Z) (e : devent) : Prop :=
  match e with
  | DAsk i (RNotFound | RCrc) => i = id
  | DOld i => i = id
  | _ => False
  end.

(** The file is older than the server keeps articles: more full days than its retention. *)
Definition expired (a : attempt) : Prop := 0 < t_retention a /\ (t_retention a + 1) * 86400 <= t_age a.
