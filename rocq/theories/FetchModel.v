(** The download of one article: servers, levels and retries.

    daemon/nntp/ArticleDownloader.cpp
      72-290   ArticleDownloader::Run

    One pass of the main loop is one step.  What comes from outside is part of
    an [attempt]: the pool at the call of GetConnection, the outcome of the
    connection and of Download (292-409), pauses and stops, and the pool when
    the servers of the level are examined.  Download itself is reduced to its
    result and to whether it gave the connection back (368).  A call of
    GetConnection without result leaves the downloader where it is. *)
From Verif Require Import Base PoolModel.

(** Results of Download; adRetry and adRunning are never returned. *)
Inductive ares := RFinished | RFailed | RNotFound | RCrc | RConnect | RFatal.

Record attempt := mkAt {
  t_pool : pool; t_rnd : Z; t_now : Z;       (* at GetConnection *)
  t_intr : bool;                             (* 106-112: stopped, paused, over quota or reconfigured *)
  t_age : Z; t_retention : Z;                (* age of the file in seconds, retention of the server *)
  t_connect : bool;                          (* Connect *)
  t_stop : bool;                             (* stopped while connecting *)
  t_res : ares; t_freed : bool;              (* Download *)
  t_intr2 : bool;                            (* 200-206 *)
  t_pool2 : pool; t_now2 : Z }.              (* 220-249 *)

(** level, failedServers, remainedRetries, wantServer and the server of m_connection. *)
Record dstate := mkD { d_level : Z; d_failed : list Z; d_left : Z; d_want : option Z; d_conn : option Z }.

Inductive dend := EndRetry | EndFinished | EndFatal | EndFailed | EndUB.

(** What happened in a pass. *)
Inductive devent := DNone | DWait | DAsk (id : Z) (r : ares) | DOld (id : Z) | DLost (id : Z).

(** 121-122. *)
Definition too_old (age retention : Z) : bool := (0 <? retention) && (retention <? age / 86400).

(** 225-239: [s] needs not be asked. *)
Definition server_failed (srvs : list nsrv) (retry now : Z) (failed : list Z) (s : nsrv) : bool :=
  negb (v_active s) || (v_max s =? 0) || (v_optional s && blocked retry now s) || existsb (excludes srvs s) failed.

(** 220-249. *)
Definition all_failed (p : pool) (now level : Z) (failed : list Z) : bool :=
  forallb (fun s => negb (v_norm s =? level) || server_failed (pl_srvs p) (pl_retry p) now failed s) (pl_srvs p).

Definition is_failed (r : ares) : bool := match r with RFailed => true | _ => false end.
Definition is_connect (r : ares) : bool := match r with RConnect => true | _ => false end.

(** A pass with a connection to server [id], 114-270. *)
Definition attempt_step (retries : Z) (st : dstate) (id : Z) (a : attempt) : devent * (dstate + dend) :=
  let s := srv (pl_srvs (t_pool a)) id in
  let level := v_norm s in
  let old := too_old (t_age a) (t_retention a) in
  let linked := negb old && t_connect a in
  let res0 := if linked && negb (t_stop a) then t_res a else RFailed in
  let connected := linked && negb (is_connect res0) in
  let res := if is_connect res0 then RFailed else res0 in
  let left := if connected && is_failed res then d_left st - 1 else d_left st in
  let opt_blocked := negb connected && negb old && negb (t_stop a) && v_optional s in
  let again := connected && is_failed res && (0 <? left) && negb old in
  let want := if again then Some id else None in
  let conn := if again && negb (t_freed a) then Some id else None in
  let ev := if old then DOld id else if connected then (if t_stop a then DNone else DAsk id res) else DLost id in
  (ev,
   match res with
   | RFinished => inr EndFinished
   | RFatal => inr EndFatal
   | _ =>
       if t_stop a || t_intr2 a then inr EndRetry
       else if negb again && (connected || old || opt_blocked) then
         let failed := if opt_blocked then d_failed st else d_failed st ++ [id] in
         if all_failed (t_pool2 a) (t_now2 a) level failed then
           if level <? pl_max (t_pool2 a) then inl (mkD (level + 1) failed retries want conn) else inr EndFailed
         else inl (mkD level failed retries want conn)
       else inl (mkD level (d_failed st) left want conn)
   end).

(** One pass of the loop 92-271. *)
Definition dstep (retries : Z) (st : dstate) (a : attempt) : devent * (dstate + dend) :=
  if t_intr a then (DNone, inr EndRetry) else
  match d_conn st with
  | Some id => attempt_step retries st id a
  | None =>
      match get_connection (t_pool a) (d_level st) (d_want st) (d_failed st) (t_rnd a) (t_now a) with
      | None => (DNone, inr EndUB)
      | Some (_, None) => (DWait, inl st)
      | Some (_, Some c) => attempt_step retries st (k_srv c) a
      end
  end.

(** The events of a run, and how it ended if it did. *)
Fixpoint drun (retries : Z) (st : dstate) (l : list attempt) : list devent * option dend :=
  match l with
  | [] => ([], None)
  | a :: r =>
      match dstep retries st a with
      | (e, inr d) => ([e], Some d)
      | (e, inl st') => let '(es, d) := drun retries st' r in (e :: es, d)
      end
  end.

(** 83-91. *)
Definition retries_of (opt : Z) : Z := if 0 <? opt then opt else 1.
Definition d_start (retries : Z) : dstate := mkD 0 [] retries None None.
Definition fetch (opt : Z) (l : list attempt) : list devent * option dend :=
  drun (retries_of opt) (d_start (retries_of opt)) l.

(** 273-290: the status reported; [dup] is ArticleWriter::GetDuplicate. *)
Inductive astatus := AFinished | AFailed | ARetry.
Definition article_status (dup stopped : bool) (d : dend) : astatus :=
  if stopped then ARetry else
  if dup then AFinished else
  match d with EndFinished => AFinished | EndRetry => ARetry | _ => AFailed end.
