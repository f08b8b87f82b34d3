(** Properties of the connection pool and of the choice of servers: C27, C28, C80, C81. *)
From Verif Require Import Base PoolModel PoolSpec PoolProofs PoolProofs3 PoolProofs4 PoolProofs5 FetchModel FetchSpec FetchProofs FetchProofs2.
From Coq Require Import Permutation.

(** ** C27 Connections *)

(** No operation in any order leaves the bounds of an array or gives back an unknown connection. *)
Theorem C27_defined srvs retry es : config srvs -> levels_ok es -> exists p held, reachable srvs retry es p held.
Proof. intros C L. apply reachable_exists; [exact C|now apply levels_ev]. Qed.
Print Assumptions C27_defined.

(** Servers of the examples: level 0 with two connections, level 0 of the same
    group, a second level that is optional, and an inactive one. *)
Definition ex_srvs : list nsrv :=
  [mkSrv 1 true 2 0 0 1 false 0; mkSrv 2 true 1 0 0 1 false 0; mkSrv 3 true 1 10 10 0 true 0; mkSrv 4 false 5 20 20 0 false 0;
   mkSrv 5 true 2 30 30 0 false 0].
Definition ex_events : list pevent :=
  [EvGet 0 None [] 0 100; EvGet 0 None [1] 0 100; EvBlock 3 100; EvFree 0 true 105; EvGet 0 (Some 1) [] 1 110; EvActive 4 true; EvChanged 120; EvClose 130].

Lemma ex_config : config ex_srvs.
Proof. unfold config. cbn. repeat constructor; cbn; intuition lia. Qed.
Lemma ex_levels : levels_ok ex_events.
Proof. repeat constructor; lia. Qed.

Example C27_defined_ex : exists p held, reachable ex_srvs 60 ex_events p held /\ length held = 1%nat /\ pl_max p = 3.
Proof.
  eexists. eexists. split; [|split].
  - eexists. split; [vm_compute; reflexivity|vm_compute; reflexivity].
  - reflexivity.
  - reflexivity.
Qed.

(** A connection that was handed out is handed out again only after it was given back. *)
Theorem C27_exclusive srvs retry es1 e1 es2 e2 cid : config srvs -> levels_ok (es1 ++ e1 :: es2 ++ [e2]) ->
  handed srvs retry es1 e1 cid -> handed srvs retry (es1 ++ e1 :: es2) e2 cid -> Exists (is_free cid) es2.
Proof. exact (exclusive srvs retry es1 e1 es2 e2 cid). Qed.
Print Assumptions C27_exclusive.
Example C27_exclusive_ex :
  handed ex_srvs 60 [] (EvGet 0 None [] 0 100) 0 /\
  handed ex_srvs 60 ([] ++ EvGet 0 None [] 0 100 :: [EvFree 0 true 105]) (EvGet 0 None [] 0 110) 0.
Proof.
  split; unfold handed; eexists; eexists; eexists; (split; [eexists; split; vm_compute; reflexivity|split; [vm_compute; reflexivity|exact I]]).
Qed.

(** The connections in use of a server never exceed its configured maximum; the
    options of the servers are never changed by the pool. *)
Theorem C27_limit srvs retry es p held s : config srvs -> levels_ok es -> reachable srvs retry es p held ->
  In s (pl_srvs p) -> Z.of_nat (length (in_use p (v_id s))) <= Z.max 0 (v_max s).
Proof. intros C L R. eapply in_use_max. exact (reachable_inv _ _ _ _ _ C (levels_ev _ L) R). Qed.
Print Assumptions C27_limit.

Theorem C27_options srvs retry es p held : config srvs -> levels_ok es -> reachable srvs retry es p held ->
  Permutation (map server_option (pl_srvs p)) (map server_option srvs).
Proof. intros C L R. exact (reachable_option _ _ _ _ _ C (levels_ev _ L) R). Qed.
Print Assumptions C27_options.
Example C27_limit_ex : exists p held, reachable ex_srvs 60 [EvGet 0 None [] 0 100; EvGet 0 None [] 0 100; EvGet 0 (Some 1) [] 0 100; EvGet 0 None [] 0 100] p held /\
  map (fun s => Z.of_nat (length (in_use p (v_id s)))) (pl_srvs p) = [2; 1; 0; 0; 0] /\ map v_max (pl_srvs p) = [2; 1; 1; 5; 2].
Proof.
  eexists. eexists. split; [eexists; split; vm_compute; reflexivity|]. split; vm_compute; reflexivity.
Qed.

(** What a request returns: a connection to an active server of the requested
    level, or of a higher one if every active server on the levels in between is
    optional and blocked; the wanted server or one of its group; no excluded server. *)
Theorem C27_request srvs retry es p held level want ignore rnd now p' c : config srvs -> levels_ok es -> 0 <= level ->
  reachable srvs retry es p held ->
  get_connection p level want ignore rnd now = Some (p', Some c) ->
  exists s, In s (pl_srvs p) /\ k_srv c = v_id s /\ v_active s = true /\ level <= v_norm s /\
    (forall t, In t (pl_srvs p) -> level <= v_norm t < v_norm s -> passable p now t) /\
    match want with
    | Some w => v_id s = w \/ exists t, In t (pl_srvs p) /\ v_id t = w /\ 0 < v_group t /\ v_group t = v_group s
    | None => forall t, In t (pl_srvs p) -> In (v_id t) ignore -> ~ stands_for t s
    end.
Proof. exact (request_ok srvs retry es p held level want ignore rnd now p' c). Qed.
Print Assumptions C27_request.
(** Level 1 has only a blocked optional server, so a request for it is served by level 2. *)
Example C27_request_ex : exists p held, reachable ex_srvs 60 [EvBlock 3 100] p held /\
  match get_connection p 1 None [1; 2] 0 110 with
  | Some (_, Some c) => k_srv c = 5 /\ v_norm (srv (pl_srvs p) 5) = 2 /\ passable p 110 (srv (pl_srvs p) 3)
  | _ => False
  end.
Proof.
  eexists. eexists. split; [eexists; split; vm_compute; reflexivity|]. vm_compute. split; [reflexivity|]. split; [reflexivity|].
  right. split; [reflexivity|]. repeat split; try discriminate.
Qed.

(** A request succeeds when a connection of the level is free and usable. *)
Theorem C27_available srvs retry es p held c s level ignore rnd now : config srvs -> levels_ok es -> settled_history es ->
  reachable srvs retry es p held -> 0 <= level ->
  In c (pl_conns p) -> k_used c = false -> In s (pl_srvs p) -> k_srv c = v_id s -> v_active s = true -> v_norm s = level ->
  k_open c = true \/ ~ is_blocked (pl_retry p) now s ->
  (forall t, In t (pl_srvs p) -> In (v_id t) ignore -> ~ stands_for t s) ->
  (forall i, In i ignore -> In i (map v_id (pl_srvs p))) ->
  exists p' c', get_connection p level None ignore rnd now = Some (p', Some c').
Proof. exact (available_ok srvs retry es p held c s level ignore rnd now). Qed.
Print Assumptions C27_available.
Example C27_available_ex : exists p held, reachable ex_srvs 60 [EvGet 0 None [] 0 100; EvGet 0 None [] 0 100; EvChanged 101] p held /\
  settled_history [EvGet 0 None [] 0 100; EvGet 0 None [] 0 100; EvChanged 101] /\
  match get_connection p 0 None [] 7 110 with Some (_, Some c) => k_srv c = 2 | _ => False end.
Proof.
  eexists. eexists. split; [eexists; split; vm_compute; reflexivity|]. split; [exact I|]. vm_compute. reflexivity.
Qed.

(** Without the restriction to settled histories this is false: activating a
    server is not enough, the pool has to be told. *)
Theorem C27_available_refuted : exists srvs es p held c s,
  config srvs /\ levels_ok es /\ reachable srvs 60 es p held /\ In c (pl_conns p) /\ k_used c = false /\ In s (pl_srvs p) /\
  k_srv c = v_id s /\ v_active s = true /\ v_norm s = 0 /\ ~ is_blocked 60 100 s /\
  forall rnd, match get_connection p 0 None [] rnd 100 with Some (_, None) => True | _ => False end.
Proof.
  exists [mkSrv 1 true 1 0 0 0 false 0].
  exists [EvGet 0 None [] 0 50; EvActive 1 false; EvFree 0 true 60; EvActive 1 true].
  eexists. eexists. exists (mkPC 0 1 false false 60), (mkSrv 1 true 1 0 0 0 false 0).
  split; [unfold config; cbn; repeat constructor; auto|]. split; [repeat constructor; lia|].
  split; [eexists; split; vm_compute; reflexivity|].
  split; [left; reflexivity|]. split; [reflexivity|]. split; [left; reflexivity|]. repeat (split; [reflexivity|]). split; [intros [X _]; apply X; reflexivity|]. intros rnd. vm_compute. exact I.
Qed.
Print Assumptions C27_available_refuted.

(** ** C80 Levels *)

(** After a start and after every change of the configuration the levels in use
    are numbered 0, 1, ..., max without gaps and in the order of the configured
    levels.  Servers of the lowest level always take part; of the others only
    active ones with connections. *)
Theorem C80_levels srvs retry es now p held : config srvs -> srvs <> [] -> levels_ok es ->
  reachable srvs retry (es ++ [EvChanged now]) p held \/ reachable srvs retry [] p held ->
  0 <= pl_max p /\
  (forall s, In s (pl_srvs p) -> takes_part (pl_srvs p) s -> 0 <= v_norm s <= pl_max p) /\
  (forall s, In s (pl_srvs p) -> ~ takes_part (pl_srvs p) s -> v_norm s = -1) /\
  (forall s t, In s (pl_srvs p) -> In t (pl_srvs p) -> takes_part (pl_srvs p) s -> takes_part (pl_srvs p) t ->
     (v_level s < v_level t <-> v_norm s < v_norm t)) /\
  (forall n, 0 <= n <= pl_max p -> exists s, In s (pl_srvs p) /\ v_norm s = n).
Proof. exact (levels_after srvs retry es now p held). Qed.
Print Assumptions C80_levels.
Example C80_levels_ex : exists p held, reachable ex_srvs 60 ([EvActive 4 true] ++ [EvChanged 7]) p held /\ map v_norm (pl_srvs p) = [0; 0; 1; 2; 3] /\
  exists q held, reachable ex_srvs 60 [] q held /\ map v_norm (pl_srvs q) = [0; 0; 1; -1; 2].
Proof.
  eexists. eexists. split; [eexists; split; vm_compute; reflexivity|]. split; [reflexivity|].
  eexists. eexists. split; [eexists; split; vm_compute; reflexivity|]. reflexivity.
Qed.

(** When all servers of the lowest level are inactive, nothing is downloaded from the others. *)
Theorem C80_main_servers_refuted : exists srvs p held c s,
  config srvs /\ reachable srvs 60 [] p held /\ In c (pl_conns p) /\ k_used c = false /\ In s (pl_srvs p) /\ k_srv c = v_id s /\ v_active s = true /\
  forall rnd now, get_connection p 0 None [] rnd now = Some (p, None).
Proof.
  exists [mkSrv 1 false 2 0 0 0 false 0; mkSrv 2 true 2 1 1 0 false 0].
  eexists. eexists. exists (mkPC 0 2 false false 0), (mkSrv 2 true 2 1 1 0 false 0).
  split; [unfold config; cbn; repeat constructor; cbn; intuition lia|]. split; [eexists; split; vm_compute; reflexivity|].
  split; [left; reflexivity|]. split; [reflexivity|]. split; [right; left; reflexivity|]. repeat (split; [reflexivity|]). intros. vm_compute. reflexivity.
Qed.
Print Assumptions C80_main_servers_refuted.

(** ** C28 Servers asked before an article fails *)

(** A download that ends as failed has asked every active server for the
    article, up to servers of the same group and level and up to optional servers
    that were found blocked, or the article could not be written. *)
Theorem C28_failed_partial conf retry srvs opt l es d stopped : config conf -> Forall (attempt_ok conf retry srvs) l ->
  fetch opt l = (es, Some d) -> article_status false stopped d = AFailed ->
  (exists i, In (DAsk i RFatal) es) \/
  forall s, In s srvs -> v_active s = true -> 0 < v_max s -> 0 <= v_norm s -> tried srvs es s \/ seen_blocked l s.
Proof.
  intros C F H A. pose proof (fetch_ok conf retry srvs opt l es (Some d) C F H) as [B _].
  destruct d; destruct stopped; try discriminate; try contradiction; [left|right]; exact B.
Qed.
Print Assumptions C28_failed_partial.

(** Two servers on level 0, one optional server on level 1. *)
Definition ex2_srvs : list nsrv := [mkSrv 1 true 1 0 0 0 false 0; mkSrv 2 true 1 0 0 0 false 0; mkSrv 3 true 1 1 1 0 true 0].
Definition ex2_pool : pool := match start_pool ex2_srvs 60 with Some p => p | None => mkPool [] [] [] 0 0 0 0 end.
Definition ask (rnd : Z) (r : ares) : attempt := mkAt ex2_pool rnd 100 false 0 0 true false r false false ex2_pool 100.

Lemma ex2_ok rnd r : attempt_ok ex2_srvs 60 ex2_srvs (ask rnd r).
Proof.
  assert (S : sees ex2_srvs 60 ex2_srvs ex2_pool).
  { split; [vm_compute; reflexivity|]. exists [], []. split; [constructor|]. exists ex2_pool. split; vm_compute; reflexivity. }
  split; exact S.
Qed.
Lemma ex2_config : config ex2_srvs.
Proof. unfold config. cbn. repeat constructor; cbn; intuition lia. Qed.

Example C28_failed_ex : fetch 2 [ask 1 RFailed; ask 0 RFailed; ask 0 RNotFound; ask 0 RCrc] =
  ([DAsk 2 RFailed; DAsk 2 RFailed; DAsk 1 RNotFound; DAsk 3 RCrc], Some EndFailed).
Proof. vm_compute. reflexivity. Qed.

(** A damaged yEnc header from one server ends the download without asking the others. *)
Theorem C28_fatal_refuted : exists conf retry srvs opt l es d s,
  config conf /\ Forall (attempt_ok conf retry srvs) l /\ fetch opt l = (es, Some d) /\ article_status false false d = AFailed /\
  In s srvs /\ v_active s = true /\ 0 < v_max s /\ 0 <= v_norm s /\ ~ tried srvs es s /\ ~ seen_blocked l s.
Proof.
  exists ex2_srvs, 60, ex2_srvs, 3, [ask 0 RFatal], [DAsk 1 RFatal], EndFatal, (mkSrv 2 true 1 0 0 0 false 0).
  split; [exact ex2_config|]. split; [constructor; [apply ex2_ok|constructor]|]. split; [vm_compute; reflexivity|].
  split; [reflexivity|]. split; [right; left; reflexivity|]. split; [reflexivity|]. split; [reflexivity|]. split; [discriminate|]. split.
  - intros (t & e & _ & _ & [<- |[]] & G). exact G.
  - intros [H _]. discriminate.
Qed.
Print Assumptions C28_fatal_refuted.

(** The search through the levels ends: with no lost connection every server is
    asked at most ArticleRetries times, every lost connection adds at most that many. *)
Theorem C28_bounded conf retry srvs opt l es d : config conf -> Forall (attempt_ok conf retry srvs) l -> fetch opt l = (es, d) ->
  count answered es <= retries_of opt * Z.of_nat (length srvs) + (retries_of opt - 1) * count lost es.
Proof. intros C F H. exact (proj2 (fetch_ok conf retry srvs opt l es d C F H)). Qed.
Print Assumptions C28_bounded.
Example C28_bounded_ex : Forall (attempt_ok ex2_srvs 60 ex2_srvs) [ask 1 RFailed; ask 0 RConnect; ask 1 RNotFound] /\
  fetch 2 [ask 1 RFailed; ask 0 RConnect; ask 1 RNotFound] = ([DAsk 2 RFailed; DLost 2; DAsk 2 RNotFound], None).
Proof. split; [repeat (constructor; [apply ex2_ok|]); constructor|vm_compute; reflexivity]. Qed.

(** No request of a download leaves the bounds of an array. *)
Theorem C28_defined conf retry srvs opt l es : config conf -> Forall (attempt_ok conf retry srvs) l -> fetch opt l <> (es, Some EndUB).
Proof. intros C F H. exact (proj1 (fetch_ok conf retry srvs opt l es _ C F H)). Qed.
Print Assumptions C28_defined.

(** ** C81 Retries *)

(** Without lost connections and server groups a server is given up only after
    ArticleRetries failed answers, or when it does not have the article. *)
Theorem C81_retries_partial conf retry srvs opt l es : config conf -> Forall (attempt_ok conf retry srvs) l -> Forall (fun s => v_group s = 0) srvs ->
  fetch opt l = (es, Some EndFailed) -> count lost es = 0 ->
  forall i, failures i es = 0 \/ failures i es = retries_of opt \/ exists e, In e es /\ refused i e.
Proof. exact (fetch_retries conf retry srvs opt l es). Qed.
Print Assumptions C81_retries_partial.
Example C81_retries_ex : Forall (fun s => v_group s = 0) ex2_srvs /\
  fetch 2 [ask 1 RFailed; ask 0 RFailed; ask 0 RNotFound; ask 0 RFailed; ask 0 RFailed] =
  ([DAsk 2 RFailed; DAsk 2 RFailed; DAsk 1 RNotFound; DAsk 3 RFailed; DAsk 3 RFailed], Some EndFailed).
Proof. split; [repeat constructor|vm_compute; reflexivity]. Qed.

(** A connection lost between two retries leaves the next server with what the first one had left. *)
Theorem C81_retries_refuted : exists conf retry srvs opt l es i,
  config conf /\ Forall (attempt_ok conf retry srvs) l /\ Forall (fun s => v_group s = 0) srvs /\ fetch opt l = (es, Some EndFailed) /\
  count lost es = 1 /\ 0 < failures i es < retries_of opt /\ ~ (exists e, In e es /\ (e = DLost i \/ refused i e)).
Proof.
  exists ex2_srvs, 60, ex2_srvs, 3,
    [ask 0 RFailed; ask 0 RConnect; ask 1 RFailed; ask 0 RFailed; ask 0 RFailed; ask 0 RFailed; ask 0 RFailed; ask 0 RNotFound].
  eexists. exists 2. split; [exact ex2_config|]. split; [repeat (constructor; [apply ex2_ok|]); constructor|]. split; [repeat constructor|].
  split; [vm_compute; reflexivity|]. split; [reflexivity|]. split; [vm_compute; split; reflexivity|].
  intros (e & I & H). cbn [In] in I.
  repeat (destruct I as [I|I]; [subst e; destruct H as [H|H]; [discriminate|cbn in H; try contradiction; try discriminate]|]). contradiction.
Qed.
Print Assumptions C81_retries_refuted.

(** A server is passed over as not keeping the article any more exactly if the file is older than its retention. *)
Theorem C81_retention opt l es d : fetch opt l = (es, d) ->
  Forall2 (fun e a => match e with DOld _ => expired a | DAsk _ _ | DLost _ => ~ expired a | _ => True end) es (firstn (length es) l).
Proof. exact (drun_old (retries_of opt) l (d_start (retries_of opt)) es d). Qed.
Print Assumptions C81_retention.
(** Retention of ten days: 11 days are too old, a second less is not. *)
Example C81_retention_ex : let at_age n := mkAt ex2_pool 0 100 false n 10 true false RNotFound false false ex2_pool 100 in
  fetch 2 [at_age (11 * 86400); at_age (11 * 86400 - 1)] = ([DOld 1; DAsk 2 RNotFound], None) /\ expired (at_age (11 * 86400)).
Proof. split; [vm_compute; reflexivity|]. unfold expired. cbn [t_retention t_age]. lia. Qed.
