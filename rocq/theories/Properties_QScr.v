(** Queue-scripts: which are executed, when, in which order. *)
From Coq Require Import String Sorted.
From Verif Require Import Base WildModel InfoModel WebModel OptModel QScrModel QScrSpec.
From Verif Require QScrProofs QScrProofs2.
Open Scope list_scope. Open Scope Z_scope.

(** ** C156: events *)

(** What waits for execution when an event has come: if the download is completed, nothing else for this download. *)
Definition remaining (e id : Z) (q r : list qitem) : Prop := r = if e =? evDownloaded then filter (fun t => negb (i_nzb t =? id)) q else q.

(** An event makes exactly the scripts wait that are to be executed for it, in their order; the first one is started if none runs.
    If the event comes too soon after the last one nothing happens. *)
Theorem C156_event : forall g scripts now n e x, (exists s, In s scripts /\ s_queue s = true) -> short_params n ->
  -1 <= g_interval g < 2 ^ 31 -> - 2 ^ 31 <= now - q_time n < 2 ^ 31 ->
  exists q l x1 st t, remaining e (q_id n) (x_queue x) q /\ new_items g scripts n e q l /\ enqueue g scripts now n e x = (x1, st, t) /\ x_stopped x1 = x_stopped x /\
    (blocked g now n e -> x_queue x1 = q /\ x_cur x1 = x_cur x /\ st = [] /\ t = q_time n) /\
    (~ blocked g now n e ->
       match x_cur x, l with
       | Some c, _ => x_queue x1 = q ++ l /\ x_cur x1 = Some c /\ st = []
       | None, [] => x_queue x1 = q /\ x_cur x1 = None /\ st = []
       | None, a :: r => x_queue x1 = q ++ r /\ x_cur x1 = Some a /\ st = [a]
       end /\ ((exists s, In s scripts /\ wants g s n e) -> t = now) /\ (~ (exists s, In s scripts /\ wants g s n e) -> t = q_time n)).
Proof.
  intros g scripts now n e x (s & Is & Qs) Sh G T. pose proof (QScrProofs2.blocked_iff g now n e G T) as B.
  assert (Ex : existsb s_queue scripts = true) by (apply existsb_exists; eauto).
  set (q := QScrProofs2.kept_queue e (q_id n) (x_queue x)). exists q, (QScrProofs2.fresh g n e q 0 scripts). destruct (too_soon g now n e) eqn:E.
  - exists (QState q (x_cur x) (x_stopped x)), [], (q_time n). split; [reflexivity|]. split; [apply QScrProofs2.fresh_new, Sh|].
    split; [unfold enqueue; rewrite Ex, E; reflexivity|]. split; [reflexivity|]. split; [auto|]. intros N. destruct N. apply B. reflexivity.
  - pose proof (QScrProofs2.enqueue_ok g scripts now n e x (or_introl Ex) E) as R. cbv zeta in R. fold q in R. rewrite R. eexists _, _, _. split; [reflexivity|]. split; [apply QScrProofs2.fresh_new, Sh|].
    split; [reflexivity|]. split; [destruct (x_cur x); reflexivity|]. split; [intros N; apply B in N; discriminate N|]. intros _. split.
    + destruct (x_cur x); [auto|]. destruct (QScrProofs2.fresh g n e q 0 scripts); cbn; rewrite ?app_nil_r; auto.
    + assert (U : QScrProofs2.any_usable g n e scripts = true <-> exists s, In s scripts /\ wants g s n e).
      { unfold QScrProofs2.any_usable. rewrite existsb_exists. split; intros (s1 & I & W); exists s1; (split; [exact I|]); apply (QScrProofs.usable_iff g s1 n e Sh); exact W. }
      destruct (QScrProofs2.any_usable g n e scripts); split; auto.
      * intros N. destruct N. apply U. reflexivity.
      * intros N. apply U in N. discriminate N.
Qed.
Print Assumptions C156_event.
Theorem C156_unique : forall g scripts n e q l m, short_params n -> new_items g scripts n e q l -> new_items g scripts n e q m -> l = m.
Proof. intros g scripts n e q l m Sh A B. rewrite (QScrProofs2.new_unique _ _ _ _ _ _ Sh A), (QScrProofs2.new_unique _ _ _ _ _ _ Sh B). reflexivity. Qed.
Print Assumptions C156_unique.
Theorem C156_none : forall g scripts now n e x, (forall s, In s scripts -> s_queue s = false) -> enqueue g scripts now n e x = (x, [], q_time n) /\ forall s, In s scripts -> ~ wants g s n e.
Proof.
  intros g scripts now n e x H. split.
  - apply QScrProofs2.enqueue_none. apply not_true_iff_false. intros E. apply existsb_exists in E as (s & I & E). rewrite (H s I) in E. discriminate E.
  - intros s I (W & _). rewrite (H s I) in W. discriminate W.
Qed.
Print Assumptions C156_none.

Definition x_scripts : list script :=
  [Script (str "Mail.py") true []; Script (str "Post.py") false []; Script (str "New.py") true (str "NZB_ADDED, NZB_DELETED"); Script (str "Url.py") true []].
Definition x_g : qcfg := QCfg 10 (str "Mail.py") [(mkC (str "Movies") [], str "New.py; Url.py")].
Definition x_n (id time : Z) : qnzb := QNzb id [(str "Mail.py:", str "Yes"); (str "New.py:", str "on"); (str "Url.py:", str "no")] (str "movies") time.
Example C156_example : enqueue x_g x_scripts 100 (x_n 1 0) evAdded x0 = (QState [Item 1 2 3] (Some (Item 1 0 3)) false, [Item 1 0 3], 100) /\
  enqueue x_g x_scripts 105 (x_n 1 100) evFile x0 = (x0, [], 100) /\
  enqueue x_g x_scripts 115 (x_n 1 100) evFile x0 = (QState [] (Some (Item 1 0 0)) false, [Item 1 0 0], 115) /\
  enqueue x_g x_scripts 115 (x_n 1 100) evUrl x0 = (QState [Item 1 3 1] (Some (Item 1 0 1)) false, [Item 1 0 1], 115) /\
  enqueue x_g x_scripts 115 (x_n 1 100) evDownloaded (QState [Item 1 0 0; Item 2 0 0] (Some (Item 2 2 3)) false) = (QState [Item 2 0 0; Item 1 0 5] (Some (Item 2 2 3)) false, [], 115) /\
  short_params (x_n 1 100).
Proof. repeat split; try (vm_compute; reflexivity). repeat constructor; vm_compute; discriminate. Qed.

(** From the year 2038 on: no script is ever executed for the files of a download. *)
Theorem C156_2038_refuted : exists g scripts now n x s, In s scripts /\ wants g s n evFile /\ short_params n /\ 0 < g_interval g <= 10 /\ q_time n = 0 /\ now = 2 ^ 31 /\
  ~ blocked g now n evFile /\ x_cur x = None /\ enqueue g scripts now n evFile x = (x, [], 0).
Proof.
  exists x_g, x_scripts, (2 ^ 31), (x_n 1 0), x0, (Script (str "Mail.py") true []).
  assert (Sh : short_params (x_n 1 0)) by (repeat constructor; vm_compute; discriminate).
  split; [left; reflexivity|]. split; [apply QScrProofs.usable_iff; [exact Sh|vm_compute; reflexivity]|]. split; [exact Sh|]. split; [cbn; lia|]. split; [reflexivity|]. split; [reflexivity|].
  split; [intros (_ & [Q|Q]); [discriminate Q|cbn in Q; lia]|]. split; [reflexivity|]. vm_compute. reflexivity.
Qed.
Print Assumptions C156_2038_refuted.

(** ** C157: execution *)

(** In every execution: at most one script runs; nothing waits if none runs; a script is started only if none runs or the one running has ended. *)
Theorem C157_one : forall g scripts ops o, exists x st y st1, qrun g scripts ops (x0, []) = Some (x, st) /\ qstep g scripts o (x, st) = Some (y, st ++ st1) /\
  (x_cur x = None -> x_queue x = []) /\
  (st1 = [] \/ exists t, st1 = [t] /\ x_cur y = Some t /\ ((exists now n e, o = OpEvent now n e /\ x_cur x = None) \/ exists w, o = OpDone w /\ x_cur x <> None)).
Proof.
  intros g scripts ops o. destruct (QScrProofs2.run_ok g scripts ops (x0, [])) as ((x, st) & E & H); [intros _; reflexivity|].
  destruct (QScrProofs2.step_total g scripts o (x, st)) as ((y, st2) & Ey). destruct (QScrProofs2.step_idle g scripts o (x, st) (y, st2) Ey H) as (_ & st1 & Q & R). cbn [fst snd] in *. subst st2.
  exists x, st, y, st1. auto.
Qed.
Print Assumptions C157_one.

(** When a script ends, the items no more to be executed are dropped, nothing else, and if there are others one of them, the last one, is started. *)
Theorem C157_next : forall w x q, x_stopped x = false -> left_over w (x_queue x) q ->
  (q = [] -> check_queue w x = Some (QState [] None false, [])) /\ (forall r t, q = r ++ [t] -> check_queue w x = Some (QState r (Some t) false, [t])).
Proof.
  intros w x q N L. apply QScrProofs2.left_over_iff in L. rewrite (QScrProofs2.check_queue_ok w x N), <- L. split.
  - intros ->. reflexivity.
  - intros r t ->. rewrite rev_app_distr. cbn. rewrite rev_involutive. reflexivity.
Qed.
Print Assumptions C157_next.

(** What other parts of the program see: whether scripts of a download wait or run, whether one runs, and how many there are. *)
Theorem C157_seen : forall x id,
  (fst (has_job x id) = true <-> exists t, (x_cur x = Some t \/ In t (x_queue x)) /\ i_nzb t = id) /\
  (snd (has_job x id) = true <-> exists t, x_cur x = Some t /\ i_nzb t = id) /\
  queue_size x = Z.of_nat (length (match x_cur x with Some t => t :: x_queue x | None => x_queue x end)).
Proof. exact QScrProofs2.seen_ok. Qed.
Print Assumptions C157_seen.
Example C157_seen_example : has_job (QState [Item 1 0 0; Item 3 0 0] (Some (Item 2 1 1)) false) 3 = (true, false) /\ queue_size (QState [Item 1 0 0; Item 3 0 0] (Some (Item 2 1 1)) false) = 3.
Proof. split; reflexivity. Qed.

(** If nothing new comes all scripts waiting are executed, each once, unless no more to be executed. *)
Theorem C157_all_run : forall g scripts w q r c st k, left_over w q r -> (length q < k)%nat ->
  qrun g scripts (repeat (OpDone w) k) (QState q (Some c) false, st) = Some (QState [] None false, st ++ rev r).
Proof. intros g scripts w q r c st k L. apply QScrProofs2.left_over_iff in L as ->. apply QScrProofs2.drained. Qed.
Print Assumptions C157_all_run.

Definition x_w : world := fun id => if id =? 3 then None else if id =? 4 then Some (true, false) else Some (false, id =? 5).
Example C157_example : left_over x_w [Item 1 0 0; Item 3 0 0; Item 4 0 5; Item 4 0 6; Item 5 0 3; Item 5 0 2; Item 2 0 1] [Item 1 0 0; Item 4 0 6; Item 5 0 2; Item 2 0 1] /\
  check_queue x_w (QState [Item 1 0 0; Item 3 0 0; Item 4 0 5; Item 4 0 6; Item 5 0 3; Item 5 0 2; Item 2 0 1] (Some (Item 1 0 3)) false) =
    Some (QState [Item 1 0 0; Item 4 0 6; Item 5 0 2] (Some (Item 2 0 1)) false, [Item 2 0 1]).
Proof. split; [apply QScrProofs2.left_over_iff; vm_compute; reflexivity|vm_compute; reflexivity]. Qed.

(** The order of execution is not that of the priorities of events: the item to be executed next has to wait for one with lower priority. *)
Theorem C157_order_refuted : exists g scripts ops w x st q t u y, qrun g scripts ops (x0, []) = Some (x, st) /\ left_over w (x_queue x) q /\ due q u /\
  qstep g scripts (OpDone w) (x, st) = Some (y, st ++ [t]) /\ i_event t < i_event u /\ In u (x_queue y).
Proof.
  exists x_g, x_scripts, [OpEvent 100 (x_n 1 0) evAdded; OpEvent 100 (x_n 2 0) evDeleted; OpEvent 200 (x_n 1 100) evNamed], x_w,
    (QState [Item 1 2 3; Item 2 0 6; Item 2 2 6; Item 1 0 4] (Some (Item 1 0 3)) false), [Item 1 0 3],
    [Item 1 2 3; Item 2 0 6; Item 2 2 6; Item 1 0 4], (Item 1 0 4), (Item 2 0 6), (QState [Item 1 2 3; Item 2 0 6; Item 2 2 6] (Some (Item 1 0 4)) false).
  split; [vm_compute; reflexivity|]. split; [apply QScrProofs2.left_over_iff; vm_compute; reflexivity|]. split.
  - exists [Item 1 2 3], [Item 2 2 6; Item 1 0 4]. split; [reflexivity|]. split; intros u [<-|H]; try (destruct H as [<-|[]]); try destruct H; vm_compute; congruence.
  - split; [vm_compute; reflexivity|]. split; [vm_compute; reflexivity|]. right. left. reflexivity.
Qed.
Print Assumptions C157_order_refuted.

(** As long as there are new events the item with the highest priority, the only one waiting, need not be executed at all. *)
Theorem C157_starved_refuted : exists g scripts ops cycle u, forall k, exists x st,
  qrun g scripts (ops ++ concat (repeat cycle k)) (x0, []) = Some (x, st) /\ length st = S k /\ x_queue x = [u] /\ ~ In u st /\ forall t, In t st -> i_event t < i_event u.
Proof.
  set (g := QCfg 0 [] []). set (sc := [Script (str "A") true []]). set (n1 := QNzb 1 [(str "A:", str "yes")] [] 0). set (n2 := QNzb 2 [(str "A:", str "yes")] [] 0). set (u := Item 1 0 5). set (f := Item 2 0 0).
  exists g, sc, [OpEvent 10 n2 evFile; OpEvent 10 n1 evDownloaded], [OpEvent 20 n2 evFile; OpDone x_w], u. intros k.
  assert (C : forall st, qrun g sc (concat (repeat [OpEvent 20 n2 evFile; OpDone x_w] k)) (QState [u] (Some f) false, st) = Some (QState [u] (Some f) false, st ++ repeat f k)).
  { induction k as [|k IH]; intros st; [cbn; rewrite app_nil_r; reflexivity|]. cbn [repeat concat app].
    change (qrun g sc (OpEvent 20 n2 evFile :: OpDone x_w :: concat (repeat [OpEvent 20 n2 evFile; OpDone x_w] k)) (QState [u] (Some f) false, st)) with
      (qrun g sc (concat (repeat [OpEvent 20 n2 evFile; OpDone x_w] k)) (QState [u] (Some f) false, (st ++ []) ++ [f])).
    rewrite IH, app_nil_r, <- app_assoc. reflexivity. }
  exists (QState [u] (Some f) false), (f :: repeat f k). split; [exact (C [f])|]. split; [cbn; rewrite repeat_length; reflexivity|]. split; [reflexivity|].
  assert (A : forall t, In t (f :: repeat f k) -> t = f) by (intros t [<-|I]; [reflexivity|exact (repeat_spec _ _ _ I)]).
  split; [intros I; apply A in I; discriminate I|]. intros t I. rewrite (A t I). reflexivity.
Qed.
Print Assumptions C157_starved_refuted.
