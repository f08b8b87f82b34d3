(** What is expected of the post-processing queue, in the terms of a user. *)
From Verif Require Import Base UnpackModel PostModel.
Open Scope list_scope. Open Scope Z_scope.

(** ** Counting *)

Definition kind_eqb (a b : kind) : bool :=
  match a, b with
  | JParRename, JParRename | JPar, JPar | JRarRename, JRarRename | JUnpack, JUnpack | JCleanup, JCleanup
  | JMove, JMove | JScript, JScript => true
  | _, _ => false
  end.
(** Jobs of one kind started for one download. *)
Definition jobs_of (id : Z) (k : kind) (ks : list (dl * kind)) : Z :=
  Z.of_nat (length (filter (fun x => (d_id (fst x) =? id) && kind_eqb (snd x) k) ks)).

(** How often the download was completed. *)
Definition completions (id : Z) (es : list event) : Z :=
  Z.of_nat (length (filter (fun e => match e with EDownloaded i _ => i =? id | _ => false end) es)).
(** How often par2-files turned up in a directory without any; [b]: there are some at first. *)
Fixpoint appearances (id : Z) (b : bool) (es : list event) : Z :=
  match es with
  | [] => 0
  | EEnv i e _ :: r => if i =? id then (if negb b && e_pars e then 1 else 0) + appearances id (e_pars e) r
                       else appearances id b r
  | _ :: r => appearances id b r
  end.
(** How often renaming ended without result and asked for another par2-file. *)
Definition retries (id : Z) (es : list event) : Z :=
  Z.of_nat (length (filter (fun e => match e with EDone i (RParRename false true _) => i =? id | _ => false end) es)).

(** ** When jobs may start *)

Definition par_bad (d : dl) : Prop := d_par d = psFailure \/ d_par d = psRepairPossible \/ d_par d = psManual.
Definition unpack_bad (d : dl) : Prop := d_unpack d = usFailure \/ d_unpack d = usSpace \/ d_unpack d = usPassword.
Definition not_checked (d : dl) : Prop := d_par d = psNone \/ d_par d = psSkipped.
Definition not_unpacked (d : dl) : Prop := d_unpack d = usNone \/ d_unpack d = usSkipped.
(** Something is still to be extracted and may be. *)
Definition to_unpack (d : dl) : Prop :=
  e_wanted (d_env d) = true /\ d_unpack d = usNone /\ d_delete d = dsNone /\ ~ par_bad d.
(** Still to be compared with the par2-files. *)
Definition to_check (d : dl) : Prop := d_par d = psNone /\ d_delete d = dsNone.

(** A good download in the intermediate directory: nothing failed, and if nothing was tested all of it was loaded. *)
Definition may_move (d : dl) : Prop :=
  e_inter (d_env d) = true /\ d_move d = msNone /\ d_delete d = dsNone /\
  d_par d <> psFailure /\ d_par d <> psManual /\ ~ unpack_bad d /\
  (not_checked d -> not_unpacked d -> 1000 <= e_health (d_env d)).
(** Unneeded files are deleted only from good downloads. *)
Definition may_clean (o : opts) (d : dl) : Prop :=
  o_cleanup o = true /\ e_wanted (d_env d) = true /\ d_cleanup d = csNone /\
  d_par d <> psFailure /\ ~ unpack_bad d /\ (par_bad d -> d_unpack d = usSuccess) /\
  (not_checked d -> not_unpacked d -> e_health (d_env d) = 1000).

Definition may_start (o : opts) (d : dl) (k : kind) : Prop :=
  match k with
  | JParRename => o_parrename o = true /\ d_prename d = rsNone /\ d_delete d = dsNone
  | JPar => to_check d /\ e_pars (d_env d) = true
  | JRarRename => ~ to_check d /\ e_wanted (d_env d) = true /\ d_unpack d = usNone /\ d_delete d = dsNone /\
                  o_rarrename o = true /\ d_rrename d = rsNone
  | JUnpack => ~ to_check d /\ to_unpack d
  | JCleanup => ~ to_check d /\ ~ to_unpack d /\ may_clean o d
  | JMove => ~ to_check d /\ ~ to_unpack d /\ may_move d
  | JScript => ~ to_check d /\ ~ to_unpack d /\
               (o_parrename o = true -> d_prename d = rsNone -> d_delete d <> dsNone) /\
               (d_unpack d <> usNone -> ~ may_move d)
  end.

(** ** Limits *)

(** Jobs at work in a thread, and those of them that check or repair. *)
Definition running (d : dl) : bool :=
  match d_post d with Some p => match p_thread p with TRunning => true | _ => false end | None => false end.
Definition n_running (s : state) : Z := Z.of_nat (length (filter running (q_list s))).
Definition n_pars (s : state) : Z :=
  Z.of_nat (length (filter (fun d => running d && par_stage (stage d)) (q_list s))).
Definition most_jobs (st : strategy) : Z :=
  match st with ppSequential => 1 | ppBalanced => 2 | ppAggressive => 3 | ppRocket => 6 end.
Definition most_pars (st : strategy) : Z := match st with ppRocket => 2 | _ => 1 end.

(** A download waits for its next job. *)
Definition waiting (paused : bool) (s : state) (d : dl) : Prop :=
  In d (q_list s) /\ d_ready d = true /\ (paused = true -> force d = true) /\ ~ In (d_id d) (q_active s) /\
  d_post d <> None.
(** No other job may be started: too many are active; with the strategy "balanced" a second one is started only beside
    a repair. *)
Definition n_active (s : state) : Z := Z.of_nat (length (q_active s)).
Definition checking (s : state) : Z :=
  Z.of_nat (length (filter (fun i => match find_dl i (q_list s) with Some d => par_stage (stage d) | None => false end)
                           (q_active s))).
Definition full (st : strategy) (s : state) : Prop :=
  match st with
  | ppSequential => 1 <= n_active s
  | ppBalanced => checking s < n_active s \/
                  (1 <= checking s /\ forall d, In d (q_list s) -> In (d_id d) (q_active s) -> stage d <> ptRepairing)
  | ppAggressive => 3 <= n_active s
  | ppRocket => 6 <= n_active s
  end.

(** Downloads in post-processing. *)
Definition n_posts (s : state) : Z :=
  Z.of_nat (length (filter (fun d => match d_post d with Some _ => true | None => false end) (q_list s))).

(** ** Executions *)

(** At the start: every download is known once, none is post-processed; with the option ParCheck=manual none has
    been checked. *)
Definition starting (o : opts) (s : state) : Prop :=
  NoDup (map d_id (q_list s)) /\ q_active s = [] /\ q_jobs s = 0 /\
  Forall (fun d => d_post d = None /\ 0 <= d_par d <= 5 /\ (o_parcheck o = pcManual -> not_checked d)) (q_list s).

(** The user deletes a job only while it is working, or before it was taken up. *)
Definition deletion_ok (s : state) (e : event) : bool :=
  match e with
  | EDelete id => match find_dl id (q_list s) with
                  | Some d => match d_post d with
                              | Some p => p_working p || negb (existsb (Z.eqb id) (q_active s))
                              | None => true
                              end
                  | None => true
                  end
  | _ => true
  end.
Fixpoint deletions_ok (fuel : nat) (o : opts) (s : state) (es : list event) : bool :=
  match es with
  | [] => true
  | e :: r => deletion_ok s e &&
              match step fuel o s e with Some (s', _) => deletions_ok fuel o s' r | None => true end
  end.
(** The first one of those with the highest priority among the possible ones. *)
Definition best_of (can : dl -> bool) (l : list dl) (d : dl) : Prop :=
  exists l1 l2, l = l1 ++ d :: l2 /\ can d = true /\
    (forall x, In x l1 -> can x = true -> d_prio x < d_prio d) /\ (forall x, In x l2 -> can x = true -> d_prio x <= d_prio d).

(** ** Scripts *)

(** What a script reports with its exit code: 93 success, 95 nothing, 92 success if the download has not been checked
    yet; everything else is a failure. *)
Definition verdict (checked : bool) (code : Z) : Z :=
  if code =? 93 then 2 else if code =? 95 then 0 else if (code =? 92) && negb checked then 2 else 1.
(** The scripts that are run: all up to the one that asks for a check. *)
Fixpoint scripts_run (checked : bool) (codes : list Z) : list Z :=
  match codes with
  | [] => []
  | c :: r => if (c =? 92) && negb checked then [c] else c :: scripts_run checked r
  end.

(** ** What is remembered of checks and unpacks *)

(** The status of a download after a check with the given result. *)
Definition checked (r : parres) : Z :=
  match r with PRepaired | PNotNeeded => psSuccess | PPossible => psRepairPossible | PFailed => psFailure end.
(** Neither completed once more, nor repaired, nor unpacked. *)
Definition quiet (id : Z) (e : event) : Prop :=
  match e with
  | EDownloaded i _ => i <> id
  | EDone i (RPar PRepaired _) => i <> id
  | EDone i (RUnpack _ _ _ _) => i <> id
  | _ => True
  end.
