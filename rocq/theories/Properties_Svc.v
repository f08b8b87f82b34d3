(** C180 and C181: services and the watch over the disk. *)
From Coq Require Import String.
From Verif Require Import Base WildModel WildSpec TextProofs SvcModel SvcSpec SvcProofs.
Open Scope list_scope. Open Scope Z_scope.

(** Waiting, with no call pending: no service that is not being changed falls due before the wait is over. *)
Theorem C180_wait : forall is now ls s t t' w i x, run false ls (start is now) = Some s -> s_at s = Wait t t' w -> s_flag s = false -> nth_error (s_svcs s) i = Some x -> v_dirty x = false ->
  0 < w <= 86400 /\ t <= t' <= s_now s /\ ~ due x t /\ forall u, t <= u -> u < t + w -> ~ due x u.
Proof. exact wait_thm. Qed.
Print Assumptions C180_wait.
(** The wait is never longer than the interval of any such service. *)
Theorem C180_interval : forall is now ls s t t' w i x, 0 <= now -> run false ls (start is now) = Some s -> s_at s = Wait t t' w -> s_flag s = false -> nth_error (s_svcs s) i = Some x -> v_dirty x = false ->
  0 <= v_interval x -> w <= v_interval x.
Proof. exact interval_thm. Qed.
Print Assumptions C180_interval.
(** A call is never lost: once it is made the wait can end at once, also if it was made before the wait began; so it can when the time is over. *)
Theorem C180_wakes : forall back s t t' w, s_at s = Wait t t' w -> s_flag s = true \/ t' + w <= s_now s -> exists s', step back CWake s = Some s' /\ s_at s' = Work 0 /\ s_svcs s' = s_svcs s.
Proof. exact wakes_thm. Qed.
Print Assumptions C180_wakes.
(** Then each service is looked at in turn; exactly those due are run. *)
Theorem C180_check : forall is now ls s d v s' i x, 0 <= now -> run false ls (start is now) = Some s -> step false (CCheck d v) s = Some s' -> s_at s = Work i -> nth_error (s_svcs s) i = Some x ->
  s_at s' = Work (S i) /\ (due x (s_now s) -> exists x', nth_error (s_svcs s') i = Some x' /\ v_last x' = s_now s') /\ (~ due x (s_now s) -> s_svcs s' = s_svcs s) /\
  forall j, j <> i -> nth_error (s_svcs s') j = nth_error (s_svcs s) j.
Proof. exact run_check_thm. Qed.
Print Assumptions C180_check.
(** Two services, one asleep, the other every 10 seconds: it is run, then 7 seconds later called for; a change and a call while the wait is being computed. *)
Definition ex_labels := [CCheck 2 10; CCheck 0 0; CCheck 0 0; CCalc; CCalc; CCalc].
Example C180_ex : run false ex_labels (start [10; -1] 1000) = Some (St [Svc 10 1002 false; Svc (-1) 0 false] (Wait 1002 1002 10) false 1002).
Proof. vm_compute. reflexivity. Qed.
Example C180_ex_call : run false (firstn 5 ex_labels ++ [EChange 1 0; ECall 1; CCalc; CWake]) (start [10; -1] 1000) = Some (St [Svc 10 1002 false; Svc 0 0 false] (Work 0) false 1002).
Proof. vm_compute. reflexivity. Qed.
Example C180_ex_due : due (Svc 10 1002 false) 1012 /\ ~ due (Svc 10 1002 false) 1011 /\ ~ due (Svc (-1) 0 false) 1011.
Proof. unfold due. cbn [v_interval v_last]. lia. Qed.
(** If the clock may be set back the wait can be longer than the interval of a service. *)
Theorem C180_back_refuted : exists is now ls s t t' w i x, 0 <= now /\ run true ls (start is now) = Some s /\ s_at s = Wait t t' w /\ s_flag s = false /\ nth_error (s_svcs s) i = Some x /\ v_dirty x = false /\
  0 <= v_interval x /\ v_interval x < w.
Proof.
  exists [60], 1000, [CCheck 0 60; ETick (-50); CCheck 0 0; CCalc; CCalc]. eexists. exists 950, 950, 110, 0%nat. eexists.
  split; [lia|]. split; [vm_compute; reflexivity|]. repeat split; cbn [v_interval]; lia.
Qed.
Print Assumptions C180_back_refuted.

(** The watch pauses the download if, and only if, it is downloading and less than the wanted space is known to be free in one of the directories; it never resumes it. *)
Theorem C181_disk : forall limit downloading dest inter paused, disk_work limit downloading dest inter paused = true <->
  paused = true \/ (downloading = true /\ (too_little limit dest \/ exists f, inter = Some f /\ too_little limit f)).
Proof. exact disk_thm. Qed.
Print Assumptions C181_disk.
Example C181_disk_ex : disk_work 250 true 262144000 (Some 262143999) false = true /\ disk_work 250 true 262144000 (Some (-1)) false = false /\ disk_work 250 false 0 None false = false.
Proof. vm_compute. repeat split; reflexivity. Qed.
(** Neither downloading nor post-processing begins before all required directories have been there at one and the same check. *)
Theorem C181_required : forall r ls q, rrun r ls rq0 = Some q -> (q_down q = false \/ q_post q = false \/ q_running q = true \/ exists b, In (PPause b) ls) -> was_there r ls.
Proof. exact required_thm. Qed.
Print Assumptions C181_required.
(** And they begin at the first check at which all are. *)
Theorem C181_released : forall r ls q ex, rrun r ls rq0 = Some q -> q_waiting q = true -> (forall d, required_dir r d -> ex d = true) ->
  exists q', rstep r (DCheck ex) q = Some q' /\ q_down q' = false /\ q_post q' = false /\ q_waiting q' = false.
Proof. exact released_thm. Qed.
Print Assumptions C181_released.
Definition ex_there (l : list (list Z)) (d : list Z) : bool := existsb (fun x => if list_eq_dec Z.eq_dec x d then true else false) l.
Example C181_required_ex :
  rrun (str "/mnt/a; /mnt/b") [DCheck (ex_there [str "/mnt/a"])] rq0 = Some rq0 /\
  rrun (str "/mnt/a; /mnt/b") [DCheck (ex_there [str "/mnt/a"]); DCheck (ex_there [str "/mnt/b"; str "/mnt/a"]); PGo; PPause true] rq0 = Some (Rq true false false true).
Proof. vm_compute. split; reflexivity. Qed.
Example C181_named_ex : required_dir (str "/mnt/a; /mnt/b") (str "/mnt/b").
Proof.
  exists (str " /mnt/b"). split; [right; left; vm_compute; reflexivity|]. split; [|discriminate].
  replace (str "/mnt/b") with (trim (str " /mnt/b")) by (vm_compute; reflexivity). apply trim_ok.
Qed.
