(** Vocabulary for statements about state files and restarts. *)
From Verif Require Import Base LineModel LineSpec DiskModel DiskSpec StateFileModel.

(** The reads of a history as they should be: [cur] is the contents last
    saved; a save interrupted by a kill counts either not at all or as complete. *)
Inductive atomic_reads : list Z -> list event -> list (option (list Z)) -> Prop :=
| ar_nil cur : atomic_reads cur [] []
| ar_save cur ch es o : atomic_reads (concat ch) es o -> atomic_reads cur (ESave ch :: es) o
| ar_kill_old cur ch k es o : atomic_reads cur es o -> atomic_reads cur (EKill ch k :: es) (Some cur :: o)
| ar_kill_new cur ch k es o : atomic_reads (concat ch) es o -> atomic_reads cur (EKill ch k :: es) (Some (concat ch) :: o)
| ar_load cur es o : atomic_reads cur es o -> atomic_reads cur (ELoad :: es) (Some cur :: o).

(** [out] is the complete file with these lines after the signature line. *)
Definition file_of (ls : list (list Z)) (out : list Z) : Prop :=
  print_lines (header queue_version :: ls) = Some out.

(** A well-formed queue and history. *)
Definition queue_ok (servers : list server) (q : list nzb) : Prop := Forall (nzb_ok servers) q /\ count_ok q.
Definition history_ok (servers : list server) (h : list hentry) : Prop := Forall (hentry_ok servers) h /\ count_ok h.

(** No temporary file is around. *)
Definition clean (s : sysfs) : Prop :=
  c_tmp (s_queue s) = None /\ c_tmp (s_progress s) = None /\ c_tmp (s_history s) = None.

(** The identifiers in queue and history. *)
Definition hist_id (e : hentry) : Z := match snd e with HNzb n | HUrl n => n_id n | HDup d => d_id d end.
Definition all_ids (q : list nzb) (h : list hentry) : list Z := map n_id q ++ map hist_id h.

(** The group with this identifier is in the queue or in the history. *)
Definition known (id : Z) (q : list nzb) (h : list hentry) : Prop :=
  In id (map n_id q) \/ exists t n, (In (t, HNzb n) h \/ In (t, HUrl n) h) /\ n_id n = id.
