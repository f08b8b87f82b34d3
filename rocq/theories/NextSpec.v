(** Which article should be downloaded next. *)
From Verif Require Import Base NextModel.
Open Scope list_scope. Open Scope Z_scope.

Definition file_at (q : list nzb) (i j : nat) (n : nzb) (f : file) : Prop :=
  nth_error q i = Some n /\ nth_error (n_files n) j = Some f.
(** A file which may be downloaded now. *)
Definition ready (e : env) (n : nzb) (f : file) : Prop :=
  f_paused f = false /\ f_deleted f = false /\ (e_delay e <= 0 \/ f_time f + e_delay e < e_now e) /\
  (e_pause e = false /\ e_quota e = false \/ 900 <= n_priority n).
(** ... and of which something is left to download. *)
Definition available (e : env) (n : nzb) (f : file) : Prop :=
  ready e n f /\ exists a, In a (f_arts f) /\ a_status a = aiUndefined.
(** The first one goes before the second one: files with extra priority first, then the priority of the group. *)
Definition outranks (n : nzb) (f : file) (n' : nzb) (f' : file) : Prop :=
  (f_extra f = true /\ f_extra f' = false) \/ (f_extra f = f_extra f' /\ n_priority n' < n_priority n).
Definition earlier (i j i' j' : nat) : Prop := (i < i')%nat \/ (i = i' /\ (j < j')%nat).

(** The counters of the groups agree with their files. *)
Definition count_paused (fs : list file) : Z := Z.of_nat (length (filter f_paused fs)).
Definition counted (q : list nzb) : Prop :=
  forall n, In n q -> n_paused n = count_paused (n_files n) /\ Z.of_nat (length (n_files n)) < 2 ^ 64.
(** A group counts as having extra priority exactly while a file of extra priority can be downloaded. *)
Definition extra_ready (e : env) (q : list nzb) : Prop :=
  forall n, In n q -> (0 < n_extra n <-> exists f, In f (n_files n) /\ f_extra f = true /\ available e n f).

(** The best file: no available file goes before it, and no earlier one is equal to it. *)
Definition best (e : env) (q : list nzb) (i j : nat) (n : nzb) (f : file) : Prop :=
  forall i' j' n' f', file_at q i' j' n' f' -> available e n' f' ->
    ~ outranks n' f' n f /\ (earlier i' j' i j -> outranks n f n' f').

Definition first_left (f : file) (k : nat) : Prop :=
  exists l a r, f_arts f = l ++ a :: r /\ length l = k /\ a_status a = aiUndefined /\ Forall (fun b => a_status b <> aiUndefined) l.

(** The queue changes at most in the marks for the renaming. *)
Definition bare (n : nzb) : nzb := set_rename n false false.
Definition rel (q q' : list nzb) : Prop := Forall2 (fun n n' => bare n = bare n') q q'.
(** What is handed out: the first article which is left of the best file; or, while files are to be renamed, the first
    article of a file of its group. *)
Definition chosen (e : env) (q : list nzb) (i j k : nat) : Prop :=
  (exists n f, file_at q i j n f /\ ready e n f /\ first_left f k /\ (extra_ready e q -> best e q i j n f)) \/
  (e_rename e = true /\ k = 0%nat /\ exists n f j1 f1, file_at q i j n f /\ n_direct n = true /\ f_confirmed f = false /\ first_left f 0 /\
     file_at q i j1 n f1 /\ ready e n f1 /\ (extra_ready e q -> best e q i j1 n f1)).

(** ** Histories *)
Definition all_arts (q : list nzb) : list art := concat (map f_arts (concat (map n_files q))).
(** Articles are told apart, and a change of the queue (other than the end of a download) does not touch the
    status of an article; articles which it adds are new. *)
Definition told_apart (q : list nzb) : Prop := NoDup (map a_id (all_arts q)).
Fixpoint edits_ok (q : list nzb) (used : list Z) (l : list event) : Prop :=
  match l with
  | [] => True
  | v :: r =>
      match v with
      | EvEdit q' => told_apart q' /\ forall a, In a (all_arts q') -> In a (all_arts q) \/ ~ In (a_id a) used
      | _ => True
      end /\
      let '(q1, s) := ev_step q v in
      edits_ok q1 (concat (map (fun x => match x with Handed a => [a] | Back _ => [] end) s) ++ used) r
  end.
Definition once (l : list seen) : Prop :=
  forall x y z a, l = x ++ Handed a :: y ++ Handed a :: z -> In (Back a) y.

(** An URL-download which waits: not started, not deleted. *)
Definition waits (u : urlitem) : Prop := u_url u = true /\ u_none u = true /\ u_kept u = true.
