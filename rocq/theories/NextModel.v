(** Model of the choice of the next article: daemon/queue/QueueCoordinator.cpp, GetNextArticle (507-599),
    GetNextFirstArticle (601-630), StartArticleDownload (649-651) and the status changes of
    ArticleCompleted (694-719); of the next URL: daemon/queue/UrlCoordinator.cpp, GetNextUrl.
    Pointers to groups and files are their positions in the lists. Simplifications: the articles of
    a file are present (they are loaded from disk on demand, C78), times are not cut to 32 bits,
    pause, quota and options do not change during one call. *)
From Verif Require Import Base FeedModel.
Open Scope list_scope. Open Scope Z_scope.

Inductive art_status := aiUndefined | aiRunning | aiFinished | aiFailed.
Definition undefined (s : art_status) : bool := match s with aiUndefined => true | _ => false end.

(** [a_id] tells articles apart; the code compares pointers. *)
Record art := mkArt { a_id : Z; a_status : art_status }.
Record file := mkFile {
  f_paused : bool; f_deleted : bool; f_extra : bool; f_time : Z; f_confirmed : bool; f_arts : list art }.
(** [n_direct]: DirectRenameStatus <= tsRunning; [n_running]: DirectRenameStatus = tsRunning. *)
Record nzb := mkNzb {
  n_files : list file; n_paused : Z; n_priority : Z; n_extra : Z; n_direct : bool; n_running : bool; n_allfirst : bool }.
Record env := mkEnv { e_pause : bool; e_quota : bool; e_delay : Z; e_now : Z; e_rename : bool }.

(** DownloadInfo.h: FORCE_PRIORITY, GetForcePriority, HasExtraPriority. *)
Definition forced (n : nzb) : bool := 900 <=? n_priority n.
Definition has_extra (n : nzb) : bool := 0 <? n_extra n.

(** QueueCoordinator.cpp:533-536; the difference is unsigned. *)
Definition nzb_paused (n : nzb) : bool := (Z.of_nat (length (n_files n)) - n_paused n) mod 2 ^ 64 <=? 0.
Definition nzb_allowed (e : env) (n : nzb) : bool :=
  negb (nzb_paused n) && (negb (e_pause e || e_quota e) || forced n).
(** 543-544. *)
Definition waiting (e : env) (f : file) : bool := (0 <? e_delay e) && (e_now e <=? f_time f + e_delay e).

(** A file which was picked: positions, the group and the file. *)
Record pick := mkPick { p_i : nat; p_j : nat; p_nzb : nzb; p_file : file }.

(** 528-531. *)
Definition nzb_higher (n : nzb) (c : pick) : bool :=
  (Bool.eqb (has_extra n) (has_extra (p_nzb c)) && (n_priority (p_nzb c) <? n_priority n)) ||
  (has_extra n && negb (has_extra (p_nzb c))).
(** 546-549. *)
Definition file_higher (n : nzb) (f : file) (c : pick) : bool :=
  (Bool.eqb (f_extra f) (f_extra (p_file c)) && (n_priority (p_nzb c) <? n_priority n)) ||
  (f_extra f && negb (f_extra (p_file c))).
Definition was_checked (checked : list (nat * nat)) (i j : nat) : bool :=
  existsb (fun x => Nat.eqb (fst x) i && Nat.eqb (snd x) j) checked.

(** 538-556. *)
Fixpoint pick_file (e : env) (checked : list (nat * nat)) (i : nat) (n : nzb) (j : nat) (fs : list file) (cur : option pick) : option pick :=
  match fs with
  | [] => cur
  | f :: r =>
      let cur' :=
        if negb (was_checked checked i j) && negb (waiting e f) && negb (f_paused f) && negb (f_deleted f) &&
           match cur with None => true | Some c => file_higher n f c end
        then Some (mkPick i j n f) else cur in
      pick_file e checked i n (S j) r cur'
  end.
(** 526-558. *)
Fixpoint pick_nzb (e : env) (checked : list (nat * nat)) (i : nat) (q : list nzb) (cur : option pick) : option pick :=
  match q with
  | [] => cur
  | n :: r =>
      let cur' :=
        if match cur with None => true | Some c => nzb_higher n c end && nzb_allowed e n
        then pick_file e checked i n 0 (n_files n) cur else cur in
      pick_nzb e checked (S i) r cur'
  end.

(** 579-586. *)
Fixpoint first_undefined (k : nat) (l : list art) : option nat :=
  match l with [] => None | a :: r => if undefined (a_status a) then Some k else first_undefined (S k) r end.
(** 601-630: the position of the file. *)
Fixpoint first_article (j : nat) (fs : list file) : option nat :=
  match fs with
  | [] => None
  | f :: r =>
      if negb (f_confirmed f) && match f_arts f with a :: _ => undefined (a_status a) | [] => false end
      then Some j else first_article (S j) r
  end.

Fixpoint set_nth {A} (i : nat) (x : A) (l : list A) : list A :=
  match l, i with
  | [], _ => []
  | _ :: r, O => x :: r
  | y :: r, S i' => y :: set_nth i' x r
  end.
Definition set_rename (n : nzb) (running allfirst : bool) : nzb :=
  mkNzb (n_files n) (n_paused n) (n_priority n) (n_extra n) (n_direct n) running allfirst.

(** 523-598: group, file and article, and the queue with its rename marks. [None] for the outcome: the loop did not end. *)
Fixpoint next_loop (fuel : nat) (e : env) (checked : list (nat * nat)) (q : list nzb) : option (option (nat * nat * nat) * list nzb) :=
  match fuel with
  | O => None
  | S fuel' =>
      match pick_nzb e checked 0 q None with
      | None => Some (None, q)
      | Some p =>
          let n := p_nzb p in
          let try_first := e_rename e && n_direct n && negb (n_allfirst n) in
          match (if try_first then first_article 0 (n_files n) else None) with
          | Some j => Some (Some (p_i p, j, 0%nat), set_nth (p_i p) (set_rename n true (n_allfirst n)) q)
          | None =>
              let q1 := if try_first then set_nth (p_i p) (set_rename n (n_running n) true) q else q in
              match first_undefined 0 (f_arts (p_file p)) with
              | Some k => Some (Some (p_i p, p_j p, k), q1)
              | None => next_loop fuel' e ((p_i p, p_j p) :: checked) q1
              end
          end
      end
  end.
Definition file_count (q : list nzb) : nat := length (concat (map n_files q)).
Definition next_article (e : env) (q : list nzb) : option (option (nat * nat * nat) * list nzb) :=
  next_loop (S (file_count q)) e [] q.

(** ** Histories *)
Definition get_art (q : list nzb) (i j k : nat) : option art :=
  obind (nth_error q i) (fun n => obind (nth_error (n_files n) j) (fun f => nth_error (f_arts f) k)).
Definition set_art (q : list nzb) (i j k : nat) (s : art_status) : list nzb :=
  match nth_error q i with
  | Some n => match nth_error (n_files n) j with
              | Some f => match nth_error (f_arts f) k with
                          | Some a =>
                              let f' := mkFile (f_paused f) (f_deleted f) (f_extra f) (f_time f) (f_confirmed f) (set_nth k (mkArt (a_id a) s) (f_arts f)) in
                              set_nth i (mkNzb (set_nth j f' (n_files n)) (n_paused n) (n_priority n) (n_extra n) (n_direct n) (n_running n) (n_allfirst n)) q
                          | None => q
                          end
              | None => q
              end
  | None => q
  end.
(** What happens to a queue: an article is asked for and its download started, a download ends (with success,
    failure or to be retried), the queue is changed in another way. *)
Inductive event := EvNext (e : env) | EvDone (i j k : nat) (s : art_status) | EvEdit (q : list nzb).
(** What can be seen: an article is handed out, an article comes back to be retried. *)
Inductive seen := Handed (a : Z) | Back (a : Z).
Definition ev_step (q : list nzb) (v : event) : list nzb * list seen :=
  match v with
  | EvNext e =>
      match next_article e q with
      | Some (Some (i, j, k), q1) =>
          (set_art q1 i j k aiRunning, match get_art q i j k with Some a => [Handed (a_id a)] | None => [] end)
      | Some (None, q1) => (q1, [])
      | None => (q, [])
      end
  | EvDone i j k s =>
      match get_art q i j k with
      | Some a => match a_status a with
                  | aiRunning => (set_art q i j k s, if undefined s then [Back (a_id a)] else [])
                  | _ => (q, [])
                  end
      | None => (q, [])
      end
  | EvEdit q' => (q', [])
  end.
Fixpoint ev_run (q : list nzb) (l : list event) : list nzb * list seen :=
  match l with
  | [] => (q, [])
  | v :: r => let '(q1, s) := ev_step q v in let '(q2, s') := ev_run q1 r in (q2, s ++ s')
  end.

(** ** The next URL: daemon/queue/UrlCoordinator.cpp:227-243 *)
Record urlitem := mkUrl { u_url : bool; u_none : bool; u_kept : bool; u_priority : Z }.
Definition url_waits (u : urlitem) : bool := u_url u && u_none u && u_kept u.
Fixpoint next_url (i : nat) (q : list urlitem) (cur : option (nat * urlitem)) : option (nat * urlitem) :=
  match q with
  | [] => cur
  | u :: r =>
      next_url (S i) r
        (if url_waits u && match cur with Some (_, c) => u_priority c <? u_priority u | None => true end then Some (i, u) else cur)
  end.
