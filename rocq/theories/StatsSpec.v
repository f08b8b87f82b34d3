(** What the statistics of a group mean: each is a sum over the files of the
    group, where a queued and a finished file contribute different amounts. *)
From Verif Require Import Base InfoModel InfoSpec StatsModel.

(** Total of [w] over a list of files. *)
Definition total (w : finfo -> Z) (l : list finfo) : Z := fold_right Z.add 0 (map w l).

Definition if_par (f : finfo) (x : Z) : Z := if f_par f then x else 0.

(** Contribution of a file that is still queued. *)
Definition queued (x : fld) (f : finfo) : Z :=
  let n := f_num f in
  match x with
  | FileCount => 1
  | PausedCount => if f_paused f then 1 else 0
  | RemPar => if_par f 1
  | Size => n FSize
  | Remaining => n FRem
  | PausedSize => if f_paused f then n FRem else 0
  | Success => 0
  | CurSuccess => n FSucc
  | Failed => n FMissed
  | CurFailed => n FFail + n FMissed
  | ParSize => if_par f (n FSize)
  | ParSuccess => 0
  | ParCurSuccess => if_par f (n FSucc)
  | ParFailed => if_par f (n FMissed)
  | ParCurFailed => if_par f (n FFail + n FMissed)
  | TotalArt => n FTotal
  | SuccArt => 0
  | FailArt => n FMissedArt
  | CurSuccArt => n FSuccArt
  | CurFailArt => n FFailArt + n FMissedArt
  | Extra => if f_extra f then 1 else 0
  | Active => n FActive
  end.

(** Contribution of a file that was finished. *)
Definition finished (x : fld) (f : finfo) : Z :=
  let n := f_num f in
  match x with
  | FileCount => 1
  | PausedCount => 0
  | RemPar => 0
  | Size => n FSize
  | Remaining => 0
  | PausedSize => 0
  | Success => n FSucc
  | CurSuccess => n FSucc
  | Failed => n FFail + n FMissed
  | CurFailed => n FFail + n FMissed
  | ParSize => if_par f (n FSize)
  | ParSuccess => if_par f (n FSucc)
  | ParCurSuccess => if_par f (n FSucc)
  | ParFailed => if_par f (n FFail + n FMissed)
  | ParCurFailed => if_par f (n FFail + n FMissed)
  | TotalArt => n FTotal
  | SuccArt => n FSuccArt
  | FailArt => n FFailArt + n FMissedArt
  | CurSuccArt => n FSuccArt
  | CurFailArt => n FFailArt + n FMissedArt
  | Extra => 0
  | Active => 0
  end.

(** The value every statistic ought to have. *)
Definition summary (x : fld) (files done : list finfo) : Z :=
  total (queued x) files + total (finished x) done.

(** Size and number of the articles of a file with given statuses. *)
Definition arts_size (p : art_status -> bool) (l : list art) : Z :=
  fold_right Z.add 0 (map fst (filter (fun a => p (snd a)) l)).
Definition arts_count (p : art_status -> bool) (l : list art) : Z :=
  Z.of_nat (length (filter (fun a => p (snd a)) l)).

Definition open_art (s : art_status) : bool :=
  match s with aiUndefined | aiRunning => true | _ => false end.
Definition good_art (s : art_status) : bool :=
  match s with aiFinished => true | _ => false end.
Definition bad_art (s : art_status) : bool :=
  match s with aiFailed => true | _ => false end.

(** The counters of a file agree with its articles. *)
Record file_ok (f : finfo) : Prop := {
  fo_size : f_num f FSize = f_num f FRem + f_num f FSucc + f_num f FFail + f_num f FMissed;
  fo_rem : f_num f FRem = arts_size open_art (f_arts f);
  fo_succ : f_num f FSucc = arts_size good_art (f_arts f);
  fo_fail : f_num f FFail = arts_size bad_art (f_arts f);
  fo_succart : f_num f FSuccArt = arts_count good_art (f_arts f);
  fo_failart : f_num f FFailArt = arts_count bad_art (f_arts f);
  fo_compl : f_num f FCompl = f_num f FSuccArt + f_num f FFailArt;
  fo_total : f_num f FTotal = f_num f FMissedArt + Z.of_nat (length (f_arts f));
  fo_active : 0 <= f_num f FActive
}.

(** Operations of an ordinary download: no deletion of the whole group, no
    vanished temporary file, direct renaming not active. *)
Definition ordinary (o : op) : Prop :=
  match o with
  | OFinish _ _ lost => lost = 0
  | ORenaming b => b = false
  | OGroupDelete _ => False
  | _ => True
  end.

(** The members that are saved with the group. *)
Definition saved (x : fld) : Prop :=
  match x with
  | FileCount | Size | Success | Failed | ParSize | ParSuccess | ParFailed
  | TotalArt | SuccArt | FailArt | Active => True
  | _ => False
  end.
