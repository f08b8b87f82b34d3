(** What the history promises, stated without the functions of HistModel. *)
From Verif Require Import Base InfoModel InfoSpec StatsModel StatsSpec HistModel.
From Coq Require Import Permutation.
Open Scope list_scope.
Open Scope Z_scope.

(** ** How long items stay *)

(** A hidden item has what the duplicate check needs. *)
Definition hidden_of (h h' : hitem) : Prop :=
  h_kind h' = hkDup /\ h_id h' = h_id h /\ h_time h' = h_time h /\ h_name h' = h_name h /\
  h_key h' = h_key h /\ h_score h' = h_score h /\ h_mode h' = h_mode h.

(** The history [b] after the cleaning of [a]: hidden items and items not older
    than [min] are kept; older ones are hidden if they are downloads and the
    duplicate check is on, and removed otherwise. *)
Inductive cleaned (dupe_check : bool) (min : Z) : list hitem -> list hitem -> Prop :=
| cleaned_nil : cleaned dupe_check min [] []
| cleaned_keep : forall h a b, h_kind h = hkDup \/ min <= h_time h ->
    cleaned dupe_check min a b -> cleaned dupe_check min (h :: a) (h :: b)
| cleaned_hide : forall h h' a b, h_kind h = hkNzb -> dupe_check = true -> h_time h < min ->
    hidden_of h h' -> cleaned dupe_check min a b -> cleaned dupe_check min (h :: a) (h' :: b)
| cleaned_gone : forall h a b, h_kind h = hkUrl \/ (h_kind h = hkNzb /\ dupe_check = false) ->
    h_time h < min -> cleaned dupe_check min a b -> cleaned dupe_check min (h :: a) b.

(** [p] is one of the names in [s], which are separated with "|". *)
Definition named_in (p s : list Z) : Prop :=
  exists a b, s = a ++ p ++ b /\ ~ In 124 p /\
    (a = [] \/ exists a', a = a' ++ [124]) /\ (b = [] \/ exists b', b = 124 :: b').

(** ** Editing *)

Definition listed (ids : list Z) (h : hitem) : bool := existsb (Z.eqb (h_id h)) ids.
Definition others (ids : list Z) (l : list hitem) : list hitem :=
  filter (fun h => negb (listed ids h)) l.

(** The actions that change one member of the items. *)
Definition setter (a : haction) : Prop :=
  match a with
  | HSetParameter _ | HSetCategory _ | HSetName _ | HSetDupeKey _ | HSetDupeScore _
  | HSetDupeMode _ | HSetDupeBackup _ => True
  | _ => False
  end.
Definition deletes (a : haction) : Prop := match a with HDelete _ => True | _ => False end.

(** The effect of the simple settings on an item. *)
Definition set_to (a : haction) (h h' : hitem) : Prop :=
  h_id h' = h_id h /\ h_kind h' = h_kind h /\ h_time h' = h_time h /\
  h_failed h' = h_failed h /\ h_parked h' = h_parked h /\ h_dir h' = h_dir h /\ h_nzb h' = h_nzb h /\
  h_name h' = match a with HSetName (c :: r) => c :: r | _ => h_name h end /\
  h_cat h' = match a with
             | HSetCategory t => match h_kind h with hkDup => h_cat h | _ => t end
             | _ => h_cat h
             end /\
  h_key h' = match a with HSetDupeKey t => t | _ => h_key h end /\
  h_score h' = match a with HSetDupeScore n => n | _ => h_score h end /\
  h_mode h' = match a with HSetDupeMode (Some m) => m | _ => h_mode h end /\
  (match a with HSetParameter _ => True | _ => h_params h' = h_params h end) /\
  h_deleted h' = match a with
                 | HSetDupeBackup y =>
                     match h_kind h with
                     | hkNzb => if (h_deleted h =? 3) || (h_deleted h =? 1)
                                then (if y then 3 else 1) else h_deleted h
                     | _ => h_deleted h
                     end
                 | _ => h_deleted h
                 end.

(** When a download is taken back into the queue. *)
Definition taken (parses : list Z -> bool) (d : disk) (a : haction) (h : hitem) : Prop :=
  match a with
  | HRedownload => h_kind h = hkUrl \/
                   (h_kind h = hkNzb /\ In (h_nzb h) (d_files d) /\ parses (h_nzb h) = true)
  | HRetry | HProcess => h_kind h = hkNzb /\ In (h_dir h) (d_dirs d)
  | HReturn => h_kind h = hkUrl \/ (h_kind h = hkNzb /\ h_parked h <> 0 /\ In (h_dir h) (d_dirs d))
  | _ => False
  end.
Definition takes (a : haction) : Prop :=
  match a with HRedownload | HRetry | HProcess | HReturn => True | _ => False end.

(** A download keeps its settings when it is taken back. *)
Definition kept_settings (h h' : hitem) : Prop :=
  h_id h' = h_id h /\ h_kind h' = h_kind h /\ h_name h' = h_name h /\ h_cat h' = h_cat h /\
  h_params h' = h_params h /\ h_key h' = h_key h /\ h_score h' = h_score h /\ h_mode h' = h_mode h /\
  h_nzb h' = h_nzb h /\ h_deleted h' = 0 /\ h_parked h' = 0.

(** ** Files of a download *)

(** The description of a file on the disk: nothing of it is downloaded. *)
Definition described (f d : finfo) : Prop :=
  f_id d = f_id f /\ f_par d = f_par f /\ f_paused d = false /\ f_extra d = false /\
  f_srv d = [] /\
  f_arts d = map (fun a : art => (fst a, aiUndefined)) (f_arts f) /\
  (forall x, f_num d x = match x with
                         | FSize | FMissed | FTotal | FMissedArt => f_num f x
                         | FRem => f_num f FSize - f_num f FMissed
                         | _ => 0
                         end).

(** Description and state: as it was when it left the queue. *)
Definition recorded (f d : finfo) : Prop :=
  f_id d = f_id f /\ f_par d = f_par f /\ f_paused d = false /\ f_extra d = false /\
  f_srv d = f_srv f /\ f_arts d = f_arts f /\
  (forall x, f_num d x = match x with FActive => 0 | _ => f_num f x end).

(** What was kept for the completed files is on the disk. *)
Definition disk_has (w : world) (c : cfile) : Prop :=
  (forall d, w_load w (f_id (c_f c)) = Some d -> described (c_f c) d) /\
  (forall d, w_state w (f_id (c_f c)) = Some d -> recorded (c_f c) d).

(** A file that left the queue: no article is being downloaded any more, and its
    status is right. *)
Definition left_queue (c : cfile) : Prop :=
  file_ok (c_f c) /\ Forall (fun a : art => snd a <> aiRunning) (f_arts (c_f c)) /\
  f_num (c_f c) FActive = 0 /\
  match c_status c with
  | cfNone => f_num (c_f c) FSuccArt = 0 /\ f_num (c_f c) FFailArt = 0
  | cfFailure => f_num (c_f c) FTotal = f_num (c_f c) FMissedArt + f_num (c_f c) FFailArt
  | _ => True
  end.

(** The statistics that are kept for a download in the history. *)
Definition history_sums (g : group) (l : list finfo) : Prop :=
  forall x, saved x -> g_st g x = total (finished x) l.

(** The download has lost data other than of par2-files. *)
Definition damaged (l : list finfo) : Prop :=
  total (fun f => if f_par f then 0 else f_num f FFail + f_num f FMissed) l <> 0.

(** The files of a download are not needed any more: it was successful, or it was
    deleted (and not just parked), or they are already deleted. *)
Definition not_needed (par unpack deleted : Z) (parking wiped : bool) (l : list finfo) : Prop :=
  wiped = true \/
  (parking = false /\
   (deleted <> 0 \/
    ((par = 3 \/ par = 4) /\ unpack <> 2 /\ unpack <> 4 /\ unpack <> 5) \/
    (unpack = 3 /\ par <> 2) \/ (unpack <= 1 /\ par <> 2 /\ ~ damaged l))).

(** What becomes of an article when its file is downloaded again: [f] the file as
    it left the queue, [keep] whether its data are still on the disk. *)
Definition again (reset_failed keep : bool) (st : art_status) : art_status :=
  match st with
  | aiFinished => if keep then aiFinished else aiUndefined
  | aiFailed => if keep && negb reset_failed then aiFailed else aiUndefined
  | s => s
  end.

(** A file of the download [f] has its data on the disk. *)
Definition has_data (w : world) (f : finfo) : bool :=
  (0 <? f_num f FSuccArt) && w_exists w (f_id f) && negb (w_empty w (f_id f)).

(** The completed files that are downloaded again: those of which something is
    missing, if what is needed for it is on the disk. *)
Definition wanted (w : world) (reset_failed : bool) (c : cfile) : bool :=
  let f := c_f c in
  (0 <? f_id f) &&
  match w_load w (f_id f) with
  | None => false
  | Some _ =>
      match c_status c with
      | cfSuccess => false
      | cfNone => true
      | cfFailure => reset_failed
      | cfPartial =>
          match w_state w (f_id f) with
          | None => false
          | Some _ => reset_failed || (0 <? f_num f FRem)
          end
      end
  end.

(** [f] is the file [c] back in the queue. *)
Definition back (w : world) (reset_failed : bool) (c : cfile) (f : finfo) : Prop :=
  f_id f = f_id (c_f c) /\ f_par f = f_par (c_f c) /\ f_paused f = false /\ f_extra f = false /\
  (forall x, match x with
             | FSize | FMissed | FTotal | FMissedArt => f_num f x = f_num (c_f c) x
             | _ => True
             end) /\
  file_ok f /\
  f_arts f = map (fun a : art => (fst a, again reset_failed (has_data w (c_f c)) (snd a))) (f_arts (c_f c)).

(** ** Files listed twice *)

(** [f] is to be dropped from the list [l] of the files of an nzb-file: exactly
    one other file has its name, and that one is bigger or it is as big and
    stands in front. *)
Definition smaller_twin (name : finfo -> list Z) (l : list finfo) (f : finfo) : Prop :=
  exists a b c f2,
    ((l = a ++ f2 :: b ++ f :: c /\ f_num f FSize <= f_num f2 FSize) \/
     (l = a ++ f :: b ++ f2 :: c /\ f_num f FSize < f_num f2 FSize)) /\
    name f2 = name f /\
    Forall (fun x => name x <> name f) (a ++ b ++ c).
