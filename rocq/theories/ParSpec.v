(** What the names of par2-files mean and what a request for more of them has to do. *)
From Coq Require Import String Permutation.
From Verif Require Import Base WildModel ParModel.
Open Scope list_scope. Open Scope Z_scope.

(** ** Names *)
Definition same_text (a b : list Z) : Prop := map lower a = map lower b.
(** The part between ".vol" and ".par2" names the blocks: "00+01" or "00-01". *)
Definition volume (v : list Z) : Prop := ~ In 46 v /\ (In 43 v \/ In 45 v).
(** [base] is the name of the collection a file belongs to. *)
Inductive par_base (name base : list Z) : Prop :=
  | pb_volume : forall ext v, name = base ++ ext -> same_text ext (str ".vol" ++ v ++ str ".par2") -> volume v -> par_base name base
  | pb_main : forall ext, name = base ++ ext -> same_text ext (str ".par2") -> base <> [] ->
      (forall a v, same_text base (a ++ str ".vol" ++ v) -> ~ volume v) -> par_base name base.
(** A numeral, possibly with zeros in front. *)
Definition numeral (ds : list Z) : Prop := ds <> [] /\ Forall (fun c => 48 <= c <= 57) ds.
Definition value (ds : list Z) : Z := fold_left (fun a c => a * 10 + (c - 48)) ds 0.
(** A name with its number of blocks, as par2-programs make them. *)
Inductive par_blocks (name base : list Z) : Z -> Prop :=
  | pk_plus : forall ext first ds, name = base ++ ext -> same_text ext (str ".vol" ++ first ++ str "+" ++ ds ++ str ".par2") ->
      ~ In 46 first -> ~ In 43 first -> numeral ds -> par_blocks name base (value ds)
  | pk_minus : forall ext first ds, name = base ++ ext -> same_text ext (str ".vol" ++ first ++ str "-" ++ ds ++ str ".par2") ->
      ~ In 46 first -> ~ In 43 first -> ~ In 45 first -> numeral ds -> par_blocks name base (value ds)
  | pk_main : forall ext, name = base ++ ext -> same_text ext (str ".par2") -> base <> [] ->
      (forall a v, same_text base (a ++ str ".vol" ++ v) -> ~ volume v) -> par_blocks name base 0.
(** A text without ".par2". *)
Definition no_par2 (s : list Z) : Prop := forall a b, ~ same_text s (a ++ str ".par2" ++ b).
Definition fits (name : list Z) : Prop := (length name < Z.to_nat 1024)%nat.

(** ** Requests *)
(** The number of blocks in a file of the queue. *)
Definition blocks_of (f : pfile) : Z := match parse_par (f_name f) (f_conf f) with Some (_, n) => Z.max 0 n | None => 0 end.
Definition all_blocks (files : list pfile) : Z := fold_right (fun f s => blocks_of f + s) 0 files.
Definition own (parname : list Z) (f : pfile) : bool := same_collection (f_name f) (NameModel.base_name parname) (f_conf f).
(** A file is requested. *)
Definition resumed (sel : list pfile) (f : pfile) : pfile :=
  if existsb (Z.eqb (f_id f)) (map f_id sel) && f_paused f then PFile (f_id f) (f_name f) (f_conf f) (f_par f) false true else f.
(** std::sort by the number of blocks. *)
Definition sorts (sort : list block -> list block) : Prop :=
  forall l, Permutation (sort l) l /\ forall i j a b, (i < j)%nat -> nth_error (sort l) i = Some a -> nth_error (sort l) j = Some b -> snd a <= snd b.

(** ** Waiting *)
(** No file of the download is deleted between the request for files (2) and the look afterwards (3). *)
Fixpoint no_loss_between (between : bool) (es : list wstep) : Prop :=
  match es with
  | [] => True
  | e :: r =>
    match e with
    | SAsk _ => no_loss_between true r
    | SLook => no_loss_between false r
    | ELost => between = false /\ no_loss_between between r
    | _ => no_loss_between between r
    end
  end.
Definition by_checker (e : wstep) : bool := match e with SCheck | SAsk _ | SLook | SWake | SLoad => true | _ => false end.
(** The files that were downloaded. *)
Definition downloads (es : list wstep) : nat := length (filter (fun e => match e with EArrive | EOther false => true | _ => false end) es).
