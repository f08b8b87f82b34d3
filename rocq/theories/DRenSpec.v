(** What the renaming during the download is to do, in the terms of a user. *)
From Coq Require Import String.
From Verif Require Import Base WildModel RarModel RarSetModel ParRenModel ParRenSpec DRenModel.
Open Scope list_scope. Open Scope Z_scope.

(** ** The first article *)

(** The data begin with the header of a packet of the set. *)
Definition packet_of (c set : list Z) : Prop :=
  exists l md5 tail, c = [80; 65; 82; 50; 0; 80; 75; 84] ++ l ++ md5 ++ set ++ tail /\
    length l = 8%nat /\ length md5 = 16%nat /\ length set = 16%nat /\ (16 <= length tail)%nat.
(** Some piece begins after the first 64 bytes. *)
Definition late_piece (pieces : list (list Z)) : Prop :=
  exists a b r, pieces = a ++ b :: r /\ (64 <= length (concat a))%nat.
(** In hexadecimal digits, the last byte first. *)
Definition hex_digit (v : Z) : Z := nth (Z.to_nat v) (str "0123456789ABCDEF") 0.
Definition hex_of (set : list Z) : list Z := flat_map (fun b => [hex_digit (b / 16); hex_digit (b mod 16)]) (rev set).

(** ** Names *)

(** The data of a file lie under its name: it is completed, or it is written directly to its place. *)
Definition lies (f : dfile) : Prop := f_done f = true \/ exists o, f_out f = Some o /\ ~ exists a, o = a ++ str ".out.tmp".
(** The name described first for a hash, if it is another one than that of the file. *)
Definition says (hs : list (list Z * list Z)) (h m : list Z) : Prop := exists i r, hs = i ++ (m, h) :: r /\ ~ In h (map snd i).
Definition wants (hs : list (list Z * list Z)) (f : dfile) (m : list Z) : Prop :=
  f_par f = false /\ f_hash f <> [] /\ says hs (f_hash f) m /\ ~ caseless (f_name f) m.
Definition ends_par2 (n : list Z) : Prop := exists a e, n = a ++ e /\ caseless e (str ".par2").
(** Name, name before, and for files in progress the mark that the name is known. *)
Definition has_name (f : dfile) (n : list Z) (f' : dfile) : Prop :=
  f_name f' = n /\ f_orig f' = (match f_orig f with [] => f_name f | o => o end) /\ (f_done f = false -> f_conf f' = true).
(** Everything else of a file. *)
Definition same_else (f f' : dfile) : Prop :=
  f_id f' = f_id f /\ f_hash f' = f_hash f /\ f_par f' = f_par f /\ f_set f' = f_set f /\ f_paused f' = f_paused f /\
  f_extra f' = f_extra f /\ f_out f' = f_out f /\ f_done f' = f_done f /\ f_size f' = f_size f.
(** A new name for a par2-file: the set with what begins with ".vol" in its name, or with a number. *)
Definition par_new (f : dfile) (n : list Z) : Prop :=
  (exists a b e, f_name f = a ++ str ".vol" ++ b ++ e /\ (forall x y, a ++ str ".vol" ++ b ++ e = x ++ str ".vol" ++ y -> (length a <= length x)%nat) /\
     caseless e (str ".par2") /\ n = f_set f ++ str ".vol" ++ b ++ e) \/
  (exists k d, 1 <= k /\ three k d /\ n = f_set f ++ str ".vol" ++ d ++ str "+01.PAR2").
(** The new names a file may get; [pars]: par2-files are renamed. *)
Definition new_of (pars : bool) hs (f : dfile) (n : list Z) : Prop := if f_par f then pars = true /\ par_new f n else wants hs f n.
(** A file gets such a name; or it stays, only if there is none or it is on the disk. *)
Definition outcome (pars : bool) hs (f f' : dfile) : Prop :=
  same_else f f' /\ ((f' = f /\ forall n, new_of pars hs f n -> on_disk f = true) \/ exists n, new_of pars hs f n /\ has_name f n f').
(** A file gets such a name unless the system refuses to rename it; the data are under the name. *)
Definition followed (can : list Z -> list Z -> bool) (dir : list Z) (pars : bool) hs (fs fs' : disk) (f f' : dfile) : Prop :=
  ((f' = f /\ forall n, new_of pars hs f n -> on_disk f = true /\ exists b, can (dir ++ str "/" ++ f_name f) b = false) \/
   exists n, new_of pars hs f n /\ has_name f n f') /\
  (on_disk f = true -> forall c, look fs (dir ++ str "/" ++ f_name f) = Some c -> look fs' (dir ++ str "/" ++ f_name f') = Some c).
(** The par2-files with their sets. *)
Definition pairs (l : list dfile) : list (list Z * list Z) := map (fun f => (f_name f, f_set f)) (filter f_par l).
(** The names wanted by files on the disk are free, not those of par2-files, and wanted once. *)
Definition free_targets (hs : list (list Z * list Z)) (dir : list Z) (files : list dfile) (fs : disk) : Prop :=
  forall i f m, nth_error files i = Some f -> on_disk f = true -> wants hs f m ->
    ~ In (dir ++ str "/" ++ m) (map fst fs) /\ ~ ends_par2 m /\
    forall j g, nth_error files j = Some g -> on_disk g = true -> wants hs g m -> i = j.
(** The files on the disk are there, each under its own name. *)
Definition all_there (dir : list Z) (files : list dfile) (fs : disk) : Prop :=
  NoDup (map f_name (filter on_disk files)) /\ forall f, In f files -> on_disk f = true -> In (dir ++ str "/" ++ f_name f) (map fst fs).

(** ** When *)

(** Any order that std::sort may make of a list, given a strict weak order. *)
Definition weak_order (lt : dfile -> dfile -> bool) : Prop :=
  (forall a b, lt a b = true -> lt b a = false) /\ (forall a b c, lt a b = false -> lt b c = false -> lt a c = false).
Definition sorter (sort : (dfile -> dfile -> bool) -> list dfile -> list dfile) : Prop :=
  forall lt l, weak_order lt -> Permutation.Permutation l (sort lt l) /\
    forall i j a b, (i < j)%nat -> nth_error (sort lt l) i = Some a -> nth_error (sort lt l) j = Some b -> lt b a = false.
(** A file is resumed and gets priority; all else is the same. *)
Definition raised (f f' : dfile) : Prop :=
  f_paused f' = false /\ f_extra f' = true /\ f_id f' = f_id f /\ f_name f' = f_name f /\ f_orig f' = f_orig f /\ f_hash f' = f_hash f /\ f_par f' = f_par f /\ f_set f' = f_set f /\
  f_conf f' = f_conf f /\ f_out f' = f_out f /\ f_done f' = f_done f /\ f_size f' = f_size f.
Definition in_set (set : list Z) (f : dfile) : Prop := f_par f = true /\ f_set f = set.
(** No par2-file of the set is completed; the file is one of the smallest of those in progress. *)
Definition smallest (set : list Z) (fl dl : list dfile) (f : dfile) : Prop :=
  in_set set f /\ (forall g, In g dl -> ~ in_set set g) /\ forall g, In g fl -> in_set set g -> f_size f <= f_size g.
(** Files have identifiers; those in progress are not completed. *)
Definition proper (fl dl : list dfile) : Prop :=
  NoDup (map f_id fl) /\ (forall f, In f fl -> f_done f = false) /\ (forall f, In f dl -> f_done f = true).
(** The first articles are known. *)
Definition first_known (f : dfile) : Prop := f_hash f <> [] /\ (f_par f = true -> f_set f <> []).

(** Nothing done yet and all first articles known. *)
Definition ready (n : dnzb) : Prop := n_status n <= 1 /\ Forall first_known (n_files n) /\ Forall first_known (n_done n).

(** Sums over the par2-files in progress. *)
Definition par_sum (g : dfile -> Z) (l : list dfile) : Z := fold_right (fun f a => (if f_par f then g f else 0) + a) 0 l.
