(** What the renaming by par2-files is to do; independent of how the program does it but for the
    records and the disk. *)
From Coq Require Import String.
From Verif Require Import Base NumFmt WildModel InfoModel RarModel RarSetModel ParModel ParSpec ParRenModel.
Open Scope list_scope. Open Scope Z_scope.

(** A file of the name [n] directly in the directory. *)
Definition file_in (dir n p : list Z) : Prop := p = dir ++ str "/" ++ n /\ ~ In 47 n.
Definition ends_bad (p : list Z) : Prop := exists a, p = a ++ str ".bad".
(** Hash of the first 16 KB. *)
Definition starts_with (md5 : list Z -> list Z) (c h : list Z) : Prop :=
  h = md5 (firstn (Z.to_nat 16384) c).
(** The first part of a file split into parts, which are not to be renamed: the name, a dot and the number 0 or 1. *)
Definition caseless (a b : list Z) : Prop := map lower a = map lower b.
Definition part_of (n name : list Z) (k : Z) : Prop :=
  exists a d, n = a ++ str "." ++ d /\ caseless a name /\ Forall (fun c => 48 <= c <= 57) d /\ pdigits 0 d = k.
Definition first_part (n name : list Z) : Prop := exists k, k <= 1 /\ part_of n name k.
Definition maybe_first_part (n name : list Z) : Prop := exists k, (k <= 1 \/ 2 ^ 31 <= k) /\ part_of n name k.

(** The files described by par2-files: name and hash; the first description with a hash counts. *)
Definition described (hs : list fhash) : list (list Z * list Z) := map (fun e => (h_name e, h_hash e)) hs.
Definition says (hs : list fhash) (h m : list Z) : Prop :=
  exists i r, described hs = i ++ (m, h) :: r /\ ~ In h (map snd i).
(** Different files have different descriptions. *)
Definition hashes_differ (hs : list fhash) : Prop := NoDup (map h_hash hs).
Definition names_differ (hs : list fhash) : Prop := NoDup (map h_name hs).

(** A par2-file begins with a packet: the magic, the length of the packet (64 bits, a multiple of 4, at least that
    of its header; the packet is inside the file), a hash, the identifier of the set. *)
Definition par2_begin (c : list Z) (len : Z) (set : list Z) : Prop :=
  exists l md5 tail, c = [80; 65; 82; 50; 0; 80; 75; 84] ++ l ++ md5 ++ set ++ tail /\
    length l = 8%nat /\ length md5 = 16%nat /\ length set = 16%nat /\ (16 <= length tail)%nat /\
    len = le_num l /\ 64 <= len /\ len mod 4 = 0.
Definition par2_packet (c set : list Z) : Prop := exists len, par2_begin c len set /\ len <= zlen c.
(** Par2-files, given with their sets, that are named well: each has the extension and those of one set have the same base name (ParSpec.v). *)
Definition together (l : list (list Z * list Z)) : Prop :=
  (forall n i, In (n, i) l -> exists b, par_base n b) /\
  (forall n m i b b', In (n, i) l -> In (m, i) l -> par_base n b -> par_base m b' -> same_text b b').
(** The names are longer than the extension alone. *)
Definition long_enough (l : list (list Z * list Z)) : Prop := Forall (fun e => fits (fst e) /\ (6 <= length (fst e))%nat) l.

(** The number in decimal with at least three digits. *)
Definition three (k : Z) (d : list Z) : Prop := exists z, d = repeat 48 z ++ udec k /\ length d = Nat.max 3 (length (udec k)).
Definition par_path (dir set : list Z) (k : Z) (p : list Z) : Prop :=
  exists d, three k d /\ p = dir ++ str "/" ++ set ++ str ".vol" ++ d ++ str "+01.PAR2".

(** A damaged par2-file: empty, not readable, or some file is mentioned without being described. *)
Definition unreadable (load : list Z -> option (list (option (list Z * list Z)))) (c : list Z) : Prop :=
  c = [] \/ load c = None \/ exists d, load c = Some d /\ In None d.

(** The data are bytes. *)
Definition bytes (l : list Z) : Prop := Forall (fun b => 0 <= b < 256) l.
Definition disk_bytes (fs : disk) : Prop := Forall (fun e => bytes (snd e)) fs.
(** No file of the directory is named like a damaged par2-file put aside, and none is described with such a name. *)
Definition none_bad (fs : disk) (dir : list Z) : Prop := forall p n, In p (map fst fs) -> file_in dir n p -> ~ ends_bad p.
Definition none_bad_described (load : list Z -> option (list (option (list Z * list Z)))) (fs : disk) : Prop :=
  forall p c d n h, In (p, c) fs -> load c = Some d -> In (Some (n, h)) d -> ~ ends_bad (NameModel.make_valid false n).
