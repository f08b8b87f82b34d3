(** Specification of the reading of nzb-files. *)
From Coq Require Import String.
From Coq Require Import Permutation.
From Coq Require Import Sorted.
From Verif Require Import Base NumFmt WildModel WildSpec CodecModel MoveSpec WebSpec NzbModel.
Open Scope list_scope. Open Scope Z_scope.

(** No byte is zero. *)
Definition nonul (s : list Z) : Prop := ~ In 0 s.
Definition nonempty {A} (l : list A) : bool := match l with [] => false | _ => true end.

(** ** Documents *)

Record sseg := Seg { s_num : Z; s_bytes : Z; s_msg : list Z }.
Record sfile := SFile { s_subject : list Z; s_date : Z; s_groups : list (list Z); s_segs : list sseg }.

(** The attribute [n] is there, with this value only. *)
Definition has_attr (atts : list (list Z * list Z)) (n v : list Z) : Prop := forall w, In (n, w) atts <-> w = v.

(** The text [t], surrounded by blanks, arrives in pieces. *)
Definition text_in (chunks : list (list Z)) (t : list Z) : Prop :=
  exists b1 b2, concat chunks = b1 ++ t ++ b2 /\ Forall blank b1 /\ Forall blank b2.

Definition special (n : list Z) : Prop := n = str "file" \/ n = str "segment" \/ n = str "group".
(** Texts and other elements, which may stand between those of interest. *)
Definition filler (e : ev) : Prop :=
  match e with EText _ => True | EStart n _ | EEnd n => ~ special n end.

Definition seg_events (s : sseg) (es : list ev) : Prop :=
  exists atts chunks, es = EStart (str "segment") (Some atts) :: map EText chunks ++ [EEnd (str "segment")] /\
    has_attr atts (str "number") (zdec (s_num s)) /\ has_attr atts (str "bytes") (zdec (s_bytes s)) /\
    text_in chunks (s_msg s).
Definition group_events (g : list Z) (es : list ev) : Prop :=
  exists atts chunks, es = EStart (str "group") atts :: map EText chunks ++ [EEnd (str "group")] /\ text_in chunks g.

(** The inside of a file element. *)
Inductive body : list ev -> list (list Z) -> list sseg -> Prop :=
| b_nil : body [] [] []
| b_fill e es gs ss : filler e -> body es gs ss -> body (e :: es) gs ss
| b_seg s e1 es gs ss : seg_events s e1 -> body es gs ss -> body (e1 ++ es) gs (s :: ss)
| b_group g e1 es gs ss : group_events g e1 -> body es gs ss -> body (e1 ++ es) (g :: gs) ss.
Inductive doc : list ev -> list sfile -> Prop :=
| d_nil : doc [] []
| d_fill e es fs : filler e -> doc es fs -> doc (e :: es) fs
| d_file atts b f es fs : has_attr atts (str "subject") (s_subject f) -> has_attr atts (str "date") (zdec (s_date f)) ->
    body b (s_groups f) (s_segs f) -> doc es fs ->
    doc (EStart (str "file") (Some atts) :: b ++ EEnd (str "file") :: es) (f :: fs).

Definition word_ok (t : list Z) : Prop := t <> [] /\ Forall (fun c => ~ blank c) t.
(** Numbers which fit, message ids which fit into the buffer. *)
Definition seg_ok (s : sseg) : Prop :=
  1 <= s_num s < 2 ^ 31 /\ - 2 ^ 31 <= s_bytes s < 2 ^ 31 /\ word_ok (s_msg s) /\ Z.of_nat (length (s_msg s)) <= 1021.
Definition file_ok (f : sfile) : Prop :=
  Forall seg_ok (s_segs f) /\ Forall word_ok (s_groups f) /\ - 2 ^ 31 <= s_date f < 2 ^ 31.

(** The last segment with this number. *)
Definition last_seg (n : Z) (ss : list sseg) (s : sseg) : Prop :=
  exists l1 l2, ss = l1 ++ s :: l2 /\ s_num s = n /\ forall t, In t l2 -> s_num t <> n.

Inductive increasing : list Z -> Prop :=
| inc_nil : increasing []
| inc_cons x l : (forall y, In y l -> x < y) -> increasing l -> increasing (x :: l).

(** What the queue has of a file: every part number once, in order, with size and id of the document; as many slots
    as the highest number says. *)
Definition entry (s : sfile) (f : nfile) : Prop :=
  nf_subject f = Some (s_subject s) /\ nf_time f = s_date s /\ nf_groups f = map Some (s_groups s) /\
  increasing (map fst (kept f)) /\
  (forall n a, In (n, a) (kept f) <->
     exists g, last_seg n (s_segs s) g /\ a = NArt (s_bytes g) (Some ([60] ++ s_msg g ++ [62]))) /\
  Z.of_nat (length (nf_slots f)) = fold_right Z.max 0 (map s_num (s_segs s)).

(** ** Documents which are read in a defined way *)

Inductive place := Outside | InFile | InSeg (text : bool).
Definition nonblank (s : list Z) : Prop := Exists (fun c => ~ blank c) s.

(** No file inside a file, no segment or file inside a segment, no segment without text. *)
Inductive tame : place -> list ev -> Prop :=
| t_nil pl : tame pl []
| t_text pl s es : (forall b, pl <> InSeg b) -> tame pl es -> tame pl (EText s :: es)
| t_blank b s es : Forall blank s -> tame (InSeg b) es -> tame (InSeg b) (EText s :: es)
| t_word b s es : nonblank s -> tame (InSeg true) es -> tame (InSeg b) (EText s :: es)
| t_start pl n a es : ~ special n -> (forall b, pl <> InSeg b) -> tame pl es -> tame pl (EStart n a :: es)
| t_start_in b n a es : ~ special n -> tame (InSeg false) es -> tame (InSeg b) (EStart n a :: es)
| t_end pl n es : ~ special n -> tame pl es -> tame pl (EEnd n :: es)
| t_group pl a es : (forall b, pl <> InSeg b) -> tame pl es -> tame pl (EStart (str "group") a :: es)
| t_group_end pl es : (forall b, pl <> InSeg b) -> tame pl es -> tame pl (EEnd (str "group") :: es)
| t_file a es : tame InFile es -> tame Outside (EStart (str "file") a :: es)
| t_file_end es : tame Outside es -> tame InFile (EEnd (str "file") :: es)
| t_seg_out a es : tame Outside es -> tame Outside (EStart (str "segment") a :: es)
| t_seg_out_end es : tame Outside es -> tame Outside (EEnd (str "segment") :: es)
| t_seg a es : tame (InSeg false) es -> tame InFile (EStart (str "segment") a :: es)
| t_seg_end es : tame InFile es -> tame (InSeg true) (EEnd (str "segment") :: es).

(** ** Names *)

Definition digit (c : Z) : Prop := 48 <= c <= 57.
Definition suffixed (t s : list Z) : Prop :=
  exists d1 d2, Forall digit d1 /\ Forall digit d2 /\ s = t ++ str " yEnc (" ++ d1 ++ [47] ++ d2 ++ [41].
(** The subject without counter of parts. *)
Definition core (s t : list Z) : Prop :=
  (t <> [] /\ suffixed t s) \/ (t = s /\ forall u, u <> [] -> ~ suffixed u s).
(** A word of [t]: between blanks or ends. *)
Definition word_at (a w b : list Z) : Prop :=
  w <> [] /\ ~ In 32 w /\ (a = [] \/ exists a', a = a' ++ [32]) /\ (b = [] \/ exists b', b = 32 :: b').
(** It looks like a file name: something follows the first dot. *)
Definition like_name (w : list Z) : Prop := exists u v, w = u ++ 46 :: v /\ ~ In 46 u /\ v <> [].
(** Subjects whose first characters are looked at from behind. *)
Definition odd_subject (s : list Z) : Prop :=
  s = [] \/ s = [41] \/ exists d, Forall digit d /\ s = 47 :: d ++ [41].

(** Never three files with the same name, the latter two differing from the first in their subjects;
    in a download with two files, not even two. *)
Definition names_told_apart (names subjects : list (list Z)) : Prop :=
  (forall i j k n s1 s2 s3, (i < j < k)%nat -> nth_error names i = Some n -> nth_error names j = Some n -> nth_error names k = Some n ->
     nth_error subjects i = Some s1 -> nth_error subjects j = Some s2 -> nth_error subjects k = Some s3 -> s2 = s1 \/ s3 = s1) /\
  (forall n1 n2 s1 s2, names = [n1; n2] -> subjects = [s1; s2] -> n1 = n2 -> s1 = s2).

(** How the names come from the subjects: all by the parser with quotation marks, all by the one without, or the
    subjects themselves. *)
Definition names_from (names subjects : list (list Z)) (many : bool) : Prop :=
  (many = true /\ names = subjects) \/
  (many = false /\ exists quotes, Forall2 (fun n s => parse_subject quotes s = Some n) names subjects).

(** ** Hashes *)

(** The hash function of Bob Jenkins (1996): three words, mixed in nine steps; negative numbers shift to the right. *)
Fixpoint mixing (shifts : list Z) (x y z : Z) : Z * Z * Z :=
  match shifts with
  | [] => (x, y, z)
  | s :: r => mixing r y z (Z.lxor ((x - y - z) mod 2 ^ 32) (if s <? 0 then z / 2 ^ (- s) else z * 2 ^ s mod 2 ^ 32))
  end.
Definition stir (t : Z * Z * Z) : Z * Z * Z :=
  let '(x, y, z) := t in mixing [-13; 8; -13; -12; 16; -5; -3; 10; -15] x y z.
Definition little_endian (l : list Z) : Z := fold_right (fun b v => b + 256 * v) 0 l.
Definition take_in (t : Z * Z * Z) (p q r : Z) : Z * Z * Z :=
  let '(x, y, z) := t in stir ((x + p) mod 2 ^ 32, (y + q) mod 2 ^ 32, (z + r) mod 2 ^ 32).
Definition absorb (t : Z * Z * Z) (block : list Z) : Z * Z * Z :=
  take_in t (little_endian (firstn 4 block)) (little_endian (firstn 4 (skipn 4 block))) (little_endian (skipn 8 block)).
(** The key is cut into blocks of twelve bytes, less than that remains; the first byte of the third word is for
    the length. *)
Definition jenkins (blocks : list (list Z)) (rest : list Z) (init : Z) : Z :=
  let n := 12 * Z.of_nat (length blocks) + Z.of_nat (length rest) in
  snd (take_in (fold_left absorb blocks (0x9e3779b9, 0x9e3779b9, init))
         (little_endian (firstn 4 rest)) (little_endian (firstn 4 (skipn 4 rest))) (n + 256 * little_endian (skipn 8 rest))).

(** The message ids of the files, one after the other, each hash being the start value of the next one. *)
Definition message_ids (l : list dfile) : list (list Z) :=
  flat_map (fun f => flat_map (fun x => match na_id (snd x) with Some i => [i] | None => [] end) (kept (d_src f))) l.
Definition chain (ids : list (list Z)) : Z := fold_left (fun h i => hash_bj96 i h) ids 0.
Definition descending (l : list dfile) : Prop := StronglySorted (fun a b => bytes_before (d_name b) (d_name a)) l.

(** The option ParIgnoreExt: a list separated by ',' or ';', whose entries are endings or, with wildcards, masks. *)
Definition same_nocase (a b : list Z) : Prop := map lower a = map lower b.
Definition ignored (exts name : list Z) : Prop :=
  exists f m, In f (fields list_sep exts) /\ trimmed f m /\ m <> [] /\
    ((exists a b, name = a ++ b /\ same_nocase m b) \/ ((In 42 m \/ In 63 m) /\ glob wild_char m name)).
Definition counts (ignore : list Z) (f : dfile) : Prop := d_par f = true \/ ~ ignored ignore (d_name f).

Definition usable (f : dfile) : Prop := nonul (d_name f) /\ Forall (fun x => na_id (snd x) <> None) (kept (d_src f)).

(** ** Passwords *)

Definition entities : list (list Z * Z) := [(str "lt", 60); (str "gt", 62); (str "amp", 38); (str "apos", 39); (str "quot", 34)].
(** The first text, as it stands in an XML file, means the second one. *)
Inductive escaped : list Z -> list Z -> Prop :=
| es_nil : escaped [] []
| es_plain c e w : c <> 38 -> c <> 60 -> c <> 0 -> escaped e w -> escaped (c :: e) (c :: w)
| es_entity n c e w : In (n, c) entities -> escaped e w -> escaped (38 :: n ++ 59 :: e) (c :: w).

(** The start of an element with a password. *)
Definition password_start (e : ev) : Prop := exists r, e = EStart (str "meta") (Some ((str "type", str "password") :: r)).

(** ** Definedness of the whole *)

Definition subject_fine (s : list Z) : Prop := nonul s /\ Z.of_nat (length s) <= 1022 /\ ~ odd_subject s.
Definition subjects_fine (es : list ev) : Prop :=
  forall n atts v, In (EStart n (Some atts)) es -> In (str "subject", v) atts -> subject_fine v.
(** Every ampersand stands before a letter or something like that, as in a named entity. *)
Definition amps_fine (file : list Z) : Prop :=
  forall u v, file = u ++ 38 :: v -> exists c r, v = c :: r /\ c <> 35 /\ c <> 60 /\ c <> 0.

(** ** Sizes *)

Definition slots_of (f : nfile) : list (option Z) := map (option_map na_size) (nf_slots f).
Definition sizes_of (f : nfile) : list Z := map (fun x => na_size (snd x)) (kept f).
Definition total (l : list Z) : Z := fold_right Z.add 0 l.
(** The first size which is not zero; zero if there is none. *)
Fixpoint first_size (l : list Z) : Z := match l with [] => 0 | x :: r => if x =? 0 then first_size r else x end.
Definition holes (f : nfile) : Z := Z.of_nat (length (nf_slots f)) - Z.of_nat (length (kept f)).
