(** What a finished file has to contain, in terms of the articles that arrived. *)
From Verif Require Import Base WriterModel.

(** What is known about an article from outside: the announced place and size, the bytes that came in,
    whether the download was successful. *)
Record arrival := Arrival { v_off : Z; v_size : Z; v_got : list Z; v_done : bool }.
Definition history := nat -> option arrival.
Definition no_history : history := fun _ => None.
Definition set_h (i : nat) (x : option arrival) (h : history) : history := fun j => if (j =? i)%nat then x else h j.

(** The articles according to the sequence of events; files, cache and memory play no role. *)
Definition arrive (h : history) (x : wop) : history :=
  match x with
  | OStart i _ _ off asize _ => set_h i (Some (Arrival off asize [] false)) h
  | OWrite i b => match h i with
                  | Some v => if v_done v then h else set_h i (Some (Arrival (v_off v) (v_size v) (v_got v ++ b) false)) h
                  | None => h
                  end
  | OFinish i ok _ => match h i with
                      | Some v => if v_done v then h else if ok then set_h i (Some (Arrival (v_off v) (v_size v) (v_got v) true)) h else set_h i None h
                      | None => h
                      end
  | OFlush _ => h
  | ONew i => match h i with Some v => if v_done v then h else set_h i None h | None => h end
  end.

(** A layout: the place of each article in the file. *)
Definition layout := nat -> Z * Z.
(** Articles do not overlap and are listed in the order of their places. *)
Definition ordered (n : nat) (lay : layout) (size : Z) : Prop :=
  (forall i, (i < n)%nat -> 0 <= fst (lay i) /\ snd (lay i) <= size) /\
  (forall i j, (i < j)%nat -> (j < n)%nat -> snd (lay i) <= fst (lay j)).

(** Events as they come from servers whose articles keep to the layout: all in yEnc, each within its place; an article is
    finished when it is as long as announced, and is not downloaded again. *)
Definition proper (n : nat) (lay : layout) (size : Z) (h : history) (x : wop) : Prop :=
  match x with
  | OStart i fm fsize off asize _ =>
    (i < n)%nat /\ fm = FYenc /\ fsize = size /\ 0 < asize /\ fst (lay i) <= off /\ off + asize <= snd (lay i) /\
    (forall v, h i = Some v -> v_done v = false)
  | OFinish i true _ => forall v, h i = Some v -> v_done v = false -> Z.of_nat (length (v_got v)) = v_size v
  | ONew i => forall v, h i = Some v -> v_done v = false
  | _ => True
  end.
Inductive proper_run (n : nat) (lay : layout) (size : Z) : history -> list wop -> history -> Prop :=
| pr_nil h : proper_run n lay size h [] h
| pr_cons h x l h' : proper n lay size h x -> proper_run n lay size (arrive h x) l h' -> proper_run n lay size h (x :: l) h'.

(** The bytes [g] stand at [off] in the file. *)
Definition stands_at (out : list Z) (off : Z) (g : list Z) : Prop :=
  exists a b, out = a ++ g ++ b /\ Z.of_nat (length a) = off.
(** The finished file has all that arrived. *)
Definition assembled (n : nat) (h : history) (out : list Z) : Prop :=
  forall i v, (i < n)%nat -> h i = Some v -> v_done v = true -> stands_at out (v_off v) (v_got v).

(** All articles arrived; each begins where the one before it ends, the last ends at the end of the file. *)
Definition covers (n : nat) (h : history) (size : Z) (all : list Z) : Prop :=
  exists vs, Forall2 (fun i v => h i = Some v /\ v_done v = true) (seq 0 n) vs /\
    (forall k v, nth_error vs k = Some v -> v_off v = Z.of_nat (length (concat (map v_got (firstn k vs))))) /\
    all = concat (map v_got vs) /\ Z.of_nat (length all) = size.

(** ** Resuming: a file in which the finished articles are stored, either in the output file or each in its own. *)
Definition stored (direct : bool) (f : wfile) (a : art) (v : arrival) : Prop :=
  a_fin a = true /\ a_off a = v_off v /\ a_size a = Z.of_nat (length (v_got v)) /\ a_seg a = None /\
  if direct then exists c, f_out f = Some c /\ stands_at c (v_off v) (v_got v) else a_res a = Some (v_got v).
Definition resumed (direct : bool) (n : nat) (lay : layout) (size : Z) (f : wfile) (h : history) : Prop :=
  length (f_arts f) = n /\ f_cached f = 0 /\
  (direct = false -> f_init f = false) /\ (f_force f = true -> f_init f = true) /\
  (f_init f = true -> f_out f <> None) /\
  (forall c, f_out f = Some c -> Z.of_nat (length c) = size \/ (f_init f = false /\ forall i, h i = None)) /\
  (forall i, (n <= i)%nat -> h i = None) /\
  (forall i a, nth_error (f_arts f) i = Some a -> a_w a = writer0 /\
    match h i with
    | None => a_fin a = false /\ a_seg a = None
    | Some v => v_done v = true /\ stored direct f a v /\ fst (lay i) <= v_off v /\
                v_off v + Z.of_nat (length (v_got v)) <= snd (lay i)
    end).
(** The output file is known to be one when the file is completed: it was before, or an article was started. *)
Definition opened (f : wfile) (l : list wop) : Prop :=
  f_init f = true \/ exists i fm fsize off asize alloc, In (OStart i fm fsize off asize alloc) l.

(** ** The cache *)
Definition total (l : list (Z * Z)) : Z := fold_right Z.add 0 (map snd l).
(** Blocks that are in use: given out and not freed. *)
Definition sane_op (k : acache) (x : kop) : Prop :=
  match x with
  | KAlloc size _ => 0 < size < 2 ^ 31
  | KRealloc p size _ => 0 < size < 2 ^ 31 /\ size <= size_of k p
  | KFree p => True
  end.
Inductive sane_run (o : kopts) : acache -> list kop -> Prop :=
| sr_nil k : sane_run o k []
| sr_cons k x l : sane_op k x -> sane_run o (fst (kstep o k x)) l -> sane_run o k (x :: l).

(** ** Memory *)
(** A download of an article meets one format only (the decoder keeps the format it has found, Decoder.cpp:35-55), and is only
    finished after data came in (ArticleDownloader.cpp:377). [fs]: the format, for each download that has started to write. *)
Definition set_f (i : nat) (x : option format) (fs : nat -> option format) : nat -> option format := fun j => if (j =? i)%nat then x else fs j.
Fixpoint steady (fs : nat -> option format) (h : history) (l : list wop) : Prop :=
  match l with
  | [] => True
  | x :: r =>
    match x with
    | OStart i fm _ _ _ _ => (fs i = None \/ fs i = Some fm) /\ steady (set_f i (Some fm) fs) (arrive h x) r
    | OFinish i true _ => (forall v, h i = Some v -> v_done v = false -> v_got v <> []) /\ steady fs (arrive h x) r
    | ONew i => steady (set_f i None fs) (arrive h x) r
    | _ => steady fs (arrive h x) r
    end
  end.
