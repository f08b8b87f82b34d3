(** Writing of articles: daemon/nntp/ArticleWriter.cpp (Start, Write, Finish, FlushCache, CompleteFileParts,
    ArticleCache), as used by daemon/nntp/ArticleDownloader.cpp (Write, Download).
    One file with its articles. Every article has its writer (the ArticleDownloader that works on it).
    Operations of different articles are interleaved freely; the mutexes make each operation atomic, and the
    writes through different file handles take effect at once (buffers of the C library are not modelled).
    Not modelled: raw mode, SkipWrite, errors of the file system, the check for duplicate files,
    renaming while a file is completed.
    [None]: the behaviour is undefined (memory outside of a buffer, a file that is not open). *)
From Verif Require Import Base.

Inductive format := FYenc | FUx.
(** Options DirectWrite (true) and the state of the cache is given with each [OStart]. *)
Record wopts := WOpts { o_direct : bool }.

(** m_outFile: closed, the output file at a position, or the temporary file of the article. *)
Inductive target := TNone | TOut (pos : nat) | TTmp.

(** ArticleWriter.h:67-79; [w_on] is ArticleDownloader's m_writingStarted. *)
Record writer := Writer {
  w_on : bool; w_fmt : format; w_off : Z; w_size : Z; w_ptr : Z; w_data : option (list Z); w_to : target }.
Definition writer0 : writer := Writer false FUx 0 0 0 None TNone.

(** ArticleInfo (DownloadInfo.h:105-115): [a_decl] is the size in the nzb-file; [a_tmp] and [a_res] are the
    temporary file and the result file (none: it does not exist). *)
Record art := Art {
  a_decl : Z; a_fin : bool; a_off : Z; a_size : Z; a_seg : option (list Z);
  a_tmp : option (list Z); a_res : option (list Z); a_w : writer }.

(** FileInfo: [f_out] is the output file, [f_cached] is m_cachedArticles. *)
Record wfile := WFile { f_out : option (list Z); f_init : bool; f_force : bool; f_cached : Z; f_arts : list art }.

(** ** Bytes *)

(** Writing at a position; a gap is filled with zeros. *)
Definition write_at (s : list Z) (p : nat) (b : list Z) : list Z :=
  firstn p s ++ repeat 0 (p - length s) ++ b ++ skipn (p + length b) s.
(** fseek: a negative position is refused. *)
Definition seek (pos : nat) (off : Z) : nat := if 0 <=? off then Z.to_nat off else pos.
(** A block of [n] bytes which begins with [l], what follows is given by [junk]. *)
Definition sized (n : nat) (l junk : list Z) : list Z := firstn n (l ++ junk ++ repeat 0 n).

Fixpoint upd {A} (i : nat) (f : A -> A) (l : list A) : list A :=
  match l, i with
  | [], _ => []
  | x :: r, O => f x :: r
  | x :: r, S j => x :: upd j f r
  end.

Definition set_w (w : writer) (a : art) : art :=
  Art (a_decl a) (a_fin a) (a_off a) (a_size a) (a_seg a) (a_tmp a) (a_res a) w.
Definition set_arts (l : list art) (f : wfile) : wfile := WFile (f_out f) (f_init f) (f_force f) (f_cached f) l.

Definition is_yenc (x : format) : bool := match x with FYenc => true | FUx => false end.

(** ArticleWriter.cpp:251-284, [CreateOutputFile]: an existing file of the same size is kept. *)
Definition create_output (out : option (list Z)) (size : Z) : list Z :=
  let zeros := repeat 0 (Z.to_nat size) in
  match out with
  | Some c => if Z.of_nat (length c) =? size then c else zeros
  | None => zeros
  end.

(** ArticleWriter.cpp:69-154, [Start]. [alloc]: contents of the memory the cache gives, if it does. *)
Definition start (o : wopts) (i : nat) (fm : format) (fsize off asize : Z) (alloc : option (list Z)) (f : wfile) : wfile :=
  match nth_error (f_arts f) i with
  | None => f
  | Some a =>
    let w := a_w a in
    let size := if asize =? 0 then a_decl a else asize in
    let create := is_yenc fm && o_direct o && negb (f_init f) in
    let out := if create then Some (create_output (f_out f) fsize) else f_out f in
    let init := f_init f || create in
    let data :=
      if negb (o_direct o) || is_yenc fm then
        match alloc with Some junk => if 0 <=? size then Some (sized (Z.to_nat size) [] junk) else None | None => None end
      else w_data w in
    let f1 := WFile out init (f_force f) (f_cached f) (f_arts f) in
    match data with
    | Some d => set_arts (upd i (set_w (Writer true fm off size 0 (Some d) TNone)) (f_arts f)) f1
    | None =>
      if (o_direct o || f_force f) && is_yenc fm then
        match out with
        | Some _ => set_arts (upd i (set_w (Writer true fm off size 0 None (TOut (seek 0 off)))) (f_arts f)) f1
        | None => set_arts (upd i (set_w (Writer false fm off size 0 None TNone)) (f_arts f)) f1
        end
      else
        set_arts (upd i (fun a => Art (a_decl a) (a_fin a) (a_off a) (a_size a) (a_seg a) (Some []) (a_res a)
                                      (Writer true fm off size 0 None TTmp)) (f_arts f)) f1
    end
  end.

(** ArticleWriter.cpp:156-184, [Write]; the downloader calls it only when writing has started. *)
Definition write (i : nat) (b : list Z) (f : wfile) : option wfile :=
  match nth_error (f_arts f) i with
  | None => Some f
  | Some a =>
    let w := a_w a in
    if negb (w_on w) then Some f
    else
      let len := Z.of_nat (length b) in
      let ptr := w_ptr w + len in
      let put d t := Writer true (w_fmt w) (w_off w) (w_size w) ptr d t in
      if w_size w <? ptr then Some (set_arts (upd i (set_w (put (w_data w) (w_to w))) (f_arts f)) f)
      else
        match w_data w with
        | Some d =>
          if Z.of_nat (length d) <? ptr then None
          else Some (set_arts (upd i (set_w (put (Some (write_at d (Z.to_nat (w_ptr w)) b)) (w_to w))) (f_arts f)) f)
        | None =>
          match w_to w with
          | TNone => None
          | TOut pos =>
            match f_out f with
            | None => None
            | Some c =>
              Some (WFile (Some (write_at c pos b)) (f_init f) (f_force f) (f_cached f)
                     (upd i (set_w (put None (TOut (pos + length b)))) (f_arts f)))
            end
          | TTmp =>
            Some (set_arts (upd i (fun a => Art (a_decl a) (a_fin a) (a_off a) (a_size a) (a_seg a)
                                      (Some (match a_tmp a with Some t => t | None => [] end ++ b)) (a_res a) (put None TTmp)) (f_arts f)) f)
          end
        end
  end.

(** ArticleWriter.cpp:186-248, [Finish], with the status set by QueueCoordinator.cpp (ArticleCompleted).
    [junk]: the memory gained when the block is enlarged. The block of an article without data is freed by realloc,
    the writer keeps the pointer: undefined. *)
Definition finish (o : wopts) (i : nat) (ok : bool) (junk : list Z) (f : wfile) : option wfile :=
  match nth_error (f_arts f) i with
  | None => Some f
  | Some a =>
    let w := a_w a in
    if negb (w_on w) then Some f
    else
      let off d := Writer false (w_fmt w) (w_off w) (w_size w) (w_ptr w) d TNone in
      if negb ok then
        Some (set_arts (upd i (fun a => Art (a_decl a) (a_fin a) (a_off a) (a_size a) (a_seg a) None None (off (w_data w))) (f_arts f)) f)
      else
        let direct := (o_direct o || f_force f) && is_yenc (w_fmt w) in
        match w_data w with
        | Some d =>
          if negb (w_size w =? w_ptr w) && (w_ptr w =? 0) then None
          else
            let d' := if w_size w =? w_ptr w then d else sized (Z.to_nat (w_ptr w)) d junk in
            Some (WFile (f_out f) (f_init f) (f_force f) (f_cached f + 1)
              (upd i (fun a => Art (a_decl a) true (w_off w) (w_ptr w) (Some d') (a_tmp a) (a_res a) (off None)) (f_arts f)))
        | None =>
          Some (set_arts (upd i (fun a =>
            if direct then Art (a_decl a) true (w_off w) (w_ptr w) (a_seg a) (a_tmp a) (a_res a) (off None)
            else Art (a_decl a) true (w_off w) (w_ptr w) (a_seg a) None
                     (match a_tmp a with Some t => Some t | None => a_res a end) (off None)) (f_arts f)) f)
        end
  end.

(** ArticleWriter.cpp:560-672, [FlushCache], one article of it. *)
Definition flush (o : wopts) (i : nat) (f : wfile) : wfile :=
  match nth_error (f_arts f) i with
  | None => f
  | Some a =>
    match a_seg a with
    | None => f
    | Some d =>
      if o_direct o && f_init f then
        WFile (match f_out f with Some c => Some (write_at c (seek 0 (a_off a)) d) | None => None end)
          (f_init f) (f_force f) (f_cached f - 1)
          (upd i (fun a => Art (a_decl a) (a_fin a) (a_off a) (a_size a) None (a_tmp a) (a_res a) (a_w a)) (f_arts f))
      else
        WFile (f_out f) (f_init f) (f_force f) (f_cached f - 1)
          (upd i (fun a => Art (a_decl a) (a_fin a) (a_off a) (a_size a) None None (Some d) (a_w a)) (f_arts f))
    end
  end.

(** A new download of the article: the old writer is destroyed. *)
Definition renew (i : nat) (f : wfile) : wfile := set_arts (upd i (set_w writer0) (f_arts f)) f.

(** ArticleWriter.cpp:404-482, the loop of [CompleteFileParts] without direct writing: the file, the position in
    it, and the number of articles not found. *)
Fixpoint join (l : list art) (out : list Z) (pos : nat) (lost : Z) : list Z * Z :=
  match l with
  | [] => (out, lost)
  | a :: r =>
    if negb (a_fin a) then join r out pos lost
    else
      let gap := (Z.to_nat (a_off a) - pos)%nat in
      let out1 := write_at out pos (repeat 0 gap) in
      let pos1 := (pos + gap)%nat in
      match a_seg a with
      | Some d => let p := seek pos1 (a_off a) in join r (write_at out1 p d) (p + length d) lost
      | None => match a_res a with
                | Some d => join r (write_at out1 pos1 d) (pos1 + length d) lost
                | None => join r out1 pos1 (lost + 1)
                end
      end
  end.
(** The same with direct writing. *)
Fixpoint patch (l : list art) (out : list Z) : list Z :=
  match l with
  | [] => out
  | a :: r =>
    match a_seg a with
    | Some d => if a_fin a then patch r (write_at out (seek 0 (a_off a)) d) else patch r out
    | None => patch r out
    end
  end.
Definition has_seg (a : art) : bool := match a_seg a with Some _ => true | None => false end.

(** ArticleWriter.cpp:299-558, [CompleteFileParts]: the finished file and the number of articles not found. *)
Definition complete (o : wopts) (f : wfile) : option (list Z * Z) :=
  if (o_direct o || f_force f) && f_init f then
    match f_out f with
    | None => None
    | Some c => if (f_cached f <=? 0) && existsb (fun a => has_seg a && a_fin a) (f_arts f) then None
                else Some (patch (f_arts f) c, 0)
    end
  else Some (join (f_arts f) [] 0 0).

(** ** Runs *)
Inductive wop :=
| OStart (i : nat) (fm : format) (fsize off asize : Z) (alloc : option (list Z))
| OWrite (i : nat) (b : list Z)
| OFinish (i : nat) (ok : bool) (junk : list Z)
| OFlush (i : nat)
| ONew (i : nat).
Definition wstep (o : wopts) (f : wfile) (x : wop) : option wfile :=
  match x with
  | OStart i fm fsize off asize alloc => Some (start o i fm fsize off asize alloc f)
  | OWrite i b => write i b f
  | OFinish i ok junk => finish o i ok junk f
  | OFlush i => Some (flush o i f)
  | ONew i => Some (renew i f)
  end.
Fixpoint wrun (o : wopts) (f : wfile) (l : list wop) : option wfile :=
  match l with
  | [] => Some f
  | x :: r => match wstep o f x with Some f' => wrun o f' r | None => None end
  end.

(** A file before the download; [decls] are the sizes of the articles in the nzb-file. *)
Definition blank (decl : Z) : art := Art decl false 0 0 None None None writer0.
Definition file0 (decls : list Z) : wfile := WFile None false false 0 (map blank decls).

(** ** The article cache *)

(** ArticleCache (ArticleWriter.h:113-117): m_allocated, the flag file (DiskState::WriteCacheFlag), the live blocks with
    the sizes the segments remember; [k_next] names new blocks. *)
Record acache := ACache { k_alloc : Z; k_flag : bool; k_live : list (Z * Z); k_next : Z }.
Definition acache0 : acache := ACache 0 false [] 0.
(** Options: size of the cache in bytes; whether the flag file is used (server mode with ContinuePartial). *)
Record kopts := KOpts { k_limit : Z; k_use_flag : bool }.

Definition u64 (x : Z) : Z := x mod 2 ^ 64.
Definition size_of (k : acache) (p : Z) : Z :=
  match find (fun x => fst x =? p) (k_live k) with Some (_, n) => n | None => 0 end.

Inductive kop :=
| KAlloc (size : Z) (ok : bool)
| KRealloc (p : Z) (size : Z) (ok : bool)
| KFree (p : Z).
(** ArticleWriter.cpp:729-754, 756-769, 771-784; [ok]: malloc or realloc succeeds. *)
Definition kstep (o : kopts) (k : acache) (x : kop) : acache * option Z :=
  match x with
  | KAlloc size ok =>
    if (u64 (k_alloc k + u64 size) <=? k_limit o) && ok then
      (ACache (u64 (k_alloc k + u64 size)) (k_flag k || (k_use_flag o && (k_alloc k =? 0)))
              (k_live k ++ [(k_next k, size)]) (k_next k + 1), Some (k_next k))
    else (k, None)
  | KRealloc p size ok =>
    if existsb (fun x => fst x =? p) (k_live k) && ok then
      (ACache (u64 (k_alloc k + u64 (size - size_of k p))) (k_flag k)
              (map (fun x => if fst x =? p then (p, size) else x) (k_live k)) (k_next k), Some p)
    else (k, None)
  | KFree p =>
    if negb (size_of k p =? 0) then
      let a := u64 (k_alloc k - size_of k p) in
      (ACache a (k_flag k && negb (k_use_flag o && (a =? 0))) (filter (fun x => negb (fst x =? p)) (k_live k)) (k_next k), None)
    else (k, None)
  end.
Fixpoint krun (o : kopts) (k : acache) (l : list kop) : acache :=
  match l with [] => k | x :: r => krun o (fst (kstep o k x)) r end.
