(** Model of the text buffers: daemon/util/NString.h and daemon/util/NString.cpp.
    Memory is modelled byte by byte: a block is the list of its bytes, an indeterminate
    byte is [junk], and [None] is an access outside a block or a test of an indeterminate byte.
    A source text is the memory which starts at the pointer. Formatted texts are taken as
    the text [vsnprintf] makes of its arguments.
    Not modelled: sources inside the buffer being changed, failing allocations, failing
    conversions of [vsnprintf], lengths above 2^30 (where [int] arithmetic overflows). *)
From Coq Require Import String.
From Verif Require Import Base FeedModel.
Open Scope list_scope. Open Scope Z_scope.

Definition junk : Z := -1.
Definition zlen {A} (l : list A) : Z := Z.of_nat (length l).

(** The string which starts at the head of this memory ([strlen], [strcpy], [strstr]). *)
Fixpoint cstr (mem : list Z) : option (list Z) :=
  match mem with
  | [] => None
  | c :: r => if c =? 0 then Some [] else if c <? 0 then None else option_map (cons c) (cstr r)
  end.
(** Stores into a block. *)
Definition write_at (mem : list Z) (off : Z) (bs : list Z) : option (list Z) :=
  if (0 <=? off) && (off + zlen bs <=? zlen mem)
  then Some (firstn (Z.to_nat off) mem ++ bs ++ skipn (Z.to_nat off + length bs) mem) else None.
(** The [n] bytes [strncpy] stores. *)
Fixpoint ncpy (n : nat) (src : list Z) : option (list Z) :=
  match n with
  | O => Some []
  | S n' => match src with
            | [] => None
            | c :: r => if c =? 0 then Some (repeat 0 n) else if c <? 0 then None else option_map (cons c) (ncpy n' r)
            end
  end.
Definition strncpy (mem : list Z) (off : Z) (src : list Z) (n : Z) : option (list Z) :=
  if n <? 0 then None else obind (ncpy (Z.to_nat n) src) (write_at mem off).
(** [vsnprintf(mem + off, size, ...)] for the formatted text. *)
Definition vsn (mem : list Z) (off size : Z) (text : list Z) : option (list Z) :=
  if size <=? 0 then Some mem else write_at mem off (firstn (Z.to_nat (size - 1)) text ++ [0]).
(** [realloc(mem, n)], [nullptr] being the empty block. *)
Definition resize (mem : list Z) (n : Z) : list Z :=
  firstn (Z.to_nat n) mem ++ repeat junk (Z.to_nat n - length mem).

(** ** BString *)

(** NString.h:31. *)
Definition bs_new (size : Z) : option (list Z) := write_at (repeat junk (Z.to_nat size)) 0 [0].
(** NString.cpp:33-39. *)
Definition bs_set (mem src : list Z) (len : Z) : option (list Z) :=
  let size := zlen mem in
  obind (write_at mem 0 [0]) (fun m1 =>
  let add := if 0 <? len then Z.min (size - 1) len else size - 1 in
  obind (strncpy m1 0 src add) (fun m2 =>
  write_at m2 add [0])).
(** NString.cpp:42-56. *)
Definition bs_append (mem src : list Z) (len : Z) : option (list Z) :=
  let size := zlen mem in
  obind (if len =? 0 then option_map zlen (cstr src) else Some len) (fun len1 =>
  obind (cstr mem) (fun cur =>
  let avail := size - zlen cur - 1 in
  let add := Z.min avail len1 in
  if 0 <? add then
    obind (strncpy mem (zlen cur) src add) (fun m1 => write_at m1 (zlen cur + add) [0])
  else Some mem)).
(** NString.cpp:68-76. *)
Definition bs_append_fmt (mem text : list Z) : option (list Z) :=
  obind (cstr mem) (fun cur =>
  let avail := zlen mem - zlen cur in
  if 0 <? avail then vsn mem (zlen cur) avail text else Some mem).
(** NString.cpp:88-93, and the length returned. *)
Definition bs_format (mem text : list Z) : option (list Z) := vsn mem 0 (zlen mem) text.
Definition bs_format_len (text : list Z) : Z := zlen text.
(** NString.h:38. *)
Definition bs_clear (mem : list Z) : option (list Z) := write_at mem 0 [0].

Inductive bufop :=
| OSet (src : list Z) (len : Z) | OAppend (src : list Z) (len : Z)
| OFormat (text : list Z) | OAppendFmt (text : list Z) | OClear.
Definition bs_step (mem : list Z) (o : bufop) : option (list Z) :=
  match o with
  | OSet src len => bs_set mem src len
  | OAppend src len => bs_append mem src len
  | OFormat t => bs_format mem t
  | OAppendFmt t => bs_append_fmt mem t
  | OClear => bs_clear mem
  end.
Fixpoint bs_run (mem : list Z) (ops : list bufop) : option (list Z) :=
  match ops with [] => Some mem | o :: r => obind (bs_step mem o) (fun m => bs_run m r) end.

(** ** CString; the empty block is [m_data == nullptr] *)

(** NString.h:76, [Length]. *)
Definition cs_text (mem : list Z) : option (list Z) := match mem with [] => Some [] | _ => cstr mem end.
(** NString.cpp:107-124; [None] for the source: a null pointer. *)
Definition cs_set (mem : list Z) (src : option (list Z)) (len : Z) : option (list Z) :=
  match src with
  | None => Some []
  | Some s =>
      obind (if len =? 0 then option_map zlen (cstr s) else Some len) (fun n =>
      obind (strncpy (resize mem (n + 1)) 0 s n) (fun m1 => write_at m1 n [0]))
  end.
(** NString.cpp:126-137. *)
Definition cs_append (mem src : list Z) (len : Z) : option (list Z) :=
  obind (if len =? 0 then option_map zlen (cstr src) else Some len) (fun n =>
  obind (cs_text mem) (fun cur =>
  obind (strncpy (resize mem (zlen cur + n + 1)) (zlen cur) src n) (fun m1 => write_at m1 (zlen cur + n) [0]))).
(** NString.cpp:147-162. *)
Definition cs_append_fmt (mem text : list Z) : option (list Z) :=
  obind (cs_text mem) (fun cur =>
  let new := zlen cur + zlen text in
  vsn (resize mem (new + 1)) (zlen cur) (new + 1) text).
(** NString.cpp:173-186. *)
Definition cs_format (mem text : list Z) : option (list Z) :=
  vsn (resize mem (zlen text + 1)) 0 (zlen text + 1) text.
(** NString.cpp:188-196; -1: not found. *)
Fixpoint find_from (pos : Z) (s what : list Z) : Z :=
  if prefixb what s then pos else match s with [] => -1 | _ :: r => find_from (pos + 1) r what end.
Definition cs_find (mem what : list Z) (pos : Z) : option Z :=
  obind (cs_text mem) (fun cur =>
  if negb (pos =? 0) && (zlen cur <=? pos) then Some (-1) else
  obind (cstr (skipn (Z.to_nat pos) mem)) (fun s => Some (find_from pos s what))).
(** NString.cpp:198-219. *)
Definition cs_replace (mem : list Z) (pos len : Z) (src : list Z) (srclen : Z) : option (list Z) :=
  obind (cstr src) (fun t =>
  let add := if 0 <? srclen then Z.min (zlen t) srclen else zlen t in
  obind (cs_text mem) (fun cur =>
  let del := if pos + len <=? zlen cur then len else zlen cur - pos in
  let new := zlen cur - del + add in
  if zlen cur <? pos then Some mem else
  obind (strncpy (repeat junk (Z.to_nat (new + 1))) 0 mem pos) (fun m1 =>
  obind (strncpy m1 pos src add) (fun m2 =>
  obind (cstr (skipn (Z.to_nat (pos + len)) mem)) (fun rest =>
  write_at m2 (pos + add) (rest ++ [0])))))).
(** NString.cpp:221-231. *)
Fixpoint cs_replace_all (fuel : nat) (mem from to : list Z) (pos : Z) : option (list Z) :=
  match fuel with
  | O => None
  | S f =>
      obind (cs_find mem from pos) (fun p =>
      if p =? -1 then Some mem else
      obind (cs_replace mem p (zlen from) (to ++ [0]) 0) (fun m => cs_replace_all f m from to (p + zlen to)))
  end.
(** NString.cpp:246-254. *)
Definition cs_reserve (mem : list Z) (cap : Z) : option (list Z) :=
  obind (cs_text mem) (fun cur =>
  if (zlen cur <? cap) || (zlen cur =? 0) then write_at (resize mem (cap + 1)) (zlen cur) [0] else Some mem).
(** NString.cpp:266-281. *)
Definition blank (c : Z) : bool := (c =? 10) || (c =? 13) || (c =? 32) || (c =? 9).
Fixpoint blank_end (k : nat) (mem : list Z) : list Z :=
  match k with
  | O => mem
  | S k' => if blank (nth k' mem 0) then blank_end k' (firstn k' mem ++ [0] ++ skipn (S k') mem) else mem
  end.
Definition cs_trim (mem : list Z) : option (list Z) :=
  obind (cs_text mem) (fun cur => Some (blank_end (length cur) mem)).

Inductive csop :=
| CSet (src : list Z) (len : Z) | CNull | CAppend (src : list Z) (len : Z) | CFormat (text : list Z)
| CAppendFmt (text : list Z) | CReserve (cap : Z) | CTrim | CReplace (pos len : Z) (src : list Z) (srclen : Z).
Definition cs_step (mem : list Z) (o : csop) : option (list Z) :=
  match o with
  | CSet src len => cs_set mem (Some src) len
  | CNull => cs_set mem None 0
  | CAppend src len => cs_append mem src len
  | CFormat t => cs_format mem t
  | CAppendFmt t => cs_append_fmt mem t
  | CReserve cap => cs_reserve mem cap
  | CTrim => cs_trim mem
  | CReplace pos len src n => cs_replace mem pos len src n
  end.
Fixpoint cs_run (mem : list Z) (ops : list csop) : option (list Z) :=
  match ops with [] => Some mem | o :: r => obind (cs_step mem o) (fun m => cs_run m r) end.

(** ** StringBuilder *)
Record builder := mkSb { sb_mem : list Z; sb_len : Z; sb_cap : Z }.
Definition sb_new : builder := mkSb [] 0 0.
(** NString.cpp:333-350. *)
Definition sb_reserve (b : builder) (cap : Z) (exact : bool) : option builder :=
  if (sb_cap b <? cap) || (sb_cap b =? 0) then
    let smart := if exact then 0 else sb_cap b * 3 / 2 in
    let ncap := if cap <? smart then smart else cap in
    let m := resize (sb_mem b) (ncap + 1) in
    obind (match sb_mem b with [] => write_at m 0 [0] | _ => Some m end) (fun m1 =>
    Some (mkSb m1 (sb_len b) ncap))
  else Some b.
(** NString.cpp:352-366. *)
Definition sb_append (b : builder) (src : list Z) (len : Z) : option builder :=
  obind (if len =? 0 then option_map zlen (cstr src) else Some len) (fun n =>
  let new := sb_len b + n in
  obind (sb_reserve b new false) (fun b1 =>
  obind (strncpy (sb_mem b1) (sb_len b) src n) (fun m =>
  obind (write_at m (sb_len b + n) [0]) (fun m1 =>
  Some (mkSb m1 new (sb_cap b1)))))).
(** NString.cpp:376-393. *)
Definition sb_append_fmt (b : builder) (text : list Z) : option builder :=
  let new := sb_len b + zlen text in
  obind (sb_reserve b new false) (fun b1 =>
  obind (vsn (sb_mem b1) (sb_len b) (new + 1) text) (fun m =>
  Some (mkSb m new (sb_cap b1)))).
(** NString.cpp:316-322. *)
Definition sb_clear (b : builder) : builder := sb_new.

Inductive sbop := SAppend (src : list Z) (len : Z) | SAppendFmt (text : list Z) | SReserve (cap : Z) (exact : bool) | SClear.
Definition sb_step (b : builder) (o : sbop) : option builder :=
  match o with
  | SAppend src len => sb_append b src len
  | SAppendFmt t => sb_append_fmt b t
  | SReserve cap exact => sb_reserve b cap exact
  | SClear => Some (sb_clear b)
  end.
Fixpoint sb_run (b : builder) (ops : list sbop) : option builder :=
  match ops with [] => Some b | o :: r => obind (sb_step b o) (fun b' => sb_run b' r) end.
