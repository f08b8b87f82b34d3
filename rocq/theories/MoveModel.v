(** Model of moving and sorting queue entries, daemon/queue/QueueEditor.cpp.
    A queue (list of groups, or the list of files of a group) is the list of the
    ids of its entries; objects are identified by their ids. *)
From Verif Require Import Base.

(** daemon/queue/QueueEditor.cpp:232-241 and 264-273: index of an entry (the size
    of the list when absent). *)
Fixpoint index_of (x : Z) (l : list Z) : nat :=
  match l with
  | [] => O
  | y :: t => if y =? x then O else S (index_of x t)
  end.

Definition remove_at {A} (i : nat) (l : list A) : list A := firstn i l ++ skipn (S i) l.
Definition insert_at {A} (i : nat) (x : A) (l : list A) : list A := firstn i l ++ x :: skipn i l.

(** daemon/queue/QueueEditor.cpp:230-292, [MoveEntry], [MoveGroup]. [None]: entry not
    in the list (dereferences the end iterator). *)
Definition move_entry (x : Z) (offset : Z) (l : list Z) : option (list Z) :=
  let entry := index_of x l in
  let size := Z.of_nat (length l) in
  let n := Z.of_nat entry + offset in
  let n := if n <? 0 then 0 else n in
  let n := if size - 1 <? n then size - 1 else n in
  if (0 <=? n) && (n <=? size - 1) then
    if (length l <=? entry)%nat then None
    else Some (insert_at (Z.to_nat n) x (remove_at entry l))
  else Some l.

Definition mem (ids : list Z) (x : Z) : bool := existsb (Z.eqb x) ids.

(** daemon/queue/QueueEditor.cpp:496-520 and 552-576: the offset for one selected entry. *)
Definition work_offset (offset index last n : Z) : Z :=
  let dest := index + offset in
  if last =? -1 then
    if dest <? 0 then - index
    else if n - 1 <? dest then n - 1 - index
    else offset
  else
    if (offset <? 0) && (dest <=? last) then last - index + 1
    else if (0 <? offset) && (last <=? dest) then last - index - 1
    else offset.

(** daemon/queue/QueueEditor.cpp:490-523 and 546-579: the loop over the entries in
    queue order (entries given with their indices). *)
Fixpoint prepare_go (ids : list Z) (offset n last : Z) (es : list (Z * Z)) : list (Z * Z) :=
  match es with
  | [] => []
  | (i, x) :: t =>
    if mem ids x then
      let w := work_offset offset i last n in
      (x, w) :: prepare_go ids offset n (i + w) t
    else prepare_go ids offset n last t
  end.

Fixpoint indexed (i : Z) (l : list Z) : list (Z * Z) :=
  match l with [] => [] | x :: t => (i, x) :: indexed (i + 1) t end.

(** daemon/queue/QueueEditor.cpp:456-648, [PrepareList] for the move actions; entries
    with offset 0 are taken in the order of the command (lines 581-647; the id range
    check there only skips ids that are not found anyway). *)
Definition prepare (ids : list Z) (offset : Z) (l : list Z) : list (Z * Z) :=
  let n := Z.of_nat (length l) in
  if offset =? 0 then
    flat_map (fun id => map (fun x => (x, 0)) (filter (Z.eqb id) l)) ids
  else if offset <? 0 then prepare_go ids offset n (-1) (indexed 0 l)
  else prepare_go ids offset n (-1) (rev (indexed 0 l)).

(** daemon/queue/QueueEditor.cpp:369-419, [InternEditList]: the items one after the other. *)
Fixpoint move_items (items : list (Z * Z)) (l : list Z) : option (list Z) :=
  match items with
  | [] => Some l
  | (x, w) :: t => match move_entry x w l with Some l' => move_items t l' | None => None end
  end.

(** [int destPos = index + workOffset] (lines 497, 553) is signed arithmetic: it must
    stay in the range of [int] for every selected entry. *)
Definition int_ok (z : Z) : bool := (-2147483648 <=? z) && (z <=? 2147483647).
Definition dest_ok (ids : list Z) (offset : Z) (l : list Z) : bool :=
  forallb (fun p => negb (mem ids (snd p)) || int_ok (fst p + offset)) (indexed 0 l).

(** Group or file move by offset (eaGroupMoveOffset, eaFileMoveOffset), lines 333-454.
    [None]: undefined behaviour (signed overflow). *)
Definition move_by (ids : list Z) (offset : Z) (l : list Z) : option (list Z) :=
  if (offset =? 0) || dest_ok ids offset l then move_items (prepare ids offset l) l else None.

(** daemon/queue/QueueEditor.cpp:34, 459-466: top and bottom. *)
Definition max_id : Z := 1000000000.
Definition move_top (ids l : list Z) : option (list Z) := move_by ids (- max_id) l.
Definition move_bottom (ids l : list Z) : option (list Z) := move_by ids max_id l.

(** daemon/queue/QueueEditor.cpp:1050-1087, [AlignGroups]. [last]: lastNum when
    lastNzbInfo is set. The reference [nzbInfo] is only used as a non-null flag after
    the move. *)
Fixpoint align_go (fuel : nat) (ids : list Z) (num : nat) (last : option nat) (l : list Z) : list Z :=
  match fuel with
  | O => l
  | S f =>
    match nth_error l num with
    | None => l
    | Some x =>
      if mem ids x then
        match last with
        | Some ln =>
          if (1 <? num - ln)%nat then
            align_go f ids (S num) (Some (S ln)) (insert_at (S ln) x (remove_at num l))
          else align_go f ids (S num) (Some num) l
        | None => align_go f ids (S num) (Some num) l
        end
      else align_go f ids (S num) last l
    end
  end.
Definition align (ids : list Z) (l : list Z) : list Z := align_go (length l) ids 0 None l.

(** daemon/queue/QueueEditor.cpp:1111-1131: the next entry after the target that is not moved. *)
Fixpoint next_unmoved (ids : list Z) (target : Z) (found : bool) (l : list Z) : option Z :=
  match l with
  | [] => None
  | x :: t =>
    if found then if mem ids x then next_unmoved ids target found t else Some x
    else next_unmoved ids target (target =? x) t
  end.

(** daemon/queue/QueueEditor.cpp:1144-1169: offset between the first moved entry and the target. *)
Fixpoint calc_offset (before : bool) (target move k : Z) (progress : bool) (step offset : Z) (l : list Z) : Z :=
  match l with
  | [] => offset
  | id :: t =>
    if (id =? target) || (id =? move) then
      if negb progress then
        let step := if id =? target then -1 else 1 in
        let offset := (if before then 0 else 1) - (if 0 <? step then k else 0) in
        calc_offset before target move k true step (offset + step) t
      else offset
    else calc_offset before target move k progress step (if progress then offset + step else offset) t
  end.

(** daemon/queue/QueueEditor.cpp:1098-1174, [MoveGroupsTo]. The item list consists of
    the selected entries in queue order (lines 526-580 with offset 0); with no item the
    command fails and changes nothing. *)
Definition move_to (ids : list Z) (before : bool) (target : Z) (l : list Z) : option (list Z) :=
  let items := filter (mem ids) l in
  match items with
  | [] => Some l
  | first :: _ =>
    let '(target, before, offset) :=
      if mem items target then
        match next_unmoved items target false l with
        | Some t => (t, true, 0)
        | None => (target, before, max_id)
        end
      else (target, before, 0) in
    let l := align items l in
    let offset :=
      if offset =? 0 then
        calc_offset before target first (Z.of_nat (length items)) false 0 0 l
      else offset in
    move_by ids offset l
  end.

(** ** Sorting *)

(** [std::stable_sort] as insertion sort: [x], which stood before all of [l], is put
    into the sorted [l] before the first element that is not less than [x]. *)
Fixpoint insert_sorted {A} (lt : A -> A -> bool) (x : A) (l : list A) : list A :=
  match l with
  | [] => [x]
  | y :: t => if lt y x then y :: insert_sorted lt x t else x :: l
  end.
Fixpoint stable_sort {A} (lt : A -> A -> bool) (l : list A) : list A :=
  match l with [] => [] | x :: t => insert_sorted lt x (stable_sort lt t) end.

(** Fields of NzbInfo used for sorting. *)
Record group := mkGroup { g_id : Z; g_name : list Z; g_size : Z; g_remaining : Z; g_paused : Z;
  g_mintime : Z; g_category : list Z; g_priority : Z }.

(** C [strcmp(a, b) < 0] on unsigned bytes. *)
Fixpoint str_lt (a b : list Z) : bool :=
  match a, b with
  | _, [] => false
  | [], _ => true
  | x :: a', y :: b' => if x <? y then true else if y <? x then false else str_lt a' b'
  end.

Inductive criteria := ScName | ScSize | ScRemaining | ScAge | ScCategory | ScPriority.
Inductive order := SoAsc | SoDesc | SoAuto.

(** daemon/queue/QueueEditor.cpp:169-195. *)
Definition crit_lt (c : criteria) (a b : group) : bool :=
  match c with
  | ScName => str_lt (g_name a) (g_name b)
  | ScSize => g_size a <? g_size b
  | ScRemaining => g_remaining a - g_paused a <? g_remaining b - g_paused b
  | ScAge => g_mintime b <? g_mintime a
  | ScCategory => str_lt (g_category a) (g_category b)
  | ScPriority => g_priority a <? g_priority b
  end.

(** daemon/queue/QueueEditor.cpp:142-198, the comparator; an empty item list selects everything. *)
Definition sort_lt (sel : list Z) (c : criteria) (o : order) (a b : group) : bool :=
  let s x := match sel with [] => true | _ => mem sel (g_id x) end in
  if negb (s a && s b) then false
  else match o with SoDesc => crit_lt c b a | _ => crit_lt c a b end.

Fixpoint same_ids (a b : list group) : bool :=
  match a, b with
  | [], [] => true
  | x :: a', y :: b' => (g_id x =? g_id y) && same_ids a' b'
  | _, _ => false
  end.

(** daemon/queue/QueueEditor.cpp:114-140, [Execute] after the criterion was parsed. *)
Definition sort_exec (sel : list Z) (c : criteria) (o : order) (l : list group) : list group :=
  let o1 := match o, c with SoAuto, ScPriority => SoDesc | _, _ => o end in
  let r := stable_sort (sort_lt sel c o1) l in
  match o with
  | SoAuto =>
    if same_ids l r then
      stable_sort (sort_lt sel c (match o1 with SoDesc => SoAsc | _ => SoDesc end)) r
    else r
  | _ => r
  end.

(** The group records of the queue arranged in the order of a list of ids. *)
Definition find_group (l : list group) (id : Z) : list group := filter (fun g => g_id g =? id) l.

(** daemon/queue/QueueEditor.cpp:615-647 and 1043-1048, [SortGroups]: the item list has the
    groups whose ids were given; the selection is aligned, then sorted. *)
Definition sort_groups (ids : list Z) (c : criteria) (o : order) (l : list group) : list group :=
  let sel := filter (mem (map g_id l)) ids in
  sort_exec sel c o (flat_map (find_group l) (align sel (map g_id l))).

(** ** File order inside a group *)

(** Names of two non-par files, daemon/queue/QueueEditor.cpp:1270-1311, the comparator of
    [SortGroupFiles] restricted to files that are not par files. *)
Fixpoint ext_of (l : list Z) : list Z :=
  match l with
  | [] => []
  | c :: t => match ext_of t with [] => if c =? 46 then l else [] | e => e end
  end.
Definition isd (c : Z) : bool := (48 <=? c) && (c <=? 57).
Definition rar_ext : list Z := [46; 114; 97; 114].
Definition is_rnn (e : list Z) : bool :=
  match e with _ :: b :: c :: d :: _ => (b =? 114) && isd c && isd d | _ => false end.
Definition file_lt (a b : list Z) : bool :=
  let e1 := ext_of a in let e2 := ext_of b in
  let same := (length a =? length b)%nat && (length e1 =? 4)%nat && (length e2 =? 4)%nat
              && beqb (firstn (length a - 4) a) (firstn (length a - 4) b) in
  if same && beqb e1 rar_ext && is_rnn e2 then true
  else if same && beqb e2 rar_ext && is_rnn e1 then false
  else str_lt a b.

(** ** Pausing par files *)

(** daemon/queue/QueueEditor.cpp:835-896, [PausePars]. A file: (id, size, is par file,
    name contains .vol ignoring case in its first 1023 bytes). Result: the ids that are paused. *)
Record pfile := mkPf { pf_id : Z; pf_size : Z; pf_par : bool; pf_vol : bool }.

Fixpoint pause_smallest (smallest : option pfile) (vols : list pfile) : list Z :=
  match vols with
  | [] => []
  | f :: t =>
    match smallest with
    | None => pause_smallest (Some f) t
    | Some s =>
      if pf_size f <? pf_size s then pf_id s :: pause_smallest (Some f) t
      else pf_id f :: pause_smallest smallest t
    end
  end.

Definition pause_pars (extra_only : bool) (fl : list pfile) : list Z :=
  if negb extra_only then map pf_id (filter pf_par fl)
  else
    let vols := filter (fun f => pf_par f && pf_vol f) fl in
    let pars := filter (fun f => pf_par f && negb (pf_vol f)) fl in
    match pars with
    | _ :: _ => map pf_id vols
    | [] => pause_smallest None vols
    end.

(** ** Reordering the files of a group *)

(** daemon/queue/QueueEditor.cpp:1176-1202, [ReorderFiles] on the file list of the group
    of the first item; items of other groups are not found and skipped. *)
Fixpoint reorder_go (items : list Z) (pos : nat) (l : list Z) : list Z :=
  match items with
  | [] => l
  | x :: t =>
    let i := index_of x l in
    if (i <? length l)%nat then reorder_go t (S pos) (insert_at pos x (remove_at i l))
    else reorder_go t pos l
  end.
Definition reorder_files (items l : list Z) : list Z := reorder_go items 0 l.
