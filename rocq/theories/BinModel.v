(** Model of the binary remote protocol: daemon/remote/BinRpc.cpp (the server), daemon/remote/RemoteClient.cpp (the client, "nzbget -L" and
    the like), daemon/remote/MessageBase.h (the layout: 32-bit words in network byte order and texts, without gaps), the choice of the protocol in
    daemon/remote/RemoteServer.cpp and Recv of daemon/connect/Connection.cpp. A connection is the list of all bytes sent by the client. Memory is
    modelled as the bytes from a pointer to the end of the object; reading behind it is a distinct outcome. User and password have no
    NUL inside. Blocks of memory are aligned at four bytes. Not modelled: what the commands do, regular expressions, state of the server in
    the list, failing allocations of sizes below 2^31. *)
From Coq Require Import String.
From Verif Require Import Base WildModel.
From Verif Require StatusModel.
Open Scope list_scope. Open Scope Z_scope.

(** ** Words, fields, memory *)

(** htonl and ntohl. *)
Definition w32 (v : Z) : list Z := [v / 2 ^ 24 mod 256; v / 2 ^ 16 mod 256; v / 2 ^ 8 mod 256; v mod 256].
Definition word (mem : list Z) : Z :=
  match mem with a :: b :: c :: d :: _ => ((a * 256 + b) * 256 + c) * 256 + d | _ => 0 end.
Definition s32 (u : Z) : Z := if u <? 2 ^ 31 then u else u - 2 ^ 32.
Definition int (mem : list Z) : Z := s32 (word mem).
Definition drop (n : Z) (mem : list Z) : list Z := skipn (Z.to_nat n) mem.
Definition zlen (l : list Z) : Z := Z.of_nat (length l).
(** Connection.cpp:517-551, [Recv]: exactly so many bytes, or failure. *)
Definition recv (n : Z) (r : list Z) : option (list Z * list Z) :=
  if n <=? zlen r then Some (firstn (Z.to_nat n) r, drop n r) else None.
(** The text at a pointer. *)
Fixpoint ctext (mem : list Z) : option (list Z) :=
  match mem with [] => None | b :: m => if b =? 0 then Some [] else option_map (cons b) (ctext m) end.
(** strcmp with a text: equal or not. *)
Fixpoint cmp (mem s : list Z) : option bool :=
  match mem, s with
  | [], _ => None
  | b :: m, [] => Some (b =? 0)
  | b :: m, c :: r => if b =? c then cmp m r else Some false
  end.
(** strncasecmp with the first letters of a text: equal or not. *)
Fixpoint ncase (mem w : list Z) {struct w} : option bool :=
  match w with
  | [] => Some true
  | c :: r => match mem with [] => None | b :: m => if lower b =? lower c then ncase m r else Some false end
  end.

(** ** Commands *)

(** What is passed to the other parts of the program. *)
Inductive cmd :=
| CDownload (url : bool) (name category key content : list Z) (first paused : bool) (priority score mode : Z)
| CPause (pause : bool) (action : Z)
| CList (files state : bool) (mode : Z) (group : bool) (pattern : option (list Z))
| CRate (rate : Z)
| CDump
| CEdit (action mode offset : Z) (text : option (list Z)) (ids : list Z) (names : list (list Z))
| CLog (from lines : Z)
| CShutdown | CReload | CVersion | CPost
| CWriteLog (kind : Z) (t : list Z)
| CScan (sync : bool)
| CHistory (hidden : bool).
(** Nothing is done and nothing answered; a negative answer; done; memory is read outside of objects. *)
Inductive outcome := Refused | Negative | Exec (c : cmd) | Undefined.

(** BinRpc.cpp:396-449. *)
Definition is_url (c : list Z) : option bool :=
  match ncase c (str "http:/") with Some false => ncase c (str "https:/") | x => x end.
Definition do_download (b r : list Z) : outcome :=
  let b1 := drop 512 b in let b2 := drop 512 b1 in
  let b3 := drop 4 b2 in let b4 := drop 4 b3 in let b5 := drop 4 b4 in let b6 := drop 4 b5 in let b7 := drop 4 b6 in
  let b8 := drop 512 b7 in
  let len := int b8 in
  if len <? 0 then Undefined else
  match recv len r with
  | None => Refused
  | Some (c, _) =>
    match is_url c with
    | None => Undefined
    | Some u =>
      match ctext b, ctext b1, ctext b7, (if u then ctext c else Some c) with
      | Some n, Some cat, Some key, Some content =>
        Exec (CDownload u n cat key content (negb (word b2 =? 0)) (negb (word b3 =? 0)) (int b4) (int b5) (int b6))
      | _, _, _, _ => Undefined
      end
    end
  end.
(** BinRpc.cpp:451-480: the request. *)
Definition do_list (b : list Z) : outcome :=
  let b1 := drop 4 b in let b2 := drop 4 b1 in let b3 := drop 4 b2 in let b4 := drop 4 b3 in
  let mode := word b2 in
  let mk p := Exec (CList (negb (word b =? 0)) (negb (word b1 =? 0)) mode (negb (word b3 =? 0)) p) in
  if (mode =? 3) && negb (word b =? 0) then match ctext b4 with None => Undefined | Some p => mk (Some p) end else mk None.
(** BinRpc.cpp:797-865. *)
Fixpoint read_ids (n : nat) (mem : list Z) : list Z :=
  match n with O => [] | S k => int mem :: read_ids k (drop 4 mem) end.
Fixpoint read_names (n : nat) (mem : list Z) : option (list (list Z)) :=
  match n with
  | O => Some []
  | S k => match ctext mem with
           | None => None
           | Some s => option_map (cons s) (read_names k (drop (zlen s + 1) mem))
           end
  end.
Definition do_edit (b r : list Z) : outcome :=
  let b1 := drop 4 b in let b2 := drop 4 b1 in let b3 := drop 4 b2 in let b4 := drop 4 b3 in let b5 := drop 4 b4 in
  let b6 := drop 4 b5 in let b7 := drop 4 b6 in
  let action := int b in let offset := int b1 in let mode := int b2 in
  let nids := int b3 in let nnames := int b4 in let lnames := int b5 in let ltext := int b6 in
  let len := word b7 in
  if (nids * 4 + ltext + lnames) mod 2 ^ 64 =? len then
    if 2 ^ 31 <=? len then Undefined else
    match recv len r with
    | None => Refused
    | Some (buf, _) =>
      if (nids <=? 0) && (nnames <=? 0) then Negative else
      let text := if (0 <? ltext) && negb ((action =? 1) || (action =? 11)) then option_map Some (ctext buf) else Some None in
      let ids := if 0 <? nids then if (0 <=? ltext) && (ltext + 4 * nids <=? len) then Some (read_ids (Z.to_nat nids) (drop ltext buf)) else None else Some [] in
      let at_names := ltext + nids * 4 in
      let names := if 0 <? nnames then if (0 <=? at_names) && (at_names <=? len) then read_names (Z.to_nat nnames) (drop at_names buf) else None else Some [] in
      match text, ids, names with
      | Some t, Some i, Some n => Exec (CEdit action mode offset t i n)
      | _, _, _ => Undefined
      end
    end
  else Refused.
(** BinRpc.cpp:983-1021. *)
Definition do_write_log (b r : list Z) : outcome :=
  let kind := word b in let len := int (drop 4 b) in
  if len <? 0 then Undefined else
  match recv len r with
  | None => Refused
  | Some (buf, _) => if kind <? 5 then match ctext buf with None => Undefined | Some t => Exec (CWriteLog kind t) end else Negative
  end.
(** BinRpc.cpp:202-276, [Dispatch], 309-394, 722-723, 884-890, 1023-1045: the type of the request, the rest of its structure, the rest of the connection. *)
Definition execute (t : Z) (b r : list Z) : outcome :=
  if t =? 1 then do_download b r
  else if t =? 2 then Exec (CPause (negb (word b =? 0)) (word (drop 4 b)))
  else if t =? 3 then do_list b
  else if t =? 4 then Exec (CRate (int b))
  else if t =? 5 then Exec CDump
  else if t =? 6 then do_edit b r
  else if t =? 7 then Exec (CLog (word b) (int (drop 4 b)))
  else if t =? 8 then Exec CShutdown
  else if t =? 9 then Exec CReload
  else if t =? 10 then Exec CVersion
  else if t =? 11 then Exec CPost
  else if t =? 12 then do_write_log b r
  else if t =? 13 then Exec (CScan (negb (word b =? 0)))
  else Exec (CHistory (negb (word b =? 0))).
(** BinRpc.cpp:43-59 and the structures of MessageBase.h. *)
Definition sizes : list Z := [0; 1636; 84; 604; 80; 76; 108; 84; 76; 76; 76; 76; 84; 80; 80].
Definition signature : Z := 1853514289.
(** BinRpc.cpp:179-184: [mem]: the memory at the field of the user, to the end of the structure. *)
Definition authorized (user pass mem : list Z) : option bool :=
  match (match user with [] => Some true | _ => cmp mem user end) with
  | Some true => cmp (drop 32 mem) pass
  | x => x
  end.
(** RemoteServer.cpp:199-214, BinRpc.cpp:170-200, 294-307: a request, all bytes of the connection. *)
Definition serve (user pass inp : list Z) : outcome :=
  match recv 76 inp with
  | None => Refused
  | Some (h, r) =>
    if word h =? signature then
      match authorized user pass (drop 12 h) with
      | None => Undefined
      | Some false => Refused
      | Some true =>
        let sz := word (drop 4 h) in let t := word (drop 8 h) in
        if (1 <=? t) && (t <=? 14) then
          if nth (Z.to_nat t) sizes 0 =? sz then
            match recv (sz - 76) r with None => Refused | Some (b, r2) => execute t b r2 end
          else Refused
        else Refused
      end
    else Refused
  end.

(** ** The client *)

(** strncpy with one byte less and a NUL at the end. *)
Definition field (n : Z) (s : list Z) : list Z := firstn (Z.to_nat (n - 1)) s ++ repeat 0 (Z.to_nat n - length (firstn (Z.to_nat (n - 1)) s)).
(** Bytes never set. *)
Definition garbage (g : nat -> Z) (n : nat) : list Z := map g (seq 0 n).
(** RemoteClient.cpp:145-168: a field left empty. *)
Definition field_or (g : nat -> Z) (s : list Z) : list Z :=
  match s with [] => 0 :: garbage g (Z.to_nat 510) ++ [0] | _ => field 512 s end.
Definition b2z (b : bool) : Z := if b then 1 else 0.
Definition pad4 (n : Z) : Z := if 0 <? n mod 4 then 4 - n mod 4 else 0.
(** RemoteClient.cpp:64-75, [InitMessageBase]. *)
Definition base (user pass : list Z) (t : Z) : list Z :=
  w32 signature ++ w32 (nth (Z.to_nat t) sizes 0) ++ w32 t ++ field 32 user ++ field 32 pass.
(** RemoteClient.cpp:766-820. *)
Definition edit_text (t : option (list Z)) : list Z :=
  match t with Some s => s ++ [0] ++ repeat 0 (Z.to_nat (pad4 (zlen s + 1))) | None => [] end.
Definition edit_names (g : nat -> Z) (ns : list (list Z)) : list Z :=
  let l := concat (map (fun n => n ++ [0]) ns) in l ++ garbage g (Z.to_nat (pad4 (zlen l))).
(** RemoteClient.cpp:111-178, 273-289, 607-616, 690-765, 783-836, 838-908, 979-995, 1001-1032. *)
Definition client (g : nat -> Z) (user pass : list Z) (c : cmd) : list Z :=
  match c with
  | CDownload u n cat key content first paused prio score mode =>
    let data := if u then content ++ [0] else content in
    base user pass 1 ++ field_or g n ++ field_or g cat ++ w32 (b2z first) ++ w32 (b2z paused) ++ w32 prio ++ w32 score ++ w32 mode ++ field_or g key ++ w32 (zlen data) ++ data
  | CPause p a => base user pass 2 ++ w32 (b2z p) ++ w32 a
  | CList f s m gr p => base user pass 3 ++ w32 (b2z f) ++ w32 (b2z s) ++ w32 m ++ w32 (b2z gr) ++ (match p with Some x => field 512 x | None => garbage g (Z.to_nat 512) end)
  | CRate r => base user pass 4 ++ w32 r
  | CDump => base user pass 5
  | CEdit a m o t ids names =>
    let tx := edit_text t in let ix := flat_map w32 ids in let nx := edit_names g names in
    base user pass 6 ++ w32 a ++ w32 o ++ w32 m ++ w32 (Z.of_nat (length ids)) ++ w32 (Z.of_nat (length names)) ++ w32 (zlen nx) ++ w32 (zlen tx) ++ w32 (zlen tx + zlen ix + zlen nx) ++
    tx ++ ix ++ nx
  | CLog f l => base user pass 7 ++ w32 f ++ w32 l
  | CShutdown => base user pass 8
  | CReload => base user pass 9
  | CVersion => base user pass 10
  | CPost => base user pass 11
  | CWriteLog k t => base user pass 12 ++ w32 k ++ w32 (zlen t + 1) ++ t ++ [0]
  | CScan s => base user pass 13 ++ w32 (b2z s)
  | CHistory h => base user pass 14 ++ w32 (b2z h)
  end.

(** ** Answers *)

(** An entry: words, the lengths of the texts, words, the texts with NUL. *)
Record entry := E { e_before : list Z; e_texts : list (list Z); e_after : list Z }.
Definition nul (ts : list (list Z)) : list Z := concat (map (fun t => t ++ [0]) ts).
Definition fixed (e : entry) : Z := 4 * Z.of_nat (length (e_before e) + length (e_texts e) + length (e_after e)).
(** The last length is increased by the bytes needed for alignment. *)
Fixpoint lens (ts : list (list Z)) (pad : Z) : list Z :=
  match ts with [] => [] | [t] => [zlen t + 1 + pad] | t :: r => (zlen t + 1) :: lens r pad end.
(** BinRpc.cpp:529-573 and alike (580-598, 604-651, 759-777, 932-967, 1085-1131): an entry written at an address. *)
Definition put (p : Z) (e : entry) : list Z :=
  let pad := pad4 (p + fixed e + zlen (nul (e_texts e))) in
  flat_map w32 (e_before e ++ lens (e_texts e) pad ++ e_after e) ++ nul (e_texts e) ++ repeat 0 (Z.to_nat pad).
Fixpoint put_all (p : Z) (es : list entry) : list Z :=
  match es with [] => [] | e :: r => put p e ++ put_all (p + zlen (put p e)) r end.
(** The size needed, BinRpc.cpp:748-755, 1070-1079: first all structures, then the texts aligned. *)
Definition add_texts (n : Z) (ts : list (list Z)) : Z := let m := n + zlen (nul ts) in m + pad4 m.
Definition size_of (es : list entry) : Z := fold_left (fun n e => add_texts n (e_texts e)) es (fold_left (fun n e => n + fixed e) es 0).
(** BinRpc.cpp:917-924: the size for the list of post-processing. *)
Definition size_each (es : list entry) : Z := fold_left (fun n e => add_texts (n + fixed e) (e_texts e)) es 0.
(** The position of the download is one of the words: the first of parameters, the second of files. *)
Definition with_index (k : nat) (v : Z) (e : entry) : entry := E (firstn k (e_before e) ++ v :: skipn k (e_before e)) (e_texts e) (e_after e).
(** BinRpc.cpp:485-523: the structures of the downloads first, their texts and their parameters one after another, then the files. *)
Record item := I { i_entry : entry; i_params : list entry; i_files : list entry }.
Definition size_list (q : list item) : Z :=
  let n0 := fold_left (fun n i => n + fixed (i_entry i)) q 0 in
  let n1 := fold_left (fun n i => fold_left (fun m p => add_texts (m + fixed (with_index 0 0 p)) (e_texts p)) (i_params i) (add_texts n (e_texts (i_entry i)))) q n0 in
  fold_left (fun n i => fold_left (fun m f => add_texts (m + fixed (with_index 1 0 f)) (e_texts f)) (i_files i) n) q n1.
Fixpoint indexed (k : nat) (f : item -> list entry) (v : Z) (q : list item) : list entry :=
  match q with [] => [] | i :: r => map (with_index k v) (f i) ++ indexed k f (v + 1) r end.
Definition put_list (q : list item) : list Z := put_all 0 (map i_entry q ++ indexed 0 i_params 1 q ++ indexed 1 i_files 1 q).

(** RemoteClient.cpp:186-271, [BuildFileList], 656-683, 948-971, 1072-1105: reading the entries back: numbers of words before and behind, number of texts. *)
Fixpoint words (n : nat) (mem : list Z) : option (list Z * list Z) :=
  match n with
  | O => Some ([], mem)
  | S k => match recv 4 mem with
           | None => None
           | Some (w, m) => match words k m with None => None | Some (l, r) => Some (word w :: l, r) end
           end
  end.
Fixpoint texts (ls : list Z) (mem : list Z) : option (list (list Z) * list Z) :=
  match ls with
  | [] => Some ([], mem)
  | l :: r => match ctext mem, recv l mem with
              | Some t, Some (_, m) => match texts r m with None => None | Some (ts, m') => Some (t :: ts, m') end
              | _, _ => None
              end
  end.
Definition get (nb nt na : nat) (mem : list Z) : option (entry * list Z) :=
  match words nb mem with
  | None => None
  | Some (b, m1) => match words nt m1 with
    | None => None
    | Some (ls, m2) => match words na m2 with
      | None => None
      | Some (a, m3) => match texts ls m3 with None => None | Some (ts, m4) => Some (E b ts a, m4) end
      end
    end
  end.
Fixpoint get_all (n : nat) (nb nt na : nat) (mem : list Z) : option (list entry * list Z) :=
  match n with
  | O => Some ([], mem)
  | S k => match get nb nt na mem with
           | None => None
           | Some (e, m) => match get_all k nb nt na m with None => None | Some (es, r) => Some (e :: es, r) end
           end
  end.
(** RemoteClient.cpp:237-238, 263-265: entries are given to the download with the position; outside of the queue an exception. Names of
    parameters of a download are different and values not empty, as the server keeps them. *)
Definition give (add : item -> entry -> item) (k : nat) (q : list item) (e : entry) : option (list item) :=
  let v := nth k (e_before e) 0 in
  let e' := E (firstn k (e_before e) ++ skipn (S k) (e_before e)) (e_texts e) (e_after e) in
  match nth_error q (Z.to_nat (v - 1)) with
  | Some i => if 1 <=? v then Some (firstn (Z.to_nat (v - 1)) q ++ add i e' :: skipn (Z.to_nat v) q) else None
  | None => None
  end.
Definition give_all add k (es : list entry) (q : option (list item)) : option (list item) :=
  fold_left (fun q e => match q with Some x => give add k x e | None => None end) es q.
Definition get_list (nitems nparams nfiles : nat) (mem : list Z) : option (list item) :=
  match get_all nitems 12 5 0 mem with
  | None => None
  | Some (es, m1) => match get_all nparams 1 2 0 m1 with
    | None => None
    | Some (ps, m2) => match get_all nfiles 10 2 0 m2 with
      | None => None
      | Some (fs, _) =>
        give_all (fun i e => I (i_entry i) (i_params i) (i_files i ++ [e])) 1 fs
          (give_all (fun i e => I (i_entry i) (i_params i ++ [e]) (i_files i)) 0 ps (Some (map (fun e => I e [] []) es)))
      end
    end
  end.

(** BinRpc.cpp:722-745: the messages sent and the number announced; [ids]: identifiers of the messages in the log. *)
Definition log_range (from lines : Z) (ids : list Z) : Z * Z :=
  let size := Z.of_nat (length ids) in
  let '(start, nr) := if 0 <? lines then let nr := if size <? lines then size else lines in (size - nr, nr) else (size, lines) in
  match ids with
  | id0 :: _ => if 0 <? from then
                  let s := s32 ((from - id0) mod 2 ^ 32) in
                  let s := if s <? 0 then 0 else s in
                  (s, if size - s <? 0 then 0 else size - s)
                else (start, nr)
  | [] => (start, nr)
  end.
Definition log_sent {A} (start : Z) (msgs : list A) : list A := skipn (Z.to_nat start) msgs.

(** RemoteClient.cpp:1085-1101: texts for the states; 961-966. *)
Definition par_text : list string := [""; ""; ", Par failed"; ", Par successful"; ", Repair possible"; ", Repair needed"]%string.
Definition script_text : list string := [""; ", Script status unknown"; ", Script failed"; ", Script successful"]%string.
Definition url_text : list string := [""; ""; "Url download successful"; "Url download failed"; ""; "Nzb scan skipped"; "Nzb scan failed"]%string.
Definition stage_text : list string := [""; ", Loading Pars"; ", Verifying source files"; ", Repairing"; ", Verifying repaired files"; ", Par-Renaming"; ", Rar-Renaming"; ", Unpacking";
  ", Cleaning up"; ", Moving"; ", Executing postprocess-script"; ""]%string.
Definition shown (table : list string) (state : Z) : option (list Z) := option_map str (nth_error table (Z.to_nat state)).
(** BinRpc.cpp:1104, DownloadInfo.h:323-328, RemoteClient.cpp:1094: what is shown of the scripts of a download. *)
Definition script_code (s : StatusModel.script_status) : Z := match s with StatusModel.srNone => 0 | StatusModel.srFailure => 1 | StatusModel.srSuccess => 2 end.
Definition shown_scripts (l : list StatusModel.script_status) : option (list Z) := shown script_text (script_code (StatusModel.total_scripts l)).
