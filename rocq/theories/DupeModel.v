(** Model of the handling of duplicates: daemon/queue/DupeCoordinator.cpp (SameNameOrKey, NzbFound, NzbCompleted,
    ReturnBestDupe, HistoryMark, HistoryCleanup) and daemon/queue/HistoryCoordinator.cpp (HistoryHide).
    Pointers to downloads are compared by their id. Simplifications: messages, scripts and the deletion of
    files are left out; the command which removes a download from the queue (EditEntry with eaGroupDelete)
    takes it out at once unless articles of it are being downloaded, and moves it to the history;
    IsDupeSuccess and the health are those of StatusModel.v, where they are defined (C26). *)
From Coq Require Import String.
From Verif Require Import Base WildModel InfoModel StatusModel.
Open Scope list_scope. Open Scope Z_scope.

Inductive dupe_mode := dmScore | dmAll | dmForce.
Inductive dup_status := duUndefined | duSuccess | duFailed | duDeleted | duDupe | duBad | duGood.

(** NzbInfo; [it_active]: articles are being downloaded; [it_hint]: DupeHint is not dhNone. *)
Record item := mkItem {
  it_id : Z; it_out : outcome; it_name : list Z; it_key : list Z; it_score : Z; it_mode : dupe_mode;
  it_full : Z; it_filtered : Z; it_feed : bool; it_hint : bool; it_post : bool; it_active : bool }.
(** DupInfo. *)
Record dup := mkDup {
  dp_id : Z; dp_name : list Z; dp_key : list Z; dp_score : Z; dp_mode : dupe_mode; dp_full : Z; dp_filtered : Z; dp_status : dup_status }.
Inductive hist := HNzb (it : item) | HUrl (it : item) | HDup (d : dup).

Definition is_force (m : dupe_mode) : bool := match m with dmForce => true | _ => false end.
Definition is_score (m : dupe_mode) : bool := match m with dmScore => true | _ => false end.
Definition is_good (m : mark_status) : bool := match m with ksGood => true | _ => false end.
Definition is_bad (m : mark_status) : bool := match m with ksBad => true | _ => false end.
Definition du_good (s : dup_status) : bool := match s with duGood => true | _ => false end.
Definition du_success (s : dup_status) : bool := match s with duSuccess => true | _ => false end.
Definition not_deleted (d : delete_status) : bool := match d with dsNone => true | _ => false end.
Definition is_dupe (d : delete_status) : bool := match d with dsDupe => true | _ => false end.
Definition is_nzb (k : nzb_kind) : bool := match k with nkNzb => true | nkUrl => false end.
Definition is_url (k : nzb_kind) : bool := match k with nkUrl => true | nkNzb => false end.
Definition empty (s : list Z) : bool := match s with [] => true | _ => false end.
Definition success (it : item) : bool := match is_dupe_success (it_out it) with Some b => b | None => false end.

(** DupeCoordinator.cpp:30-36. *)
Definition same_name_or_key (name1 key1 name2 key2 : list Z) : bool :=
  let keys := negb (empty key1) && negb (empty key2) in
  (keys && same_nocase key1 key2) || (negb keys && same_nocase name1 name2).
(** 59-62 and the like. *)
Definition same_hash (full filtered full' filtered' : Z) : bool :=
  ((0 <? full) && (full =? full')) || ((0 <? filtered) && (filtered =? filtered')).

(** ** A download was found *)

(** 57-91. *)
Definition queued_copy (q : list item) (x : item) : bool :=
  existsb (fun y => negb (it_id y =? it_id x) && same_hash (it_full x) (it_filtered x) (it_full y) (it_filtered y) && is_nzb (o_kind (it_out x))) q.
(** 96-135: key and score are taken from another one of the same name. *)
Definition has_marks (key : list Z) (score : Z) : bool := negb (empty key) || negb (score =? 0).
Fixpoint adopt_queue (q : list item) (name : list Z) : option (list Z * Z) :=
  match q with
  | [] => None
  | y :: r => if beqb (it_name y) name && has_marks (it_key y) (it_score y) then Some (it_key y, it_score y) else adopt_queue r name
  end.
Fixpoint adopt_history (h : list hist) (name : list Z) : option (list Z * Z) :=
  match h with
  | [] => None
  | HNzb y :: r => if beqb (it_name y) name && has_marks (it_key y) (it_score y) then Some (it_key y, it_score y) else adopt_history r name
  | HDup y :: r => if beqb (dp_name y) name && has_marks (dp_key y) (dp_score y) then Some (dp_key y, dp_score y) else adopt_history r name
  | HUrl _ :: r => adopt_history r name
  end.
Definition adopt (q : list item) (h : list hist) (x : item) : list Z * Z :=
  let ks := (it_key x, it_score x) in
  let ks := if negb (has_marks (fst ks) (snd ks)) then match adopt_queue q (it_name x) with Some r => r | None => ks end else ks in
  if negb (has_marks (fst ks) (snd ks)) then match adopt_history h (it_name x) with Some r => r | None => ks end else ks.

(** 146-208; the outcome is (skip, good, sameContent). *)
Fixpoint look_history (h : list hist) (x : item) (key : list Z) (score : Z) : bool * bool * bool :=
  match h with
  | [] => (false, false, false)
  | y :: r =>
      match y with
      | HNzb it =>
          if same_hash (it_full x) (it_filtered x) (it_full it) (it_filtered it) then (true, false, true)
          else if negb (is_force (it_mode it)) && is_good (o_mark (it_out it)) && same_name_or_key (it_name it) (it_key it) (it_name x) key
          then (true, true, false) else look_history r x key score
      | HDup d =>
          if same_hash (it_full x) (it_filtered x) (dp_full d) (dp_filtered d) then (true, false, true)
          else if negb (is_force (dp_mode d)) &&
                  (du_good (dp_status d) || (is_score (it_mode x) && du_success (dp_status d) && (score <=? dp_score d))) &&
                  same_name_or_key (dp_name d) (dp_key d) (it_name x) key
          then (true, du_good (dp_status d), false) else look_history r x key score
      | HUrl _ => look_history r x key score
      end
  end.
(** 216-234. *)
Definition recent_success (h : list hist) (x : item) (key : list Z) (score : Z) : bool :=
  existsb (fun y => match y with
                    | HNzb it | HUrl it =>
                        negb (is_force (it_mode it)) && same_name_or_key (it_name it) (it_key it) (it_name x) key &&
                        (score <=? it_score it) && success it
                    | HDup _ => false
                    end) h.

Definition set_delete (it : item) (d : delete_status) : item :=
  let o := it_out it in
  mkItem (it_id it) (mkOutcome (o_kind o) (o_sizes o) (o_par o) (o_unpack o) (o_move o) d (o_mark o) (o_url o) (o_scripts o))
    (it_name it) (it_key it) (it_score it) (it_mode it) (it_full it) (it_filtered it) (it_feed it) (it_hint it) (it_post it) (it_active it).
(** 272-279. *)
Definition queue_dupe (x : item) (key : list Z) (y : item) : bool :=
  negb (it_id y =? it_id x) && not_deleted (o_delete (it_out y)) &&
  (is_nzb (o_kind (it_out y)) || (is_url (o_kind (it_out y)) && is_url (o_kind (it_out x)))) &&
  negb (is_force (it_mode y)) && same_name_or_key (it_name y) (it_key y) (it_name x) key.
Fixpoint replace_at (i : nat) (y : item) (q : list item) : list item :=
  match q, i with [], _ => [] | _ :: r, O => y :: r | z :: r, S i' => z :: replace_at i' y r end.
Fixpoint remove_at (i : nat) (q : list item) : list item :=
  match q, i with [], _ => [] | _ :: r, O => r | z :: r, S i' => z :: remove_at i' r end.
(** 266-308: what happens to the new one, the queue, and the downloads moved to the history (newest first). [None]: fuel exhausted. *)
Fixpoint queue_loop (fuel : nat) (x : item) (key : list Z) (score : Z) (q : list item) (moved : list item) (index : nat) : option (bool * list item * list item) :=
  match fuel with
  | O => None
  | S f =>
      match nth_error q index with
      | None => Some (false, q, moved)
      | Some y =>
          if queue_dupe x key y then
            if score <=? it_score y then Some (true, q, moved)
            else if negb (it_post y) then
              let y' := set_delete y dsDupe in
              let q1 := if it_active y then replace_at index y' q else remove_at index q in
              let moved1 := if it_active y then moved else y' :: moved in
              let index1 := if Nat.eqb (length q) (length q1) then S index else index in
              queue_loop f x key score q1 moved1 index1
            else queue_loop f x key score q moved (S index)
          else queue_loop f x key score q moved (S index)
      end
  end.

Record found := mkFound { r_key : list Z; r_score : Z; r_delete : delete_status; r_queue : list item; r_moved : list item }.
(** 53-311. *)
Definition nzb_found (q : list item) (h : list hist) (x : item) : option found :=
  let same d := Some (mkFound (it_key x) (it_score x) d q []) in
  if queued_copy q x then same (if it_feed x then dsManual else dsCopy) else
  let '(key, score) := adopt q h x in
  let done d := Some (mkFound key score d q []) in
  let '(skip, good, content) := look_history h x key score in
  if negb content && it_hint x then done (o_delete (it_out x)) else
  if negb content && negb good && is_score (it_mode x) && recent_success h x key score then done dsDupe else
  if skip then done (if it_feed x && negb (it_hint x) then dsManual else if content then dsCopy else dsGood) else
  if is_score (it_mode x) then
    match queue_loop (S (length q)) x key score q [] 0 with
    | Some (true, q1, moved) => Some (mkFound key score dsDupe q1 moved)
    | Some (false, q1, moved) => Some (mkFound key score (o_delete (it_out x)) q1 moved)
    | None => None
    end
  else done (o_delete (it_out x)).

(** ** A download failed *)

(** 337-381: the best score of the successes in the history; [None]: one is marked as good. *)
Definition h_success (h : hist) (name key : list Z) : option (Z * bool) :=
  match h with
  | HNzb it => if negb (is_force (it_mode it)) && success it && same_name_or_key (it_name it) (it_key it) name key
               then Some (it_score it, is_good (o_mark (it_out it))) else None
  | HDup d => if negb (is_force (dp_mode d)) && (du_success (dp_status d) || du_good (dp_status d)) && same_name_or_key (dp_name d) (dp_key d) name key
              then Some (dp_score d, du_good (dp_status d)) else None
  | HUrl _ => None
  end.
Fixpoint history_score (h : list hist) (name key : list Z) (best : option Z) : option (option Z) :=
  match h with
  | [] => Some best
  | y :: r =>
      match h_success y name key with
      | Some (s, good) =>
          if good then None
          else history_score r name key (Some (match best with Some b => if b <? s then s else b | None => s end))
      | None => history_score r name key best
      end
  end.
(** 384-398; [self]: the id of the failed download, if any. *)
Fixpoint queue_score (q : list item) (self : option Z) (name key : list Z) (best : option Z) : option Z :=
  match q with
  | [] => best
  | y :: r =>
      let other := match self with Some i => negb (it_id y =? i) | None => true end in
      queue_score r self name key
        (if other && is_nzb (o_kind (it_out y)) && negb (is_force (it_mode y)) && same_name_or_key (it_name y) (it_key y) name key &&
            match best with Some b => b <? it_score y | None => true end
         then Some (it_score y) else best)
  end.
Definition above (s : Z) (b : option Z) : bool := match b with Some x => x <? s | None => true end.
(** 400-418. *)
Definition healthy (it : item) : bool :=
  match calc_health (o_sizes (it_out it)), calc_critical true (o_sizes (it_out it)) with
  | Some x, Some y => y <=? x
  | _, _ => false
  end.
Definition backup (y : hist) (name key : list Z) : option item :=
  match y with
  | HNzb it | HUrl it =>
      if negb (is_force (it_mode it)) && is_dupe (o_delete (it_out it)) && healthy it && negb (is_bad (o_mark (it_out it))) &&
         same_name_or_key (it_name it) (it_key it) name key
      then Some it else None
  | HDup _ => None
  end.
Fixpoint best_backup (h : list hist) (name key : list Z) (hs qs : option Z) (cur : option item) : option item :=
  match h with
  | [] => cur
  | y :: r =>
      best_backup r name key hs qs
        match backup y name key with
        | Some it => if above (it_score it) hs && above (it_score it) qs && above (it_score it) (option_map it_score cur) then Some it else cur
        | None => cur
        end
  end.
(** 334-426: the download which goes back to the queue. *)
Definition return_best (q : list item) (h : list hist) (self : option Z) (name key : list Z) : option item :=
  match history_score h name key None with
  | None => None
  | Some hs => best_backup h name key hs (queue_score q self name key None) None
  end.
(** 320-329. *)
Definition nzb_completed (q : list item) (h : list hist) (x : item) : option item :=
  if is_score (it_mode x) && negb (success x) then return_best q h (Some (it_id x)) (it_name x) (it_key x) else None.

(** ** Hiding *)

(** HistoryCoordinator.cpp:192-224. *)
Definition hide (it : item) : dup :=
  mkDup (it_id it) (it_name it) (it_key it) (it_score it) (it_mode it) (it_full it) (it_filtered it)
    match o_mark (it_out it) with
    | ksGood => duGood
    | ksBad => duBad
    | ksSuccess => duSuccess
    | ksNone => match o_delete (it_out it) with
                | dsDupe => duDupe
                | dsManual | dsGood | dsCopy => duDeleted
                | _ => if success it then duSuccess else duFailed
                end
    end.
(** DupeCoordinator.cpp:463-507: when one is marked as good, the other backups are hidden; the loop goes backwards
    and stays at the same positions, as hiding replaces elements. *)
Definition hist_id (h : hist) : Z := match h with HNzb it | HUrl it => it_id it | HDup d => dp_id d end.
Definition cleanup (h : list hist) (mark_id : Z) (name key : list Z) : list hist :=
  map (fun y => match y with
                | HNzb it | HUrl it =>
                    if negb (is_force (it_mode it)) && is_dupe (o_delete (it_out it)) && negb (it_id it =? mark_id) &&
                       same_name_or_key (it_name it) (it_key it) name key
                    then HDup (hide it) else y
                | HDup _ => y
                end) h.
