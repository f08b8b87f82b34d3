(** Properties of the state files: C23, C24, C25, C75-C79. *)
From Coq Require Import String.
From Verif Require Import Base NumFmt InfoModel LineModel LineSpec LineProofs DiskModel DiskSpec DiskProofs DiskProofs2.
From Verif Require Import StateFileModel StateFileSpec StateFileProofs FileStateModel FileStateSpec FileStateProofs.

(** ** C25 Lines of state files *)

(** A line is written inside the buffer exactly when its text has at most 1023 bytes. *)
Theorem C25_write_in_bounds s : (print_line s <> None) <-> (length s <= 1023)%nat.
Proof.
  split.
  - intros H. destruct (Nat.le_gt_cases (length s) 1023); [assumption|]. now rewrite print_line_none in H by lia.
  - intros H. rewrite print_line_some by assumption. discriminate.
Qed.
Print Assumptions C25_write_in_bounds.
Example C25_write_in_bounds_ex : print_line (str "name.rar") = Some (str "name.rar" ++ [10]).
Proof. reflexivity. Qed.

(** Whatever the length of a line, reading returns a prefix of it and continues
    exactly at the following line. *)
Theorem C25_read_resync size s rest : line_text s -> (2 <= size)%nat ->
  read_line size (line s ++ rest) = Some (firstn (size - 2) s, rest).
Proof.
  intros A B. unfold line. rewrite <- app_assoc. now apply read_line_any.
Qed.
Print Assumptions C25_read_resync.
Example C25_read_resync_ex : line_text (str "abcdef") /\ read_line 5 (line (str "abcdef") ++ str "next") = Some (str "abc", str "next").
Proof. split; [|reflexivity]. repeat constructor; discriminate. Qed.

(** Lines that fit both buffers come back unchanged, with the rest of the file. *)
Theorem C25_round_trip_partial size s rest : line_text s -> (length s <= 1023)%nat -> (length s + 2 <= size)%nat ->
  exists out, print_line s = Some out /\ read_line size (out ++ rest) = Some (s, rest).
Proof.
  intros A B C. exists (line s). split; [now apply print_line_some|].
  unfold line. rewrite <- app_assoc. now apply read_line_ok.
Qed.
Print Assumptions C25_round_trip_partial.
Example C25_round_trip_ex : line_text (str "a b=c, d") /\ (length (str "a b=c, d") + 2 <= 1024)%nat.
Proof. split; [repeat constructor; discriminate | cbn; lia]. Qed.

(** Missing from the round trip: a text of 1024 bytes leaves the output buffer. *)
Theorem C25_overflow_refuted : exists s, line_text s /\ length s = Z.to_nat 1024 /\ print_line s = None.
Proof.
  exists (repeat 97 (Z.to_nat 1024)). split; [|split; [apply repeat_length | reflexivity]].
  apply Forall_forall. intros x H. apply repeat_spec in H. subst. split; discriminate.
Qed.
Print Assumptions C25_overflow_refuted.

(** And a text of 1023 bytes read into a buffer of 1024 bytes loses its last character. *)
Theorem C25_lost_character_refuted : exists s out, line_text s /\ print_line s = Some out /\
  read_line (Z.to_nat 1024) out = Some (removelast s, []) /\ removelast s <> s.
Proof.
  exists (repeat 97 (Z.to_nat 1023)). eexists. split; [|split; [reflexivity|split; [vm_compute; reflexivity|vm_compute; discriminate]]].
  apply Forall_forall. intros x H. apply repeat_spec in H. subst. split; discriminate.
Qed.
Print Assumptions C25_lost_character_refuted.

(** A text with a line break comes back as two lines. *)
Theorem C25_line_break_refuted : exists s out, print_line s = Some out /\ read_line (Z.to_nat 1024) out <> Some (s, []).
Proof. exists [97; 10; 98]. eexists. split; [reflexivity | vm_compute; discriminate]. Qed.
Print Assumptions C25_line_break_refuted.

(** ** C23 State files survive a kill at any point *)

(** Killed at any point of a save: the old or the new contents are read, and
    stay in place. *)
Theorem C23_killed ch old t k :
  let '(c', r) := begin_read (fsteps (firstn k (save_ops ch)) (mkCell (Some old) t)) in
  c_dst c' = r /\ (r = Some old \/ r = Some (concat ch)).
Proof. exact (killed_read ch old t k). Qed.
Print Assumptions C23_killed.

(** Any history of saves, kills and reads behaves as if every save were atomic. *)
Theorem C23_histories es cur t : atomic_reads cur es (erun es (mkCell (Some cur) t)).
Proof. exact (histories_atomic es cur t). Qed.
Print Assumptions C23_histories.
Example C23_ex :
  erun [EKill [[1]; [2]] 2; ESave [[3]; [4]]; ELoad; EKill [[5]; [6]] 4; ELoad] (mkCell (Some [9]) None)
  = [Some [9]; Some [3; 4]; Some [5; 6]; Some [5; 6]].
Proof. reflexivity. Qed.

(** A completed save is read back. *)
Theorem C23_completed ch c : snd (begin_read (fsteps (save_ops ch) c)) = Some (concat ch).
Proof. rewrite save_complete. reflexivity. Qed.
Print Assumptions C23_completed.

(** Missing: the first save of a file.  Killed in the middle, the next start
    takes the truncated temporary file for the saved state. *)
Theorem C23_first_save_refuted : exists ch k r,
  snd (begin_read (fsteps (firstn k (save_ops ch)) (mkCell None None))) = Some r /\ r <> concat ch.
Proof. exists [str "ab"; str "cd"], 2%nat, (str "ab"). split; [reflexivity | discriminate]. Qed.
Print Assumptions C23_first_save_refuted.

(** A discarded file comes back as the temporary file of an earlier interrupted save. *)
Theorem C23_discard_refuted : exists old ch k r,
  snd (begin_read (fsteps discard_ops (fsteps (firstn k (save_ops ch)) (mkCell (Some old) None)))) = Some r /\
  r <> old /\ r <> concat ch.
Proof. exists (str "xy"), [str "ab"; str "cd"], 2%nat, (str "ab"). repeat split; discriminate. Qed.
Print Assumptions C23_discard_refuted.

(** Files written without the temporary file are truncated by a kill. *)
Theorem C23_plain_refuted : exists old ch k r,
  c_dst (fsteps (firstn k (plain_save_ops ch)) (mkCell (Some old) None)) = Some r /\ r <> old /\ r <> concat ch.
Proof. exists (str "xy"), [str "ab"; str "cd"], 2%nat, (str "ab"). repeat split; discriminate. Qed.
Print Assumptions C23_plain_refuted.

(** ** C75 A full disk *)

(** A save that fits the free space is complete. *)
Theorem C75_fits_partial ch room c : (length (concat ch) <= room)%nat ->
  snd (begin_read (fsteps (save_disk_full room ch) c)) = Some (concat ch).
Proof.
  intros H. unfold save_disk_full. rewrite fsteps_cons. cbn [fstep]. rewrite disk_room by assumption. reflexivity.
Qed.
Print Assumptions C75_fits_partial.
Example C75_fits_ex : (length (concat [str "ab"; str "cd"]) <= 4)%nat.
Proof. cbn. lia. Qed.

(** One that does not fit replaces the good state by a truncated one. *)
Theorem C75_disk_full_refuted : exists old ch room r,
  snd (begin_read (fsteps (save_disk_full room ch) (mkCell (Some old) None))) = Some r /\
  r <> old /\ r <> concat ch.
Proof. exists (str "xy"), [str "ab"; str "cd"], 3%nat, (str "abc"). repeat split; discriminate. Qed.
Print Assumptions C75_disk_full_refuted.

(** In general the file is cut to the free space, and the old state is lost. *)
Theorem C75_disk_full_lost old ch room :
  snd (begin_read (fsteps (save_disk_full room ch) (mkCell (Some old) None))) = Some (firstn room (concat ch)).
Proof.
  unfold save_disk_full. rewrite fsteps_cons. cbn [fstep c_dst].
  rewrite full_gen. reflexivity.
Qed.
Print Assumptions C75_disk_full_lost.
Example C75_disk_full_ex : snd (begin_read (fsteps (save_disk_full 3 [str "ab"; str "cd"]) (mkCell (Some (str "xy")) None))) = Some (str "abc").
Proof. reflexivity. Qed.

(** ** C24 Queue entries *)

(** Saving succeeds, and loading gives every attribute back except duplicate
    mode, duplicate hint and post-processing stage. *)
Theorem C24_entry_partial servers n : nzb_ok servers n ->
  exists out, print_lines (nzb_lines n) = Some out /\
  forall rest, exists m, load_nzb new_nzb servers (out ++ rest) = Some (m, rest) /\
    same_attributes n m /\ n_dupe_mode m = n_dupe_hint n /\ n_dupe_hint m = 0 /\
    match n_post n, n_post m with Some p, Some q => po_stage q = po_stage p + 1 | _, _ => True end.
Proof. exact (entry_reload servers n). Qed.
Print Assumptions C24_entry_partial.

Theorem C24_queue_partial servers q : Forall (nzb_ok servers) q -> count_ok q ->
  exists out q', print_lines (queue_lines q) = Some out /\
    (forall rest, load_queue servers (out ++ rest) = Some (q', rest)) /\ Forall2 same_attributes q q'.
Proof. exact (queue_reload servers q). Qed.
Print Assumptions C24_queue_partial.

Theorem C24_history_partial servers l : Forall (hentry_ok servers) l -> count_ok l ->
  exists out l', print_lines (history_lines l) = Some out /\
    (forall rest, load_history servers (out ++ rest) = Some (l', rest)) /\ Forall2 same_hentry l l'.
Proof. exact (history_reload servers l). Qed.
Print Assumptions C24_history_partial.

(** An entry with most attributes set. *)
Definition ex_servers : list server := [(1, 1); (2, 2)].
Definition ex_nzb : nzb :=
  mkNzb 7 0 (str "http://x/y.nzb") (str "y.nzb") (str "/dst/y") (str "/final") (str "y.nzb.queued") (str "y") (str "tv")
        100 (Some (mkPost 10 true false)) true false 3
        1 2 0 0 0 1 0 0 0 true false false
        12 3 4 1700000000 1700000100 true 5 4000000000 17
        5000000000 4000000000 1000000000 70000000 60000000 100
        900 890 10
        (str "key") 2 (-50) 1
        5000000000 60 70 80 90 100
        [mkCF 5 1 4000000000 true (Some (str "abcd")) None (str "y.r00") (Some (str "z"))]
        [(str "A:b", str "c=d"); (str "*Unpack:", str "yes")]
        [(1, str "script.sh")]
        [mkS 2 890 3; mkS 1 0 7]
        [mkQF 21 true false false; mkQF 22 false true true; mkQF 23 false false false].

Ltac ok_tac := repeat match goal with
  | |- _ /\ _ => split
  | |- Forall _ _ => constructor
  | |- NoDup _ => constructor
  | |- True => exact I
  end.

Lemma ex_nzb_ok : nzb_ok ex_servers ex_nzb.
Proof.
  constructor; cbn; unfold text, short_text, line_text, hash_ok, opt_text, cfile_ok, params_ok, script_ok, stat_ok, servers_ok,
    count_ok, in_i32, in_u32, in_i64; cbn; ok_tac; try lia; try discriminate; try tauto.
  all: try (intros H; repeat (destruct H as [H|H]; [discriminate|]); exact H).
  all: try (intuition congruence).
  all: unfold short_text, line_text, in_i32, in_u32; cbn; ok_tac; try lia; try discriminate; try tauto.
  all: try (intros H; repeat (destruct H as [H|H]; [discriminate|]); exact H).
  all: unfold short_text, line_text; cbn; ok_tac; try lia; try discriminate.
Qed.

Example C24_ex : nzb_ok ex_servers ex_nzb /\ count_ok [ex_nzb] /\ hentry_ok ex_servers (1700000000, HNzb (leave_post ex_nzb)).
Proof.
  pose proof ex_nzb_ok as H. split; [exact H|]. split; [unfold count_ok; cbn; lia|].
  split; [unfold in_i32; cbn; lia|]. split; [|reflexivity]. destruct H; constructor; assumption || exact I.
Qed.

(** The duplicate mode does not survive: the hint is loaded in its place. *)
Theorem C24_dupe_mode_refuted : exists servers n out m, nzb_ok servers n /\
  print_lines (nzb_lines n) = Some out /\ load_nzb new_nzb servers out = Some (m, []) /\ n_dupe_mode m <> n_dupe_mode n.
Proof.
  exists ex_servers, ex_nzb. do 2 eexists. split; [exact ex_nzb_ok|]. split; [vm_compute; reflexivity|].
  split; [vm_compute; reflexivity | vm_compute; discriminate].
Qed.
Print Assumptions C24_dupe_mode_refuted.

(** The post-processing stage moves on by one with every restart. *)
Theorem C24_stage_refuted : exists servers n out m p q, nzb_ok servers n /\
  print_lines (nzb_lines n) = Some out /\ load_nzb new_nzb servers out = Some (m, []) /\
  n_post n = Some p /\ n_post m = Some q /\ po_stage q <> po_stage p.
Proof.
  exists ex_servers, ex_nzb. do 4 eexists. split; [exact ex_nzb_ok|]. split; [vm_compute; reflexivity|].
  split; [vm_compute; reflexivity|]. split; [reflexivity|]. split; [reflexivity | vm_compute; discriminate].
Qed.
Print Assumptions C24_stage_refuted.

(** A history time after January 2038 is changed. *)
Theorem C24_time_refuted : exists t d out l, dup_ok d /\ 0 <= t < 2 ^ 63 /\
  print_lines (history_lines [(t, HDup d)]) = Some out /\ load_history [] out = Some (l, []) /\ map fst l <> [t].
Proof.
  exists (2 ^ 31), (mkDup 5 1 10 11 12 13 0 (str "n") (str "k")). do 2 eexists.
  split. { unfold dup_ok, short_text, line_text, in_i32, in_i64, in_u32; cbn; ok_tac; try lia; discriminate. }
  split; [lia|]. split; [vm_compute; reflexivity|]. split; [vm_compute; reflexivity | vm_compute; discriminate].
Qed.
Print Assumptions C24_time_refuted.

(** ** C76 Restart *)

(** After a complete save the restart has the saved queue and history. *)
Theorem C76_restart_partial servers s q qch h hch :
  clean s -> queue_ok servers q -> history_ok servers h -> (q <> [] \/ h <> []) ->
  file_of (queue_lines q) (concat qch) -> file_of (history_lines h) (concat hch) ->
  let r := startup servers (ssteps (save_queue_ops q qch true h hch) s) in
  st_ok r = true /\ st_wiped r = false /\ Forall2 same_attributes q (st_queue r) /\ Forall2 same_hentry h (st_history r).
Proof. exact (restart_complete servers s q qch h hch). Qed.
Print Assumptions C76_restart_partial.

(** Killed at any point of a save, the restart has the old or the new queue,
    and the old or the new history. *)
Theorem C76_killed_partial servers s q0 qo q qch h0 ho h hch k :
  c_dst (s_queue s) = Some qo -> c_dst (s_history s) = Some ho -> s_progress s = mkCell None None ->
  queue_ok servers q0 -> queue_ok servers q -> history_ok servers h0 -> history_ok servers h ->
  q <> [] -> h <> [] ->
  file_of (queue_lines q0) qo -> file_of (queue_lines q) (concat qch) ->
  file_of (history_lines h0) ho -> file_of (history_lines h) (concat hch) ->
  let r := startup servers (ssteps (firstn k (save_queue_ops q qch true h hch)) s) in
  st_ok r = true /\ st_wiped r = false /\
  (Forall2 same_attributes q0 (st_queue r) \/ Forall2 same_attributes q (st_queue r)) /\
  (Forall2 same_hentry h0 (st_history r) \/ Forall2 same_hentry h (st_history r)).
Proof. exact (restart_killed servers s q0 qo q qch h0 ho h hch k). Qed.
Print Assumptions C76_killed_partial.

Definition with_id (i : Z) : nzb :=
  let '(mkNzb _ a2 a3 a4 a5 a6 a7 a8 a9 a10 _ a12 a13 a14 a15 a16 a17 a18 a19 a20 a21 a22 a23 a24 a25 a26
        a27 a28 a29 a30 a31 a32 a33 a34 a35 a36 a37 a38 a39 a40 a41 a42 a43 a44 a45 a46 a47 a48 a49 a50 a51
        a52 a53 a54 a55 a56 a57 a58 a59) := ex_nzb in
  mkNzb i a2 a3 a4 a5 a6 a7 a8 a9 a10 None a12 a13 a14 a15 a16 a17 a18 a19 a20 a21 a22 a23 a24 a25 a26
        a27 a28 a29 a30 a31 a32 a33 a34 a35 a36 a37 a38 a39 a40 a41 a42 a43 a44 a45 a46 a47 a48 a49 a50 a51
        a52 a53 a54 a55 a56 a57 a58 a59.

Lemma with_id_ok i : in_i32 i -> nzb_ok ex_servers (with_id i).
Proof.
  intros H. pose proof ex_nzb_ok as [A1 A2 A3 A4 A5 A6 A7 A8 A9 A10 A11 A12].
  constructor; try assumption; [|exact I]. apply Forall_cons; [exact H|]. exact (Forall_inv_tail A1).
Qed.

Lemma with_id_queue i j : in_i32 i -> in_i32 j -> queue_ok ex_servers [with_id i; with_id j].
Proof. intros A B. split; [|unfold count_ok; cbn [length]; lia].
  apply Forall_cons; [now apply with_id_ok|]. apply Forall_cons; [now apply with_id_ok | apply Forall_nil]. Qed.

Lemma with_id_history i : in_i32 i -> history_ok ex_servers [(5, HNzb (with_id i))].
Proof.
  intros A. split; [|unfold count_ok; cbn [length]; lia]. constructor; [|constructor].
  split; [unfold in_i32; cbn; lia|]. split; [now apply with_id_ok | reflexivity].
Qed.

Definition file_bytes (ls : list (list Z)) : list Z :=
  match print_lines (header queue_version :: ls) with Some o => o | None => [] end.

Definition q_before := [with_id 7; with_id 8].
Definition q_after := [with_id 8; with_id 9].
Definition h_before := [(5, HNzb (with_id 3))].
Definition h_after := [(5, HNzb (with_id 3)); (6, HNzb (with_id 7))].

Example C76_ex : queue_ok ex_servers q_before /\ queue_ok ex_servers q_after /\ history_ok ex_servers h_before /\
  file_of (queue_lines q_after) (file_bytes (queue_lines q_after)) /\ clean (mkFs (mkCell None None) (mkCell None None) (mkCell None None)).
Proof.
  split; [apply with_id_queue; unfold in_i32; lia|]. split; [apply with_id_queue; unfold in_i32; lia|].
  split; [apply with_id_history; unfold in_i32; lia|]. split; [vm_compute; reflexivity|]. repeat split.
Qed.

(** Missing: both together.  A download that moved from the queue to the
    history is in neither when the program is killed between the two files. *)
Theorem C76_lost_refuted : exists servers s q qch h hch k id,
  clean s /\ queue_ok servers q /\ file_of (queue_lines q) (concat qch) /\ file_of (history_lines h) (concat hch) /\
  known id (st_queue (startup servers s)) (st_history (startup servers s)) /\ known id q h /\
  let r := startup servers (ssteps (firstn k (save_queue_ops q qch true h hch)) s) in
  st_ok r = true /\ ~ known id (st_queue r) (st_history r).
Proof.
  exists ex_servers, (mkFs (mkCell (Some (file_bytes (queue_lines q_before))) None) (mkCell None None)
                            (mkCell (Some (file_bytes (history_lines h_before))) None)),
         q_after, [file_bytes (queue_lines q_after)], h_after, [file_bytes (history_lines h_after)], 4%nat, 7.
  split; [repeat split|]. split; [apply with_id_queue; unfold in_i32; lia|].
  split; [vm_compute; reflexivity|]. split; [vm_compute; reflexivity|].
  split; [left; vm_compute; tauto|].
  split; [right; exists 6, (with_id 7); split; [left; right; left; reflexivity | reflexivity]|].
  split; [vm_compute; reflexivity|].
  intros [H|(t & n & [H|H] & E)].
  - vm_compute in H. destruct H as [H|[H|[]]]; discriminate.
  - set (l := st_history _) in H. assert (L : forall t n, In (t, HNzb n) l -> n_id n = 3).
    { assert (X : map (fun e : hentry => match snd e with HNzb m => n_id m | _ => 3 end) l = [3]) by (vm_compute; reflexivity).
      clearbody l. intros t' n' I. apply (in_map (fun e : hentry => match snd e with HNzb m => n_id m | _ => 3 end)) in I.
      rewrite X in I. destruct I as [I|[]]. symmetry. exact I. }
    apply L in H. clear L. clearbody l. rewrite E in H. discriminate H.
  - set (l := st_history _) in H. assert (L : forall t n, In (t, HUrl n) l -> False).
    { assert (X : map (fun e : hentry => match snd e with HUrl m => true | _ => false end) l = [false]) by (vm_compute; reflexivity).
      clearbody l. intros t' n' I. apply (in_map (fun e : hentry => match snd e with HUrl m => true | _ => false end)) in I.
      rewrite X in I. destruct I as [I|[]]. discriminate. }
    apply L in H. exact H.
Qed.
Print Assumptions C76_lost_refuted.

(** C22: a download returned from the history to the queue is in both, with the same id,
    when the program is killed between the two files. *)
Theorem C22_twice_refuted : exists servers s q qch h hch k,
  clean s /\ queue_ok servers q /\ file_of (queue_lines q) (concat qch) /\ file_of (history_lines h) (concat hch) /\
  (let r := startup servers s in st_ok r = true /\ NoDup (all_ids (st_queue r) (st_history r))) /\ NoDup (all_ids q h) /\
  let r := startup servers (ssteps (firstn k (save_queue_ops q qch true h hch)) s) in
  st_ok r = true /\ ~ NoDup (all_ids (st_queue r) (st_history r)).
Proof.
  exists ex_servers, (mkFs (mkCell (Some (file_bytes (queue_lines q_after))) None) (mkCell None None)
                            (mkCell (Some (file_bytes (history_lines h_after))) None)),
         q_before, [file_bytes (queue_lines q_before)], h_before, [file_bytes (history_lines h_before)], 4%nat.
  split; [repeat split|]. split; [apply with_id_queue; unfold in_i32; lia|].
  split; [vm_compute; reflexivity|]. split; [vm_compute; reflexivity|].
  cbv zeta. vm_compute. split; [split; [reflexivity|]|].
  { repeat (constructor; [cbn [In]; lia|]). constructor. }
  split; [repeat (constructor; [cbn [In]; lia|]); constructor|]. split; [reflexivity|].
  intros H. inversion H as [|x l N _]; subst. apply N. cbn [In]. tauto.
Qed.
Print Assumptions C22_twice_refuted.

(** A progress file that still names a download which left the queue makes
    the whole history disappear. *)
Theorem C76_stale_progress_refuted : exists servers s q qch h hch p k,
  clean s /\ queue_ok servers q /\ file_of (queue_lines q) (concat qch) /\ file_of (history_lines h) (concat hch) /\
  (exists q0, queue_ok servers q0 /\ c_dst (s_queue s) = Some (file_bytes (queue_lines q0)) /\ incl p q0) /\
  c_dst (s_progress s) = Some (file_bytes (progress_lines p)) /\
  let r := startup servers (ssteps (firstn k (save_queue_ops q qch true h hch)) s) in
  st_ok r = false /\ st_history (startup servers s) <> [] /\ st_history r = [].
Proof.
  exists ex_servers, (mkFs (mkCell (Some (file_bytes (queue_lines q_before))) None)
                            (mkCell (Some (file_bytes (progress_lines [with_id 7]))) None)
                            (mkCell (Some (file_bytes (history_lines h_before))) None)),
         q_after, [file_bytes (queue_lines q_after)], h_after, [file_bytes (history_lines h_after)], [with_id 7], 8%nat.
  split; [repeat split|]. split; [apply with_id_queue; unfold in_i32; lia|].
  split; [vm_compute; reflexivity|]. split; [vm_compute; reflexivity|].
  split. { exists q_before. split; [apply with_id_queue; unfold in_i32; lia|]. split; [reflexivity|]. intros x [<-|[]]. now left. }
  split; [reflexivity|].
  split; [vm_compute; reflexivity|]. split; [vm_compute; discriminate | vm_compute; reflexivity].
Qed.
Print Assumptions C76_stale_progress_refuted.

(** The first progress save, killed in the middle of writing. *)
Theorem C76_first_progress_refuted : exists servers s p pch k,
  clean s /\ file_of (progress_lines p) (concat pch) /\
  st_ok (startup servers s) = true /\ st_history (startup servers s) <> [] /\
  let r := startup servers (ssteps (firstn k (save_progress_ops p pch)) s) in
  st_ok r = false /\ st_history r = [].
Proof.
  exists ex_servers, (mkFs (mkCell (Some (file_bytes (queue_lines q_before))) None) (mkCell None None)
                            (mkCell (Some (file_bytes (history_lines h_before))) None)),
         [with_id 7], [firstn 200 (file_bytes (progress_lines [with_id 7])); skipn 200 (file_bytes (progress_lines [with_id 7]))], 2%nat.
  split; [repeat split|]. split; [vm_compute; reflexivity|]. split; [vm_compute; reflexivity|].
  split; [vm_compute; discriminate|]. split; vm_compute; reflexivity.
Qed.
Print Assumptions C76_first_progress_refuted.

(** With an empty history, a kill between deleting and renaming the queue file
    makes the next start discard everything. *)
Theorem C76_wiped_refuted : exists servers s q qch k,
  clean s /\ queue_ok servers q /\ file_of (queue_lines q) (concat qch) /\
  st_ok (startup servers s) = true /\ st_queue (startup servers s) <> [] /\
  let r := startup servers (ssteps (firstn k (save_queue_ops q qch true [] [])) s) in
  st_wiped r = true /\ st_queue r = [].
Proof.
  exists ex_servers, (mkFs (mkCell (Some (file_bytes (queue_lines q_before))) None) (mkCell None None) (mkCell None None)),
         q_after, [file_bytes (queue_lines q_after)], 3%nat.
  split; [repeat split|]. split; [apply with_id_queue; unfold in_i32; lia|]. split; [vm_compute; reflexivity|].
  split; [vm_compute; reflexivity|]. split; [vm_compute; discriminate|]. split; vm_compute; reflexivity.
Qed.
Print Assumptions C76_wiped_refuted.

(** ** C77 Post-processing after a restart *)

(** What the restart makes of a group in post-processing: the stage after
    loading, then SanitisePostQueue. *)
Definition resumed (servers : list server) (n : nzb) (dir_exists : bool) : option Z :=
  match print_lines (nzb_lines n) with
  | Some out => match load_nzb new_nzb servers out with
                | Some (m, _) => option_map (fun p => sanitise_stage dir_exists (po_stage p)) (n_post m)
                | None => None
                end
  | None => None
  end.

Theorem C77_resumed servers n p dir_exists : nzb_ok servers n -> n_post n = Some p ->
  resumed servers n dir_exists =
  Some (if (po_stage p + 1 =? ptExecutingScript) || negb dir_exists then ptFinished else ptQueued).
Proof.
  intros H P. unfold resumed. destruct (entry_reload servers n H) as (out & -> & L).
  destruct (L []) as (m & E & S1 & _ & _ & ST). rewrite app_nil_r in E. rewrite E. rewrite P in ST.
  pose proof (sa_post _ _ S1) as SP. rewrite P in SP. destruct (n_post m) as [q|]; [|contradiction].
  cbn [option_map]. unfold sanitise_stage. now rewrite ST.
Qed.
Print Assumptions C77_resumed.
Example C77_resumed_ex : nzb_ok ex_servers ex_nzb /\ n_post ex_nzb = Some (mkPost 10 true false).
Proof. split; [exact ex_nzb_ok | reflexivity]. Qed.

(** A group whose scripts were running at the kill is post-processed from the
    beginning, and a group that was being moved has its scripts skipped. *)
Theorem C77_scripts_refuted : exists servers n p, nzb_ok servers n /\ n_post n = Some p /\
  po_stage p = ptExecutingScript /\ resumed servers n true = Some ptQueued.
Proof.
  exists ex_servers, ex_nzb, (mkPost 10 true false). split; [exact ex_nzb_ok|]. split; [reflexivity|].
  split; [reflexivity | vm_compute; reflexivity].
Qed.
Print Assumptions C77_scripts_refuted.

Definition ex_moving : nzb :=
  let '(mkNzb a1 a2 a3 a4 a5 a6 a7 a8 a9 a10 _ a12 a13 a14 a15 a16 a17 a18 a19 a20 a21 a22 a23 a24 a25 a26
        a27 a28 a29 a30 a31 a32 a33 a34 a35 a36 a37 a38 a39 a40 a41 a42 a43 a44 a45 a46 a47 a48 a49 a50 a51
        a52 a53 a54 a55 a56 a57 a58 a59) := ex_nzb in
  mkNzb a1 a2 a3 a4 a5 a6 a7 a8 a9 a10 (Some (mkPost ptMoving false false)) a12 a13 a14 a15 a16 a17 a18 a19 a20 a21 a22 a23 a24 a25 a26
        a27 a28 a29 a30 a31 a32 a33 a34 a35 a36 a37 a38 a39 a40 a41 a42 a43 a44 a45 a46 a47 a48 a49 a50 a51
        a52 a53 a54 a55 a56 a57 a58 a59.

Theorem C77_moving_refuted : exists servers n p, nzb_ok servers n /\ n_post n = Some p /\
  po_stage p = ptMoving /\ resumed servers n true = Some ptFinished.
Proof.
  exists ex_servers, ex_moving, (mkPost 9 false false).
  split. { pose proof ex_nzb_ok as [A1 A2 A3 A4 A5 A6 A7 A8 A9 A10 A11 A12]. constructor; try assumption; cbn; unfold ptMoving; lia. }
  split; [reflexivity|]. split; [reflexivity | vm_compute; reflexivity].
Qed.
Print Assumptions C77_moving_refuted.

(** ** C78 Download state of a file *)

(** The saved state comes back; running downloads start again. *)
Theorem C78_round_trip_partial completed servers s base : fstate_ok servers s ->
  (completed = true \/ Exists pending (fs_arts s)) ->
  (base = 0 \/ base = Z.of_nat (length (fs_arts s))) ->
  exists out, print_lines (fstate_lines s) = Some out /\
  forall rest, exists t done, load_fstate completed base servers (out ++ rest) = Some (t, done, rest) /\
    same_fstate s t /\ done = Z.of_nat (length (settled (fs_arts s))).
Proof. exact (fstate_reload completed servers s base). Qed.
Print Assumptions C78_round_trip_partial.

Definition ex_fstate : fstate :=
  mkFS 1 1 700000 400000 5000000000 (str "a.r00") (Some (str "h")) None true [mkS 1 5 6]
       [mkArt 2 0 100 17; mkArt 1 100 100 4000000000; mkArt 3 200 100 0; mkArt 0 4000000000 0 0].

Example C78_ex : fstate_ok ex_servers ex_fstate /\ Exists pending (fs_arts ex_fstate).
Proof.
  split.
  - unfold fstate_ok, short_text, line_text, opt_text, stat_ok, servers_ok, art_ok, count_ok, in_i32, in_u32, in_i64.
    cbn. ok_tac; try lia; try discriminate; unfold short_text, line_text, in_i32, in_u32; cbn; ok_tac; try lia; try discriminate; try tauto.
  - right. left. right. reflexivity.
Qed.

(** Whatever the contents of the file, a file that is not completed has an
    article left to download, so it cannot get stuck. *)
Theorem C78_never_stuck base servers f s done rest :
  load_fstate false base servers f = Some (s, done, rest) -> fs_arts s <> [] ->
  Exists (fun a => a_status a = aiUndefined) (fs_arts s).
Proof. exact (never_stuck base servers f s done rest). Qed.
Print Assumptions C78_never_stuck.
Example C78_never_stuck_ex : exists out s done,
  print_lines (fstate_lines (mkFS 2 0 0 9 0 (str "a") None None false [] [mkArt 2 0 4 1; mkArt 2 4 5 1])) = Some out /\
  load_fstate false 0 [] out = Some (s, done, []) /\ map a_status (fs_arts s) = [2; 0].
Proof. do 3 eexists. split; [vm_compute; reflexivity|]. split; vm_compute; reflexivity. Qed.

(** Missing: an article at an offset of 4 GiB or more gets a wrong offset. *)
Theorem C78_large_offset_refuted : exists s out t done, 
  Forall (fun a => 0 <= a_offset a < 2 ^ 63) (fs_arts s) /\ Exists pending (fs_arts s) /\
  print_lines (fstate_lines s) = Some out /\ load_fstate false 0 [] out = Some (t, done, []) /\
  map a_offset (fs_arts t) <> map a_offset (fs_arts s).
Proof.
  exists (mkFS 1 0 0 9 0 (str "a") None None false [] [mkArt 0 0 0 0; mkArt 2 4294967296 700000 1]). do 3 eexists.
  split; [repeat constructor; cbn; lia|]. split; [left; left; reflexivity|].
  split; [vm_compute; reflexivity|]. split; [vm_compute; reflexivity | vm_compute; discriminate].
Qed.
Print Assumptions C78_large_offset_refuted.

(** ** C79 File descriptions *)

Theorem C79_round_trip_partial f : finfo_ok f ->
  exists out, print_lines (finfo_lines f) = Some out /\ forall rest, load_finfo (out ++ rest) = Some (f, rest).
Proof. exact (finfo_reload f). Qed.
Print Assumptions C79_round_trip_partial.
Example C79_ex : exists f, finfo_ok f /\ fi_parts f <> [].
Proof.
  exists (mkFI (str "subj") (str "a.rar") (Some (str "orig")) true 1700000000 5000000000 77 true 12 1 [str "alt.bin"]
               [mkPart 1 700000 (str "<a@b>"); mkPart 2 5 (str "<c@d>")]).
  split; [|discriminate]. unfold finfo_ok, part_ok, short_text, line_text, opt_text, count_ok, in_i32, in_i64. cbn.
  ok_tac; try lia; try discriminate; unfold part_ok, short_text, line_text, in_i32; cbn; ok_tac; try lia; try discriminate.
Qed.

(** Missing from C79: a message time after January 2038 is changed. *)
Theorem C79_time_refuted : exists f out g, 0 <= fi_time f < 2 ^ 63 /\
  print_lines (finfo_lines f) = Some out /\ load_finfo out = Some (g, []) /\ fi_time g <> fi_time f.
Proof.
  exists (mkFI (str "subj") (str "a.rar") None true (2 ^ 31) 5000 7 false 12 1 [str "alt.bin"] [mkPart 1 700000 (str "<a@b>")]).
  do 2 eexists. split; [cbn; lia|]. split; [vm_compute; reflexivity|]. split; [vm_compute; reflexivity | vm_compute; discriminate].
Qed.
Print Assumptions C79_time_refuted.
