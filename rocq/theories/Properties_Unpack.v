(** C121-C123: unpacking, passwords, joining of split files. *)
From Coq Require Import String.
From Verif Require Import Base NumFmt LineModel UnpackModel UnpackSpec UnpackProofs UnpackProofs2 UnpackProofs3 UnpackProofs4 UnpackProofs5.
Open Scope list_scope. Open Scope Z_scope.

Definition ux_ok : run := mkRun true [Line (str "Unrar: Extracting  x"); Line (str "Unrar: All OK")] 0.
Definition ux_wrong : run := mkRun true [Line (str "Unrar: CRC failed in the encrypted file x. Corrupt file or wrong password.")] 3.
Definition ux_in (pw : list Z) (file : option (list Z)) : uin :=
  mkIn false false false 0 psSuccess false pw (option_map (fun f => Some f) file) true.
Definition ux_rar : found := mkF true true false false false false false true true false.
Definition ux_file : list (list Z * nat) := [(str "first", 1%nat); ([], 0%nat); (str "second one", 0%nat); (str "third", 2%nat)].
(** The n-th password is the right one. *)
Definition ux_runs (n : nat) (k : nat) : run := if Nat.eqb k n then ux_ok else ux_wrong.

Lemma ux_named n k : named (ux_runs n k).
Proof.
  unfold ux_runs, named. destruct (Nat.eqb k n); cbn [ux_ok ux_wrong r_events]; intros t [H|H].
  - injection H as <-. right. now exists (str "Extracting  x").
  - destruct H as [H|[]]. injection H as <-. right. now exists (str "All OK").
  - injection H as <-. right. now exists (str "CRC failed in the encrypted file x. Corrupt file or wrong password.").
  - destruct H.
Qed.

(** ** C121: success *)

Theorem C121_success_is_real i f runs tried :
  unpack_run i f runs = Some (UStatus usSuccess, tried) -> i_last i <> usSuccess ->
  f_wanted f = true /\ f_moved f = true /\ (f_split f = true -> f_joined f = true) /\
  (f_rar f || f_7z f || f_7zmulti f || f_split f) = true /\ all_extracted i (needed f) 0 runs tried.
Proof. exact (success_sound i f runs tried). Qed.
Print Assumptions C121_success_is_real.

Theorem C121_success_is_seen i f runs : fresh i = true -> (forall j, named (runs j)) ->
  f_wanted f = true -> (f_rar f || f_7z f || f_7zmulti f || f_split f) = true ->
  (forall k sz, nth_error (needed f) k = Some sz -> good_run sz (runs k)) ->
  (f_split f = true -> f_joined f = true) -> f_moved f = true ->
  unpack_run i f runs = Some (UStatus usSuccess, repeat (i_password i) (length (needed f))).
Proof. exact (success_complete i f runs). Qed.
Print Assumptions C121_success_is_seen.

Theorem C121_defined i f runs : (forall j, named (runs j)) -> unpack_run i f runs <> None.
Proof. exact (run_defined i f runs). Qed.
Print Assumptions C121_defined.

(** Nothing to unpack is found: a check of the par2-files may be asked for; files renamed before are a failure. *)
Theorem C121_nothing_found i f runs : fresh i = true -> needed f = [] -> f_rar f = false -> f_split f = false ->
  exists res, unpack_run i f runs = Some (res, []) /\
  (f_wanted f = false -> res = UStatus usSkipped) /\
  (f_wanted f = true -> i_par i <= psSkipped -> f_prenamed f = false -> i_haspars i = true -> res = URequest false false usFailure) /\
  (f_wanted f = true -> (psSkipped < i_par i \/ f_prenamed f = true \/ i_haspars i = false) -> res = UStatus (if f_renamed f then usFailure else usSkipped)).
Proof. exact (nothing_found i f runs). Qed.
Print Assumptions C121_nothing_found.
Example C121_nothing_example : fresh (ux_in [] None) = true /\ needed (mkF false false false false false false false true true false) = [].
Proof. split; reflexivity. Qed.
Theorem C121_failure i f runs sz res tried : needed f = [sz] -> fresh i = true -> f_wanted f = true ->
  (i_passfile i = None \/ i_password i <> []) -> r_cmd (runs O) = true -> ~ In Stop (r_events (runs O)) ->
  unpack_run i f runs = Some (res, tried) -> ~ good_run sz (runs O) ->
  (status_of res = usSpace <-> shows_full sz (runs O)) /\
  (status_of res = usPassword <-> ~ shows_full sz (runs O) /\ shows_password sz (runs O)) /\
  (status_of res = usFailure <-> ~ shows_full sz (runs O) /\ ~ shows_password sz (runs O)) /\ tried = [i_password i].
Proof. exact (failed_status i f runs sz res tried). Qed.
Print Assumptions C121_failure.
Definition ux_code (c : Z) (_ : nat) : run := mkRun true [Line (str "Unrar: Extracting  x")] c.
Example C121_failure_ex :
  unpack_run (ux_in (str "pw") None) ux_rar (ux_code 5) = Some (UStatus usSpace, [str "pw"]) /\ shows_full false (ux_code 5 0) /\
  unpack_run (ux_in (str "pw") None) ux_rar (ux_code 11) = Some (UStatus usPassword, [str "pw"]) /\ shows_password false (ux_code 11 0) /\
  unpack_run (ux_in (str "pw") None) ux_rar (ux_code 9) = Some (UStatus usFailure, [str "pw"]) /\ ~ good_run false (ux_code 9 0) /\
  fresh (ux_in (str "pw") None) = true /\ i_passfile (ux_in (str "pw") None) = None.
Proof.
  split; [vm_compute; reflexivity|]. split; [split; reflexivity|]. split; [vm_compute; reflexivity|].
  split; [left; split; reflexivity|]. split; [vm_compute; reflexivity|]. split; [|split; reflexivity].
  intros (_ & H & _). cbn in H. discriminate H.
Qed.

Lemma ux_good : good_run false ux_ok.
Proof.
  split; [reflexivity|]. split; [reflexivity|]. split; [intros [H|[H|[]]]; discriminate H|].
  split; [exists (str "Unrar: All OK"); split; [right; left; reflexivity | now exists []]|].
  assert (B : forall lit t, prefixb lit t = false -> ~ begins lit t) by (intros lit t H K; apply begins_iff in K; congruence).
  assert (E : forall lit t, ends lit t = false -> ~ finishes lit t) by (intros lit t H (a & _ & K); assert (ends lit t = true) by (apply ends_iff; eauto); congruence).
  assert (Hh : forall lit t, contains lit t = false -> ~ holds lit t) by (intros lit t H K; apply contains_iff in K; congruence).
  intros t [H|[H|[]]]; injection H as <-; (split; [intros [K|[K|[K|K]]]; revert K; apply B; reflexivity|]);
    (intros [K|[K|[K|[K|K]]]]; revert K; [apply Hh | apply Hh | apply E | apply E | apply B]; reflexivity).
Qed.
Example C121_example :
  unpack_run (ux_in (str "pw") None) ux_rar (ux_runs 0) = Some (UStatus usSuccess, [str "pw"]) /\
  unpack_run (ux_in (str "pw") None) ux_rar (ux_runs 1) = Some (UStatus usPassword, [str "pw"]) /\
  needed ux_rar = [false] /\ good_run false (ux_runs 0 0) /\ forall j, named (ux_runs 0 j).
Proof.
  split; [vm_compute; reflexivity|]. split; [vm_compute; reflexivity|]. split; [reflexivity|]. split; [exact ux_good|]. apply ux_named.
Qed.

(** Memory before the message is read although the run is a good one of 7-Zip: already its message about success is
    too short for the comparison. *)
Theorem C121_reads_inside_refuted : exists t, ok_line true t /\ reads_outside true t = true /\
  good_run true (mkRun true [Line t] 0).
Proof.
  exists (str "7-Zip: Everything is Ok"). split; [now exists []|]. split; [vm_compute; reflexivity|].
  split; [reflexivity|]. split; [reflexivity|]. split; [intros [H|[]]; discriminate H|].
  split; [eexists; split; [left; reflexivity | now exists []]|].
  intros t [H|[]]. injection H as <-. split.
  - intros [a K]. assert (ends (str "Data Error in encrypted file. Wrong password?") (str "7-Zip: Everything is Ok") = true) by (apply ends_iff; eauto). discriminate.
  - intros [K|[K|[K|[K|K]]]].
    + apply contains_iff in K. discriminate.
    + apply contains_iff in K. discriminate.
    + destruct K as (a & _ & K). assert (ends (str " - CRC failed") (str "7-Zip: Everything is Ok") = true) by (apply ends_iff; eauto). discriminate.
    + destruct K as (a & _ & K). assert (ends (str " - checksum failed") (str "7-Zip: Everything is Ok") = true) by (apply ends_iff; eauto). discriminate.
    + apply begins_iff in K. discriminate.
Qed.
Print Assumptions C121_reads_inside_refuted.

(** ** C122: passwords *)

Theorem C122_in_order i f runs sz s tried :
  needed f = [sz] -> fresh i = true -> f_wanted f = true -> unpack_run i f runs = Some (s, tried) -> in_order i tried.
Proof. exact (order_one i f runs sz s tried). Qed.
Print Assumptions C122_in_order.

Theorem C122_all_tried i f runs sz tried file :
  needed f = [sz] -> fresh i = true -> f_wanted f = true ->
  i_password i = [] -> i_passfile i = Some (Some file) ->
  (forall j, r_cmd (runs j) = true /\ r_code (runs j) <> -1 /\ ~ In Stop (r_events (runs j))) ->
  unpack_run i f runs = Some (UStatus usPassword, tried) -> tried = [] :: candidates i.
Proof. exact (exhausted i f runs sz tried file). Qed.
Print Assumptions C122_all_tried.

Theorem C122_file_partial i ls : i_password i = [] -> i_passfile i = Some (Some (pass_file ls)) -> Forall pass_ok ls ->
  candidates i = pass_words ls.
Proof. intros P F H. unfold candidates. rewrite P, F. exact (words_ok ls H). Qed.
Print Assumptions C122_file_partial.

Theorem C122_last_line_partial i ls l : i_password i = [] -> i_passfile i = Some (Some (pass_file ls ++ pass_line l)) ->
  Forall pass_ok ls -> pass_ok l -> candidates i = pass_words (ls ++ [l]).
Proof. intros P F H K. unfold candidates. rewrite P, F. exact (words_last_ok ls l H K). Qed.
Print Assumptions C122_last_line_partial.

Lemma ux_pass : Forall pass_ok ux_file.
Proof.
  unfold ux_file. repeat constructor; cbn; try discriminate; try lia.
  all: intros a E; apply (f_equal (@rev Z)) in E; rewrite rev_app_distr in E; cbn in E; discriminate.
Qed.
Example C122_example :
  unpack_run (ux_in [] (Some (pass_file ux_file))) ux_rar (ux_runs 2) =
    Some (UStatus usSuccess, [[]; str "first"; str "second one"]) /\
  unpack_run (ux_in [] (Some (pass_file ux_file))) ux_rar (ux_runs 9) =
    Some (UStatus usPassword, [[]; str "first"; str "second one"; str "third"]) /\ Forall pass_ok ux_file.
Proof. split; [vm_compute; reflexivity|]. split; [vm_compute; reflexivity|]. exact ux_pass. Qed.

(** A password of 510 characters is tried in pieces. *)
Theorem C122_long_refuted : exists i f runs p tried, (forall j, named (runs j)) /\ needed f = [false] /\
  i_password i = [] /\ i_passfile i = Some (Some (p ++ [10])) /\ Forall (fun c => c <> 0 /\ c <> 10 /\ c <> 13) p /\
  unpack_run i f runs = Some (UStatus usPassword, tried) /\ ~ In p tried.
Proof.
  pose (p := repeat 97 (Z.to_nat 511)).
  exists (ux_in [] (Some (p ++ [10]))), ux_rar, (ux_runs 9), p, [[]; repeat 97 (Z.to_nat 510); [97]].
  split; [apply ux_named|]. split; [reflexivity|]. split; [reflexivity|]. split; [reflexivity|].
  split; [apply Forall_forall; intros x I; apply repeat_spec in I; subst; repeat split; discriminate|].
  split; [vm_compute; reflexivity|].
  intros [H|[H|[H|[]]]]; apply (f_equal (@length Z)) in H; vm_compute in H; discriminate H.
Qed.
Print Assumptions C122_long_refuted.

(** ** C123: joining *)

Theorem C123_joined_is_complete_partial parok d base c1 c :
  one_set base d -> good_base base -> In (part_name base 1, c1) d ->
  join_file parok d (part_name base 1) = Some (Some c) ->
  exists lo cs, complete_set base d lo cs /\ c = concat cs /\ (parok = false -> same_but_last c1 cs).
Proof. exact (join_sound parok d base c1 c). Qed.
Print Assumptions C123_joined_is_complete_partial.

Theorem C123_complete_is_joined_partial parok d base c1 lo cs :
  one_set base d -> good_base base -> In (part_name base 1, c1) d -> complete_set base d lo cs ->
  (same_but_last c1 cs \/ (parok = true /\ (2 <= length cs)%nat /\ c1 <> [])) -> lo + Z.of_nat (length cs) <= 1000 ->
  join_file parok d (part_name base 1) = Some (Some (concat cs)).
Proof. exact (join_complete parok d base c1 lo cs). Qed.
Print Assumptions C123_complete_is_joined_partial.

Definition ux_base : list Z := str "film.avi".
Definition ux_dir : dirl :=
  [(part_name ux_base 2, [3; 4]); (str "other.txt", [9]); (part_name ux_base 3, [5]); (part_name ux_base 1, [1; 2])].
Lemma ux_base_good : good_base ux_base.
Proof. exists (str "film"), 97, 118, 105. repeat split. Qed.
Example C123_example : one_set ux_base ux_dir /\ good_base ux_base /\ complete_set ux_base ux_dir 1 [[1; 2]; [3; 4]; [5]] /\
  same_but_last [1; 2] [[1; 2]; [3; 4]; [5]] /\
  join_file false ux_dir (part_name ux_base 1) = Some (Some [1; 2; 3; 4; 5]).
Proof.
  split; [|split; [apply ux_base_good|split; [|split; [|vm_compute; reflexivity]]]].
  - split.
    + vm_compute. repeat constructor; cbn; intuition discriminate.
    + repeat constructor; intros b n E; vm_compute in E; try discriminate; injection E as <- _; reflexivity.
  - split; [now right|]. split; [|split; [vm_compute; reflexivity|discriminate]].
    cbn [parts_from]. unfold ux_dir. cbn [In]. repeat split; auto.
  - exists [[1; 2]; [3; 4]], [5]. split; [reflexivity|]. split; [repeat constructor|discriminate].
Qed.

(** Parts of two files in the directory: what is written is only a part of the file, and success is reported. *)
Theorem C123_two_sets_refuted : exists d base c, good_base base /\ NoDup (map fst d) /\
  join_file false d (part_name base 1) = Some (Some c) /\
  (exists x, In (part_name base 3, x) d) /\ (forall x, In (part_name base 2, x) d -> False) /\ c = [1; 2].
Proof.
  exists [(part_name ux_base 1, [1; 2]); (part_name (str "clip.avi") 2, [7; 7]); (part_name ux_base 3, [5])], ux_base, [1; 2].
  split; [apply ux_base_good|]. split; [vm_compute; repeat constructor; cbn; intuition discriminate|].
  split; [vm_compute; reflexivity|]. split; [exists [5]; cbn; auto|]. split; [|reflexivity].
  intros x H. vm_compute in H. intuition discriminate.
Qed.
Print Assumptions C123_two_sets_refuted.

(** Both files are complete: none of them is joined. *)
Theorem C123_two_complete_refuted : exists d b1 b2 cs1 cs2, good_base b1 /\ good_base b2 /\ b1 <> b2 /\ NoDup (map fst d) /\
  parts_from b1 d 1 cs1 /\ parts_from b2 d 1 cs2 /\ length (parts_of d) = (length cs1 + length cs2)%nat /\
  same_but_last (hd [] cs1) cs1 /\ same_but_last (hd [] cs2) cs2 /\
  join_file true d (part_name b1 1) = Some None /\ join_file true d (part_name b2 1) = Some None.
Proof.
  exists [(part_name ux_base 1, [1; 2]); (part_name ux_base 2, [3]); (part_name (str "clip.avi") 1, [7; 7]); (part_name (str "clip.avi") 2, [8])],
    ux_base, (str "clip.avi"), [[1; 2]; [3]], [[7; 7]; [8]].
  split; [apply ux_base_good|]. split; [exists (str "clip"), 97, 118, 105; repeat split|]. split; [discriminate|].
  split; [vm_compute; repeat constructor; cbn; intuition discriminate|].
  split; [cbn [parts_from In]; auto|]. split; [cbn [parts_from In]; auto 10|]. split; [vm_compute; reflexivity|].
  split; [exists [[1; 2]], [3]; repeat split; [repeat constructor|discriminate]|].
  split; [exists [[7; 7]], [8]; repeat split; [repeat constructor|discriminate]|].
  split; vm_compute; reflexivity.
Qed.
Print Assumptions C123_two_complete_refuted.

(** A file in a single part after a good par-check: division by zero. *)
Theorem C123_single_refuted : exists d base c1, one_set base d /\ good_base base /\ complete_set base d 1 [c1] /\
  join_file true d (part_name base 1) = None.
Proof.
  exists [(part_name ux_base 1, [1; 2])], ux_base, [1; 2]. split; [|split; [apply ux_base_good|split; [|vm_compute; reflexivity]]].
  - split; [repeat constructor; intros []|]. repeat constructor. intros b n E. vm_compute in E. injection E as <- _. reflexivity.
  - split; [now right|]. split; [|split; [vm_compute; reflexivity|discriminate]]. cbn [parts_from In]. auto.
Qed.
Print Assumptions C123_single_refuted.
