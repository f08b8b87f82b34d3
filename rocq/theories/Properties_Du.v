(** C170, C171: unpacking during the download. *)
From Coq Require Import String.
From Verif Require Import Base NumFmt WildModel ScrModel DuModel DuSpec DuProofs DuProofs2 DuProofs3 DuTextModel DuTextSpec DuTextProofs.
Open Scope list_scope. Open Scope Z_scope.

(** ** C170 *)

(** If direct unpack is reported as successful: unrar was run, every run ended with code 0 after "All OK", the download was completed, it was neither
    deleted nor stopped, no file with failed articles was reported, the directory did not change and unrar printed no fatal error. *)
Theorem C170_success : forall main cmd disk ls s, run main cmd ls (start disk) = Some s -> s_status s = SSuccess ->
  good_exits ls /\ (exists c, In (TExit c) ls) /\ In QCompleted ls /\ ~ stops ls /\ ~ In (TAsk true) ls /\ ~ In (TRead MFail) ls.
Proof. exact success_thm. Qed.
(** Then every archive which was there before or was reported is unpacked, unless files were reported after the end of the download. *)
Theorem C170_all : forall main cmd disk ls s, run main cmd ls (start disk) = Some s -> s_status s = SSuccess -> ~ after_end ls ->
  forall f, main f = true -> In f disk \/ In (QFile f false) ls -> In f (unpacked s).
Proof. exact all_thm. Qed.
(** Only first volumes which are in the directory are given to unrar. *)
Theorem C170_only : forall main cmd disk ls s f, run main cmd ls (start disk) = Some s -> In f (unpacked s) -> main f = true /\ present disk ls f.
Proof. exact only_thm. Qed.
(** The Enter key is sent for the questions of unrar, once for each, in their order; a volume for which it was sent is in the directory. *)
Theorem C170_answers : forall main cmd disk ls s, run main cmd ls (start disk) = Some s ->
  (exists q, questions ls = s_answers s ++ q /\ (length q <= 1)%nat) /\
  (forall v, In v (s_answers s) -> exists f, present disk ls f /\ same_but_case f v).
Proof. exact answers_thm. Qed.
(** While unrar waits for a volume and the thread for unrar, the report of that volume wakes it. *)
Theorem C170_wakes : forall main cmd disk ls s v f, run main cmd ls (start disk) = Some s -> s_at s = Run -> questions ls = s_answers s ++ [v] ->
  s_queued s = true -> s_thread s = true -> present disk ls f -> same_but_case f v ->
  exists s', step main cmd (QFile f false) s = Some s' /\ s_answers s' = s_answers s ++ [v].
Proof. exact wakes_thm. Qed.
(** After the end of the download nobody waits for a volume: unrar is killed (if the download is still in the queue). *)
Theorem C170_gives_up : forall main cmd disk ls s v, run main cmd ls (start disk) = Some s -> s_at s = Run -> questions ls = s_answers s ++ [v] ->
  s_completed s = true -> s_terminated s = true \/ s_queued s = false.
Proof. exact gives_up_thm. Qed.
(** After the download is deleted, the program is shut down or a file with failed articles is reported no further archive is begun. *)
Theorem C170_stopped : forall main cmd disk a l b s, run main cmd (a ++ l :: b) (start disk) = Some s -> stops [l] -> ~ In TTake b.
Proof. exact stops_thm. Qed.
Print Assumptions C170_stopped.

Definition v1 : list Z := str "a.part1.rar".
Definition v2 : list Z := str "a.part2.rar".
(** Two volumes, the second one comes while unrar waits. *)
Definition day : list label :=
  [TScan; TTake; TStart; TRead MOther; THandle; TRead (MAsk v2); TAsk false; TLook; TWait; QDisk v2; QFile v2 false; TRead MAllOk; THandle; QCompleted; TExit 0; TCheck; TLeave; TEnd].
Example C170_example : exists s, run main_archive true day (start [v1]) = Some s /\ s_status s = SSuccess /\ unpacked s = [v1] /\ s_answers s = [v2] /\ ~ after_end day.
Proof.
  eexists. split; [vm_compute; reflexivity|]. split; [vm_compute; reflexivity|]. split; [vm_compute; reflexivity|]. split; [vm_compute; reflexivity|].
  intros (a & b & f & E & H). unfold day in E.
  do 13 (destruct a as [|? a]; [discriminate E | injection E as _ E]). destruct a as [|? a].
  - injection E as E. subst b. cbn in H. intuition discriminate.
  - injection E as _ E. do 4 (destruct a as [|? a]; [discriminate E | injection E as _ E]). destruct a; discriminate E.
Qed.
Example C170_example_wait : exists s, run main_archive true (firstn 9 day) (start [v1]) = Some s /\ s_at s = Run /\ questions (firstn 9 day) = s_answers s ++ [v2] /\
  s_queued s = true /\ s_thread s = true.
Proof. eexists. split; [vm_compute; reflexivity|]. repeat split. Qed.
Example C170_example_end : exists s, run main_archive true (firstn 9 day ++ [QCompleted]) (start [v1]) = Some s /\ s_at s = Run /\ questions (firstn 9 day ++ [QCompleted]) = s_answers s ++ [v2] /\
  s_completed s = true /\ s_queued s = true.
Proof. eexists. split; [vm_compute; reflexivity|]. repeat split. Qed.

(** A volume reported between the look into the directory and the beginning of waiting wakes nobody: everything was downloaded and no error
    occurred, yet direct unpack fails. *)
Theorem C170_lost_refuted : exists ls s, run main_archive true ls (start [v1]) = Some s /\ s_status s = SFailure /\ In QCompleted ls /\ ~ stops ls /\
  ~ In (TAsk true) ls /\ ~ In (TRead MFail) ls /\ forall v, In v (questions ls) -> present [v1] ls v /\ In (QFile v false) ls.
Proof.
  exists [TScan; TTake; TStart; TRead (MAsk v2); TAsk false; TLook; QDisk v2; QFile v2 false; TWait; QCompleted; TExit 0; TCheck; TEnd]. eexists.
  split; [vm_compute; reflexivity|]. split; [vm_compute; reflexivity|]. split; [cbn; tauto|].
  split; [intros [(f & H)|[H|H]]; cbn in H; intuition discriminate|]. split; [intros H; cbn in H; intuition discriminate|]. split; [intros H; cbn in H; intuition discriminate|].
  intros v [<-|[]]. split; [right; cbn; tauto | cbn; tauto].
Qed.
(** An archive completed before the thread reads the directory and reported afterwards is unpacked twice. *)
Theorem C170_twice_refuted : exists ls s, run main_archive true ls (start []) = Some s /\ s_status s = SSuccess /\ unpacked s = [v1; v1].
Proof.
  exists [QDisk v1; TScan; QFile v1 false; TTake; TStart; TRead MAllOk; THandle; TExit 0; TCheck; TTake; TStart; TRead MAllOk; THandle; QCompleted; TExit 0; TCheck; TLeave; TEnd].
  eexists. split; [vm_compute; reflexivity|]. split; vm_compute; reflexivity.
Qed.
(** A download deleted just before unrar is started: unrar runs, asks for a volume, and nobody ever answers or kills it. *)
Theorem C170_stuck_refuted : exists ls s, run main_archive true ls (start [v1]) = Some s /\ s_at s <> Finished /\ s_bad s = false /\ In QDeleted ls /\
  forall l, step main_archive true l s = None.
Proof.
  exists [TScan; TTake; QDeleted; TStart; TRead (MAsk v2); TAsk false; TLook; TWait; QGone]. eexists. split; [vm_compute; reflexivity|].
  split; [discriminate|]. split; [reflexivity|]. split; [cbn; tauto|]. intros l. destruct l; reflexivity.
Qed.
(** A download deleted after its end while unrar asks for a volume which is missing: a null pointer is used. *)
Theorem C170_null_refuted : exists ls s, run main_archive true ls (start [v1]) = Some s /\ s_bad s = true /\ s_open s = true.
Proof.
  exists [TScan; TTake; TStart; TRead (MAsk v2); QCompleted; TAsk false; TLook; QDeleted; QGone; TWait]. eexists. split; [vm_compute; reflexivity|]. split; reflexivity.
Qed.
(** The volume unrar waited for is reported after unrar was killed by the shutdown: a closed file is written to. *)
Theorem C170_closed_refuted : exists ls s, run main_archive true ls (start [v1]) = Some s /\ s_bad s = true /\ s_open s = false /\ s_queued s = true.
Proof.
  exists [TScan; TTake; TStart; TRead (MAsk v2); TAsk false; TLook; TWait; QShutdown; TExit (-1); QDisk v2; QFile v2 false]. eexists. split; [vm_compute; reflexivity|]. repeat split.
Qed.

(** ** C171 *)

(** Unpacking begins with names ending with .rar which are not volumes of another number than one. *)
Theorem C171_main : forall n, (forall d, numbered n d -> (length d <= 9)%nat) -> (main_archive n = true <-> first_volume n).
Proof. exact main_ok. Qed.
Theorem C171_archive : forall n, archive_name n = true <-> rar_file n.
Proof. exact archive_ok. Qed.
(** A line of unrar is read as it is. *)
Theorem C171_line : forall prev l r, ~ In 10 l -> ~ In 8 l -> ~ In 0 l -> (length l < out_room)%nat -> prefixb (str "...") l = false -> prefixb (str "Insert disk with") l = false ->
  read_line prev (l ++ 10 :: r) = (Some (l ++ [10]), r).
Proof. exact line_ok. Qed.
(** The question for a volume is read without waiting for more output, and the name of the volume is understood. *)
Theorem C171_question : forall prev v r, ~ In 10 v -> ~ In 8 v -> ~ In 0 v -> (length v <= 900)%nat -> v <> [] ->
  strstr (question v) (str " [C]ontinue, [Q]uit") = Some (str " [C]ontinue, [Q]uit ") ->
  read_line prev (question v ++ r) = (Some (question v), r) /\ heard_line (question v) = Some (MAsk v).
Proof. exact ask_ok. Qed.
Example C171_example_main : main_archive v1 = true /\ main_archive v2 = false /\ main_archive (str "b.RAR") = true /\ main_archive (str "b.r00") = false /\ archive_name (str "b.r00") = true /\
  forall d, numbered v2 d -> (length d <= 9)%nat.
Proof.
  repeat (split; [vm_compute; reflexivity|]). intros d H. apply (proj2 (volume_ok v2 d)) in H. vm_compute in H. injection H as <-. cbn. lia.
Qed.
Example C171_example_line : prefixb (str "...") (str "All OK") = false /\ prefixb (str "Insert disk with") (str "All OK") = false /\ heard_line (str "All OK" ++ [10]) = Some MAllOk /\
  heard_line (str "Extracting a.bin - CRC failed" ++ [10]) = Some MFail.
Proof. repeat split; vm_compute; reflexivity. Qed.
Example C171_example_question : strstr (question (str "[x] a.part2.rar")) (str " [C]ontinue, [Q]uit") = Some (str " [C]ontinue, [Q]uit ").
Proof. vm_compute. reflexivity. Qed.
(** The number of a volume is cut to 32 bits. *)
Theorem C171_number_refuted : exists n d, main_archive n = true /\ numbered n d /\ value_of d <> 1.
Proof.
  exists (str "a.part4294967297.rar"), (str "4294967297"). split; [vm_compute; reflexivity|]. split; [|vm_compute; discriminate].
  apply (proj1 (volume_ok _ _)). vm_compute. reflexivity.
Qed.
(** Output which begins with a backspace repeats the line before it: here a question which unrar did not ask again. *)
Theorem C171_again_refuted : exists v out l r, read_line (firstn (length (question v) - 1) (question v)) out = (Some l, r) /\ heard_line l = Some (MAsk v) /\ ~ In 73 out.
Proof.
  exists v2, ([8; 8; 8; 8] ++ str "  5%" ++ [8; 8; 8; 8] ++ str " 10%" ++ [8; 8; 8; 8] ++ str " 15%" ++ [8; 8; 8; 8] ++ str " 20%" ++ [8; 8; 8; 8] ++ str " 25%" ++ [8; 8; 8; 8] ++ str " 30%" ++ [10]).
  eexists. eexists. split; [vm_compute; reflexivity|]. split; [vm_compute; reflexivity|]. vm_compute. intuition discriminate.
Qed.

Print Assumptions C170_success.
Print Assumptions C170_all.
Print Assumptions C170_only.
Print Assumptions C170_answers.
Print Assumptions C170_wakes.
Print Assumptions C170_gives_up.
Print Assumptions C170_lost_refuted.
Print Assumptions C170_twice_refuted.
Print Assumptions C170_stuck_refuted.
Print Assumptions C170_null_refuted.
Print Assumptions C170_closed_refuted.
Print Assumptions C171_main.
Print Assumptions C171_archive.
Print Assumptions C171_line.
Print Assumptions C171_question.
Print Assumptions C171_number_refuted.
Print Assumptions C171_again_refuted.
