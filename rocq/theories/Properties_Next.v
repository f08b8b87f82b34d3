(** The next article and the next URL to download: theorems for C21, C88. *)
From Verif Require Import Base NextModel NextSpec NextProofs NextProofs2.
Open Scope list_scope. Open Scope Z_scope.

(** C21: the search ends; an article is found exactly if one is left in a file which may be downloaded; it is the first
    one left of the best file, provided that the groups are counted as having extra priority exactly when they have a
    file of extra priority to download; with direct renaming it may be a first article of the group of that file. *)
Theorem C21_next_partial : forall e q, counted q -> exists res q', next_article e q = Some (res, q') /\ rel q q' /\
    match res with
    | None => forall i j n f, file_at q i j n f -> ~ available e n f
    | Some (i, j, k) => chosen e q i j k
    end.
Proof. exact next_ok. Qed.
Print Assumptions C21_next_partial.
(** No article is handed out again unless it came back to be retried. *)
Theorem C21_once : forall q ops, told_apart q -> edits_ok q [] ops -> once (snd (ev_run q ops)).
Proof. exact handed_once. Qed.
Print Assumptions C21_once.

(** A queue: the second group has the highest priority; its first file is paused, the first article of the second is done. *)
Definition exA : nzb := mkNzb [mkFile false false false 0 true [mkArt 1 aiUndefined]] 0 0 0 false false false.
Definition exB : nzb := mkNzb [mkFile true false false 0 true [mkArt 2 aiUndefined];
                               mkFile false false false 0 true [mkArt 3 aiFinished; mkArt 4 aiUndefined; mkArt 5 aiUndefined]] 1 50 0 false false false.
Definition exE : env := mkEnv false false 0 1000 false.
Example C21_next_ex : counted [exA; exB] /\ extra_ready exE [exA; exB] /\ next_article exE [exA; exB] = Some (Some (1%nat, 1%nat, 1%nat), [exA; exB]) /\
  next_article (mkEnv true false 0 1000 false) [exA; exB] = Some (None, [exA; exB]).
Proof.
  split; [intros n [<-|[<-|[]]]; split; reflexivity|]. split; [|split; vm_compute; reflexivity].
  intros n [<-|[<-|[]]]; (split; [cbn; lia|]).
  - intros (f & [<-|[]] & H & _). discriminate.
  - intros (f & [<-|[<-|[]]] & H & _); discriminate.
Qed.
(** Two articles are handed out, one of them comes back and is handed out again. *)
Example C21_once_ex : told_apart [exA; exB] /\
  let ops := [EvNext exE; EvNext exE; EvDone 1 1 1 aiUndefined; EvDone 1 1 2 aiFinished; EvNext exE; EvNext exE; EvNext exE] in
  edits_ok [exA; exB] [] ops /\ snd (ev_run [exA; exB] ops) = [Handed 4; Handed 5; Back 4; Handed 4; Handed 1].
Proof.
  split; [unfold told_apart; vm_compute; repeat (constructor; [cbn; intuition discriminate|]); constructor|].
  split; [vm_compute; tauto|vm_compute; reflexivity].
Qed.
(** Not in general the highest priority: a group which counts as having extra priority keeps groups of higher priority
    away although its file of extra priority is paused. *)
Theorem C21_extra_refuted : exists e q i j k n f i' j' n' f', counted q /\
  next_article e q = Some (Some (i, j, k), q) /\ file_at q i j n f /\ file_at q i' j' n' f' /\ available e n' f' /\
  f_extra f = false /\ f_extra f' = false /\ n_priority n < n_priority n'.
Proof.
  exists exE, [mkNzb [mkFile true false true 0 true [mkArt 1 aiUndefined]; mkFile false false false 0 true [mkArt 2 aiUndefined]] 1 0 1 false false false;
               mkNzb [mkFile false false false 0 true [mkArt 3 aiUndefined]] 0 50 0 false false false], 0%nat, 1%nat, 0%nat.
  eexists _, _, 1%nat, 0%nat, _, _. split; [intros n [<-|[<-|[]]]; split; reflexivity|]. split; [vm_compute; reflexivity|].
  split; [split; reflexivity|]. split; [split; reflexivity|].
  split; [split; [split; [reflexivity|]; split; [reflexivity|]; split; [left; cbn; lia|left; split; reflexivity]|exists (mkArt 3 aiUndefined); split; [left; reflexivity|reflexivity]]|].
  split; [reflexivity|]. split; [reflexivity|cbn; lia].
Qed.
Print Assumptions C21_extra_refuted.
(** Not in general of a file which is not paused: with direct renaming the first articles of paused files are fetched too. *)
Theorem C21_paused_refuted : exists e q q' i j k n f, counted q /\ next_article e q = Some (Some (i, j, k), q') /\
  file_at q i j n f /\ f_paused f = true /\ f_deleted f = true.
Proof.
  exists (mkEnv false false 0 1000 true), [mkNzb [mkFile true true false 0 false [mkArt 1 aiUndefined]; mkFile false false false 0 true [mkArt 2 aiUndefined]] 1 0 0 true false false].
  eexists _, 0%nat, 0%nat, 0%nat, _, _. split; [intros n [<-|[]]; split; reflexivity|]. split; [vm_compute; reflexivity|]. split; [split; reflexivity|]. split; reflexivity.
Qed.
Print Assumptions C21_paused_refuted.

(** C88: the next URL has the highest priority of those which wait and is the first of these; none only if none waits. *)
Theorem C88_url : forall q,
  match next_url 0 q None with
  | None => Forall (fun u => ~ waits u) q
  | Some (p, u) => exists a b, q = a ++ u :: b /\ p = length a /\ waits u /\
      Forall (fun w => waits w -> u_priority w < u_priority u) a /\ Forall (fun w => waits w -> u_priority w <= u_priority u) b
  end.
Proof.
  intros q. assert (H := next_url_ok q 0 None). destruct (next_url 0 q None) as [[p u]|]; [|exact (proj2 H)].
  destruct H as [(E & _)|(a & b & H1 & H2 & H3 & _ & H4 & H5)]; [discriminate|]. exists a, b. auto.
Qed.
Print Assumptions C88_url.
Example C88_url_ex : next_url 0 [mkUrl false true true 100; mkUrl true true true 0; mkUrl true false true 90; mkUrl true true true 50; mkUrl true true true 50] None =
  Some (3%nat, mkUrl true true true 50).
Proof. vm_compute. reflexivity. Qed.
