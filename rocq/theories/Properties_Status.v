(** C22, C26, C47, C83, C84: identifiers, health and status of downloads. *)
From Coq Require Import String.
From Verif Require Import Base StatusModel StatusSpec StatusProofs IdModel IdSpec IdProofs.
Open Scope list_scope. Open Scope Z_scope.

(** ** C22 Identifiers *)

(** Every history of creations, deletions, conversions and restarts, started from a saved state
    without repeated identifiers. Missing: saved states with repeated identifiers, which a kill
    can leave behind (C22_twice_refuted in Properties_Disk.v). *)
Theorem C22_unique_partial : forall saved ops, saved_ok (IRestart saved) -> Forall saved_ok ops ->
  let s := id_run ops (id_step (mkIds (mkGen 0 0) []) (IRestart saved)) in
  NoDup (i_live s) /\ ~ In (snd (new_id (i_gen s))) (i_live s).
Proof. exact ids_unique. Qed.
Print Assumptions C22_unique_partial.
Example C22_ex : saved_ok (IRestart [(LObject, 7); (LCompleted, 9); (LObject, 2)]) /\
  i_live (id_run [ICreate; IRemove 9; ICreate] (id_step (mkIds (mkGen 0 0) []) (IRestart [(LObject, 7); (LCompleted, 9); (LObject, 2)]))) = [11; 10; 7; 2].
Proof. split; [|reflexivity]. split; [repeat constructor; cbn; intuition lia|repeat constructor]. Qed.

(** ** C26 Health *)

(** Between 0 and 1000, and 1000 exactly when no data other than par data failed. *)
Theorem C26_health_partial : forall s, sizes_ok s ->
  exists h, calc_health s = Some h /\ 0 <= h <= 1000 /\ (h = 1000 <-> data_failed s = 0).
Proof. exact health_range. Qed.
Print Assumptions C26_health_partial.
Theorem C26_health_decreases : forall s s' h h', sizes_ok s -> sizes_ok s' -> z_size s = z_size s' -> z_par s = z_par s' ->
  data_failed s <= data_failed s' -> calc_health s = Some h -> calc_health s' = Some h' -> h' <= h.
Proof. exact health_mono. Qed.
Print Assumptions C26_health_decreases.
Theorem C26_critical : forall e s, sizes_ok s -> exists c, calc_critical e s = Some c /\ 0 <= c <= 1000.
Proof. exact critical_range. Qed.
Print Assumptions C26_critical.
(** The health is also 1000 when all par data failed. *)
Theorem C26_par_failed_refuted : exists s, sizes_ok s /\ 0 < z_failed s /\ calc_health s = Some 1000.
Proof. exists (mkSizes 1000 100 100 100). split; [unfold sizes_ok; cbn; lia|]. split; [cbn; lia|reflexivity]. Qed.
Print Assumptions C26_par_failed_refuted.
Example C26_ex : sizes_ok (mkSizes 1000 100 95 50) /\ calc_health (mkSizes 1000 100 95 50) = Some 950 /\
  calc_critical false (mkSizes 1000 100 95 50) = Some 947.
Proof. split; [unfold sizes_ok; cbn; lia|]. split; reflexivity. Qed.

(** ** C83 Critical health *)

(** While no par data failed: as long as the failed data is not more than the par data the health is not
    below the critical health; when it is more, by a thousandth of the data, the health is below. *)
Theorem C83_repairable_partial : forall e s h c, sizes_ok s -> z_par_failed s = 0 -> data_failed s <= par_good s ->
  calc_health s = Some h -> calc_critical e s = Some c -> c <= h.
Proof. exact repairable. Qed.
Print Assumptions C83_repairable_partial.
Theorem C83_unrepairable_partial : forall s h c, sizes_ok s -> z_par_failed s = 0 -> par_good s < data_failed s ->
  data_size s <= 1000 * (data_failed s - par_good s) ->
  calc_health s = Some h -> calc_critical false s = Some c -> h < c.
Proof. exact unrepairable. Qed.
Print Assumptions C83_unrepairable_partial.
(** When par data failed too, a download with enough good par data is taken for unrepairable:
    here 100 failed, 100 of 400 par data good. *)
Theorem C83_par_failed_refuted : exists s h c, sizes_ok s /\ data_failed s <= par_good s /\
  calc_health s = Some h /\ calc_critical true s = Some c /\ h < c.
Proof.
  exists (mkSizes 1400 400 400 300), 900, 923. split; [unfold sizes_ok; cbn; lia|]. split; [vm_compute; discriminate|].
  split; [reflexivity|]. split; [reflexivity|lia].
Qed.
Print Assumptions C83_par_failed_refuted.
Example C83_ex : sizes_ok (mkSizes 1100 100 100 0) /\ data_failed (mkSizes 1100 100 100 0) <= par_good (mkSizes 1100 100 100 0) /\
  calc_health (mkSizes 1100 100 100 0) = Some 900 /\ calc_critical false (mkSizes 1100 100 100 0) = Some 900 /\
  calc_health (mkSizes 1100 100 101 0) = Some 899.
Proof. split; [unfold sizes_ok; cbn; lia|]. split; [vm_compute; discriminate|]. repeat split. Qed.

(** ** C47 Status text *)

(** The status of an nzb download is defined, is never an internal error, and its first word says
    what happened. *)
Theorem C47_status : forall ignore o, o_kind o = nkNzb -> sizes_ok (o_sizes o) ->
  exists t, text_status ignore o = Some t /\ t <> str "FAILURE/INTERNAL_ERROR" /\
    (says_failure t <-> failed_download o) /\
    (says_deleted t <-> o_mark o = ksNone /\ deleted_by_user_or_dupe o) /\
    (says_success t <-> marked_ok o \/ all_went_well ignore o) /\
    (says_warning t <-> ~ says_failure t /\ ~ says_deleted t /\ ~ says_success t).
Proof. exact text_words. Qed.
Print Assumptions C47_status.
Definition ex_outcome := mkOutcome nkNzb (mkSizes 1000 100 0 0) psSuccess usSuccess msSuccess dsNone ksNone lsNone [srSuccess; srNone].
Example C47_ex : text_status false ex_outcome = Some (str "SUCCESS/ALL") /\ all_went_well false ex_outcome.
Proof.
  split; [reflexivity|]. unfold all_went_well, stage_failed, unprocessed. cbn. intuition discriminate.
Qed.

(** The status of a download by URL. *)
Theorem C47_url : forall ignore o, o_kind o = nkUrl -> exists t, text_status ignore o = Some t /\
  (says_deleted t <-> In (o_delete o) [dsManual; dsDupe; dsGood]) /\ ~ says_success t /\
  (~ says_deleted t -> (says_warning t <-> o_url o = lsScanSkipped) /\ (says_failure t <-> o_url o <> lsScanSkipped) /\
    (t = str "FAILURE/INTERNAL_ERROR" <-> ~ In (o_url o) [lsFailed; lsScanSkipped; lsScanFailed])).
Proof. exact url_words. Qed.
Print Assumptions C47_url.
Example C47_url_ex : text_status false (mkOutcome nkUrl (mkSizes 0 0 0 0) psNone usNone msNone dsNone ksNone lsScanFailed []) = Some (str "FAILURE/SCAN").
Proof. reflexivity. Qed.

(** ** C84 Success for the handling of duplicates *)
(** Exactly which downloads count as good. *)
Theorem C84_exact : forall o, sizes_ok (o_sizes o) -> exists b, is_dupe_success o = Some b /\ (b = true <-> good_for_dupes o).
Proof. exact dupe_success_exact. Qed.
Print Assumptions C84_exact.
Theorem C84_success : forall ignore o t, o_kind o = nkNzb -> sizes_ok (o_sizes o) ->
  ~ In (o_url o) [lsFailed; lsScanSkipped; lsScanFailed] ->
  text_status ignore o = Some t -> says_success t -> is_dupe_success o = Some true.
Proof. exact success_is_dupe_success. Qed.
Print Assumptions C84_success.
(** Missing: failed moves and downloads neither checked nor unpacked. *)
Theorem C84_failure_partial : forall ignore o t, o_kind o = nkNzb -> sizes_ok (o_sizes o) ->
  text_status ignore o = Some t -> (says_failure t \/ says_deleted t) ->
  o_move o <> msFailure -> ~ unprocessed o -> is_dupe_success o = Some false.
Proof. exact dupe_failure. Qed.
Print Assumptions C84_failure_partial.
Theorem C84_move_refuted : exists o, o_kind o = nkNzb /\ sizes_ok (o_sizes o) /\
  text_status false o = Some (str "FAILURE/MOVE") /\ is_dupe_success o = Some true.
Proof.
  exists (mkOutcome nkNzb (mkSizes 1000 100 0 0) psSuccess usSuccess msFailure dsNone ksNone lsNone []).
  split; [reflexivity|]. split; [unfold sizes_ok; cbn; lia|]. split; reflexivity.
Qed.
Print Assumptions C84_move_refuted.
(** Health 0: everything failed, and still a success for the handling of duplicates. *)
Theorem C84_health_refuted : exists o, o_kind o = nkNzb /\ sizes_ok (o_sizes o) /\ calc_health (o_sizes o) = Some 0 /\
  text_status false o = Some (str "FAILURE/HEALTH") /\ is_dupe_success o = Some true.
Proof.
  exists (mkOutcome nkNzb (mkSizes 1000 100 900 0) psNone usNone msNone dsNone ksNone lsNone []).
  split; [reflexivity|]. split; [unfold sizes_ok; cbn; lia|]. repeat split; reflexivity.
Qed.
Print Assumptions C84_health_refuted.
Example C84_ex : text_status false ex_outcome = Some (str "SUCCESS/ALL") /\ is_dupe_success ex_outcome = Some true /\
  is_dupe_success (mkOutcome nkNzb (mkSizes 1000 100 0 0) psFailure usSuccess msSuccess dsNone ksNone lsNone []) = Some false.
Proof. repeat split. Qed.
