(** What health and status of a download mean. *)
From Coq Require Import String.
From Verif Require Import Base StatusModel.

(** What the bookkeeping of sizes maintains (C19): par data is part of the data, failed data
    part of the data of its kind. *)
Definition sizes_ok (s : sizes) : Prop :=
  0 <= z_par s <= z_size s /\ 0 <= z_par_failed s <= z_par s /\
  0 <= z_failed s - z_par_failed s <= z_size s - z_par s.

(** Data needed, of which some failed; par data that did not fail. *)
Definition data_size (s : sizes) : Z := z_size s - z_par s.
Definition data_failed (s : sizes) : Z := z_failed s - z_par_failed s.
Definition par_good (s : sizes) : Z := z_par s - z_par_failed s.

Definition starts_with (p t : list Z) : Prop := exists r, t = p ++ r.
Definition says_success (t : list Z) : Prop := starts_with (str "SUCCESS/") t.
Definition says_failure (t : list Z) : Prop := starts_with (str "FAILURE/") t.
Definition says_deleted (t : list Z) : Prop := starts_with (str "DELETED/") t.
Definition says_warning (t : list Z) : Prop := starts_with (str "WARNING/") t.

(** What happened to an nzb download. *)
Definition marked_ok (o : outcome) : Prop := o_mark o = ksGood \/ o_mark o = ksSuccess.
Definition deleted_by_user_or_dupe (o : outcome) : Prop :=
  In (o_delete o) [dsManual; dsDupe; dsGood; dsCopy].
Definition stage_failed (o : outcome) : Prop :=
  o_par o = psFailure \/ o_unpack o = usFailure \/ o_move o = msFailure.
(** Neither checked nor unpacked. *)
Definition unprocessed (o : outcome) : Prop :=
  In (o_par o) [psNone; psSkipped] /\ In (o_unpack o) [usNone; usSkipped].
Definition too_damaged (o : outcome) : Prop :=
  unprocessed o /\ exists h c, calc_health (o_sizes o) = Some h /\ calc_critical false (o_sizes o) = Some c /\ h < c.

Definition failed_download (o : outcome) : Prop :=
  o_mark o = ksBad \/
  (o_mark o = ksNone /\
    (In (o_delete o) [dsHealth; dsBad; dsScan] \/
     (o_delete o = dsNone /\ (stage_failed o \/ (too_damaged o /\ ~ In (o_par o) [psManual; psRepairPossible]))))).

(** Nothing went wrong with an nzb download that was not marked by the user. *)
Definition all_went_well (ignore_scripts : bool) (o : outcome) : Prop :=
  o_mark o = ksNone /\ o_delete o = dsNone /\ ~ stage_failed o /\
  ~ In (o_par o) [psManual; psRepairPossible] /\ ~ In (o_unpack o) [usSpace; usPassword] /\
  (unprocessed o -> calc_health (o_sizes o) = Some 1000) /\
  (ignore_scripts = false -> ~ In srFailure (o_scripts o)).

(** A download which is good enough to make further ones with the same content needless. *)
Definition good_for_dupes (o : outcome) : Prop :=
  marked_ok o \/
  (o_mark o = ksNone /\ o_delete o = dsNone /\ o_par o <> psFailure /\ ~ In (o_unpack o) [usFailure; usPassword] /\
   ~ In (o_url o) [lsFailed; lsScanSkipped; lsScanFailed] /\
   (o_par o = psSkipped -> o_unpack o = usSkipped ->
    forall h c, calc_health (o_sizes o) = Some h -> calc_critical true (o_sizes o) = Some c -> c <= h)).
