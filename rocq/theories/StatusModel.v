(** Health and status of downloads.

    daemon/queue/DownloadInfo.cpp
      82-97    ScriptStatusList::CalcTotalStatus
      270-286  NzbInfo::CalcHealth
      288-317  NzbInfo::CalcCriticalHealth
      493-509  NzbInfo::IsDupeSuccess
      511-650  NzbInfo::MakeTextStatus
    daemon/queue/DownloadInfo.h 323-328, 376-447 enumerations

    int64 arithmetic on sizes is unbounded here: products with 1000 stay in
    range below 9 petabytes.  Division truncates ([Z.quot]); a division by zero
    is [None]. *)
From Coq Require Import String.
From Verif Require Import Base.

Inductive par_status := psNone | psSkipped | psFailure | psSuccess | psRepairPossible | psManual.
Inductive unpack_status := usNone | usSkipped | usFailure | usSuccess | usSpace | usPassword.
Inductive move_status := msNone | msFailure | msSuccess.
Inductive delete_status := dsNone | dsManual | dsHealth | dsDupe | dsBad | dsGood | dsCopy | dsScan.
Inductive mark_status := ksNone | ksBad | ksGood | ksSuccess.
Inductive url_status := lsNone | lsRunning | lsFinished | lsFailed | lsRetry | lsScanSkipped | lsScanFailed.
Inductive script_status := srNone | srFailure | srSuccess.
Inductive nzb_kind := nkNzb | nkUrl.

(** m_size, m_parSize, m_currentFailedSize, m_parCurrentFailedSize. *)
Record sizes := mkSizes { z_size : Z; z_par : Z; z_failed : Z; z_par_failed : Z }.

Record outcome := mkOutcome {
  o_kind : nzb_kind; o_sizes : sizes; o_par : par_status; o_unpack : unpack_status; o_move : move_status;
  o_delete : delete_status; o_mark : mark_status; o_url : url_status; o_scripts : list script_status }.

(** CalcHealth, 270-286. *)
Definition calc_health (s : sizes) : option Z :=
  if (z_failed s =? 0) || (z_size s =? z_par s) then Some 1000 else
  let n := z_size s - z_par s in
  if n =? 0 then None else
  let health := Z.quot ((n - (z_failed s - z_par_failed s)) * 1000) n in
  Some (if (health =? 1000) && (0 <? z_failed s - z_par_failed s) then 999 else health).

(** CalcCriticalHealth, 288-317. *)
Definition calc_critical (estimate : bool) (s : sizes) : option Z :=
  if z_size s =? 0 then Some 1000 else
  if z_size s =? z_par s then Some 0 else
  let good := z_par s - z_par_failed s in
  if z_size s - good =? 0 then None else
  let c := Z.quot ((z_size s - good * 2) * 1000) (z_size s - good) in
  let c := if z_size s <? good * 2 then 0 else if (c =? 1000) && (0 <? z_par s) then 999 else c in
  Some (if (c =? 1000) && estimate then 850 else c).

(** CalcTotalStatus, 82-97. *)
Definition script_step (st s : script_status) : script_status :=
  match s, st with
  | srFailure, _ => srFailure
  | srSuccess, srNone => srSuccess
  | _, _ => st
  end.
Definition total_scripts (l : list script_status) : script_status := fold_left script_step l srNone.

(** IsDupeSuccess, 493-509. *)
Definition is_dupe_success (o : outcome) : option bool :=
  match calc_health (o_sizes o), calc_critical true (o_sizes o) with
  | Some health, Some critical =>
      Some match o_mark o with
           | ksSuccess | ksGood => true
           | ksBad => false
           | ksNone =>
               match o_delete o, o_par o, o_unpack o, o_url o with
               | dsNone, par, unpack, url =>
                   negb (match par with psFailure => true | _ => false end ||
                         match unpack with usFailure | usPassword => true | _ => false end ||
                         match url with lsFailed | lsScanSkipped | lsScanFailed => true | _ => false end ||
                         match par, unpack with psSkipped, usSkipped => health <? critical | _, _ => false end)
               | _, _, _, _ => false
               end
           end
  | _, _ => None
  end.

(** The conditions at 581-598. *)
Definition not_processed (o : outcome) : bool :=
  match o_par o, o_unpack o with
  | (psNone | psSkipped), (usNone | usSkipped) => true
  | _, _ => false
  end.

(** MakeTextStatus, 511-650. *)
Definition text_status (ignore_scripts : bool) (o : outcome) : option (list Z) :=
  match o_kind o with
  | nkNzb =>
    match calc_health (o_sizes o), calc_critical false (o_sizes o) with
    | Some health, Some critical =>
      let script := if ignore_scripts then srSuccess else total_scripts (o_scripts o) in
      Some match o_mark o with
      | ksBad => str "FAILURE/BAD"
      | ksGood => str "SUCCESS/GOOD"
      | ksSuccess => str "SUCCESS/MARK"
      | ksNone =>
        match o_delete o with
        | dsHealth => str "FAILURE/HEALTH"
        | dsManual => str "DELETED/MANUAL"
        | dsDupe => str "DELETED/DUPE"
        | dsBad => str "FAILURE/BAD"
        | dsGood => str "DELETED/GOOD"
        | dsCopy => str "DELETED/COPY"
        | dsScan => str "FAILURE/SCAN"
        | dsNone =>
          match o_par o, o_unpack o, o_move o with
          | psFailure, _, _ => str "FAILURE/PAR"
          | _, usFailure, _ => str "FAILURE/UNPACK"
          | _, _, msFailure => str "FAILURE/MOVE"
          | psManual, _, _ => str "WARNING/DAMAGED"
          | psRepairPossible, _, _ => str "WARNING/REPAIRABLE"
          | par, unpack, _ =>
            if not_processed o && (health <? critical) then str "FAILURE/HEALTH"
            else if not_processed o && (health <? 1000) && (critical <=? health) then str "WARNING/HEALTH"
            else if not_processed o && match script with srFailure => false | _ => true end && (health =? 1000)
              then str "SUCCESS/HEALTH"
            else match unpack with
            | usSpace => str "WARNING/SPACE"
            | usPassword => str "WARNING/PASSWORD"
            | _ =>
              if match unpack with
                 | usSuccess => true
                 | usNone | usSkipped => match par with psSuccess => true | _ => false end
                 | _ => false end && match script with srSuccess => true | _ => false end
                then str "SUCCESS/ALL"
              else if match unpack with usSuccess => true | _ => false end && match script with srNone => true | _ => false end
                then str "SUCCESS/UNPACK"
              else if match par with psSuccess => true | _ => false end && match script with srNone => true | _ => false end
                then str "SUCCESS/PAR"
              else if match script with srFailure => true | _ => false end then str "WARNING/SCRIPT"
              else str "FAILURE/INTERNAL_ERROR"
            end
          end
        end
      end
    | _, _ => None
    end
  | nkUrl =>
    Some match o_delete o with
    | dsManual => str "DELETED/MANUAL"
    | dsDupe => str "DELETED/DUPE"
    | dsGood => str "DELETED/GOOD"
    | _ =>
      match o_url o with
      | lsFailed => str "FAILURE/FETCH"
      | lsScanSkipped => str "WARNING/SKIPPED"
      | lsScanFailed => str "FAILURE/SCAN"
      | _ => str "FAILURE/INTERNAL_ERROR"
      end
    end
  end.
