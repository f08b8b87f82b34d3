(** Small list containers of the queue objects.

    daemon/queue/DownloadInfo.cpp
      36-58   NzbParameterList::SetParameter
      60-71   NzbParameterList::Find
      73-79   NzbParameterList::CopyFrom
      82-97   ScriptStatusList::CalcTotalStatus
      100-135 ServerStatList::StatOp
      137-143 ServerStatList::ListOp *)
From Coq Require Import String.
From Verif Require Import Base WildModel.

(** ** Group parameters *)

(** An NzbParameter is a name and a value, both byte strings without NUL
    (DownloadInfo.h 293-307).  A null value is treated as the empty string:
    Util::EmptyStr does not distinguish them (Util.h, EmptyStr). *)
Notation param := (list Z * list Z)%type.

(** strcasecmp(a, b) == 0 in the C locale: equal after ASCII folding. *)
Definition same_nocase (a b : list Z) : bool := beqb (map lower a) (map lower b).

(** The position found by std::find_if in SetParameter (41-45): erase it when
    the value is empty (47-50), overwrite the value and keep the stored name
    (51-54), or append when nothing was found (55-58). *)
Fixpoint set_parameter (l : list param) (name value : list Z) : list param :=
  match l with
  | [] => match value with [] => [] | _ => [(name, value)] end
  | (n, v) :: r =>
      if same_nocase n name
      then match value with [] => r | _ => (n, value) :: r end
      else (n, v) :: set_parameter r name value
  end.

(** Find (60-71): value of the first parameter with that name. *)
Fixpoint find_parameter (l : list param) (name : list Z) : option (list Z) :=
  match l with
  | [] => None
  | (n, v) :: r => if same_nocase n name then Some v else find_parameter r name
  end.

(** CopyFrom (73-79). *)
Definition copy_from (l src : list param) : list param :=
  fold_left (fun acc p => set_parameter acc (fst p) (snd p)) src l.

(** ** Script statuses *)

(** ScriptStatus::EStatus, DownloadInfo.h 323-328. *)
Inductive script_status := srNone | srFailure | srSuccess.

(** One turn of the loop, 86-94. *)
Definition total_step (status s : script_status) : script_status :=
  match s, status with
  | srSuccess, srNone => srSuccess
  | srFailure, _ => srFailure
  | _, _ => status
  end.

(** CalcTotalStatus, 82-97. *)
Definition calc_total_status (l : list script_status) : script_status :=
  fold_left total_step l srNone.

(** ** Per-server statistics *)

(** ServerStat (DownloadInfo.h 34-48): server, successful and failed articles.
    The counters are C int; they are unbounded here. *)
Record sstat := mkS { sv_id : Z; sv_ok : Z; sv_bad : Z }.

Inductive stat_kind := soSet | soAdd | soSubtract.

(** The switch at 116-133. *)
Definition stat_apply (k : stat_kind) (ok bad : Z) (s : sstat) : sstat :=
  match k with
  | soSet => mkS (sv_id s) ok bad
  | soAdd => mkS (sv_id s) (sv_ok s + ok) (sv_bad s + bad)
  | soSubtract => mkS (sv_id s) (sv_ok s - ok) (sv_bad s - bad)
  end.

(** StatOp, 100-135: the first entry with the server id is changed; without
    one a zero entry is appended first. *)
Fixpoint stat_op (l : list sstat) (id ok bad : Z) (k : stat_kind) : list sstat :=
  match l with
  | [] => [stat_apply k ok bad (mkS id 0 0)]
  | s :: r =>
      if sv_id s =? id then stat_apply k ok bad s :: r
      else s :: stat_op r id ok bad k
  end.

(** ListOp, 137-143.  The two lists are different objects in every caller. *)
Definition list_op (l src : list sstat) (k : stat_kind) : list sstat :=
  fold_left (fun acc s => stat_op acc (sv_id s) (sv_ok s) (sv_bad s) k) src l.
