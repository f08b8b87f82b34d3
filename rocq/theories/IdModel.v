(** Identifiers of groups and files.

    daemon/queue/DownloadInfo.cpp
      146-171  NzbInfo::SetId, ResetGenId, GenerateId
      780-800  FileInfo::SetId, ResetGenId
      841-850  CompletedFile::CompletedFile
      853-860  DupInfo::SetId
    daemon/queue/DownloadInfo.h
      131      FileInfo::FileInfo
      655      NzbInfo::m_id
    daemon/queue/DiskState.cpp
      321-423  LoadDownloadQueue (order of loading, ResetGenId at 417-418)

    Overflow of the counters (more than 2^31 objects) is not modelled. *)
From Verif Require Import Base.

(** The static members m_idGen and m_idMax of NzbInfo, or of FileInfo. *)
Record idgen := mkGen { g_gen : Z; g_max : Z }.

(** m_id(++m_idGen). *)
Definition new_id (g : idgen) : idgen * Z := (mkGen (g_gen g + 1) (g_max g), g_gen g + 1).
(** SetId; the constructor of CompletedFile does the same to FileInfo::m_idMax. *)
Definition set_id (g : idgen) (id : Z) : idgen := mkGen (g_gen g) (if g_max g <? id then id else g_max g).
(** ResetGenId(true). *)
Definition reset_max (g : idgen) : idgen := mkGen (g_max g) (g_max g).

(** Loading one object: a new object is constructed (taking a fresh id) and its id is set;
    a completed file is constructed with its id. *)
Inductive lkind := LObject | LCompleted.
Definition load_one (g : idgen) (x : lkind * Z) : idgen :=
  match fst x with
  | LObject => set_id (fst (new_id g)) (snd x)
  | LCompleted => set_id g (snd x)
  end.
(** The program start: static members are 0; LoadDownloadQueue. *)
Definition load_all (saved : list (lkind * Z)) : idgen := reset_max (fold_left load_one saved (mkGen 0 0)).

(** Objects alive and the counter. *)
Record idstate := mkIds { i_gen : idgen; i_live : list Z }.

Inductive idop :=
| ICreate                              (* new NzbInfo(), new FileInfo() *)
| IRemove (id : Z)                     (* the object is deleted *)
| IConvert (id : Z)                    (* queue entry becomes a history or hidden entry, file a completed file, or back *)
| IRestart (saved : list (lkind * Z)). (* restart with what the state files hold *)

Fixpoint drop_id (id : Z) (l : list Z) : list Z :=
  match l with [] => [] | x :: r => if x =? id then r else x :: drop_id id r end.

Definition id_step (s : idstate) (o : idop) : idstate :=
  match o with
  | ICreate => let '(g, id) := new_id (i_gen s) in mkIds g (id :: i_live s)
  | IRemove id => mkIds (i_gen s) (drop_id id (i_live s))
  | IConvert id => if existsb (Z.eqb id) (i_live s) then mkIds (set_id (i_gen s) id) (i_live s) else s
  | IRestart saved => mkIds (load_all saved) (map snd saved)
  end.
Definition id_run (ops : list idop) (s : idstate) : idstate := fold_left id_step ops s.
