(** Model of the decision when a file in the incoming directory is ready: daemon/queue/Scanner.cpp.
    Not modelled: reading the directory, scan scripts, adding the file to the queue. *)
From Coq Require Import String.
From Verif Require Import Base WildModel InfoModel NameModel.
Open Scope list_scope. Open Scope Z_scope.

(** Scanner.h, [FileData]. *)
Record fdata := mkFd { fd_name : list Z; fd_size : Z; fd_change : Z }.

(** Scanner.cpp:183-190. *)
Definition wanted_name (f : list Z) : bool :=
  match strrchr dot f with
  | None => false
  | Some (_, e) => negb (same_nocase e (str ".queued") || same_nocase e (str ".error") || same_nocase e (str ".processed"))
  end.
(** Scanner.cpp:202-229. Line 218 sets the size before line 219 compares it, so that the time of the
    last change is never set. *)
Fixpoint find_change (l : list fdata) (f : list Z) (size now age : Z) : option (bool * list fdata) :=
  match l with
  | [] => None
  | d :: r =>
      if beqb (fd_name d) f then
        if (fd_size d =? size) && (age <=? now - fd_change d) then Some (true, r)
        else let d1 := mkFd (fd_name d) size (fd_change d) in
             Some (false, (if negb (fd_size d1 =? size) then mkFd (fd_name d1) size now else d1) :: r)
      else match find_change r f size now age with Some (b, r') => Some (b, d :: r') | None => None end
  end.
(** Scanner.cpp:181-237. *)
Definition can_process (l : list fdata) (f : list Z) (check : bool) (size now age : Z) : bool * list fdata :=
  if negb (wanted_name f) then (false, l)
  else if negb check then (true, l)
  else match find_change l f size now age with
       | Some x => x
       | None => (false, l ++ [mkFd f size now])
       end.
(** Scanner.cpp:246-264. *)
Definition drop_old (l : list fdata) (now interval age : Z) : list fdata :=
  filter (fun d => negb (((interval + age) * 2 <=? now - fd_change d) || (now <? fd_change d))) l.

(** What happens to the list: a file is looked at, old files are dropped. *)
Inductive scanop := SLook (f : list Z) (size now : Z) | SDrop (now interval : Z).
Definition scan_step (age : Z) (l : list fdata) (o : scanop) : bool * list fdata :=
  match o with
  | SLook f size now => can_process l f true size now age
  | SDrop now interval => (false, drop_old l now interval age)
  end.
Fixpoint scan_run (age : Z) (l : list fdata) (ops : list scanop) : list fdata :=
  match ops with [] => l | o :: r => scan_run age (snd (scan_step age l o)) r end.
