(** What the names of archives and the output of unrar mean. *)
From Coq Require Import String.
From Verif Require Import Base NumFmt WildModel.
Open Scope list_scope. Open Scope Z_scope.

(** Equal but for the case of letters. *)
Definition like (a b : list Z) : Prop := map lower a = map lower b.
Definition digits (d : list Z) : Prop := d <> [] /\ Forall (fun c => 48 <= c <= 57) d.
Definition value_of (d : list Z) : Z := fold_left (fun v c => v * 10 + (c - 48)) d 0.
(** name.part<number>.rar *)
Definition numbered (n d : list Z) : Prop := exists b p r, n = b ++ p ++ d ++ r /\ like p (str ".part") /\ like r (str ".rar") /\ digits d.
(** A rar-file which is not a volume with another number than one. *)
Definition first_volume (n : list Z) : Prop :=
  (exists b r, n = b ++ r /\ like r (str ".rar")) /\ forall d, numbered n d -> value_of d = 1.
(** A rar-file, or a volume named .r00 ... .z99. *)
Definition rar_file (n : list Z) : Prop :=
  (exists b r, n = b ++ r /\ like r (str ".rar")) \/
  exists b l x y, n = b ++ [46; l; x; y] /\ 114 <= lower l <= 122 /\ 48 <= x <= 57 /\ 48 <= y <= 57.
(** The question of unrar for a volume. *)
Definition question (v : list Z) : list Z := str "Insert disk with " ++ v ++ str " [C]ontinue, [Q]uit ".
