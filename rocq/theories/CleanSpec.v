(** What cleaning up, deleting and moving are to do with a directory. *)
From Coq Require Import String.
From Verif Require Import Base NumFmt NameModel NameSpec NzbModel NzbSpec CleanModel.
Open Scope list_scope. Open Scope Z_scope.

(** What is found under a path; links are followed. *)
Inductive reach : node -> list (list Z) -> node -> Prop :=
| r_here x : reach x [] x
| r_in l n y p z : In (n, y) l -> reach y p z -> reach (NDir l) (n :: p) z
| r_link t p z : reach t p z -> reach (NLink (Some t)) p z.
(** Names have no terminator inside. *)
Definition named_well (x : node) : Prop := forall p l n y, reach x p (NDir l) -> In (n, y) l -> nonul n.
Definition no_links (x : node) : Prop := forall p t, ~ reach x p (NLink t).
(** Not a directory: to be deleted because of its name. *)
Definition to_clean (exts : list Z) (x : node) (p : list (list Z)) (f : node) : Prop :=
  reach x p f /\ is_dir f = false /\ p <> [] /\ ignored exts (last p []).

(** A name in the final directory: that of the source made valid, or with a number. *)
Definition new_path (dest n b : list Z) : Prop :=
  b = dest ++ 47 :: make_valid false n \/
  exists stem ext k, name_parts (make_valid false n) stem ext /\ 0 < k /\ b = dest ++ 47 :: stem ++ str ".duplicate" ++ zdec k ++ ext.
(** Neither an empty directory nor a link. *)
Definition solid (x : node) : Prop := x <> NDir [] /\ forall t, x <> NLink t.
Definition short_names (l : list (list Z * node)) : Prop := Forall (fun e => (length (fst e) < 1023)%nat) l.
(** The name begins with a dot. *)
Definition dotted (n : list Z) : Prop := exists r, n = 46 :: r.
(** Files, links to files, and directories with something inside: not replaced by renaming or writing to a name not in use by a file. *)
Definition lasting (x : node) : Prop := is_file x = true \/ exists e l, x = NDir (e :: l).
