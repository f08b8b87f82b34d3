(** Model of the comparison with duplicates before their files are used for repair: daemon/postprocess/DupeMatcher.cpp and RequestDupeSources of
    daemon/postprocess/Repair.cpp:131-160. The lines are those passed to AddMessage until unrar ends or is killed after the time limit; the files of a
    directory come in the order of the directory. Sizes are below 2^63/100. Paths of 1024 bytes or more and other programs changing the directories are
    not modelled. *)
From Coq Require Import String.
From Verif Require Import Base WildModel NumFmt.
From Verif Require NzbModel WebModel.
Open Scope list_scope. Open Scope Z_scope.

(** DupeMatcher.cpp:145-157. *)
Definition size_diff_ok (s1 s2 limit : Z) : bool :=
  if (s1 =? 0) || (s2 =? 0) then false
  else let d := s1 - s2 in let d := if 0 <? d then d else - d in
       let m := if s2 <? s1 then s1 else s2 in
       Z.quot (d * 100) m <? limit.

(** DupeMatcher.cpp:34-40: the largest size, its compression, whether the last size was the largest, the last name, the name of the largest. *)
Record lister := L { l_max : Z; l_comp : bool; l_last : bool; l_name : list Z; l_best : option (list Z) }.
Definition cut (s : list Z) : list Z := firstn (Z.to_nat 1023) s.
Definition name_line : list Z := str "        Name: ".
Definition size_line : list Z := str "        Size: ".
Definition comp_line : list Z := str " Compression: ".
(** DupeMatcher.cpp:108-142; the second component: unrar is ended. *)
Definition add_message (expected : Z) (s : lister) (t : list Z) : lister * bool :=
  let after s :=
    if l_last s && WebModel.nocase_prefix comp_line t then
      let s := L (l_max s) (match strstr t (str " -m0") with Some _ => false | None => true end) (l_last s) (l_name s) (l_best s) in
      (s, (expected <? l_max s) || size_diff_ok (l_max s) expected 20)
    else (s, false) in
  if WebModel.nocase_prefix (str "Archive: ") t then after s
  else if WebModel.nocase_prefix name_line t then after (L (l_max s) (l_comp s) (l_last s) (cut (skipn 14 t)) (l_best s))
  else if WebModel.nocase_prefix size_line t then
    let size := atoll (skipn 14 t) in
    (if l_max s <? size then L size (l_comp s) true (l_name s) (Some (l_name s)) else L (l_max s) (l_comp s) false (l_name s) (l_best s), false)
  else after s.
Fixpoint listing (expected : Z) (s : lister) (lines : list (list Z)) : lister :=
  match lines with
  | [] => s
  | t :: r => let '(s, e) := add_message expected s t in if e then s else listing expected s r
  end.
(** DupeMatcher.cpp:52-101: size, compression, name; [best]: the content of the buffer before. *)
Definition rar_largest (expected : Z) (best : option (list Z)) (lines : list (list Z)) : Z * bool * option (list Z) :=
  let s := listing expected (L (-1) false false [] best) lines in (l_max s, l_comp s, l_best s).
(** DupeMatcher.cpp:181-207; [own]: the size of the own main file, none while it is being determined (then the size passed to the lister is the largest
    found until then); [unrar]: a command is configured. *)
Fixpoint largest_go (own : option Z) (unrar : bool) (lines : list (list Z)) (files : list (list Z * Z)) (mx : Z) (best : option (list Z)) : Z * bool * option (list Z) :=
  match files with
  | [] => (mx, false, best)
  | (n, size) :: r =>
    let '(mx, best) := if mx <? size then (size, Some (cut n)) else (mx, best) in
    if NzbModel.ends_nocase n (str ".rar") then
      if unrar then rar_largest (match own with Some m => m | None => mx end) best lines else (mx, false, best)
    else largest_go own unrar lines r mx best
  end.
Definition find_largest own unrar lines files := largest_go own unrar lines files 0 None.

(** A directory: its files and what unrar prints there. *)
Record dir := D { d_files : list (list Z * Z); d_lines : list (list Z) }.
(** Which duplicates are used; or memory never set is printed. *)
Inductive result := Undefined | Used (l : list dir).
(** DupeMatcher.cpp:169-179. *)
Definition match_dupe (unrar : bool) (mx : Z) (comp : bool) (d : dir) : option bool :=
  match find_largest (Some mx) unrar (d_lines d) (d_files d) with
  | (m, c, Some _) => Some ((m =? mx) && Bool.eqb c comp)
  | (_, _, None) => None
  end.
Fixpoint matching (unrar : bool) (mx : Z) (comp : bool) (dupes : list dir) : result :=
  match dupes with
  | [] => Used []
  | d :: r => match match_dupe unrar mx comp d with
              | None => Undefined
              | Some b => match matching unrar mx comp r with Undefined => Undefined | Used l => Used (if b then d :: l else l) end
              end
  end.
(** DupeMatcher.cpp:159-167, Repair.cpp:137-158. *)
Definition sources (unrar : bool) (expected : Z) (own : dir) (dupes : list dir) : result :=
  match dupes with
  | [] => Used []
  | _ => match find_largest None unrar (d_lines own) (d_files own) with
         | (_, _, None) => Undefined
         | (mx, comp, Some _) => if size_diff_ok mx expected 20 then matching unrar mx comp dupes else Used dupes
         end
  end.
