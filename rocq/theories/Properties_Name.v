(** C44, C85, C86, C87: file and directory names, the incoming directory. *)
From Coq Require Import String.
From Verif Require Import Base NumFmt NameModel NameSpec NameProofs ScanModel ScanSpec ScanProofs.
Open Scope list_scope. Open Scope Z_scope.

(** ** C44 Names are made safe *)

Theorem C44_safe : forall s, safe_name (make_valid false s).
Proof. exact make_valid_safe. Qed.
Print Assumptions C44_safe.
Theorem C44_unchanged : forall s, safe_name s -> make_valid false s = s.
Proof. exact make_valid_same. Qed.
Print Assumptions C44_unchanged.
(** The rest of the name is kept: bad characters become underscores, dots and blanks go from the end,
    a device gets an underscore in front. *)
Theorem C44_rest : forall s, exists u t b,
  make_valid false s = u ++ t /\ (u = [] /\ ~ device t \/ u = [95] /\ device t) /\
  Forall dot_or_blank b /\ Forall2 replaced_char s (t ++ b).
Proof. exact make_valid_rest. Qed.
Print Assumptions C44_rest.
Example C44_ex : make_valid false (str "../a:b*c. . ") = str ".._a_b_c" /\ make_valid false (str "Con.txt") = str "_Con.txt".
Proof. split; reflexivity. Qed.
(** The name of a download is made of the last part of the name of its file, without the extension. *)
Theorem C44_nice : forall filename ext, exists name stem, last_part filename name /\ make_nice filename ext = make_valid false stem /\
  (if ext then without_nzb (firstn 1023 name) stem else stem = firstn 1023 name).
Proof. exact nice_ok. Qed.
Print Assumptions C44_nice.
Example C44_nice_ex : make_nice (str "C:\dir/a\b.c.NZB") true = str "b.c" /\ make_nice (str "a\b/c?.nzb") false = str "c_.nzb".
Proof. split; reflexivity. Qed.
(** A name can vanish. *)
Theorem C44_empty_refuted : exists s, s <> [] /\ make_valid false s = [].
Proof. exists (str ".. ."). split; [discriminate|reflexivity]. Qed.
Print Assumptions C44_empty_refuted.

(** ** C85 Downloads stay inside their directory *)

(** Missing: categories with steps upwards, names of which nothing is left and names given when a
    download is split, for which it is false. *)
Theorem C85_final_partial : forall dest cat_dir append category filename ext,
  no_parent category -> make_nice filename ext <> [] ->
  inside (home dest cat_dir category) (final_dir dest cat_dir append category (make_nice filename ext)).
Proof. exact final_dir_inside. Qed.
Print Assumptions C85_final_partial.
Theorem C85_inter : forall inter id dest cat_dir append category filename ext, inter <> [] -> 0 < id ->
  inside inter (dest_dir inter id dest cat_dir append category (make_nice filename ext)).
Proof. exact inter_dir_inside. Qed.
Print Assumptions C85_inter.
Example C85_ex : no_parent (str "tv/hd") /\
  place (final_dir (str "/data/dst") None true (str "tv/hd") (make_nice (str "/x/../a:b.nzb") true)) = [str "data"; str "dst"; str "tv"; str "hd"; str "a_b"].
Proof. split; [|reflexivity]. vm_compute. intuition discriminate. Qed.
(** The server from which a download is fetched by URL names the category: it can name any directory. *)
Theorem C85_header_refuted : exists headers dest name,
  let category := url_category [] headers in
  make_nice name true <> [] /\ ~ inside dest (final_dir dest None true category (make_nice name true)) /\
  place (final_dir dest None true category (make_nice name true)) = [str "etc"; str "cron.d"].
Proof.
  exists [str "X-DNZB-Category: ../../etc"], (str "/data/dst"), (str "cron.d.nzb"). split; [discriminate|]. split; [|reflexivity].
  intros (rest & _ & E). vm_compute in E. discriminate.
Qed.
Print Assumptions C85_header_refuted.
(** Of some names nothing is left: the download gets the directory of all downloads. *)
Theorem C85_empty_refuted : exists dest name, name <> [] /\
  place (final_dir dest None true [] (make_nice name true)) = place dest.
Proof. exists (str "/data/dst"), (str "....nzb"). split; [discriminate|reflexivity]. Qed.
Print Assumptions C85_empty_refuted.
(** The name given when a download is split (QueueCoordinator.cpp:1265) is taken as it is. *)
Theorem C85_split_refuted : exists dest name, ~ inside dest (final_dir dest None true [] name).
Proof. exists (str "/data/dst"), (str "../x"). intros (rest & _ & E). vm_compute in E. discriminate. Qed.
Print Assumptions C85_split_refuted.

(** ** C86 New names *)

(** The loop ends with a name which does not exist, the first one of the numbered names. *)
Theorem C86_unique : forall files dir base, (length base < 1024)%nat ->
  exists r, make_unique (S (S (length files))) files dir base = Some r /\ ~ In r files /\
    (r = dir ++ 47 :: base \/
     In (dir ++ 47 :: base) files /\ exists stem ext n, name_parts base stem ext /\ 0 < n /\
       r = dir ++ 47 :: stem ++ str ".duplicate" ++ zdec n ++ ext /\
       forall k, 0 < k < n -> In (dir ++ 47 :: stem ++ str ".duplicate" ++ zdec k ++ ext) files).
Proof. exact make_unique_ok. Qed.
Print Assumptions C86_unique.
Example C86_ex : make_unique 5 [str "/d/a.vol1+2.par2"; str "/d/a.duplicate1.vol1+2.par2"; str "/d/b"] (str "/d") (str "a.vol1+2.par2") =
  Some (str "/d/a.duplicate2.vol1+2.par2").
Proof. reflexivity. Qed.
Theorem C86_bak : forall used filename part,
  exists r, rename_bak (S (S (length used))) used filename part false = Some r /\ ~ In r used /\
    (r = filename ++ 46 :: part \/ In (filename ++ 46 :: part) used /\ exists n, 1 < n /\ r = filename ++ 46 :: zdec n ++ 46 :: part /\
       forall k, 1 < k < n -> In (filename ++ 46 :: zdec k ++ 46 :: part) used).
Proof. exact rename_bak_ok. Qed.
Print Assumptions C86_bak.
Example C86_bak_ex : rename_bak 4 [str "/d/a.nzb.queued"; str "/d/a.nzb.2.queued"] (str "/d/a.nzb") (str "queued") false = Some (str "/d/a.nzb.3.queued").
Proof. reflexivity. Qed.

(** ** C87 The incoming directory *)

(** A file is taken only if its size was the same at the look before, and it was seen long enough ago.
    Missing: that it did not change in the meantime, which is false. *)
Theorem C87_taken_partial : forall age ops f size now, (forall g s t, In (SLook g s t) ops -> wanted_name g = true) ->
  fst (can_process (scan_run age [] ops) f true size now age) = true ->
  wanted_name f = true /\ (exists t, last_look ops f size t) /\ (exists s t0, In (SLook f s t0) ops /\ age <= now - t0).
Proof. exact taken_when. Qed.
Print Assumptions C87_taken_partial.
(** A waiting file is taken at the first look which finds the size unchanged and the time over. *)
Theorem C87_taken_finally : forall age l f size now d, In d l -> NoDup (map fd_name l) -> wanted_name f = true ->
  fd_name d = f -> fd_size d = size -> age <= now - fd_change d -> fst (can_process l f true size now age) = true.
Proof. exact taken_finally. Qed.
Print Assumptions C87_taken_finally.
(** A file which does not change is taken at the first look at least [age] seconds after the first one, if the list is cleaned within the
    time it allows (twice the interval and the age). *)
Theorem C87_taken_in_time : forall age before f size t0 after now, 0 < age ->
  (forall g s t, In (SLook g s t) (before ++ SLook f size t0 :: after) -> wanted_name g = true) ->
  (forall s t, ~ In (SLook f s t) before) ->
  (forall s t, In (SLook f s t) after -> s = size /\ t < t0 + age) ->
  (forall s i, In (SDrop s i) after -> t0 <= s < t0 + 2 * (i + age)) -> t0 + age <= now ->
  fst (can_process (scan_run age [] (before ++ SLook f size t0 :: after)) f true size now age) = true.
Proof. exact taken_in_time. Qed.
Print Assumptions C87_taken_in_time.
Example C87_ex : let ops := [SLook (str "/n/a.nzb") 10 100; SDrop 105 5; SLook (str "/n/a.nzb") 10 110] in
  fst (can_process (scan_run 60 [] ops) (str "/n/a.nzb") true 10 160 60) = true /\
  fst (can_process (scan_run 60 [] ops) (str "/n/a.nzb") true 10 159 60) = false.
Proof. split; reflexivity. Qed.
(** A file being written is taken although it changed during the last seconds: with an age of 60 seconds
    it is taken one second after it was seen to have changed. *)
Theorem C87_changed_refuted : exists age f ops size now s t, age = 60 /\
  last_look ops f size t /\ now - t = 1 /\ In (SLook f s 0) ops /\ s <> size /\
  fst (can_process (scan_run age [] ops) f true size now age) = true.
Proof.
  exists 60, (str "/n/a.nzb"), [SLook (str "/n/a.nzb") 10 0; SLook (str "/n/a.nzb") 20 100], 20, 101, 10, 100.
  split; [reflexivity|]. split; [exists [SLook (str "/n/a.nzb") 10 0], []; split; [reflexivity|intros ? ? []]|].
  split; [reflexivity|]. split; [left; reflexivity|]. split; [discriminate|reflexivity].
Qed.
Print Assumptions C87_changed_refuted.
