(** C110: more par2-files for a repair. C111: names of par2-files. C112: the par-sets of a directory. C113: waiting for par2-files. *)
From Coq Require Import String Permutation.
From Verif Require Import Base WildModel NameModel ParModel ParSpec ParProofs ParProofs2 ParProofs3.
From Verif Require MoveModel.
Open Scope list_scope. Open Scope Z_scope.

(** C110: a request for [needed] more blocks resumes files with together at least that many if the download has them, none
    of which could be spared, and changes nothing else; if it has fewer, it changes nothing at all, tells how many there are and
    whether other par2-files are still to come. If the files of the par-set itself suffice only those are used, and
    no larger one than necessary. *)
Theorem C110_request_partial : forall sort parname base needed files ok found files', sorts sort -> NoDup (map f_id files) -> 0 < needed ->
  fits (base_name parname) -> par_base (base_name parname) base -> request sort parname needed files = Some (ok, found, files') ->
  exists sel, incl sel files /\ NoDup (map f_id sel) /\ Forall (fun f => 0 < blocks_of f) sel /\ files' = map (resumed sel) files /\
    (needed <= all_blocks files -> ok = true /\ needed <= all_blocks sel /\ Forall (fun f => all_blocks sel - blocks_of f < needed) sel) /\
    (all_blocks files < needed -> sel = [] /\ found = all_blocks files /\ (ok = true <-> exists f, In f files /\ f_par f = true /\ f_paused f = false)) /\
    (needed <= all_blocks (filter (own parname) files) -> Forall (fun f => own parname f = true /\
      all_blocks (filter (fun g => own parname g && (blocks_of g <? blocks_of f)) files) < needed) sel).
Proof. intros sort p b n files ok found files' St ND N Fi B. apply request_ok; try assumption. destruct (base_parsed _ _ Fi B) as (k & ->). discriminate. Qed.
Print Assumptions C110_request_partial.

(** The checker is told to wait only if a par2-file is going to be downloaded. *)
Theorem C110_waits_partial : forall sort parname base needed files found files', sorts sort -> NoDup (map f_id files) -> 0 < needed ->
  fits (base_name parname) -> par_base (base_name parname) base -> request sort parname needed files = Some (true, found, files') ->
  exists f, In f files' /\ f_paused f = false /\ (f_par f = true \/ 0 < blocks_of f).
Proof. intros sort p b n files found files' St ND N Fi B. apply request_waits; try assumption. destruct (base_parsed _ _ Fi B) as (k & ->). discriminate. Qed.
Print Assumptions C110_waits_partial.

Theorem C110_defined_partial : forall sort parname needed files, NoDup (map f_id files) -> all_blocks files < 2 ^ 31 ->
  exists ok found files', request sort parname needed files = Some (ok, found, files').
Proof. exact request_defined. Qed.
Print Assumptions C110_defined_partial.

Definition ex_sort := MoveModel.stable_sort (fun a b : block => snd a <? snd b).
Definition pf (i : Z) (n : string) : pfile := PFile i (str n) true true true false.
Definition ex_files : list pfile :=
  [PFile 1 (str "my.par2") true true false false; pf 2 "my.vol0+1.par2"; pf 3 "my.vol1+2.PAR2"; pf 4 "my.vol3+4.par2"; pf 5 "my.vol7+8.par2"; pf 6 "other.vol0+5.par2"].
Example C110_ex : sorts ex_sort /\ NoDup (map f_id ex_files) /\ own (str "/d/my.par2") (pf 3 "my.vol1+2.PAR2") = true /\
  all_blocks (filter (own (str "/d/my.par2")) ex_files) = 15 /\ all_blocks ex_files = 20 /\
  request ex_sort (str "/d/my.par2") 6 ex_files = Some (true, 15, map (resumed [pf 3 ""; pf 4 ""]) ex_files) /\
  request ex_sort (str "/d/my.par2") 21 ex_files = Some (true, 20, ex_files) /\
  request ex_sort (str "/d/my.par2") 21 (tl ex_files) = Some (false, 20, tl ex_files).
Proof.
  split; [apply blocks_sort|]. split; [cbv; repeat constructor; cbn; intuition lia|]. vm_compute. repeat split.
Qed.

(** Refuted: if the par-set itself does not have enough blocks, files of other par-sets of the download are resumed instead
    of its own. *)
Theorem C110_own_refuted : exists sort parname needed files found files' f g, sorts sort /\ NoDup (map f_id files) /\ 0 < needed /\
  request sort parname needed files = Some (true, found, files') /\ all_blocks files < 2 ^ 31 /\
  In f files /\ own parname f = true /\ 0 < blocks_of f /\ In f files' /\ f_paused f = true /\
  In g files /\ own parname g = false /\ f_paused g = true /\ In (resumed [g] g) files'.
Proof.
  exists ex_sort, (str "/d/my.par2"), 10,
    [pf 1 "my.vol0+9.par2"; pf 2 "other.vol0+1.par2"; pf 3 "other.vol1+2.par2"; pf 4 "other.vol3+4.par2"; pf 5 "other.vol7+4.par2"].
  do 2 eexists. exists (pf 1 "my.vol0+9.par2"), (pf 3 "other.vol1+2.par2").
  split; [apply blocks_sort|]. split; [cbv; repeat constructor; cbn; intuition lia|]. split; [lia|]. split; [vm_compute; reflexivity|].
  vm_compute. repeat split; try (repeat (first [left; reflexivity|right])).
  all: try (left; reflexivity).
Qed.
Print Assumptions C110_own_refuted.

(** Refuted: other files could have been requested that have enough, but fewer blocks. *)
Theorem C110_least_refuted : exists sort parname needed files found files' sub, sorts sort /\ NoDup (map f_id files) /\ 0 < needed /\
  request sort parname needed files = Some (true, found, files') /\ Forall (fun f => own parname f = true /\ f_extra f = false) files /\
  incl sub files /\ NoDup (map f_id sub) /\ needed <= all_blocks sub /\ all_blocks sub < all_blocks (filter f_extra files').
Proof.
  exists ex_sort, (str "/d/my.par2"), 6, [pf 1 "my.vol0+3.par2"; pf 2 "my.vol3+4.par2"; pf 3 "my.vol7+6.par2"]. do 2 eexists. exists [pf 3 "my.vol7+6.par2"].
  split; [apply blocks_sort|]. split; [cbv; repeat constructor; cbn; intuition lia|]. split; [lia|]. split; [vm_compute; reflexivity|].
  split; [repeat constructor|]. split; [intros f [<- | []]; right; right; left; reflexivity|]. split; [repeat constructor; intros []|]. vm_compute. split; [discriminate|reflexivity].
Qed.
Print Assumptions C110_least_refuted.

(** C111: which collection a file belongs to and how many blocks it has is read off its name as par2-programs make them, in
    upper or lower case, and also from a name in a subject with any text after it. *)
Theorem C111_name_partial : forall name base blocks, par_blocks name base blocks -> blocks < 2 ^ 31 -> fits name ->
  parse_par name true = Some (length base, blocks).
Proof. exact blocks_ok. Qed.
Print Assumptions C111_name_partial.

Theorem C111_subject_partial : forall name base blocks tail, par_blocks name base blocks -> blocks < 2 ^ 31 -> no_par2 tail -> fits (name ++ tail) ->
  parse_par (name ++ tail) false = Some (length base, blocks).
Proof. exact blocks_tail. Qed.
Print Assumptions C111_subject_partial.

(** Other files are not taken for par2-files, and files belong together just if their base names are the same. *)
Theorem C111_other : forall name, fits name -> (parse_par name true = None <-> ~ exists base, par_base name base).
Proof. exact not_par. Qed.
Print Assumptions C111_other.

Theorem C111_together : forall a b base_a base_b, fits a -> fits b -> par_base a base_a -> par_base b base_b ->
  (same_collection a b true = true <-> same_text base_a base_b).
Proof. exact same_ok. Qed.
Print Assumptions C111_together.

Theorem C111_unique : forall name b1 b2, fits name -> par_base name b1 -> par_base name b2 -> b1 = b2.
Proof. exact base_unique. Qed.
Print Assumptions C111_unique.

Example C111_ex : par_blocks (str "My.Show.VOL015+16.PAR2") (str "My.Show") 16 /\ no_par2 (str """ yEnc (1/9)") /\
  fits (str "My.Show.VOL015+16.PAR2") /\ parse_par (str "My.Show.VOL015+16.PAR2"" yEnc (1/9)") false = Some (7%nat, 16) /\
  par_base (str "My.Show.vol015-16.par2") (str "My.Show").
Proof.
  split; [|split; [|split; [|split]]].
  - apply (pk_plus _ _ (str ".VOL015+16.PAR2") (str "015") (str "16")); [reflexivity|reflexivity|vm_compute; intuition discriminate|vm_compute; intuition discriminate|].
    split; [discriminate|]. change (str "16") with [49; 54]. constructor; [lia|constructor; [lia|constructor]].
  - intros a b. unfold same_text. rewrite !map_app. intros E. assert (I : In 46 (map lower (str """ yEnc (1/9)"))) by (rewrite E; apply in_or_app; right; left; reflexivity).
    revert I. vm_compute. intuition discriminate.
  - unfold fits. vm_compute. lia.
  - vm_compute. reflexivity.
  - apply (pb_volume _ _ (str ".vol015-16.par2") (str "015-16")); [reflexivity|reflexivity|]. split; [vm_compute; intuition discriminate|]. right. vm_compute. intuition.
Qed.

(** Refuted: the main file of a collection whose own name ends like ".vol1-2" is not recognised as belonging to it. *)
Theorem C111_main_refuted : exists base, base <> [] /\ fits (base ++ str ".vol00+01.par2") /\
  same_collection (base ++ str ".par2") (base ++ str ".vol00+01.par2") true = false.
Proof. exists (str "my.vol1-2"). split; [discriminate|]. split; [unfold fits; vm_compute; lia|vm_compute; reflexivity]. Qed.
Print Assumptions C111_main_refuted.

(** C112: the par-sets found in a directory: the first file of each collection is taken, nothing else, and none twice. *)
Theorem C112_sets : forall dir, Forall fits dir -> forall g, In g (find_mains dir []) <->
  exists before after base, dir = before ++ g :: after /\ par_base g base /\ forall f b, In f before -> par_base f b -> ~ same_text b base.
Proof. exact mains_ok. Qed.
Print Assumptions C112_sets.

Theorem C112_once : forall dir, Forall fits dir -> NoDup (find_mains dir []) /\
  (forall g h bg bh, In g (find_mains dir []) -> In h (find_mains dir []) -> par_base g bg -> par_base h bh -> same_text bg bh -> g = h).
Proof. exact mains_once. Qed.
Print Assumptions C112_once.

Example C112_ex : let dir := [str "a.rar"; str "my.vol0+1.par2"; str "MY.PAR2"; str "other.par2"; str "my.vol1+2.par2"; str ".par2"] in
  Forall fits dir /\ find_mains dir [] = [str "my.vol0+1.par2"; str "other.par2"].
Proof. split; [repeat constructor; unfold fits; vm_compute; lia|vm_compute; reflexivity]. Qed.

(** C113: the par-checker waits for requested files: it is never stuck, as long as no file is deleted between its request and
    its look at what came meanwhile. *)
Theorem C113_progress_partial : forall left es s, no_loss_between false es -> wait_run es (wait_start left) = Some s ->
  w_pc s = WGiveUp \/ (exists e s', by_checker e = true /\ wait_step e s = Some s') \/ (0 < w_left s)%nat.
Proof. exact wait_progress. Qed.
Print Assumptions C113_progress_partial.

(** Without such an event it comes to rest: it does not spin. *)
Theorem C113_rest : forall es s s', wait_run es s = Some s' -> Forall (fun e => by_checker e = true) es -> (length es <= 13)%nat.
Proof. exact wait_rest. Qed.
Print Assumptions C113_rest.

(** Every downloaded file is loaded or kept for loading, and when it gives up there was nothing to wait for at its last request and all that had come is loaded. *)
Theorem C113_loaded : forall left es s, wait_run es (wait_start left) = Some s -> (w_seen s + w_come s = downloads es)%nat.
Proof. exact wait_all. Qed.
Print Assumptions C113_loaded.

Theorem C113_giveup : forall es1 es2 k es3 left s1 s2 s3 s, wait_run es1 (wait_start left) = Some s1 -> wait_step (SAsk k) s1 = Some s2 ->
  wait_run es2 s2 = Some s3 -> Forall (fun e => by_checker e = false) es2 -> wait_step SLook s3 = Some s -> w_pc s = WGiveUp ->
  es3 = es1 ++ SAsk k :: es2 -> w_left s2 = 0%nat /\ w_come s = 0%nat /\ w_seen s = downloads es3.
Proof. exact wait_giveup. Qed.
Print Assumptions C113_giveup.

Example C113_ex : let es := [SCheck; SAsk 2; SLook; EArrive; SWake; ELost; SLoad; SCheck; SAsk 0; SLook] in
  no_loss_between false es /\ wait_run es (wait_start 0) = Some (WState WGiveUp 0 0 1 false false).
Proof. split; [repeat split|reflexivity]. Qed.

(** Refuted: the last file being deleted just after the request goes unnoticed; the checker then waits for nothing. *)
Theorem C113_lost_refuted : exists es s, wait_run es (wait_start 0) = Some s /\ w_pc s = WWait /\ w_left s = 0%nat /\
  (forall e, by_checker e = true -> wait_step e s = None) /\ wait_step EArrive s = None /\ wait_step ELost s = None.
Proof.
  exists [SCheck; SAsk 1; ELost; SLook]. eexists. split; [reflexivity|]. split; [reflexivity|]. split; [reflexivity|]. split; [|split; reflexivity].
  intros [] H; try discriminate; reflexivity.
Qed.
Print Assumptions C113_lost_refuted.
