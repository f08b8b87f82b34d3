(** C142, C143: renaming of rar-volumes. *)
From Coq Require Import String Permutation.
From Verif Require Import Base NumFmt InfoModel NameModel WildModel RarModel RarSpec RarSetModel RarSetSpec RarSetProofs RarSetProofs2 RarSetProofs3 RarSetProofs4 RarSetProofs5.
Open Scope list_scope. Open Scope Z_scope.

(** ** C142: nothing is lost *)

(** Whatever the volumes say and whichever renamings are refused: the renaming ends, no content is lost or doubled,
    new paths are in the directory, files that are no volumes stay. *)
Theorem C142_nothing_lost : forall can dir vols fs,
  refuses_long can -> volumes_ok vols -> NoDup (paths fs) -> short_names fs ->
  exists fs', rename_files can dir vols fs = Some fs' /\ NoDup (paths fs') /\ Permutation (contents fs) (contents fs') /\
    (forall p, In p (paths fs') -> In p (paths fs) \/ exists n, name_in dir p n) /\
    (forall p c, (forall v, In v vols -> v_name v <> p) -> In (p, c) fs -> In (p, c) fs').
Proof. exact rename_files_safe. Qed.
Print Assumptions C142_nothing_lost.

Definition qf (n : string) (size : Z) (b a : bool) : rfile := RFile (str n) 0 0 size b a.
Definition qv (p : string) (no : Z) (hasnext : bool) (fs : list rfile) : vol := Vol (str p) 3 (VInfo no true hasnext true fs).
Definition q_vols : list vol :=
  [qv "/d/k1" 1 true [qf "film.mkv" 900 true true]; qv "/d/k0" 0 true [qf "info.nfo" 5 false false; qf "film.mkv" 900 false true];
   qv "/d/k2" 2 false [qf "film.mkv" 900 true false]].
Definition q_set : list vol :=
  [qv "/d/k0" 0 true [qf "info.nfo" 5 false false; qf "film.mkv" 900 false true]; qv "/d/k1" 1 true [qf "film.mkv" 900 true true];
   qv "/d/k2" 2 false [qf "film.mkv" 900 true false]].
Definition q_disk : disk := [(str "/d/k0", [0]); (str "/d/k1", [1]); (str "/d/k2", [2]); (str "/d/film.part0002.rar", [9]); (str "/d/readme", [8])].
Example C142_nothing_lost_ex : volumes_ok q_vols /\ NoDup (paths q_disk) /\
  rename_files (fun s d => negb (beqb s (str "/d/k2"))) (str "/d") q_vols q_disk =
    Some [(str "/d/film-2.part0002.rar", [1]); (str "/d/film-2.part0001.rar", [0]); (str "/d/k2", [2]); (str "/d/film.part0002.rar", [9]); (str "/d/readme", [8])].
Proof.
  split; [split; [repeat constructor; cbn; lia|vm_compute; discriminate]|]. split; [|vm_compute; reflexivity].
  repeat constructor; vm_compute; intuition discriminate.
Qed.

(** Over all directories. *)
Theorem C142_all_directories : forall can ignored, refuses_long can -> forall dirs vols fs fs',
  Forall (fun v => 0 <= v_no v < 2 ^ 32) vols -> zlen vols + zlen dirs * zlen fs <= 14200 ->
  NoDup (paths fs) -> short_names fs -> Forall (fun e => bytes_ok (snd e)) fs ->
  execute can ignored dirs vols fs = Some fs' ->
  NoDup (paths fs') /\ Permutation (contents fs) (contents fs') /\
  (forall p, In p (paths fs') -> In p (paths fs) \/ exists dir n, In dir dirs /\ name_in dir p n).
Proof. exact execute_safe. Qed.
Print Assumptions C142_all_directories.

(** Two volumes in two directories. *)
Definition w_file (flags : Z) : list Z := write3 (BFile 0 (32768 + flags) (File3 70 0 [0; 0; 0; 0] 0 [0; 0] 0 (str "film.mkv") []) [65]).
Definition w_0 : list Z := sig3 ++ write3 (BMain 0 17 [0; 0; 0; 0; 0; 0]) ++ w_file 2 ++ end3 0 9 [] 0 [].
Definition w_1 : list Z := sig3 ++ write3 (BMain 0 17 [0; 0; 0; 0; 0; 0]) ++ w_file 1 ++ end3 0 8 [] 1 [].
Definition w_disk : disk := [(str "/d/a", w_0); (str "/d/sub/b", w_1)].
Definition w_after : disk := [(str "/d/sub/film.part0002.rar", w_1); (str "/d/sub/film.part0001.rar", w_0)].
Example C142_all_directories_ex : execute (fun _ _ => true) (fun _ => false) [str "/d"; str "/d/sub"] [] w_disk = Some w_after /\
  Forall (fun e => bytes_ok (snd e)) w_disk.
Proof. split; [vm_compute; reflexivity|]. repeat constructor; cbn; lia. Qed.

(** A file does not always stay in its directory: volumes of earlier directories are taken for sets in
    later ones. *)
Theorem C142_directory_refuted : exists dirs fs fs' d1 d2 p c q n m,
  execute (fun _ _ => true) (fun _ => false) dirs [] fs = Some fs' /\ In d1 dirs /\ In d2 dirs /\ d1 <> d2 /\
  In (p, c) fs /\ name_in d1 p n /\ ~ In c (map snd (filter (fun e => in_dir d1 (fst e)) fs')) /\ In (q, c) fs' /\ name_in d2 q m.
Proof.
  exists [str "/d"; str "/d/sub"], w_disk, w_after, (str "/d"), (str "/d/sub"), (str "/d/a"), w_0, (str "/d/sub/film.part0001.rar"), (str "a"), (str "film.part0001.rar").
  split; [exact (proj1 C142_all_directories_ex)|]. split; [left; reflexivity|]. split; [right; left; reflexivity|]. split; [discriminate|].
  split; [left; reflexivity|]. split; [repeat apply conj; [reflexivity|vm_compute; intuition discriminate ..]|]. split; [vm_compute; intuition discriminate|].
  split; [right; left; reflexivity|]. repeat apply conj; [reflexivity|vm_compute; intuition discriminate ..].
Qed.
Print Assumptions C142_directory_refuted.

(** ** C143: sets and their names *)

Theorem C143_sets_are_sets : forall vols sets, volumes_ok vols -> make_sets vols = Some sets ->
  forall s, In s sets -> is_set s /\ incl s vols.
Proof. intros vols sets [S L]. apply sets_sound; [exact S|lia]. Qed.
Print Assumptions C143_sets_are_sets.

Theorem C143_sets_end : forall vols, volumes_ok vols -> exists sets, make_sets vols = Some sets.
Proof. intros vols [S L]. apply sets_total; [exact S|lia]. Qed.
Print Assumptions C143_sets_end.

(** A complete set is found if at every volume it is clear which one follows. *)
Theorem C143_sets_found : forall vols sets s h r, volumes_ok vols -> make_sets vols = Some sets ->
  s = h :: r -> is_set s -> In h vols ->
  (forall i x w, nth_error s i = Some x -> nth_error s (S i) = Some w -> only_next vols h x w) -> In s sets.
Proof. intros vols sets s h r [S L]. apply sets_found; [exact S|lia]. Qed.
Print Assumptions C143_sets_found.

Lemma q_joins01 : joins (nth 0 q_set v_none) (nth 1 q_set v_none).
Proof. repeat apply conj; try reflexivity; try discriminate. exists [qf "info.nfo" 5 false false], (qf "film.mkv" 900 false true), (qf "film.mkv" 900 true true), []. repeat apply conj; reflexivity. Qed.
Lemma q_joins12 : joins (nth 1 q_set v_none) (nth 2 q_set v_none).
Proof. repeat apply conj; try reflexivity; try discriminate. exists [], (qf "film.mkv" 900 true true), (qf "film.mkv" 900 true false), []. repeat apply conj; reflexivity. Qed.
Example C143_sets_ex : make_sets q_vols = Some [q_set] /\ is_set q_set /\
  only_next q_vols (nth 0 q_set v_none) (nth 0 q_set v_none) (nth 1 q_set v_none) /\
  only_next q_vols (nth 0 q_set v_none) (nth 1 q_set v_none) (nth 2 q_set v_none).
Proof.
  split; [vm_compute; reflexivity|]. split; [|split].
  - split; [|split].
    + constructor; [exact q_joins01|]. constructor; [exact q_joins12|]. constructor.
    + eexists _, _, _, _. repeat apply conj; reflexivity.
    + exists [nth 0 q_set v_none; nth 1 q_set v_none], (nth 2 q_set v_none), [], (qf "film.mkv" 900 true false). repeat apply conj; reflexivity.
  - split; [left; reflexivity|]. split; [exact q_joins01|]. left. intros x [<- | [<- | [<- | []]]] (_ & _ & _ & _ & E & _); [reflexivity|discriminate E|discriminate E].
  - split; [right; right; left; reflexivity|]. split; [exact q_joins12|]. left. intros x [<- | [<- | [<- | []]]] (_ & _ & _ & _ & E & _); [discriminate E|discriminate E|reflexivity].
Qed.

(** Of several candidates the one is taken whose name is that of the first volume but for the number. *)
Theorem C143_same_name : forall n1 n2 new, same_archive n1 n2 new = true <-> same_name new n1 n2.
Proof. exact same_archive_ok. Qed.
Print Assumptions C143_same_name.
Example C143_same_name_ex : same_archive (str "x.part01.rar") (str "x.part02.rar") true = true /\
  same_archive (str "x.part01.rar") (str "y.part02.rar") true = false /\ same_archive (str "x.rar") (str "x.r00") false = true.
Proof. vm_compute. auto. Qed.

(** If no volume is in two sets and no renaming is refused: sets named well stay, the files of the others get the
    name of the biggest file and the extensions of volumes; all other files stay. *)
Theorem C143_renamed : forall dir vols sets fs fs', volumes_ok vols -> make_sets vols = Some sets -> NoDup (map v_name (concat sets)) ->
  (forall v, In v vols -> In (v_name v) (paths fs)) -> NoDup (paths fs) -> rename_files (fun _ _ => true) dir vols fs = Some fs' ->
  (forall p c, (forall v, In v (concat sets) -> v_name v <> p) -> In (p, c) fs -> look fs' p = Some c) /\
  forall s new, In s sets -> Forall (fun v => v_new v = new) s ->
    (well_named_but new s /\ stays s fs fs') \/ (~ well_named new s /\ renamed dir s fs fs').
Proof. exact files_renamed. Qed.
Print Assumptions C143_renamed.

Example C143_renamed_ex : make_sets q_vols = Some [q_set] /\ NoDup (map v_name (concat [q_set])) /\ (forall v, In v q_vols -> In (v_name v) (paths q_disk)) /\
  rename_files (fun _ _ => true) (str "/d") q_vols q_disk =
    Some [(str "/d/film-2.part0003.rar", [2]); (str "/d/film-2.part0002.rar", [1]); (str "/d/film-2.part0001.rar", [0]); (str "/d/film.part0002.rar", [9]); (str "/d/readme", [8])].
Proof.
  split; [vm_compute; reflexivity|]. split; [repeat constructor; vm_compute; intuition discriminate|]. split; [|vm_compute; reflexivity].
  intros v [<- | [<- | [<- | []]]]; vm_compute; auto.
Qed.

(** A single set gets the first name that is free. *)
Theorem C143_first_free_name : forall dir vols s new fs fs', volumes_ok vols -> make_sets vols = Some [s] -> NoDup (map v_name s) ->
  (forall v, In v s -> In (v_name v) (paths fs)) -> NoDup (paths fs) -> rename_files (fun _ _ => true) dir vols fs = Some fs' ->
  Forall (fun v => v_new v = new) s -> ~ well_named_but new s ->
  exists b base k, main_name s b /\ numbered b base k /\ ~ taken fs dir base s /\ (forall j x, 1 <= j < k -> numbered b x j -> taken fs dir x s) /\
    forall v, In v s -> exists p, volume_path dir base v p /\ look fs' p = look fs (v_name v).
Proof.
  intros dir vols s new fs fs' V E Nv Hin N H Un W. destruct (C143_sets_are_sets vols _ V E s (or_introl eq_refl)) as [A1 A2].
  unfold rename_files in H. rewrite E in H. cbn [rename_sets] in H. destruct (rename_set _ dir fs s) as [f1|] eqn:R; [|discriminate]. injection H as <-.
  apply (first_free dir fs s vols f1 V A1 A2 N Nv Hin); [|exact R]. destruct (proper s) eqn:P; [|reflexivity]. exfalso. apply W.
  destruct (set_fine vols s V A1 A2) as (_ & B2 & B3). pose proof A1 as (_ & (h & r & _ & _ & Es & _) & _). exact (proper_well new s h r Es Un B2 B3 P).
Qed.
Print Assumptions C143_first_free_name.
Example C143_first_free_ex : ~ well_named_but true q_set.
Proof.
  intros (base & p & w & B & P & W & H). destruct (H (nth 0 q_set v_none) (or_introl eq_refl)) as (d & r & L & R & _).
  apply last_part_base in L. vm_compute in L. apply (f_equal (@length Z)) in L. rewrite !app_length in L.
  apply (f_equal (@length Z)) in R. rewrite map_length in R. change (length (str ".rar")) with 4%nat in R. cbn [length] in L. lia.
Qed.

(** Well named sets stay, whatever else is there. *)
Theorem C143_well_named_stays : forall can dir vols s new fs, volumes_ok vols -> make_sets vols = Some [s] ->
  Forall (fun v => v_new v = new) s -> well_named new s -> rename_files can dir vols fs = Some fs.
Proof.
  intros can dir vols s new fs V E Un W. destruct (C143_sets_are_sets vols _ V E s (or_introl eq_refl)) as [A1 A2].
  destruct (set_fine vols s V A1 A2) as (_ & B2 & B3). pose proof A1 as (_ & (h & r & _ & _ & Es & _) & _).
  unfold rename_files. rewrite E. cbn [rename_sets]. unfold rename_set. rewrite (well_proper new s h r Es Un B2 B3 W). reflexivity.
Qed.
Print Assumptions C143_well_named_stays.
Definition q_good : list vol := [qv "/d/my.Part01.rar" 0 true [qf "f" 5 false true]; qv "/d/my.Part02.RAR" 1 false [qf "f" 5 true false]].
Example C143_well_named_ex : make_sets q_good = Some [q_good] /\ well_named true q_good.
Proof.
  split; [vm_compute; reflexivity|]. exists (str "my."), (str "Part"), 2%nat. repeat apply conj; [discriminate|reflexivity|lia|].
  intros v [<- | [<- | []]].
  - exists (str "01"), (str ".rar"). split; [split; [vm_compute; intuition discriminate|split; [vm_compute; intuition discriminate|right; exists (str "/d"), 47; split; [left; reflexivity|reflexivity]]]|].
    repeat apply conj; try reflexivity. apply Forall_forall. intros c [<- | [<- | []]]; split; vm_compute; discriminate.
  - exists (str "02"), (str ".RAR"). split; [split; [vm_compute; intuition discriminate|split; [vm_compute; intuition discriminate|right; exists (str "/d"), 47; split; [left; reflexivity|reflexivity]]]|].
    repeat apply conj; try reflexivity. apply Forall_forall. intros c [<- | [<- | []]]; split; vm_compute; discriminate.
Qed.

(** Two first volumes that both match the next one: only one set gets it. *)
Definition t_h1 : vol := qv "/d/a" 0 true [qf "film.mkv" 900 false true].
Definition t_h2 : vol := qv "/d/b" 0 true [qf "film.mkv" 900 false true].
Definition t_w : vol := qv "/d/c" 1 false [qf "film.mkv" 900 true false].
Theorem C143_shared_refuted : exists dir vols sets fs fs' s, volumes_ok vols /\ make_sets vols = Some sets /\ NoDup (map v_name vols) /\
  (forall v, In v vols -> In (v_name v) (paths fs)) /\ NoDup (paths fs) /\ rename_files (fun _ _ => true) dir vols fs = Some fs' /\
  In s sets /\ ~ stays s fs fs' /\ ~ renamed dir s fs fs'.
Proof.
  exists (str "/d"), [t_h1; t_h2; t_w], [[t_h1; t_w]; [t_h2; t_w]], [(str "/d/a", [1]); (str "/d/b", [2]); (str "/d/c", [3])],
    [(str "/d/film-2.part0001.rar", [2]); (str "/d/film.part0002.rar", [3]); (str "/d/film.part0001.rar", [1])], [t_h2; t_w].
  split; [split; [repeat constructor; cbn; lia|vm_compute; discriminate]|]. split; [vm_compute; reflexivity|]. split; [repeat constructor; vm_compute; intuition discriminate|].
  split; [intros v [<- | [<- | [<- | []]]]; vm_compute; auto|]. split; [repeat constructor; vm_compute; intuition discriminate|]. split; [vm_compute; reflexivity|].
  split; [right; left; reflexivity|]. split; [intros St; specialize (St t_h2 (or_introl eq_refl)); vm_compute in St; discriminate|].
  intros (b & base & k & _ & _ & H). destruct (H t_w (or_intror (or_introl eq_refl))) as (p & (e & X & Ep) & Lp). destruct (H t_h2 (or_introl eq_refl)) as (p' & (e' & X' & Ep') & Lp').
  assert (Fw : fine t_w) by (split; [cbn; lia|discriminate]). assert (Fh : fine t_h2) by (split; [cbn; lia|discriminate]).
  rewrite (extension_fun _ _ _ _ X (ext_ok t_w Fw)) in Ep. rewrite (extension_fun _ _ _ _ X' (ext_ok t_h2 Fh)) in Ep'.
  change (look _ (v_name t_w)) with (Some [3]) in Lp. change (look _ (v_name t_h2)) with (Some [2]) in Lp'. cbn [look] in Lp, Lp'.
  assert (Q : p = str "/d/film.part0002.rar"). { destruct (beqb p _) in Lp; [discriminate Lp|]. destruct (beqb p (str "/d/film.part0002.rar")) eqn:B in Lp; [apply beqb_eq, B|]. destruct (beqb p _) in Lp; discriminate Lp. }
  assert (Q' : p' = str "/d/film-2.part0001.rar"). { destruct (beqb p' (str "/d/film-2.part0001.rar")) eqn:B in Lp'; [apply beqb_eq, B|]. destruct (beqb p' _) in Lp'; [discriminate Lp'|]. destruct (beqb p' _) in Lp'; discriminate Lp'. }
  rewrite Q in Ep. rewrite Q' in Ep'. apply (f_equal (@length Z)) in Ep. apply (f_equal (@length Z)) in Ep'. rewrite !app_length in Ep, Ep'. vm_compute in Ep. vm_compute in Ep'.
  change (length (ext_of t_w)) with 12%nat in Ep. change (length (ext_of t_h2)) with 12%nat in Ep'. cbn in Ep, Ep'. lia.
Qed.
Print Assumptions C143_shared_refuted.

(** An archive of a single volume of format 5 with a proper name is renamed. *)
Definition s_5 : list Z := sig5 ++ [0; 0; 0; 0; 3; 1; 0; 0] ++ [0; 0; 0; 0; 13; 2; 0; 0; 5; 0; 0; 0; 5] ++ str "f.iso" ++ [0; 0; 0; 0; 3; 5; 0; 0].
Theorem C143_single_refuted : exists c i, read_volume (S (length c)) c = Ok (5, i) /\ vi_multi i = false /\ vi_has i = false /\
  execute (fun _ _ => true) (fun _ => false) [str "/d"] [] [(str "/d/mydisk.rar", c)] = Some [(str "/d/f.part0001.rar", c)].
Proof.
  exists s_5, (VInfo 0 true false false [RFile (str "f.iso") 0 0 5 false false]). split; [vm_compute; reflexivity|]. split; [reflexivity|]. split; [reflexivity|]. vm_compute. reflexivity.
Qed.
Print Assumptions C143_single_refuted.

(** The number 4294967297 in a name counts as 1. *)
Definition q_wrap : list vol := [qv "/d/my.part4294967297.rar" 0 false [qf "f" 5 false false]].
Theorem C143_number_refuted : exists vols s fs, make_sets vols = Some [s] /\ Forall (fun v => v_new v = true) s /\ ~ well_named true s /\
  (forall v, In v s -> In (v_name v) (paths fs)) /\ rename_files (fun _ _ => true) (str "/d") vols fs = Some fs.
Proof.
  exists q_wrap, q_wrap, [(str "/d/my.part4294967297.rar", [1])]. split; [vm_compute; reflexivity|]. split; [repeat constructor|]. split.
  - intros (base & p & w & B & P & W & H). destruct (H _ (or_introl eq_refl)) as (d & r & L & R & D & Ld & E). apply last_part_base in L.
    assert (M : part_match (base ++ p ++ d ++ r) = Some ((length base + 4)%nat, d)).
    { apply part_match_ok. exists base, p, r. repeat apply conj; auto. intros ->. cbn in Ld. lia. }
    rewrite <- L in M. vm_compute in M. injection M as _ <-. vm_compute in E. discriminate.
  - split; [intros v [<- | []]; left; reflexivity|vm_compute; reflexivity].
Qed.
Print Assumptions C143_number_refuted.
