(** Renaming while the download is running: the first article, the names, the par2-files downloaded first, the sums. *)
From Coq Require Import String Permutation.
From Verif Require Import Base NumFmt WildModel RarModel RarSetModel ParModel ParSpec ParRenModel ParRenSpec DRenModel DRenSpec.
From Verif Require DRenProofs DRenProofs2 DRenProofs3 DRenProofs4.
Open Scope list_scope. Open Scope Z_scope.

(** ** C149: the first article *)

(** The hash is that of the first 16 KB, however the article arrives in pieces and whatever was received before in a failed attempt. *)
Theorem C149_hash : forall md5 a ps, length (a_sig a) = 64%nat -> a_hash md5 (attempt a ps) = md5 (firstn (Z.to_nat 16384) (concat ps)).
Proof. intros md5 a ps. exact (DRenProofs.hash_ok md5 a ps). Qed.
Print Assumptions C149_hash.

(** In the first attempt a par2-file is recognised if some piece begins after the first 64 bytes; then its set is the one of the packet. *)
Theorem C149_par_partial : forall junk ps, length junk = 64%nat ->
  (a_par (attempt (new_ana junk) ps) = true <-> late_piece ps /\ exists set, packet_of (concat ps) set) /\
  (forall set, bytes set -> packet_of (concat ps) set -> late_piece ps -> a_set (attempt (new_ana junk) ps) = hex_of set).
Proof. intros junk ps. exact (DRenProofs.par_seen junk ps). Qed.
Print Assumptions C149_par_partial.

Definition x_set : list Z := map Z.of_nat (seq 171 16).
Definition x_head : list Z := [80; 65; 82; 50; 0; 80; 75; 84] ++ repeat 1 24 ++ x_set ++ repeat 2 16.
Definition x_junk : list Z := repeat 7 64.
Lemma x_packet r : packet_of (x_head ++ r) x_set.
Proof. exists (repeat 1 8), (repeat 1 16), (repeat 2 16 ++ r). repeat split. rewrite app_length. change (length (repeat 2 16)) with 16%nat. lia. Qed.
Example C149_example : let a := attempt (new_ana x_junk) [firstn 30 x_head; skipn 30 x_head; [5; 6]] in
  late_piece [firstn 30 x_head; skipn 30 x_head; [5; 6]] /\ a_par a = true /\ a_set a = str "BAB9B8B7B6B5B4B3B2B1B0AFAEADACAB" /\ a_fed a = x_head ++ [5; 6].
Proof. split; [exists [firstn 30 x_head; skipn 30 x_head], [5; 6], []; split; [reflexivity|vm_compute; lia]|]. vm_compute. repeat split. Qed.

(** A par2-file whose first article arrives in one piece is not recognised. *)
Theorem C149_one_piece_refuted : exists junk ps set, length junk = 64%nat /\ bytes set /\ packet_of (concat ps) set /\ a_par (attempt (new_ana junk) ps) = false.
Proof.
  exists x_junk, [x_head ++ repeat 9 100], x_set. split; [reflexivity|]. split; [repeat (constructor; [vm_compute; split; [discriminate|reflexivity]|]); constructor|]. split; [cbn [concat]; rewrite <- app_assoc; apply x_packet|vm_compute; reflexivity].
Qed.
Print Assumptions C149_one_piece_refuted.

(** A file that is no par2-file is taken for one if an attempt before received other data. *)
Theorem C149_again_refuted : exists junk ps qs, length junk = 64%nat /\ a_par (attempt (attempt (new_ana junk) ps) qs) = true /\ forall set, ~ packet_of (concat qs) set.
Proof.
  exists x_junk, [x_head; [1]], [repeat 3 80; repeat 4 20]. split; [reflexivity|]. split; [vm_compute; reflexivity|].
  intros set (l & md5 & tail & E & _). apply (f_equal (hd 0)) in E. vm_compute in E. discriminate E.
Qed.
Print Assumptions C149_again_refuted.

(** ** C150: the names *)

(** The renaming comes to an end; a file gets the name described for its hash, a par2-file one with its set; par2-files are
    renamed only if those of a set are not named well. Files in progress always get the name, files on the disk may stay. *)
Theorem C150_names : forall can dir hs files done fs,
  (forall f, In f (files ++ done) -> f_par f = true -> fits (f_name f) /\ (6 <= length (f_name f))%nat) ->
  exists l s pars, direct_rename can dir hs files done fs = Some (l, s) /\ Forall2 (outcome pars hs) (files ++ done) l /\
    (pars = false <-> together (pairs (files ++ done))).
Proof.
  intros can dir hs files done fs L. destruct (DRenProofs3.all_ok can dir (need_pars (files ++ done)) hs (files ++ done) (Rst fs 1 0)) as (l & s & E & F); [apply Z.le_refl|].
  exists l, s, (need_pars (files ++ done)). split; [exact E|]. split; [exact F|]. apply DRenProofs3.need_ok, L.
Qed.
Print Assumptions C150_names.
(** On the disk are the completed files and those written directly to their place. *)
Theorem C150_on_disk : forall f, on_disk f = true <-> lies f.
Proof. exact DRenProofs3.on_disk_ok. Qed.
Print Assumptions C150_on_disk.

(** If the names wanted are free then nothing is lost, files that are not of the download stay, and the data of each file are found under its name. *)
Theorem C150_disk_partial : forall can dir hs files done fs l s, NoDup (map fst fs) -> free_targets hs dir (files ++ done) fs -> all_there dir (files ++ done) fs ->
  direct_rename can dir hs files done fs = Some (l, s) ->
  NoDup (map fst (s_fs s)) /\ Permutation (map snd fs) (map snd (s_fs s)) /\
  (forall p c, look fs p = Some c -> (forall f, In f (files ++ done) -> on_disk f = true -> p <> dir ++ str "/" ++ f_name f) -> look (s_fs s) p = Some c) /\
  exists pars, Forall2 (followed can dir pars hs fs (s_fs s)) (files ++ done) l.
Proof.
  intros can dir hs files done fs l s N F T E. destruct (DRenProofs3.disk_ok can dir (need_pars (files ++ done)) hs (files ++ done) (Rst fs 1 0) l s) as (A & B & C & D); auto; [apply Z.le_refl|].
  split; [exact A|]. split; [exact B|]. split; [exact C|]. exists (need_pars (files ++ done)). exact D.
Qed.
Print Assumptions C150_disk_partial.

(** A file completed or in progress: identifier, name, hash. *)
Definition x_done (id : Z) (n h : list Z) : dfile := DFile id n [] h false [] false false true None true 0 0 0 0.
Definition x_file (id : Z) (n h : list Z) (par : bool) (set : list Z) (size : Z) : dfile := DFile id n [] h par set false false false None false size 0 0 0.
Definition x_all (a b : list Z) : bool := true.
Definition x_hs : list (list Z * list Z) := [(str "movie.r00", str "H0"); (str "movie.r01", str "H1")].
Definition x_fs : disk := [(str "/d/abc", str "first"); (str "/d/else", str "other")].
Definition x_files : list dfile := [x_file 2 (str "def") (str "H1") false [] 10; x_file 3 (str "ghi.vol07+08.PAR2") (str "H2") true (str "5E7") 20; x_file 4 (str "jkl") (str "H3") true (str "5E7") 30].
Definition x_name (f : dfile) : list Z := f_name f.
Example C150_on_disk_example : on_disk (x_done 1 (str "a") (str "H")) = true /\ lies (x_done 1 (str "a") (str "H")).
Proof. split; [reflexivity|left; reflexivity]. Qed.
Example C150_example : exists l s, direct_rename x_all (str "/d") x_hs x_files [x_done 1 (str "abc") (str "H0")] x_fs = Some (l, s) /\
  map x_name l = [str "movie.r01"; str "5E7.vol07+08.PAR2"; str "5E7.vol001+01.PAR2"; str "movie.r00"] /\
  s_fs s = [(str "/d/movie.r00", str "first"); (str "/d/else", str "other")] /\ s_count s = 4.
Proof. eexists _, _. split; [vm_compute; reflexivity|]. repeat split. Qed.
Example C150_holds : let files := x_files ++ [x_done 1 (str "abc") (str "H0")] in
  free_targets x_hs (str "/d") files x_fs /\ all_there (str "/d") files x_fs /\ NoDup (map fst x_fs).
Proof.
  cbv zeta. split; [|split; [split|]].
  - intros i f m E D (_ & _ & (u & v & Q & Nu) & _).
    assert (Es : i = 3%nat /\ f = x_done 1 (str "abc") (str "H0")).
    { destruct i as [|[|[|[|i]]]]; [injection E as <-; vm_compute in D; discriminate D..|injection E as <-; auto|destruct i; discriminate E]. }
    destruct Es as (-> & ->). change (f_hash (x_done 1 (str "abc") (str "H0"))) with (str "H0") in *.
    assert (m = str "movie.r00") as ->.
    { destruct u as [|a u]; [injection Q as <- _; reflexivity|]. injection Q as <- Q. destruct u as [|b u]; [discriminate Q|]. injection Q as <- Q. destruct u; discriminate Q. }
    split; [vm_compute; intuition discriminate|]. split.
    + intros (x & e & Ex & Ce). apply (f_equal (fun l => nth 0 (rev l) 0)) in Ex. unfold caseless in Ce. apply (f_equal (fun l => nth 0 (rev l) 0)) in Ce.
      rewrite <- map_rev in Ce. rewrite rev_app_distr in Ex. destruct (rev e) as [|c r]; [vm_compute in Ce; discriminate Ce|]. cbn [map nth app] in Ce, Ex. rewrite <- Ex in Ce. vm_compute in Ce. discriminate Ce.
    + intros j g Ej Dj _. destruct j as [|[|[|[|j]]]]; [injection Ej as <-; vm_compute in Dj; discriminate Dj..|reflexivity|destruct j; discriminate Ej].
  - vm_compute. repeat constructor. intros [].
  - intros f [<- |[<- |[<- |[<- |[]]]]] D; try (vm_compute in D; discriminate D). left. reflexivity.
  - vm_compute. repeat constructor; vm_compute; intuition discriminate.
Qed.

(** If the names are only shuffled then a file is lost: it is overwritten before it is renamed itself. *)
Theorem C150_disk_refuted : exists can dir hs files done fs l s c, NoDup (map fst fs) /\ all_there dir (files ++ done) fs /\ NoDup (map fst hs) /\ NoDup (map snd hs) /\
  direct_rename can dir hs files done fs = Some (l, s) /\ In c (map snd fs) /\ ~ In c (map snd (s_fs s)).
Proof.
  exists x_all, (str "/d"), x_hs, [], [x_done 1 (str "movie.r01") (str "H0"); x_done 2 (str "movie.r00") (str "H1")], [(str "/d/movie.r01", str "zero"); (str "/d/movie.r00", str "one")].
  eexists _, _, (str "one"). split; [vm_compute; repeat constructor; vm_compute; intuition discriminate|]. split.
  { split; [vm_compute; repeat constructor; vm_compute; intuition discriminate|]. intros f [<- |[<- |[]]] _; vm_compute; auto. }
  split; [vm_compute; repeat constructor; vm_compute; intuition discriminate|]. split; [vm_compute; repeat constructor; vm_compute; intuition discriminate|].
  split; [vm_compute; reflexivity|]. split; [right; left; reflexivity|]. vm_compute. intuition discriminate.
Qed.
Print Assumptions C150_disk_refuted.

(** Two par2-files in progress get one name. *)
Theorem C150_distinct_refuted : exists can dir hs files fs l s i j f g, NoDup (map f_id files) /\ NoDup (map f_name files) /\ direct_rename can dir hs files [] fs = Some (l, s) /\
  nth_error l i = Some f /\ nth_error l j = Some g /\ i <> j /\ f_name f = f_name g.
Proof.
  exists x_all, (str "/d"), [], [x_file 1 (str "a.vol00+01.par2") (str "H") true (str "5E7") 10; x_file 2 (str "b.vol00+01.par2") (str "H") true (str "5E7") 10], [].
  eexists _, _, 0%nat, 1%nat, _, _. split; [vm_compute; repeat constructor; vm_compute; intuition discriminate|]. split; [vm_compute; repeat constructor; vm_compute; intuition discriminate|].
  split; [vm_compute; reflexivity|]. split; [reflexivity|]. split; [reflexivity|]. split; [discriminate|reflexivity].
Qed.
Print Assumptions C150_distinct_refuted.

(** ** C151: the par2-files downloaded first and the start of the renaming *)

(** Of each set of which no par2-file is completed, exactly one is resumed and gets priority: one of the smallest. All other files are left as they are. *)
Theorem C151_choice : forall sort fl dl, sorter sort -> proper fl dl ->
  length (unpause_pars sort fl dl) = length fl /\
  (forall i f f', nth_error fl i = Some f -> nth_error (unpause_pars sort fl dl) i = Some f' -> f' = f \/ smallest (f_set f) fl dl f /\ raised f f') /\
  (forall set, (exists g, In g fl /\ in_set set g) -> (forall g, In g dl -> ~ in_set set g) ->
     exists i f f', nth_error fl i = Some f /\ nth_error (unpause_pars sort fl dl) i = Some f' /\ in_set set f /\ raised f f' /\
       forall j g g', nth_error fl j = Some g -> nth_error (unpause_pars sort fl dl) j = Some g' -> in_set set g -> j <> i -> g' = g).
Proof. intros sort fl dl. exact (DRenProofs4.chosen sort fl dl). Qed.
Print Assumptions C151_choice.

(** The loader is started exactly when the first articles of all files are known, the renaming has not been done, no file has
    priority and, the first time, each set has a completed par2-file. *)
Theorem C151_start : forall sort n, sorter sort -> proper (n_files n) (n_done n) ->
  (snd (check_state sort n) = true <->
    ready n /\ n_loading n = false /\ (forall f, In f (n_files n) -> f_extra f = false) /\
    (n_waiting n = false -> forall f, In f (n_files n) -> f_par f = true -> exists g, In g (n_done n) /\ in_set (f_set f) g)).
Proof. intros sort n. exact (DRenProofs4.start_iff sort n). Qed.
Print Assumptions C151_start.

(** It is started once at most. *)
Theorem C151_once : forall sort es n, 0 <= snd (d_run sort es n) <= 1.
Proof. intros sort es n. pose proof (DRenProofs4.once sort es n) as H. destruct (n_loading n); lia. Qed.
Print Assumptions C151_once.

Definition x_nzb (fl : list dfile) : dnzb := DNzb 0 false false fl [] 0 0 0 0 0.
Definition x_run : list dev := [EArticle 1 (str "H1") false [] true; EArticle 2 (str "H2") true (str "5E7") true; EArticle 3 (str "H3") true (str "5E7") true; EEnd 3 true; EEnd 1 true; EEnd 2 true].
Example C151_example : sorter DRenProofs4.by_insertion /\
  map f_extra (n_files (fst (d_run DRenProofs4.by_insertion (firstn 3 x_run) (x_nzb [x_file 1 (str "a") [] false [] 5; x_file 2 (str "b") [] false [] 20; x_file 3 (str "c") [] false [] 10])))) = [false; false; true] /\
  snd (d_run DRenProofs4.by_insertion (firstn 4 x_run) (x_nzb [x_file 1 (str "a") [] false [] 5; x_file 2 (str "b") [] false [] 20; x_file 3 (str "c") [] false [] 10])) = 0 /\
  snd (d_run DRenProofs4.by_insertion (firstn 5 x_run) (x_nzb [x_file 1 (str "a") [] false [] 5; x_file 2 (str "b") [] false [] 20; x_file 3 (str "c") [] false [] 10])) = 1 /\
  snd (d_run DRenProofs4.by_insertion x_run (x_nzb [x_file 1 (str "a") [] false [] 5; x_file 2 (str "b") [] false [] 20; x_file 3 (str "c") [] false [] 10])) = 1.
Proof. split; [apply DRenProofs4.by_insertion_ok|]. vm_compute. repeat split. Qed.

(** If the par2-file with priority is completed last then the renaming never starts: the state is checked while the file still counts as in progress. *)
Theorem C151_late_refuted : exists sort es n n', sorter sort /\ proper (n_files n) (n_done n) /\ d_run sort es n = (n', 0) /\
  n_status n = 0 /\ n_files n <> [] /\ n_files n' = [] /\ length (n_done n') = length (n_files n) /\ Forall first_known (n_done n') /\
  exists f, In f (n_done n') /\ f_par f = true.
Proof.
  exists DRenProofs4.by_insertion, [EArticle 1 (str "H1") false [] true; EArticle 2 (str "H2") true (str "5E7") true; EEnd 1 true; EEnd 2 true], (x_nzb [x_file 1 (str "a") [] false [] 5; x_file 2 (str "b") [] false [] 20]).
  eexists. split; [apply DRenProofs4.by_insertion_ok|]. split.
  { split; [vm_compute; repeat constructor; vm_compute; intuition discriminate|]. split; [intros f [<- |[<- |[]]]; reflexivity|intros f []]. }
  split; [vm_compute; reflexivity|]. split; [reflexivity|]. split; [discriminate|]. split; [reflexivity|]. split; [reflexivity|]. split.
  { repeat constructor; vm_compute; discriminate. }
  eexists. split; [right; left; reflexivity|reflexivity].
Qed.
Print Assumptions C151_late_refuted.

(** ** C152: the sums *)

(** When the kind of a file becomes known, the sums over the par2-files of the download remain right: size, successful, missing and failed articles, number. *)
Theorem C152_sums : forall sort id hash par set large n, NoDup (map f_id (n_files n)) -> let n' := fst (article_done sort id hash par set large n) in
  n_psize n' - par_sum f_size (n_files n') = n_psize n - par_sum f_size (n_files n) /\
  n_psucc n' - par_sum f_succ (n_files n') = n_psucc n - par_sum f_succ (n_files n) /\
  n_pmiss n' - par_sum f_miss (n_files n') = n_pmiss n - par_sum f_miss (n_files n) /\
  n_pfail n' - par_sum (fun f => f_fail f + f_miss f) (n_files n') = n_pfail n - par_sum (fun f => f_fail f + f_miss f) (n_files n) /\
  n_pcount n' - par_sum (fun _ => 1) (n_files n') = n_pcount n - par_sum (fun _ => 1) (n_files n).
Proof. intros sort id hash par set large n. exact (DRenProofs4.sums sort id hash par set large n). Qed.
Print Assumptions C152_sums.

(** The file gets hash, kind and set; if it was taken for a par2-file and is none it is resumed. Other files stay or are par2-files to be downloaded first. *)
Theorem C152_file : forall sort id hash par set large n i f, nth_error (n_files n) i = Some f ->
  exists f', nth_error (n_files (fst (article_done sort id hash par set large n))) i = Some f' /\
  (f_id f <> id -> f' = f \/ raised f f') /\
  (f_id f = id -> f_name f' = f_name f /\ f_hash f' = (if large then hash else f_hash f) /\ f_par f' = par /\ f_set f' = (if par then set else f_set f) /\
     (f_par f = true -> par = false -> f_paused f' = false) /\ (f_paused f' = true -> f_paused f = true)).
Proof. intros sort id hash par set large n i f. exact (DRenProofs4.article_file sort id hash par set large n i f). Qed.
Print Assumptions C152_file.

Example C152_example :
  let fl := [DFile 1 (str "a.par2") [] [] true [] true false false None false 50 3 1 2; DFile 2 (str "b") [] [] false [] false false false None false 70 4 0 1] in
  let n := DNzb 0 false false fl [] 50 3 3 2 1 in
  let n1 := fst (article_done DRenProofs4.by_insertion 1 (str "H1") false [] true n) in
  let n2 := fst (article_done DRenProofs4.by_insertion 2 (str "H2") true (str "5E7") true n1) in
  NoDup (map f_id fl) /\ map f_paused (n_files n1) = [false; false] /\ n_psize n1 = 0 /\ n_pcount n1 = 0 /\ n_pfail n1 = 0 /\
  n_psize n2 = 70 /\ n_psucc n2 = 4 /\ n_pfail n2 = 1 /\ n_pmiss n2 = 1 /\ n_pcount n2 = 1.
Proof. cbv zeta. split; [repeat constructor; vm_compute; intuition discriminate|]. vm_compute. repeat split. Qed.
