(** Renaming by par2-files after the download: nothing is lost, files get the names described, missing files are
    noticed, par2-files of a set get names that belong together. *)
From Coq Require Import String Permutation.
From Verif Require Import Base NumFmt NameModel WildModel WebModel InfoModel RarModel RarSetModel ParModel ParSpec ParRenModel ParRenSpec.
From Verif Require RarSetSpec RarSetProofs3 ParRenProofs ParRenProofs2 ParRenProofs3 ParRenProofs4 ParRenProofs5 ParRenProofs6.
Open Scope list_scope. Open Scope Z_scope.

(** ** C145: nothing is lost *)

(** The renaming comes to an end, whatever the system refuses; no two files get one path; files outside the
    directories stay as they are; renamings are within one directory. *)
Theorem C145_ends : forall can md5 load junk len0 detect ignored dirs s, bytes junk -> disk_bytes (r_fs s) -> NoDup (map fst (r_fs s)) ->
  exists s', par_rename can md5 load junk len0 detect ignored dirs s = Some s' /\ NoDup (map fst (r_fs s')) /\
  incl (map snd (r_fs s')) (map snd (r_fs s)) /\
  (forall p, (forall d n, In d dirs -> ~ file_in d n p) -> look (r_fs s') p = look (r_fs s) p) /\
  exists l, r_done s' = r_done s ++ l /\ forall e, In e l -> exists d n m, In d dirs /\ file_in d n (fst e) /\ file_in d m (snd e).
Proof. intros can md5 load junk len0 detect ignored dirs s. exact (ParRenProofs5.par_rename_ok can md5 load junk len0 detect ignored dirs s). Qed.
Print Assumptions C145_ends.

(** The contents of all files are still there if no file has the ending for damaged par2-files. *)
Theorem C145_kept : forall can md5 load junk len0 detect ignored dirs s s', bytes junk -> disk_bytes (r_fs s) -> NoDup (map fst (r_fs s)) -> NoDup dirs ->
  (forall d, In d dirs -> none_bad (r_fs s) d) -> none_bad_described load (r_fs s) ->
  par_rename can md5 load junk len0 detect ignored dirs s = Some s' -> Permutation (map snd (r_fs s)) (map snd (r_fs s')).
Proof. intros can md5 load junk len0 detect ignored dirs s s'. exact (ParRenProofs5.par_rename_keeps can md5 load junk len0 detect ignored dirs s s'). Qed.
Print Assumptions C145_kept.

(** A test set-up: the hash is the content itself; a par2-file "P" describes b.rar, "Q" also mentions a file without description. *)
Definition t_md5 (c : list Z) : list Z := c.
Definition t_load (c : list Z) : option (list (option (list Z * list Z))) :=
  if beqb c (str "P") then Some [Some (str "b.rar", str "data")]
  else if beqb c (str "Q") then Some [Some (str "b.rar", str "data"); None]
  else if beqb c (str "R") then Some [Some (str "b.rar", str "beta"); Some (str "c.rar", str "gamma"); Some (str "d.nfo", str "delta")]
  else None.
Definition t_all (a b : list Z) : bool := true.
Definition t_run (fs : disk) : option rstate := par_rename t_all t_md5 t_load [] 0 true (fun n => beqb n (str "d.nfo")) [str "/d"] (RState fs [] false false).

Example C145_example : let fs := [(str "/d/x", str "data"); (str "/d/a.par2", str "Q"); (str "/e", str "else")] in
  t_run fs = Some (RState [(str "/d/a.par2.bad", str "Q"); (str "/d/b.rar", str "data"); (str "/e", str "else")]
    [(str "/d/x", str "/d/b.rar"); (str "/d/a.par2", str "/d/a.par2.bad")] true false) /\
  none_bad fs (str "/d") /\ none_bad_described t_load fs.
Proof.
  split; [vm_compute; reflexivity|]. assert (E : forall p a, p = a ++ str ".bad" -> last p 0 = 100) by (intros p a ->; change (str ".bad") with (str ".ba" ++ [100]); rewrite app_assoc; apply last_last). split.
  - intros p n I _ (a & Q). apply E in Q. vm_compute in I. destruct I as [<- |[<- |[<- |[]]]]; vm_compute in Q; discriminate Q.
  - intros p c d n h I L J (a & Q). apply E in Q. destruct I as [I|[I|[I|[]]]]; injection I as <- <-; vm_compute in L; try discriminate L. injection L as <-. destruct J as [J|[J|[]]]; [|discriminate J]. injection J as <- <-. vm_compute in Q. discriminate Q.
Qed.

(** Without this condition a file is lost: the damaged par2-file replaces one put aside before. *)
Theorem C145_kept_refuted : exists can md5 load junk len0 detect ignored dirs s s' c, bytes junk /\ disk_bytes (r_fs s) /\ NoDup (map fst (r_fs s)) /\ NoDup dirs /\
  par_rename can md5 load junk len0 detect ignored dirs s = Some s' /\ In c (map snd (r_fs s)) /\ ~ In c (map snd (r_fs s')).
Proof.
  exists t_all, t_md5, t_load, [], 0%nat, true, (fun _ => false), [str "/d"], (RState [(str "/d/x", str "data"); (str "/d/a.par2", str "Q"); (str "/d/a.par2.bad", str "old")] [] false false).
  exists (RState [(str "/d/a.par2.bad", str "Q"); (str "/d/b.rar", str "data")] [(str "/d/x", str "/d/b.rar"); (str "/d/a.par2", str "/d/a.par2.bad")] true false), (str "old").
  split; [constructor|]. split; [repeat constructor; vm_compute; intuition discriminate|]. split; [repeat constructor; vm_compute; intuition discriminate|]. split; [repeat constructor; intros []|].
  split; [vm_compute; reflexivity|]. split; [right; right; left; reflexivity|]. vm_compute. intuition discriminate.
Qed.
Print Assumptions C145_kept_refuted.

(** ** C146: files get the names described *)

(** What becomes of each file: it stays, or it gets the name of the first description with its hash; it is not
    the first part of a split file then. Paths are new only for names described. Nothing is lost. *)
Theorem C146_fate : forall can md5 dir hs s, NoDup (map fst (r_fs s)) ->
  let fs' := r_fs (snd (check_regulars can md5 dir hs s)) in
  NoDup (map fst fs') /\ Permutation (map snd (r_fs s)) (map snd fs') /\
  (forall p c, look (r_fs s) p = Some c -> look fs' p = Some c \/
     exists n m h q, file_in dir n p /\ starts_with md5 c h /\ says hs h m /\ ~ first_part n m /\ q = dir ++ str "/" ++ m /\ look fs' q = Some c) /\
  (forall p, In p (map fst fs') -> In p (map fst (r_fs s)) \/ exists m h, says hs h m /\ p = dir ++ str "/" ++ m).
Proof.
  intros can md5 dir hs s N. destruct (ParRenProofs2.regs_ok can md5 dir (listing (r_fs s) dir) hs s N (ParRenProofs.listing_nodup _ _ N)) as (A1 & A2 & _ & _ & _ & A6 & A7 & _).
  { intros n I. apply ParRenProofs.in_listing in I. tauto. }
  split; [exact A1|]. split; [exact A2|]. split.
  - intros p c L. destruct (A7 p c L) as [Q|(n & m & -> & I & Sy & Fr & Q)]; [left; exact Q|]. right. exists n, m, (hash16 md5 c), (at_dir dir m). apply ParRenProofs.in_listing in I as [_ Sl].
    split; [apply ParRenProofs.file_in_at; auto|]. split; [reflexivity|]. split; [exact Sy|]. split; [intros Fp; apply ParRenProofs.fragment_first in Fp; congruence|]. split; [reflexivity|exact Q].
  - intros p P. destruct (A6 p P) as [Q|(m & h & Sy & ->)]; [left; exact Q|]. right. exists m, h. split; [exact Sy|reflexivity].
Qed.
Print Assumptions C146_fate.

(** A name described that is not there is given to a file with the hash, if there is one besides first parts of split
    files and the system refuses nothing. *)
Theorem C146_placed : forall md5 dir hs s, NoDup (map fst (r_fs s)) -> hashes_differ hs -> names_differ hs ->
  forall m h p n c, In (m, h) (described hs) -> ~ In (dir ++ str "/" ++ m) (map fst (r_fs s)) ->
  file_in dir n p -> look (r_fs s) p = Some c -> starts_with md5 c h -> ~ maybe_first_part n m ->
  exists n' p' c', file_in dir n' p' /\ look (r_fs s) p' = Some c' /\ starts_with md5 c' h /\
    look (r_fs (snd (check_regulars (fun _ _ => true) md5 dir hs s))) (dir ++ str "/" ++ m) = Some c'.
Proof.
  intros md5 dir hs s N Hd Nd m h p n c I Free Fi L E Np. apply (proj1 (ParRenProofs.file_in_at _ _ _)) in Fi as [-> Sl].
  destruct (ParRenProofs2.regs_place (fun _ _ => true) md5 dir ltac:(reflexivity) (listing (r_fs s) dir) hs s N (ParRenProofs.listing_nodup _ _ N)) with (m := m) (h := h) (n := n) (c := c) as (n' & c' & A & B & C & D); try assumption.
  - intros x X. apply ParRenProofs.in_listing in X. tauto.
  - apply ParRenProofs.in_listing. split; [|exact Sl]. apply RarSetProofs3.is_there_iff. unfold is_there. rewrite L. reflexivity.
  - apply not_true_iff_false. intros Q. apply Np, ParRenProofs.fragment_maybe, Q.
  - exists n', (at_dir dir n'), c'. apply ParRenProofs.in_listing in A as [_ A]. split; [apply ParRenProofs.file_in_at; auto|]. split; [exact B|]. split; [exact C|exact D].
Qed.
Print Assumptions C146_placed.

(** What is read: each description comes from a par2-file of the disk, with the name made valid; descriptions
    of the main par2-files of the directory are all there; no two have the same hash; par2-files count as damaged
    only if they are. *)
Theorem C146_read : forall load dir s, let l := fst (load_all load dir s) in
  hashes_differ (l_hashes l) /\
  (forall m h, In (m, h) (described (l_hashes l)) -> exists p c d n, look (r_fs s) p = Some c /\ load c = Some d /\ In (Some (n, h)) d /\ m = make_valid false n) /\
  (forall n c d x h, In n (find_mains (listing (r_fs s) dir) []) -> look (r_fs s) (dir ++ str "/" ++ n) = Some c -> c <> [] -> load c = Some d -> In (Some (x, h)) d ->
     exists m, In (m, h) (described (l_hashes l))) /\
  (forall p, In p (l_bad l) -> exists n, file_in dir n p /\ forall c, look (r_fs s) p = Some c -> unreadable load c).
Proof.
  intros load dir s l. destruct (ParRenProofs4.load_all_ok load dir s) as ((A0 & _ & A2 & _) & A3 & A4). fold l in A0, A2, A3, A4. split; [exact A0|]. split; [exact A2|]. split.
  - intros n c d x h I L Ne Ld J. pose proof (A3 n c d x h I L Ne Ld J) as Q. apply in_map_iff in Q as (e & <- & Q). exists (h_name e). apply in_map_iff. exists e. auto.
  - intros p P. destruct (A4 p P) as (n & I & -> & Q). apply ParRenProofs.in_listing in I as [_ I]. exists n. split; [apply ParRenProofs.file_in_at; auto|exact Q].
Qed.
Print Assumptions C146_read.

Example C146_example : let fs := [(str "/d/x", str "gamma"); (str "/d/b.rar.001", str "beta"); (str "/d/y", str "beta"); (str "/d/a.par2", str "R")] in
  t_run fs = Some (RState [(str "/d/b.rar", str "beta"); (str "/d/c.rar", str "gamma"); (str "/d/b.rar.001", str "beta"); (str "/d/a.par2", str "R")]
    [(str "/d/x", str "/d/c.rar"); (str "/d/y", str "/d/b.rar")] false false) /\
  (exists hs, l_hashes (fst (load_all t_load (str "/d") (RState fs [] false false))) = hs /\ described hs = [(str "b.rar", str "beta"); (str "c.rar", str "gamma"); (str "d.nfo", str "delta")] /\ names_differ hs) /\
  first_part (str "b.rar.001") (str "b.rar") /\ ~ maybe_first_part (str "y") (str "b.rar").
Proof.
  split; [vm_compute; reflexivity|]. split.
  - eexists. split; [reflexivity|]. split; [vm_compute; reflexivity|]. vm_compute. repeat constructor; cbn [In]; intuition discriminate.
  - split.
    + exists 1. split; [lia|]. exists (str "b.rar"), (str "001"). split; [reflexivity|]. split; [reflexivity|]. split; [|reflexivity]. repeat constructor; vm_compute; discriminate.
    + intros (k & _ & a & d & E & C & _). apply (f_equal (@length Z)) in E. unfold caseless in C. apply (f_equal (@length Z)) in C. rewrite !map_length in C. rewrite !app_length, C in E. vm_compute in E. lia.
Qed.

(** A name that is taken when its file is met but becomes free later stays unused: the file a has the content of b,
    the file b that of c; a is met first. *)
Theorem C146_order_refuted : exists md5 dir hs s m h n p c, NoDup (map fst (r_fs s)) /\ hashes_differ hs /\ names_differ hs /\ In (m, h) (described hs) /\
  file_in dir n p /\ look (r_fs s) p = Some c /\ starts_with md5 c h /\ ~ maybe_first_part n m /\
  look (r_fs (snd (check_regulars (fun _ _ => true) md5 dir hs s))) (dir ++ str "/" ++ m) = None.
Proof.
  exists t_md5, (str "/d"), [FHash (str "b.rar") (str "beta") false; FHash (str "c.rar") (str "gamma") false],
    (RState [(str "/d/a.rar", str "beta"); (str "/d/b.rar", str "gamma")] [] false false), (str "b.rar"), (str "beta"), (str "a.rar"), (str "/d/a.rar"), (str "beta").
  split; [vm_compute; repeat constructor; cbn [In]; intuition discriminate|]. split; [vm_compute; repeat constructor; cbn [In]; intuition discriminate|]. split; [vm_compute; repeat constructor; cbn [In]; intuition discriminate|].
  split; [left; reflexivity|]. split; [split; [reflexivity|vm_compute; intuition discriminate]|]. split; [reflexivity|]. split; [vm_compute; reflexivity|]. split; [|vm_compute; reflexivity].
  intros (k & _ & a & d & E & C & _). apply (f_equal (@length Z)) in E. unfold caseless in C. apply (f_equal (@length Z)) in C. rewrite !map_length in C. rewrite !app_length, C in E. vm_compute in E. lia.
Qed.
Print Assumptions C146_order_refuted.

(** ** C147: missing files *)

(** Files count as missing iff asked for and some file described, other than those ignored, has no file with its hash in the
    directory (par2-files being named well). *)
Theorem C147_missing : forall can md5 load junk len0 detect ignored dir s s', NoDup (map fst (r_fs s)) ->
  together (par_infos junk (r_fs s) dir) -> long_enough (par_infos junk (r_fs s) dir) -> r_missed s = false ->
  one_dir can md5 load junk len0 detect ignored dir s = Some s' ->
  (r_missed s' = true <-> detect = true /\
   exists m h, In (m, h) (described (l_hashes (fst (load_all load dir s)))) /\ ignored m = false /\
     forall p n c, file_in dir n p -> look (r_fs s) p = Some c -> ~ starts_with md5 c h).
Proof. intros can md5 load junk len0 detect ignored dir s s'. exact (ParRenProofs6.one_dir_missing can md5 load junk len0 detect ignored dir s s'). Qed.
Print Assumptions C147_missing.

Example C147_example : let fs := [(str "/d/x", str "gamma"); (str "/d/a.par2", str "R")] in
  par_infos [] fs (str "/d") = [] /\ option_map r_missed (t_run fs) = Some true /\
  option_map r_missed (t_run ((str "/d/z", str "beta") :: fs)) = Some false /\
  option_map r_missed (one_dir t_all t_md5 t_load [] 0 false (fun _ => false) (str "/d") (RState fs [] false false)) = Some false.
Proof. repeat split; vm_compute; reflexivity. Qed.

(** ** C148: par2-files *)

(** A file that begins with a packet counts as par2-file of its set, and only such files of at least 64 bytes do, but for packets
    of 2 GB and more. *)
Theorem C148_packet : forall junk c set, par2_packet c set -> par_set junk c = Some (hex_low set).
Proof. exact ParRenProofs3.par_set_packet. Qed.
Print Assumptions C148_packet.
Theorem C148_only : forall junk c i, (64 <= length c)%nat -> par_set junk c = Some i ->
  exists len set, par2_begin c len set /\ i = hex_low set /\ (len <= zlen c \/ 2 ^ 31 <= len).
Proof. exact ParRenProofs3.par_set_some. Qed.
Print Assumptions C148_only.
Theorem C148_only_refuted : exists junk c i, (64 <= length c)%nat /\ par_set junk c = Some i /\ ~ exists set, par2_packet c set.
Proof.
  pose (c := [80; 65; 82; 50; 0; 80; 75; 84] ++ [64; 0; 0; 0; 1; 0; 0; 0] ++ repeat 7 16 ++ repeat 9 16 ++ repeat 0 16).
  exists [], c, (hex_low (repeat 9 16)). split; [vm_compute; lia|]. split; [vm_compute; reflexivity|].
  intros (set & len & (l & m & t & E & L1 & _ & _ & _ & -> & _ & _) & Le).
  do 8 (destruct l as [|? l]; [discriminate|]). destruct l; [|discriminate]. assert (E2 := f_equal (fun x => firstn 8 (skipn 8 x)) E). vm_compute in E2. injection E2 as <- <- <- <- <- <- <- <-. vm_compute in Le. apply Le. reflexivity.
Qed.
Print Assumptions C148_only_refuted.

(** They are renamed iff they are not named well. *)
Theorem C148_needed : forall can junk len0 dir s, long_enough (par_infos junk (r_fs s) dir) -> together (par_infos junk (r_fs s) dir) -> check_pars can junk len0 dir s = Some s.
Proof. intros can junk len0 dir s Le T. unfold check_pars. rewrite (proj2 (ParRenProofs6.need_rename_ok len0 _ Le) T). reflexivity. Qed.
Print Assumptions C148_needed.

(** If they are not, every one of them gets a name of its set with its content, nothing is lost, and all other files stay. *)
Theorem C148_renamed : forall junk len0 dir s, NoDup (map fst (r_fs s)) -> long_enough (par_infos junk (r_fs s) dir) -> ~ together (par_infos junk (r_fs s) dir) ->
  exists s', check_pars (fun _ _ => true) junk len0 dir s = Some s' /\ NoDup (map fst (r_fs s')) /\ Permutation (map snd (r_fs s)) (map snd (r_fs s')) /\
  (forall n p c i, file_in dir n p -> look (r_fs s) p = Some c -> par_set junk c = Some i -> exists k q, 1 <= k /\ par_path dir i k q /\ look (r_fs s') q = Some c) /\
  (forall p c, look (r_fs s) p = Some c -> (forall n, file_in dir n p -> par_set junk c = None) -> look (r_fs s') p = Some c).
Proof.
  intros junk len0 dir s N Le T. unfold check_pars. destruct (need_rename len0 (par_infos junk (r_fs s) dir)) eqn:Q; [|exfalso; apply T; apply (ParRenProofs6.need_rename_ok len0 _ Le), Q].
  destruct (ParRenProofs3.rename_pars_ok (fun _ _ => true) dir (par_infos junk (r_fs s) dir) s N) as (s' & E & A1 & A2 & _ & _ & _ & A6 & _). exists s'. split; [exact E|]. split; [exact A1|]. split; [exact A2|]. split.
  - intros n p c i Fi L Ps. apply (proj1 (ParRenProofs.file_in_at _ _ _)) in Fi as [-> Sl].
    assert (I : In (n, i) (par_infos junk (r_fs s) dir)) by (apply ParRenProofs3.par_infos_in; eauto).
    destruct (ParRenProofs3.rename_pars_place dir (par_infos junk (r_fs s) dir) s N (ParRenProofs3.par_infos_nodup _ _ _ N)) with (s' := s') (n := n) (i := i) as (k & K & Lk); [|exact E|exact I|].
    + intros [x y] X. cbn [fst]. apply ParRenProofs3.par_infos_in in X as (_ & c0 & X & _). apply RarSetProofs3.is_there_iff. unfold is_there. rewrite X. reflexivity.
    + exists k, (at_dir dir (vol_name i k)). split; [exact K|]. split; [apply ParRenProofs3.vol_par_path; lia|]. rewrite Lk. exact L.
  - intros p c L H. rewrite A6; [exact L|apply RarSetProofs3.is_there_iff; unfold is_there; rewrite L; reflexivity|].
    intros I. apply in_map_iff in I as ([n i] & Ep & I). cbn [fst] in Ep. subst p. apply ParRenProofs3.par_infos_in in I as (Sl & c0 & L0 & Ps). rewrite L in L0. injection L0 as <-. rewrite (H n) in Ps; [discriminate|]. apply ParRenProofs.file_in_at. auto.
Qed.
Print Assumptions C148_renamed.

(** Each gets the first number free at its turn. *)
Theorem C148_first_free : forall fs dir set, exists k p, 1 <= k /\ par_path dir set k p /\ free_vol (S (length fs)) fs dir set 1 = Some p /\
  ~ In p (map fst fs) /\ forall j q, 1 <= j < k -> par_path dir set j q -> In q (map fst fs).
Proof.
  intros fs dir set. destruct (free_vol (S (length fs)) fs dir set 1) as [p|] eqn:F; [|destruct (ParRenProofs3.free_vol_ends _ _ _ F)].
  apply ParRenProofs3.free_vol_some in F as (k & K & Ep & Free & B). exists k, p. split; [exact K|]. split; [subst p; apply ParRenProofs3.vol_par_path; lia|]. split; [reflexivity|]. split; [exact Free|].
  intros j q J (d & (z & Ed & Ld) & ->). replace (dir ++ _) with (at_dir dir (vol_name set j)); [apply B, J|]. unfold at_dir, vol_name, pad. rewrite Ed in *. rewrite app_length, repeat_length in Ld. replace z with (3 - length (udec j))%nat by lia. reflexivity.
Qed.
Print Assumptions C148_first_free.

Definition t_par (set : Z) : list Z := [80; 65; 82; 50; 0; 80; 75; 84] ++ [64; 0; 0; 0; 0; 0; 0; 0] ++ repeat 7 16 ++ repeat set 16 ++ repeat 0 16.
Example C148_example : let s := RState [(str "/d/abcdef", t_par 16); (str "/d/a.par2", t_par 16); (str "/d/b.rar", str "data")] [] false false in
  let name := flat_map (fun _ => str "10") (repeat 0 16) in
  par2_packet (t_par 16) (repeat 16 16) /\ ~ together (par_infos [] (r_fs s) (str "/d")) /\ long_enough (par_infos [] (r_fs s) (str "/d")) /\
  option_map r_done (check_pars (fun _ _ => true) [] 0 (str "/d") s) = Some [(str "/d/abcdef", str "/d/" ++ name ++ str ".vol001+01.PAR2"); (str "/d/a.par2", str "/d/" ++ name ++ str ".vol002+01.PAR2")].
Proof.
  split. { exists 64. split; [|vm_compute; discriminate]. exists [64; 0; 0; 0; 0; 0; 0; 0], (repeat 7 16), (repeat 0 16). split; [reflexivity|]. split; [reflexivity|]. split; [reflexivity|]. split; [reflexivity|]. split; [vm_compute; lia|]. split; [reflexivity|]. split; [lia|reflexivity]. }
  split; [|split].
  - intros [T _]. destruct (T (str "abcdef") (flat_map (fun _ => str "10") (repeat 0 16))) as (b & B); [left; vm_compute; reflexivity|].
    destruct (ParRenProofs6.base_ext _ _ B) as [[Q _]|Q]; vm_compute in Q; discriminate Q.
  - assert (E : par_infos [] [(str "/d/abcdef", t_par 16); (str "/d/a.par2", t_par 16); (str "/d/b.rar", str "data")] (str "/d") = [(str "abcdef", flat_map (fun _ => str "10") (repeat 0 16)); (str "a.par2", flat_map (fun _ => str "10") (repeat 0 16))]) by (vm_compute; reflexivity).
    cbn [r_fs]. rewrite E. repeat constructor; cbn [fst]; unfold fits; vm_compute; lia.
  - vm_compute. reflexivity.
Qed.
