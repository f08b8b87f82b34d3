(** Cleaning up, moving to the final directory, deleting directories. *)
From Coq Require Import String Permutation.
From Verif Require Import Base NumFmt NameModel NameSpec NzbModel NzbSpec CleanModel CleanSpec.
From Verif Require CleanProofs CleanProofs2 CleanProofs3.
Open Scope list_scope. Open Scope Z_scope.

(** ** C153: cleaning up *)

(** Exactly the files with matching names are deleted, at any depth, unless the system refuses; directories stay; the result tells
    whether the system refused something; the mark is set only if there was something to delete. *)
Theorem C153_exact : forall can exts base x x1 ok d, named_well x -> clean can exts base x = (x1, ok, d) ->
  (forall p f, is_dir f = false -> (reach x1 p f <-> reach x p f /\ (p = [] \/ ~ ignored exts (last p []) \/ can (base ++ p) = false))) /\
  (forall p, (exists y, reach x1 p y /\ is_dir y = true) <-> (exists y, reach x p y /\ is_dir y = true)) /\
  (ok = true <-> forall p f, to_clean exts x p f -> can (base ++ p) = true) /\
  (d = true -> exists p f, to_clean exts x p f).
Proof.
  intros can exts base x x1 ok d W E. rewrite CleanProofs.clean_eta in E. injection E as <- <- <-. split; [intros p f D; exact (CleanProofs.clean_leaf can exts x W base p f D)|].
  split; [intros p; exact (CleanProofs.clean_dirs can exts x base p)|]. split; [exact (CleanProofs.clean_went can exts x W base)|exact (CleanProofs.clean_mark can exts x W base)].
Qed.
Print Assumptions C153_exact.

(** The download and, if that went well, the final directory. Success: everything could be deleted. *)
Theorem C153_status : forall can exts dest final x y st m, named_well (snd dest) -> (forall f, final = Some f -> named_well (snd f)) ->
  run_cleanup can exts dest final = (x, y, st, m) ->
  (st = CsSuccess <-> (forall p f, to_clean exts (snd dest) p f -> can (fst dest ++ p) = true) /\
     forall d, final = Some d -> forall p f, to_clean exts (snd d) p f -> can (fst d ++ p) = true) /\
  (m = true -> st = CsSuccess /\ ((exists p f, to_clean exts (snd dest) p f) \/ exists d p f, final = Some d /\ to_clean exts (snd d) p f)).
Proof.
  intros can exts dest final x y st m Wd Wf E. unfold run_cleanup in E. destruct (clean can exts (fst dest) (snd dest)) as ((x1, ok), d) eqn:Ed.
  destruct (C153_exact _ _ _ _ _ _ _ Wd Ed) as (_ & _ & Ok1 & Mk1). destruct final as [f|].
  - destruct ok.
    + destruct (clean can exts (fst f) (snd f)) as ((y1, ok2), d2) eqn:Ef. destruct (C153_exact _ _ _ _ _ _ _ (Wf f eq_refl) Ef) as (_ & _ & Ok2 & Mk2). injection E as _ _ <- <-. split.
      * destruct ok2; split; try discriminate; auto.
        -- intros _. split; [apply Ok1; reflexivity|]. intros g Q. injection Q as <-. apply Ok2. reflexivity.
        -- intros (_ & Q). specialize (Q f eq_refl). apply Ok2 in Q. discriminate Q.
      * rewrite andb_true_iff, orb_true_iff. intros (-> & [Q|Q]); (split; [reflexivity|]); [left; auto|right]. destruct (Mk2 Q) as (p & g & G). exists f, p, g. auto.
    + injection E as _ _ <- <-. split; [|discriminate]. split; [discriminate|]. intros (Q & _). apply Ok1 in Q. discriminate Q.
  - injection E as _ _ <- <-. split.
    + destruct ok; split; try discriminate; auto.
      * intros _. split; [apply Ok1; reflexivity|discriminate].
      * intros (Q & _). apply Ok1 in Q. discriminate Q.
    + rewrite andb_true_iff. intros (-> & Q). split; [reflexivity|]. left. auto.
Qed.
Print Assumptions C153_status.

Definition x_can (p : list (list Z)) : bool := true.
Definition x_exts : list Z := str ".nfo, .sfv; sample*".
Definition x_tree : node := NDir [(str "a.mkv", NFile (str "movie")); (str "a.SFV", NFile (str "sums")); (str "sub", NDir [(str "b.nfo", NFile (str "info")); (str "x.nfo.d", NDir []); (str "sample1", NFile (str "s"))])].
Example C153_example : clean x_can x_exts [str "d"] x_tree = (NDir [(str "a.mkv", NFile (str "movie")); (str "sub", NDir [(str "x.nfo.d", NDir [])])], true, true) /\
  clean (fun p => negb (beqb (last p []) (str "b.nfo"))) x_exts [str "d"] x_tree = (NDir [(str "a.mkv", NFile (str "movie")); (str "sub", NDir [(str "b.nfo", NFile (str "info")); (str "x.nfo.d", NDir [])])], false, true) /\
  named_well x_tree.
Proof.
  split; [vm_compute; reflexivity|]. split; [vm_compute; reflexivity|].
  intros p l n y R I. unfold x_tree in R. apply CleanProofs.reach_dir in R as [(_ & E)|(m & q & z & _ & J & R)].
  - injection E as ->. destruct I as [I|[I|[I|[]]]]; injection I as <- <-; vm_compute; intuition discriminate.
  - destruct J as [J|[J|[J|[]]]]; injection J as <- <-; try (destruct (CleanProofs.reach_file _ _ _ R) as (_ & Q); discriminate Q).
    apply CleanProofs.reach_dir in R as [(_ & E)|(m2 & q2 & z2 & _ & J & R)].
    + injection E as ->. destruct I as [I|[I|[I|[]]]]; injection I as <- <-; vm_compute; intuition discriminate.
    + destruct J as [J|[J|[J|[]]]]; injection J as <- <-; try (destruct (CleanProofs.reach_file _ _ _ R) as (_ & Q); discriminate Q).
      apply CleanProofs.reach_dir in R as [(_ & E)|(m3 & q3 & z3 & _ & [] & _)]. injection E as ->. destruct I.
Qed.

(** Files outside of the directory are deleted if a link leads there. *)
Theorem C153_outside_refuted : exists can exts base n t t1 p f ok d, clean can exts base (NDir [(n, NLink (Some t))]) = (NDir [(n, NLink (Some t1))], ok, d) /\
  reach t p f /\ is_dir f = false /\ ~ reach t1 p f.
Proof.
  exists x_can, (str ".nfo"), [], (str "link"), (NDir [(str "my.nfo", NFile (str "data"))]), (NDir []), [str "my.nfo"], (NFile (str "data")), true, true.
  split; [vm_compute; reflexivity|]. split; [econstructor; [left; reflexivity|constructor]|]. split; [reflexivity|]. intros R. inversion R as [|? ? ? ? ? I|]; subst. destruct I.
Qed.
Print Assumptions C153_outside_refuted.
(** Something is deleted but the message says that there was nothing to do: a directory read later resets the mark. *)
Theorem C153_message_refuted : exists can exts base x y p f, run_cleanup can exts (base, x) None = (y, None, CsSuccess, false) /\ to_clean exts x p f /\ reach x p f /\ ~ reach y p f.
Proof.
  exists x_can, (str ".nfo"), [], (NDir [(str "a.nfo", NFile []); (str "sub", NDir [])]), (NDir [(str "sub", NDir [])]), [str "a.nfo"], (NFile []).
  split; [vm_compute; reflexivity|]. assert (R : reach (NDir [(str "a.nfo", NFile []); (str "sub", NDir [])]) [str "a.nfo"] (NFile [])) by (econstructor; [left; reflexivity|constructor]).
  split; [|split; [exact R|]].
  - split; [exact R|]. split; [reflexivity|]. split; [discriminate|]. apply (proj1 (CleanProofs.matches_iff (str ".nfo") (str "a.nfo") ltac:(vm_compute; intuition discriminate))). vm_compute. reflexivity.
  - intros Q. apply CleanProofs.reach_dir in Q as [(Q & _)|(n & q & y & Q & [I|[]] & _)]; [discriminate Q|]. injection Q as <- _. injection I as I _. discriminate I.
Qed.
Print Assumptions C153_message_refuted.

(** ** C154: moving to the final directory *)

Definition goal (z : mnzb) (build : list Z) : list Z := match z_final z with [] => build | f => f end.
(** The moving comes to an end. Files of the final directory, and directories in it with something inside, stay. Each file of the
    download is moved, under its name made valid or with a number, or is left. If only hidden files are left the moving
    is successful: the directory is deleted with them; otherwise it failed, and the directory has what is left. *)
Theorem C154_moved : forall w src build sl dl z, short_names sl -> NoDup (map fst dl) -> exists x dl1 z1 r,
  run_move w true src build sl dl z = Some (x, dl1, z1) /\ NoDup (map fst dl1) /\ incl r sl /\
  (forall b y, In (b, y) dl -> lasting y -> In (b, y) dl1) /\
  (forall n c, In (n, NFile c) sl -> s_one w = true \/ Z.of_nat (length c) <= s_room w n ->
     In (n, NFile c) r \/ exists b y, In (b, y) dl1 /\ readable y = Some c /\ new_path (goal z build) n b) /\
  ((Forall (fun e => dotted (fst e)) r /\ z1 = MNzb (goal z build) [] 2 /\ x = fst (delete_all (s_del w) src (NDir r))) \/
   (~ Forall (fun e => dotted (fst e)) r /\ z1 = MNzb (z_dest z) (z_final z) 1 /\ x = Some (NDir r))).
Proof.
  intros w src build sl dl z Sh N. unfold run_move, move_files. fold (goal z build). cbn [negb].
  destruct (CleanProofs3.moved w src (goal z build) sl dl true Sh N) as (r & dl1 & ok & -> & N1 & In1 & K & O & F).
  eexists _, dl1, _, r. split; [reflexivity|]. split; [exact N1|]. split; [exact In1|]. split; [exact K|]. split; [exact F|]. destruct ok.
  - left. split; [apply O; reflexivity|]. auto.
  - right. split; [intros Q; assert (X : false = true) by (apply O; auto); discriminate X|]. auto.
Qed.
Print Assumptions C154_moved.

(** If the final directory can not be made nothing is moved. *)
Theorem C154_not_made : forall w src build sl dl z, run_move w false src build sl dl z = Some (Some (NDir sl), dl, MNzb (z_dest z) (z_final z) 1).
Proof. reflexivity. Qed.
Print Assumptions C154_not_made.

(** On one device: what is in the final directory afterwards comes from there or from the download, also directories are moved, entries
    are left only if the system refuses or a directory or link has the name; if there are neither empty directories nor links, nothing is lost before the directory is deleted. *)
Theorem C154_one_device : forall w src dest sl dl r dl1 ok, s_one w = true -> short_names sl -> NoDup (map fst dl) -> move_entries w src dest sl dl true = Some (r, dl1, ok) ->
  (forall b y, In (b, y) dl1 -> In (b, y) dl \/ exists n, In (n, y) sl /\ new_path dest n b) /\
  (forall n y, In (n, y) sl -> lasting y -> In (n, y) r \/ exists b, In (b, y) dl1 /\ new_path dest n b) /\
  (forall n y, In (n, y) r -> s_move w n = false \/ exists b z, new_path dest n b /\ is_file z = false /\ (In (b, z) dl \/ exists m, In (m, z) sl /\ new_path dest m b)) /\
  (Forall (fun e => solid (snd e)) sl -> Forall (fun e => solid (snd e)) dl -> Permutation (map snd sl ++ map snd dl) (map snd r ++ map snd dl1)).
Proof. intros w src dest sl dl r dl1 ok O. exact (CleanProofs3.moved_one w src dest O sl dl true r dl1 ok). Qed.
Print Assumptions C154_one_device.

Definition x_sys : sys := Sys true (fun n => negb (beqb n (str ".stuck"))) x_can (fun _ => 1000).
Definition x_far : sys := Sys false (fun _ => true) x_can (fun _ => 1000).
Definition x_nzb : mnzb := MNzb (str "/i/a") [] 0.
Example C154_example : run_move x_sys true [str "i"; str "a"] (str "/f") [(str "a.mkv", NFile (str "new")); (str "sub", NDir [(str "b", NFile (str "bb"))]); (str "c:d", NFile (str "cd"))]
    [(str "/f/a.mkv", NFile (str "old"))] x_nzb =
  Some (None, [(str "/f/a.mkv", NFile (str "old")); (str "/f/a.duplicate1.mkv", NFile (str "new")); (str "/f/sub", NDir [(str "b", NFile (str "bb"))]); (str "/f/c_d", NFile (str "cd"))], MNzb (str "/f") [] 2) /\
  run_move x_sys true [str "i"; str "a"] (str "/f") [(str "a.mkv", NFile (str "new")); (str "sub", NDir [])] [(str "/f/sub", NDir [(str "b", NFile (str "bb"))])] x_nzb =
  Some (Some (NDir [(str "sub", NDir [])]), [(str "/f/sub", NDir [(str "b", NFile (str "bb"))]); (str "/f/a.mkv", NFile (str "new"))], MNzb (str "/i/a") [] 1).
Proof. split; vm_compute; reflexivity. Qed.

(** A hidden file that can not be moved is deleted though the moving counts as successful. *)
Theorem C154_hidden_refuted : exists w src build sl dl z n c dl1 z1, s_one w = true /\ short_names sl /\ NoDup (map fst dl) /\ In (n, NFile c) sl /\
  run_move w true src build sl dl z = Some (None, dl1, z1) /\ z_status z1 = 2 /\ forall b y, In (b, y) dl1 -> readable y <> Some c.
Proof.
  exists x_sys, [str "i"], (str "/f"), [(str ".stuck", NFile (str "data"))], [], x_nzb, (str ".stuck"), (str "data"), [], (MNzb (str "/f") [] 2).
  split; [reflexivity|]. split; [repeat constructor; vm_compute; lia|]. split; [constructor|]. split; [left; reflexivity|]. split; [vm_compute; reflexivity|]. split; [reflexivity|]. intros b y [].
Qed.
Print Assumptions C154_hidden_refuted.
(** On another device: data that could not be written, because the disk is full, are lost though the moving counts as successful. *)
Theorem C154_full_disk_refuted : exists w src build sl dl z n c dl1 z1, s_one w = false /\ short_names sl /\ NoDup (map fst dl) /\ In (n, NFile c) sl /\ ~ dotted n /\
  run_move w true src build sl dl z = Some (None, dl1, z1) /\ z_status z1 = 2 /\ forall b y, In (b, y) dl1 -> readable y <> Some c.
Proof.
  exists (Sys false (fun _ => true) x_can (fun _ => 2)), [str "i"], (str "/f"), [(str "a.mkv", NFile (str "data"))], [], x_nzb, (str "a.mkv"), (str "data"), [(str "/f/a.mkv", NFile (str "da"))], (MNzb (str "/f") [] 2).
  split; [reflexivity|]. split; [repeat constructor; vm_compute; lia|]. split; [constructor|]. split; [left; reflexivity|]. split; [intros (r & E); discriminate E|]. split; [vm_compute; reflexivity|].
  split; [reflexivity|]. intros b y [E|[]]. injection E as <- <-. discriminate.
Qed.
Print Assumptions C154_full_disk_refuted.
(** On another device directories can not be moved, though the system allows everything: an empty one becomes a file, one with a file makes the moving fail. *)
Theorem C154_directories_refuted : exists w src build dl1 dl2 x z, s_one w = false /\ (forall n, s_move w n = true) /\ (forall p, s_del w p = true) /\
  run_move w true src build [(str "sub", NDir [])] [] z = Some (None, dl1, MNzb build [] 2) /\ In (build ++ str "/sub", NFile []) dl1 /\
  run_move w true src build [(str "sub", NDir [(str "b", NFile (str "bb"))])] [] z = Some (x, dl2, MNzb (z_dest z) (z_final z) 1) /\ In (build ++ str "/sub", NFile []) dl2.
Proof.
  exists x_far, [str "i"], (str "/f"), [(str "/f/sub", NFile [])], [(str "/f/sub", NFile [])], (Some (NDir [(str "sub", NDir [(str "b", NFile (str "bb"))])])), x_nzb.
  split; [reflexivity|]. split; [reflexivity|]. split; [reflexivity|]. split; [vm_compute; reflexivity|]. split; [left; reflexivity|]. split; [vm_compute; reflexivity|left; reflexivity].
Qed.
Print Assumptions C154_directories_refuted.

(** ** C155: deleting a directory *)

(** Exactly the files the system refuses to delete are left, and the result tells whether something is left. *)
Theorem C155_deleted : forall can b x o ok, is_dir x = true -> delete_all can b x = (o, ok) ->
  (forall p f, is_dir f = false -> ((exists y, o = Some y /\ reach y p f) <-> reach x p f /\ can (b ++ p) = false)) /\ (ok = true <-> o = None).
Proof.
  intros can b x o ok D E. pose proof (fun p f F => CleanProofs2.deleted can x b p f D F) as H. pose proof (CleanProofs2.all_result can x D b) as R. rewrite E in *. cbn [fst snd] in *.
  split; [|exact R]. intros p f F. rewrite <- (H p f F). destruct o as [y|]; cbn; [split; [intros (z & Q & Rz); injection Q as <-; exact Rz|eauto]|split; [intros (z & Q & _); discriminate Q|intros []]].
Qed.
Print Assumptions C155_deleted.
(** Without links: the whole directory is deleted if the system allows it. *)
Theorem C155_whole : forall can b x, is_dir x = true -> no_links x -> (delete_all can b x = (None, true) <-> forall p y, reach x p y -> can (b ++ p) = true).
Proof.
  intros can b x D N. rewrite <- (CleanProofs2.whole can x D N b). pose proof (CleanProofs2.all_result can x D b) as R. destruct (delete_all can b x) as (o, ok). cbn [fst snd] in *.
  split; [intros E; injection E as -> _; reflexivity|]. intros ->. f_equal. apply R. reflexivity.
Qed.
Print Assumptions C155_whole.
Example C155_example : delete_all x_can [str "d"] x_tree = (None, true) /\
  delete_all (fun p => negb (beqb (last p []) (str "b.nfo"))) [str "d"] x_tree = (Some (NDir [(str "sub", NDir [(str "b.nfo", NFile (str "info"))])]), false) /\ is_dir x_tree = true.
Proof. vm_compute. auto. Qed.
Example C155_no_links : no_links (NDir [(str "a", NFile (str "x"))]).
Proof.
  intros p t R. apply CleanProofs.reach_dir in R as [(_ & E)|(n & q & y & _ & [I|[]] & R)]; [discriminate E|]. injection I as <- <-. destruct (CleanProofs.reach_file _ _ _ R) as (_ & Q). discriminate Q.
Qed.
(** A link makes the program delete files outside of the directory; the directory itself is not deleted. *)
Theorem C155_outside_refuted : exists can b n t t1 p f, delete_all can b (NDir [(n, NLink (Some t))]) = (Some (NDir [(n, NLink (Some t1))]), false) /\ (forall q, can q = true) /\
  reach t p f /\ is_dir f = false /\ ~ reach t1 p f.
Proof.
  exists x_can, [], (str "link"), (NDir [(str "mine", NFile (str "data"))]), (NDir []), [str "mine"], (NFile (str "data")).
  split; [vm_compute; reflexivity|]. split; [reflexivity|]. split; [econstructor; [left; reflexivity|constructor]|]. split; [reflexivity|]. intros R. inversion R as [|? ? ? ? ? I|]; subst. destruct I.
Qed.
Print Assumptions C155_outside_refuted.
