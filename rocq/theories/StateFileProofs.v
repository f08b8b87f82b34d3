(** Proofs about state files and restarts. *)
From Coq Require Import String.
From Verif Require Import Base NumFmt LineModel LineSpec LineProofs DiskModel DiskSpec DiskProofs DiskProofs2 StateFileModel StateFileSpec.

Lemma fsteps_cons o os c : fsteps (o :: os) c = fsteps os (fstep o c).
Proof. reflexivity. Qed.

Lemma appends d t ch : fsteps (map OAppend ch) (mkCell d (Some t)) = mkCell d (Some (t ++ concat ch)).
Proof.
  revert t; induction ch as [|b ch IH]; intros t; cbn [map concat].
  - now rewrite app_nil_r.
  - rewrite fsteps_cons. cbn [fstep c_dst c_tmp]. rewrite IH, <- app_assoc. reflexivity.
Qed.

Lemma fsteps_app a b c : fsteps (a ++ b) c = fsteps b (fsteps a c).
Proof. apply fold_left_app. Qed.

Lemma save_complete ch c : fsteps (save_ops ch) c = mkCell (Some (concat ch)) None.
Proof.
  unfold save_ops. rewrite fsteps_cons. cbn [fstep].
  rewrite fsteps_app, appends. reflexivity.
Qed.

Lemma appends_dst ops c : (forall o, In o ops -> exists b, o = OAppend b) -> c_dst (fsteps ops c) = c_dst c.
Proof.
  revert c; induction ops as [|o ops IH]; intros c H; [reflexivity|].
  rewrite fsteps_cons, IH by (intros; apply H; now right). destruct (H o (or_introl eq_refl)) as [b ->]. reflexivity.
Qed.

(** The states a killed save can leave. *)
Lemma save_killed ch c k :
  (c_dst (fsteps (firstn k (save_ops ch)) c) = c_dst c /\ (k = 0%nat \/ c_tmp (fsteps (firstn k (save_ops ch)) c) <> None) /\ (k < length (save_ops ch))%nat) \/
  fsteps (firstn k (save_ops ch)) c = mkCell None (Some (concat ch)) \/
  (fsteps (firstn k (save_ops ch)) c = mkCell (Some (concat ch)) None /\ (length (save_ops ch) <= k)%nat).
Proof.
  destruct k as [|k]; [left; split; [reflexivity | split; [now left | cbn; lia]]|].
  unfold save_ops. cbn [firstn length]. rewrite !fsteps_cons. cbn [fstep].
  set (c0 := mkCell (c_dst c) (Some [])).
  destruct (Nat.le_gt_cases k (length (map OAppend ch))) as [L|L].
  - left. rewrite firstn_app. replace (k - length (map OAppend ch))%nat with 0%nat by lia.
    cbn [firstn]. rewrite app_nil_r. split; [|split].
    + rewrite appends_dst; [reflexivity|].
      intros o I. assert (I' : In o (map OAppend ch)) by (rewrite <- (firstn_skipn k); apply in_or_app; now left).
      apply in_map_iff in I' as (b & <- & _). eauto.
    + right. rewrite firstn_map. unfold c0. rewrite appends. discriminate.
    + rewrite app_length. cbn [length]. lia.
  - right. rewrite firstn_app, firstn_all2 by lia. rewrite fsteps_app. unfold c0. rewrite appends. cbn [app].
    destruct (k - length (map OAppend ch))%nat as [|[|m]] eqn:E; [lia | left; reflexivity |].
    right. cbn [firstn]. rewrite firstn_nil. split; [reflexivity|]. rewrite app_length. cbn [length]. lia.
Qed.

Lemma killed_read ch old t k :
  let '(c', r) := begin_read (fsteps (firstn k (save_ops ch)) (mkCell (Some old) t)) in
  c_dst c' = r /\ (r = Some old \/ r = Some (concat ch)).
Proof.
  destruct (save_killed ch (mkCell (Some old) t) k) as [(D & _)|[E|[E _]]].
  - unfold begin_read. rewrite D. cbn [c_dst]. rewrite D. cbn [c_dst]. auto.
  - rewrite E. cbn. auto.
  - rewrite E. cbn. auto.
Qed.

Lemma histories_atomic : forall es cur t, atomic_reads cur es (erun es (mkCell (Some cur) t)).
Proof.
  induction es as [|e es IH]; intros cur t; [constructor|]. cbn [erun].
  destruct e as [ch|ch k|]; cbn [estep].
  - rewrite save_complete. cbn [app]. constructor. apply IH.
  - pose proof (killed_read ch cur t k) as K.
    destruct (begin_read (fsteps (firstn k (save_ops ch)) (mkCell (Some cur) t))) as [[d' t'] r] eqn:E.
    destruct K as [K1 K2]. cbn [c_dst] in K1. subst d'. cbn [app].
    destruct K2 as [->| ->]; [apply ar_kill_old | apply ar_kill_new]; apply IH.
  - cbn. apply ar_load. apply IH.
Qed.

(** ** Full disk *)

Lemma disk_room : forall ch room d t, (length (concat ch) <= room)%nat ->
  fsteps (save_ops_full room ch) (mkCell d (Some t)) = mkCell (Some (t ++ concat ch)) None.
Proof.
  induction ch as [|b ch IH]; intros room d t H; cbn [save_ops_full concat].
  - cbn. now rewrite app_nil_r.
  - cbn [concat] in H. rewrite app_length in H. rewrite fsteps_cons. cbn [fstep c_dst c_tmp]. rewrite firstn_all2 by lia.
    rewrite IH by lia. now rewrite <- app_assoc.
Qed.

Lemma full_gen : forall ch room d t,
  fsteps (save_ops_full room ch) (mkCell d (Some t)) = mkCell (Some (t ++ firstn room (concat ch))) None.
Proof.
  induction ch as [|b ch IH]; intros room d t; cbn [save_ops_full concat].
  - cbn. now rewrite firstn_nil, app_nil_r.
  - rewrite fsteps_cons. cbn [fstep c_dst c_tmp]. rewrite IH. rewrite firstn_app, <- app_assoc. reflexivity.
Qed.

(** ** Three files *)

Lemma ssteps_app a b s : ssteps (a ++ b) s = ssteps b (ssteps a s).
Proof. apply fold_left_app. Qed.

Lemma ssteps_on f os : forall s, ssteps (on f os) s = sset f (fsteps os (sget f s)) s.
Proof.
  induction os as [|o os IH]; intros s.
  - cbn. destruct f, s; reflexivity.
  - cbn [on map ssteps fold_left]. change (ssteps (on f os) (sstep s (f, o)) = sset f (fsteps (o :: os) (sget f s)) s).
    rewrite IH. unfold sstep. cbn [fst snd]. destruct f, s; reflexivity.
Qed.

Lemma firstn_on f k os : firstn k (on f os) = on f (firstn k os).
Proof. unfold on. apply firstn_map. Qed.

Lemma on_length f os : length (on f os) = length os.
Proof. apply map_length. Qed.

Lemma three_files k a b d s :
  ssteps (firstn k (on FQueue a ++ on FHistory b ++ on FProgress d)) s =
  mkFs (fsteps (firstn k a) (s_queue s))
       (fsteps (firstn (k - length a - length b) d) (s_progress s))
       (fsteps (firstn (k - length a) b) (s_history s)).
Proof.
  rewrite !firstn_app, !firstn_on, !on_length, !ssteps_app, !ssteps_on.
  destruct s; reflexivity.
Qed.

(** ** Reading a file back *)

Lemma header_line : line_text (header queue_version).
Proof.
  unfold line_text. apply Forall_forall. intros c I.
  assert (K : forallb (fun c => negb (c =? 10) && negb (c =? 0)) (header queue_version) = true) by (vm_compute; reflexivity).
  rewrite forallb_forall in K. specialize (K c I). lia.
Qed.

Lemma open_header rest : open_version (line (header queue_version) ++ rest) = Some (queue_version, rest).
Proof.
  unfold open_version, line. rewrite <- app_assoc. cbn [app].
  rewrite read_line_ok; [|apply header_line | vm_compute; lia].
  replace (parse_version (header queue_version)) with queue_version by (vm_compute; reflexivity).
  reflexivity.
Qed.

Lemma file_of_inv ls out : file_of ls out -> out = line (header queue_version) ++ cl ls.
Proof.
  intros H. apply print_lines_inv in H as [-> _]. unfold cl. cbn [map concat]. reflexivity.
Qed.

Lemma load_block_file {A} c c' ls out (dflt : A) parse a :
  begin_read c = (c', Some out) -> file_of ls out -> parse (cl ls ++ []) = Some (a, []) ->
  load_block c dflt parse = (c', Some a).
Proof.
  intros B F P. apply file_of_inv in F. unfold load_block.
  assert (E : file_exists c = true).
  { unfold file_exists, begin_read in *. destruct c as [[d|] [t|]]; cbn in *; try reflexivity. inversion B. }
  rewrite E, B, F, open_header, Z.eqb_refl. rewrite <- (app_nil_r (cl ls)), P. reflexivity.
Qed.

Lemma load_block_none {A} (dflt : A) parse : load_block (mkCell None None) dflt parse = (mkCell None None, Some dflt).
Proof. reflexivity. Qed.

Lemma startup_ok servers s q q' h h' qo ho cq ch :
  queue_ok servers q -> history_ok servers h ->
  (c_dst (s_queue s) <> None \/ c_dst (s_history s) <> None) ->
  s_progress s = mkCell None None ->
  ((begin_read (s_queue s) = (cq, Some qo) /\ file_of (queue_lines q) qo) \/ (s_queue s = mkCell None None /\ q = [] /\ cq = mkCell None None)) ->
  ((begin_read (s_history s) = (ch, Some ho) /\ file_of (history_lines h) ho) \/ (s_history s = mkCell None None /\ h = [] /\ ch = mkCell None None)) ->
  q' = map (fresh servers) q -> h' = map (fresh_h servers) h ->
  startup servers s = mkStarted true q' h' false (mkFs cq (mkCell None None) ch).
Proof.
  intros [Q1 Q2] [H1 H2] D P BQ BH -> ->. unfold startup.
  assert (LQ : load_block (s_queue s) [] (load_queue servers) = (cq, Some (map (fresh servers) q))).
  { destruct BQ as [[B F]|(E & -> & ->)].
    - eapply load_block_file; eauto. now apply load_queue_ok.
    - rewrite E. reflexivity. }
  assert (LH : load_block (s_history s) [] (load_history servers) = (ch, Some (map (fresh_h servers) h))).
  { destruct BH as [[B F]|(E & -> & ->)].
    - eapply load_block_file; eauto. now apply load_history_ok.
    - rewrite E. reflexivity. }
  rewrite LQ. cbn [sset s_progress s_queue s_history]. rewrite P, load_block_none, LH.
  destruct (c_dst (s_queue s)) eqn:E1, (c_dst (s_history s)) eqn:E2; try reflexivity.
  destruct D; contradiction.
Qed.

Lemma same_h_fresh servers h : Forall (hentry_ok servers) h -> Forall2 same_hentry h (map (fresh_h servers) h).
Proof. induction 1; cbn [map]; constructor; auto using fresh_h_same. Qed.

Lemma discard_fs c : fsteps discard_ops c = mkCell None (c_tmp c).
Proof. reflexivity. Qed.

(** Restart after a complete save. *)
Lemma restart_complete servers s q qch h hch :
  clean s -> queue_ok servers q -> history_ok servers h -> (q <> [] \/ h <> []) ->
  file_of (queue_lines q) (concat qch) -> file_of (history_lines h) (concat hch) ->
  let r := startup servers (ssteps (save_queue_ops q qch true h hch) s) in
  st_ok r = true /\ st_wiped r = false /\ Forall2 same_attributes q (st_queue r) /\ Forall2 same_hentry h (st_history r).
Proof.
  intros (C1 & C2 & C3) Q H NE FQ FH r.
  assert (E : ssteps (save_queue_ops q qch true h hch) s =
              mkFs (match q with [] => mkCell None None | _ => mkCell (Some (concat qch)) None end)
                   (mkCell None None)
                   (match h with [] => mkCell None None | _ => mkCell (Some (concat hch)) None end)).
  { unfold save_queue_ops. rewrite !ssteps_app, !ssteps_on. cbn [sset sget s_queue s_history s_progress].
    rewrite discard_fs, C2.
    destruct q, h; rewrite ?discard_fs, ?save_complete, ?C1, ?C3; reflexivity. }
  assert (R : r = mkStarted true (map (fresh servers) q) (map (fresh_h servers) h) false
     (mkFs (match q with [] => mkCell None None | _ => mkCell (Some (concat qch)) None end) (mkCell None None)
           (match h with [] => mkCell None None | _ => mkCell (Some (concat hch)) None end))).
  { unfold r. rewrite E. eapply startup_ok; eauto.
    - cbn. destruct q, h; cbn; try (left; discriminate); try (right; discriminate). destruct NE; contradiction.
    - cbn [s_queue]. destruct q; [right; auto | left; split; [reflexivity | exact FQ]].
    - cbn [s_history]. destruct h; [right; auto | left; split; [reflexivity | exact FH]]. }
  rewrite R. cbn. destruct Q, H. repeat split; auto using forall2_fresh, same_h_fresh.
Qed.

(** Restart after a kill in the middle of a save. *)
Lemma restart_killed servers s q0 qo q qch h0 ho h hch k :
  c_dst (s_queue s) = Some qo -> c_dst (s_history s) = Some ho -> s_progress s = mkCell None None ->
  queue_ok servers q0 -> queue_ok servers q -> history_ok servers h0 -> history_ok servers h ->
  q <> [] -> h <> [] ->
  file_of (queue_lines q0) qo -> file_of (queue_lines q) (concat qch) ->
  file_of (history_lines h0) ho -> file_of (history_lines h) (concat hch) ->
  let r := startup servers (ssteps (firstn k (save_queue_ops q qch true h hch)) s) in
  st_ok r = true /\ st_wiped r = false /\
  (Forall2 same_attributes q0 (st_queue r) \/ Forall2 same_attributes q (st_queue r)) /\
  (Forall2 same_hentry h0 (st_history r) \/ Forall2 same_hentry h (st_history r)).
Proof.
  intros DQ DH DP Q0 Q H0 H NQ NH F0 F1 F2 F3 r.
  assert (E : save_queue_ops q qch true h hch = on FQueue (save_ops qch) ++ on FHistory (save_ops hch) ++ on FProgress discard_ops)
    by (unfold save_queue_ops; destruct q, h; try contradiction; reflexivity).
  set (s' := ssteps (firstn k (save_queue_ops q qch true h hch)) s) in *.
  assert (ES : s' = mkFs (fsteps (firstn k (save_ops qch)) (s_queue s)) (mkCell None None)
                         (fsteps (firstn (k - length (save_ops qch)) (save_ops hch)) (s_history s))).
  { unfold s'. rewrite E, three_files. f_equal. rewrite DP.
    destruct (k - length (save_ops qch) - length (save_ops hch))%nat as [|[|m]]; reflexivity. }
  destruct (s_queue s) as [dq tq]. destruct (s_history s) as [dh th]. cbn in DQ, DH. subst dq dh.
  pose proof (killed_read qch qo tq k) as KQ.
  pose proof (killed_read hch ho th (k - length (save_ops qch))) as KH.
  destruct (begin_read (fsteps (firstn k (save_ops qch)) (mkCell (Some qo) tq))) as [cq rq] eqn:EQ.
  destruct (begin_read (fsteps (firstn (k - length (save_ops qch)) (save_ops hch)) (mkCell (Some ho) th))) as [ch rh] eqn:EH.
  destruct KQ as [KQ1 KQ2], KH as [KH1 KH2].
  assert (D : c_dst (s_queue s') <> None \/ c_dst (s_history s') <> None).
  { rewrite ES. cbn [s_queue s_history].
    destruct (save_killed qch (mkCell (Some qo) tq) k) as [(X & _)|[X|[X L]]].
    - left. rewrite X. discriminate.
    - right. destruct (Nat.le_gt_cases (length (save_ops qch)) k) as [L|L].
      + exfalso. rewrite firstn_all2, save_complete in X by lia. discriminate.
      + replace (k - length (save_ops qch))%nat with 0%nat by lia. discriminate.
    - left. rewrite X. discriminate. }
  assert (DP' : s_progress s' = mkCell None None) by (rewrite ES; reflexivity).
  assert (QF : exists q1 qo1, queue_ok servers q1 /\ (q1 = q0 \/ q1 = q) /\ rq = Some qo1 /\ file_of (queue_lines q1) qo1).
  { destruct KQ2 as [-> | ->]; [exists q0, qo | exists q, (concat qch)]; auto. }
  assert (HF : exists h1 ho1, history_ok servers h1 /\ (h1 = h0 \/ h1 = h) /\ rh = Some ho1 /\ file_of (history_lines h1) ho1).
  { destruct KH2 as [-> | ->]; [exists h0, ho | exists h, (concat hch)]; auto. }
  destruct QF as (q1 & qo1 & QO & QC & -> & QF). destruct HF as (h1 & ho1 & HO & HC & -> & HF).
  assert (R : r = mkStarted true (map (fresh servers) q1) (map (fresh_h servers) h1) false (mkFs cq (mkCell None None) ch)).
  { unfold r. eapply startup_ok; eauto; left; split; eauto; rewrite ES; cbn [s_queue s_history]; eassumption. }
  rewrite R. cbn. destruct QO as [QO _], HO as [HO _].
  pose proof (forall2_fresh _ _ QO). pose proof (same_h_fresh _ _ HO).
  repeat split; auto; [destruct QC as [<- | <-] | destruct HC as [<- | <-]]; auto.
Qed.
