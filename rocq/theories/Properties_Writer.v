(** C29, C30, C96: writing of articles and the article cache. *)
From Coq Require Import String.
From Verif Require Import Base WriterModel WriterSpec DecoderModel WriterProofs.
Open Scope list_scope. Open Scope Z_scope.

(** C29. Articles in yEnc which keep to their places in the file ([ordered], [proper_run]) are put together correctly, in
    whatever order and with whatever attempts they arrive, whether the cache gives memory or not, whenever it is flushed, and whether the
    program was restarted in between ([resumed]). With direct writing at least one article has to be started after a restart ([opened]);
    with a forced direct write the cache must not be flushed. *)
Theorem C29_assembled_partial : forall o n lay size f h l h',
  0 <= size -> ordered n lay size -> resumed (o_direct o || f_force f) n lay size f h ->
  proper_run n lay size h l h' -> (o_direct o = true \/ f_force f = false \/ forall i, ~ In (OFlush i) l) ->
  (o_direct o || f_force f = true -> opened f l) ->
  exists f' out, wrun o f l = Some f' /\ complete o f' = Some (out, 0) /\ assembled n h' out /\ Z.of_nat (length out) <= size.
Proof. exact assembly_ok. Qed.
Print Assumptions C29_assembled_partial.

(** If all articles have arrived, and there are no gaps between them, the file is their concatenation. So the result does not depend on
    order, attempts, cache, flushing, options or restarts. *)
Theorem C29_whole_file_partial : forall o n lay size f h l h' all,
  0 <= size -> ordered n lay size -> resumed (o_direct o || f_force f) n lay size f h ->
  proper_run n lay size h l h' -> (o_direct o = true \/ f_force f = false \/ forall i, ~ In (OFlush i) l) ->
  (o_direct o || f_force f = true -> opened f l) -> covers n h' size all ->
  exists f', wrun o f l = Some f' /\ complete o f' = Some (all, 0).
Proof.
  intros o n lay size f h l h' all SZ OR R P F Op C. destruct (assembly_ok o n lay size f h l h' SZ OR R P F Op) as (f' & out & E1 & E2 & A & L).
  exists f'. split; [exact E1|]. rewrite E2, (covers_ok _ _ _ _ _ C A L). reflexivity.
Qed.
Print Assumptions C29_whole_file_partial.

(** The state of a new file is one of those. *)
Theorem C29_new_file : forall direct lay size decls, resumed direct (length decls) lay size (file0 decls) no_history.
Proof.
  intros direct lay size decls. unfold resumed, file0. cbn. rewrite map_length. repeat split; try discriminate; try reflexivity.
  all: intros; match goal with H : nth_error _ _ = Some _ |- _ => apply nth_error_In, in_map_iff in H as (? & <- & _) end; reflexivity.
Qed.
Print Assumptions C29_new_file.

Definition lay2 : layout := fun i => if (i =? 0)%nat then (0, 2) else (2, 5).
Definition run2 : list wop :=
  [OStart 1 FYenc 5 2 3 (Some [9; 9; 9]); OStart 0 FYenc 5 0 2 None; OWrite 1 [3]; OWrite 0 [7; 7; 7]; OFinish 0 false [];
   OWrite 1 [4; 5]; OFinish 1 true []; OFlush 1; OStart 0 FYenc 5 0 2 (Some []); OWrite 0 [1; 2]; OFinish 0 true []].
Lemma ordered2 : ordered 2 lay2 5.
Proof.
  split.
  - intros i L. unfold lay2. destruct (i =? 0)%nat; cbn; lia.
  - intros i j L1 L2. unfold lay2. assert (i = 0%nat) by lia. assert (j = 1%nat) by lia. subst. cbn. lia.
Qed.
Lemma proper2 : proper_run 2 lay2 5 no_history run2 (fold_left arrive run2 no_history).
Proof.
  assert (G : forall l h, (fix go h l := match l with [] => True | x :: r => proper 2 lay2 5 h x /\ go (arrive h x) r end) h l -> proper_run 2 lay2 5 h l (fold_left arrive l h)).
  { induction l as [|x l IH]; intros h H; cbn [fold_left]; [constructor|]. destruct H as [H1 H2]. econstructor; [exact H1|]. apply IH, H2. }
  apply G. cbn. repeat split; try lia; intros v E; try discriminate; injection E as <-; cbn; intros; try reflexivity; try discriminate.
Qed.
Lemma covers2 : covers 2 (fold_left arrive run2 no_history) 5 [1; 2; 3; 4; 5].
Proof.
  exists [Arrival 0 2 [1; 2] true; Arrival 2 3 [3; 4; 5] true]. split; [repeat constructor|]. split; [|split; reflexivity].
  intros [|[|[|k]]] v E; cbn in E; try discriminate; injection E as <-; reflexivity.
Qed.
Example C29_ex : forall direct, exists f',
  wrun (WOpts direct) (file0 [2; 3]) run2 = Some f' /\ complete (WOpts direct) f' = Some ([1; 2; 3; 4; 5], 0).
Proof.
  intros direct. eapply C29_whole_file_partial; [|exact ordered2|apply (C29_new_file _ lay2 5 [2; 3])|exact proper2| | |exact covers2].
  - lia.
  - right. left. reflexivity.
  - intros _. right. exists 1%nat, FYenc, 5, 2, 3, (Some [9; 9; 9]). left. reflexivity.
Qed.

(** UUEncoded articles: no place in the file is known, all segments are remembered with offset 0. In the cache they overwrite each other
    when the file is completed; without the cache they do not. *)
Theorem C29_uuencoded_refuted : exists o decls run without,
  run = [OStart 0 FUx 0 0 0 (Some []); OWrite 0 [1; 2]; OFinish 0 true []; OStart 1 FUx 0 0 0 (Some []); OWrite 1 [3; 4]; OFinish 1 true []] /\
  without = [OStart 0 FUx 0 0 0 None; OWrite 0 [1; 2]; OFinish 0 true []; OStart 1 FUx 0 0 0 None; OWrite 1 [3; 4]; OFinish 1 true []] /\
  (exists f, wrun o (file0 decls) run = Some f /\ complete o f = Some ([3; 4], 0)) /\
  (exists f, wrun o (file0 decls) without = Some f /\ complete o f = Some ([1; 2; 3; 4], 0)).
Proof.
  exists (WOpts false), [4; 4]. eexists. eexists. split; [reflexivity|]. split; [reflexivity|]. split; eexists; split; vm_compute; reflexivity.
Qed.
Print Assumptions C29_uuencoded_refuted.

(** Retry of a completed file (direct writing forced) when the option DirectWrite is off: what was flushed from the cache goes into a file of its own,
    which is not looked at when the file is completed. *)
Theorem C29_forced_flush_refuted : exists n lay size f h l h' f' out,
  ordered n lay size /\ resumed true n lay size f h /\ f_force f = true /\ proper_run n lay size h l h' /\ covers n h' size [1; 2; 3; 4; 5] /\
  wrun (WOpts false) f l = Some f' /\ complete (WOpts false) f' = Some (out, 0) /\ out = [1; 2; 0; 0; 0].
Proof.
  exists 2%nat, lay2, 5, (WFile (Some [1; 2; 0; 0; 0]) true true 0 [Art 2 true 0 2 None None None writer0; blank 3]),
    (set_h 0 (Some (Arrival 0 2 [1; 2] true)) no_history),
    [OStart 1 FYenc 5 2 3 (Some []); OWrite 1 [3; 4; 5]; OFinish 1 true []; OFlush 1].
  eexists. eexists. eexists. split; [exact ordered2|]. split.
  { unfold resumed. cbn. repeat split; try discriminate; try reflexivity.
    - intros c E. injection E as <-. left. reflexivity.
    - intros [|i] L; [lia|reflexivity].
    - destruct i as [|[|i]]; cbn in H; try (injection H as <-; reflexivity). destruct i; discriminate.
    - destruct i as [|[|i]]; cbn in H; [injection H as <-|injection H as <-|destruct i; discriminate]; cbn.
      + repeat split; try lia. exists [1; 2; 0; 0; 0]. split; [reflexivity|]. exists [], [0; 0; 0]. split; reflexivity.
      + auto. }
  split; [reflexivity|]. split.
  { econstructor; [|econstructor; [|econstructor; [|econstructor; [|constructor]]]]; cbn; auto.
    - repeat split; try lia. discriminate.
    - intros v E. injection E as <-. reflexivity. }
  split.
  { exists [Arrival 0 2 [1; 2] true; Arrival 2 3 [3; 4; 5] true]. split; [repeat constructor|]. split; [|split; reflexivity].
    intros [|[|[|k]]] v E; cbn in E; try discriminate; injection E as <-; reflexivity. }
  split; [vm_compute; reflexivity|]. split; vm_compute; reflexivity.
Qed.
Print Assumptions C29_forced_flush_refuted.

(** A restart with direct writing after which no further article can be fetched: the output file, which is there, is not taken into account. *)
Theorem C29_restart_refuted : exists n lay size f h,
  ordered n lay size /\ resumed true n lay size f h /\ f_out f = Some [1; 2; 0; 0; 0] /\
  (exists v, h 0%nat = Some v /\ v_done v = true /\ v_got v = [1; 2]) /\ complete (WOpts true) f = Some ([], 1).
Proof.
  exists 2%nat, lay2, 5, (WFile (Some [1; 2; 0; 0; 0]) false false 0 [Art 2 true 0 2 None None None writer0; blank 3]),
    (set_h 0 (Some (Arrival 0 2 [1; 2] true)) no_history).
  split; [exact ordered2|]. split.
  { unfold resumed. cbn. repeat split; try discriminate; try reflexivity.
    - intros c E. injection E as <-. left. reflexivity.
    - intros [|i] L; [lia|reflexivity].
    - destruct i as [|[|i]]; cbn in H; try (injection H as <-; reflexivity). destruct i; discriminate.
    - destruct i as [|[|i]]; cbn in H; [injection H as <-|injection H as <-|destruct i; discriminate]; cbn.
      + repeat split; try lia. exists [1; 2; 0; 0; 0]. split; [reflexivity|]. exists [], [0; 0; 0]. split; reflexivity.
      + auto. }
  split; [reflexivity|]. split; [|vm_compute; reflexivity]. eexists. split; [reflexivity|]. split; reflexivity.
Qed.
Print Assumptions C29_restart_refuted.

(** The decoder accepts an article that is longer than its announced part: the size in "=yend" is compared with the data, the range in "=ypart" is not. *)
Theorem C29_too_long_refuted : exists stream,
  let '(d, w, _, ok) := download (dec_init true) [stream] in
  ok = true /\ check d = dsFinished /\ endpos d - beginpos d + 1 = 2 /\ w = [1; 2; 3; 4].
Proof.
  exists (str "=ybegin part=1 line=128 size=9 name=a" ++ [13; 10] ++ str "=ypart begin=1 end=2" ++ [13; 10]
    ++ YencModel.yenc_body [1; 2; 3; 4] ++ str "=yend size=4 pcrc32=b63cfbcd" ++ [13; 10] ++ [46; 13; 10]).
  vm_compute. repeat split.
Qed.
Print Assumptions C29_too_long_refuted.
(** What the writer makes of it: the data is dropped, and the file has what happened to be in memory. *)
Theorem C29_memory_in_file_refuted : exists lay junk run,
  ordered 1 lay 9 /\ run = [OStart 0 FYenc 9 0 2 (Some []); OWrite 0 [1; 2; 3; 4]; OFinish 0 true junk] /\
  exists f, wrun (WOpts false) (file0 [4]) run = Some f /\ complete (WOpts false) f = Some ([0; 0] ++ junk, 0).
Proof.
  exists (fun _ => (0, 2)), [201; 202]. eexists. split.
  - split; intros; cbn; lia.
  - split; [reflexivity|]. eexists. split; vm_compute; reflexivity.
Qed.
Print Assumptions C29_memory_in_file_refuted.

(** C96. Whatever is received, data is never put outside the block which the cache gave for the article, and into no file that is not open:
    the run is defined. Places, sizes, lengths and memory are arbitrary; each download meets one format and is finished only after data. *)
Theorem C96_memory : forall o f h l,
  (forall a, In a (f_arts f) -> a_w a = writer0) -> steady (fun _ => None) h l -> exists f', wrun o f l = Some f'.
Proof. exact memory_ok. Qed.
Print Assumptions C96_memory.
(** The first condition is met by the decoder: once known, its format does not change, neither within an article nor when it is cleared for the
    next attempt. *)
Theorem C96_one_format : forall attempts d, fmt d <> efUnknown ->
  fmt (fold_left (fun d cs => fst (fst (fst (download (dec_clear d) cs)))) attempts d) = fmt d.
Proof.
  induction attempts as [|cs l IH]; intros d F; [reflexivity|]. cbn [fold_left].
  assert (X := download_fmt cs (dec_clear d) F). rewrite IH; [exact X|]. rewrite X. exact F.
Qed.
Print Assumptions C96_one_format.

Example C96_ex : exists f',
  steady (fun _ => None) no_history [OStart 0 FYenc 9 (-5) 2 (Some []); OWrite 0 [1]; OWrite 0 [2; 3; 4; 5]; OFinish 0 true []] /\
  wrun (WOpts true) (file0 [4]) [OStart 0 FYenc 9 (-5) 2 (Some []); OWrite 0 [1]; OWrite 0 [2; 3; 4; 5]; OFinish 0 true []] = Some f'.
Proof. eexists. split; [|vm_compute; reflexivity]. cbn. split; [auto|]. split; [|exact I]. intros v E. injection E as <-. discriminate. Qed.
(** Why one format: a UUEncoded second attempt would be put into the small block of a failed first one. *)
Example C96_two_formats :
  wrun (WOpts true) (file0 [500]) [OStart 0 FYenc 9 0 2 (Some []); OWrite 0 [1]; OFinish 0 false []; OStart 0 FUx 0 0 0 None; OWrite 0 [1; 2; 3]] = None.
Proof. vm_compute. reflexivity. Qed.
Example C96_format_ex : exists d cs, fmt d = efYenc /\ fmt (fst (fst (fst (download (dec_clear d) [cs])))) = efYenc /\ cs = str "begin 644 x" ++ [13; 10].
Proof. exists (set_fmt (dec_init true) efYenc). eexists. split; [reflexivity|]. split; [|reflexivity]. vm_compute. reflexivity. Qed.

(** C30. The accounting of the cache. *)
Theorem C30_balance_partial : forall o l, 0 <= k_limit o < 2 ^ 63 -> sane_run o acache0 l ->
  let k := krun o acache0 l in
  k_alloc k = total (k_live k) /\ k_alloc k <= k_limit o /\ (k_alloc k = 0 <-> k_live k = []) /\
  (k_flag k = true <-> k_use_flag o = true /\ k_live k <> []).
Proof. exact cache_ok. Qed.
Print Assumptions C30_balance_partial.

(** The sum is right for all sequences whatsoever (in the arithmetic of the counter). *)
Theorem C30_sum : forall o l, k_alloc (krun o acache0 l) = total (k_live (krun o acache0 l)) mod 2 ^ 64.
Proof. exact cache_sum. Qed.
Print Assumptions C30_sum.

Example C30_ex : sane_run (KOpts 100 true) acache0 [KAlloc 60 true; KAlloc 50 true; KAlloc 40 true; KRealloc 0 30 true; KFree 1] /\
  krun (KOpts 100 true) acache0 [KAlloc 60 true; KAlloc 50 true; KAlloc 40 true; KRealloc 0 30 true; KFree 1] = ACache 30 true [(0, 30)] 2.
Proof. split; [|vm_compute; reflexivity]. repeat (constructor; [cbn; lia|]). constructor. Qed.

(** A block can be enlarged beyond the limit: an article longer than announced (above) does that in [Finish]. *)
Theorem C30_grow_refuted : exists o l, k_limit o = 1048576 /\ l = [KAlloc 1000000 true; KRealloc 0 2000000 true] /\ k_limit o < k_alloc (krun o acache0 l).
Proof. exists (KOpts 1048576 false). eexists. split; [reflexivity|]. split; [reflexivity|]. vm_compute. reflexivity. Qed.
Print Assumptions C30_grow_refuted.
(** A block of size zero is never released, and the flag for the next start stays on the disk. *)
Theorem C30_empty_block_refuted : exists o l, k_use_flag o = true /\ l = [KAlloc 0 true; KFree 0] /\
  k_live (krun o acache0 l) <> [] /\ k_flag (krun o acache0 l) = true /\ k_alloc (krun o acache0 l) = 0.
Proof. exists (KOpts 1048576 true). eexists. split; [reflexivity|]. split; [reflexivity|]. vm_compute. repeat split. discriminate. Qed.
Print Assumptions C30_empty_block_refuted.
