(** Proofs about saving and loading the queue. *)
From Verif Require Import Base NumFmt CodecModel CodecProofs2 WildModel InfoModel InfoProofs LineModel LineSpec LineProofs DiskModel DiskSpec.

Ltac ranges := repeat (apply Forall2_cons; [cbn [conv_range]; auto |]); apply Forall2_nil.

Definition cl (ls : list (list Z)) : list Z := concat (map line ls).

Lemma cl_cons a l r : cl (a :: l) ++ r = line a ++ (cl l ++ r).
Proof. unfold cl. cbn [map concat]. now rewrite <- app_assoc. Qed.
Lemma cl_app l1 l2 r : cl (l1 ++ l2) ++ r = cl l1 ++ (cl l2 ++ r).
Proof. unfold cl. rewrite map_app, concat_app. now rewrite <- app_assoc. Qed.
Lemma cl_nil r : cl [] ++ r = r.
Proof. reflexivity. Qed.

Lemma scan_step ks vs rest : Forall2 conv_range ks vs -> (length ks <= 80)%nat ->
  scan_line ks (line (fmt_nums vs) ++ rest) = Some (vs, rest).
Proof. intros. unfold line. rewrite <- app_assoc. now apply scan_line_ok. Qed.

Lemma read_big s rest : text s -> read_line big (line s ++ rest) = Some (s, rest).
Proof.
  intros [H L]. unfold line. rewrite <- app_assoc. apply read_line_ok; auto.
  unfold big. lia.
Qed.

Lemma read_1k s rest : short_text s -> read_line 1024 (line s ++ rest) = Some (s, rest).
Proof. intros [H L]. unfold line. rewrite <- app_assoc. apply read_line_ok; auto. lia. Qed.

Lemma b2z_range b : in_i32 (b2z b).
Proof. unfold in_i32, b2z. destruct b; lia. Qed.
Lemma z2b_b2z b : z2b (b2z b) = b.
Proof. now destruct b. Qed.

Lemma count_range {A} (l : list A) : count_ok l -> in_i32 (Z.of_nat (length l)).
Proof. unfold count_ok, in_i32. lia. Qed.

(** ** Counted loops *)

Lemma repeat_load_lines {A B} (step : list B -> list Z -> option (list B * list Z)) (enc : A -> list (list Z)) (g : A -> B)
  (P : A -> Prop) :
  (forall acc a rest, P a -> step acc (cl (enc a) ++ rest) = Some (acc ++ [g a], rest)) ->
  forall l acc rest, Forall P l ->
  repeat_load (length l) step acc (cl (flat_map enc l) ++ rest) = Some (acc ++ map g l, rest).
Proof.
  intros H l; induction l as [|a l IH]; intros acc rest F; cbn [length repeat_load flat_map map].
  - rewrite cl_nil, app_nil_r. reflexivity.
  - inversion F; subst. rewrite cl_app, H by auto. rewrite IH by auto. rewrite <- app_assoc. reflexivity.
Qed.

Lemma map_single {A B} (f : A -> B) l : map f l = flat_map (fun a => [f a]) l.
Proof. induction l; cbn; congruence. Qed.

(** ** Commas *)

Lemma strchr_app c s r : ~ In c s -> strchr c (s ++ c :: r) = Some (c :: r).
Proof.
  induction s as [|x s IH]; intros N; cbn [app strchr].
  - now rewrite Z.eqb_refl.
  - destruct (Z.eqb_spec x c); [subst; exfalso; apply N; now left|]. apply IH. intro; apply N; now right.
Qed.

Lemma strchr_none c s : ~ In c s -> strchr c s = None.
Proof.
  induction s as [|x s IH]; intros N; cbn [strchr]; [reflexivity|].
  destruct (Z.eqb_spec x c); [subst; exfalso; apply N; now left|]. apply IH. intro; apply N; now right.
Qed.

Lemma before_app c s r : ~ In c s -> before c (s ++ c :: r) = s.
Proof.
  induction s as [|x s IH]; intros N; cbn [app before].
  - now rewrite Z.eqb_refl.
  - destruct (Z.eqb_spec x c); [subst; exfalso; apply N; now left|]. rewrite IH; [reflexivity|]. intro; apply N; now right.
Qed.

Lemma before_none c s : ~ In c s -> before c s = s.
Proof.
  induction s as [|x s IH]; intros N; cbn [before]; [reflexivity|].
  destruct (Z.eqb_spec x c); [subst; exfalso; apply N; now left|]. rewrite IH; [reflexivity|]. intro; apply N; now right.
Qed.

Lemma after_commas_S k s r : ~ In 44 s -> after_commas (S k) (s ++ 44 :: r) = after_commas k r.
Proof. intros H. cbn [after_commas]. now rewrite strchr_app. Qed.

Lemma zdec_no c v : c < 45 \/ 57 < c -> ~ In c (zdec v).
Proof. intros H I. pose proof (zdec_text v) as T. rewrite Forall_forall in T. specialize (T _ I). cbn in T. lia. Qed.

Lemma fmt4_commas a b c d r : after_commas 4 (fmt_nums [a; b; c; d] ++ 44 :: r) = Some r.
Proof.
  cbn [fmt_nums].
  rewrite <- app_assoc. cbn [app]. rewrite after_commas_S by (apply zdec_no; lia).
  rewrite <- app_assoc. cbn [app]. rewrite after_commas_S by (apply zdec_no; lia).
  rewrite <- app_assoc. cbn [app]. rewrite after_commas_S by (apply zdec_no; lia).
  rewrite after_commas_S by (apply zdec_no; lia). reflexivity.
Qed.

Lemma optstr_ostr o : (match o with Some s => s <> [] | None => True end) -> optstr (ostr o) = o.
Proof. destruct o as [[|c s]|]; cbn; congruence. Qed.

Lemma line_text_app a b : line_text a -> line_text b -> line_text (a ++ b).
Proof. intros; apply Forall_app; auto. Qed.

Lemma hash_text o : hash_ok o -> line_text (ostr o) /\ ~ In 44 (ostr o) /\ (length (ostr o) <= 400)%nat.
Proof. destruct o as [h|]; cbn; [tauto|]. intros _. repeat split; [constructor | tauto | lia]. Qed.

Lemma opt_text_short o : opt_text o -> short_text (ostr o).
Proof. destruct o as [s|]; cbn; [tauto|]. intros _. split; [constructor | cbn; lia]. Qed.

Lemma load_cfile_ok acc c rest : cfile_ok c ->
  load_cfile acc (cl (cfile_lines c) ++ rest) = Some (acc ++ [c], rest).
Proof.
  intros (R1 & R2 & R3 & H1 & H2 & T1 & T2). unfold load_cfile, cfile_lines.
  destruct (hash_text _ H1) as (L1 & N1 & K1). destruct (hash_text _ H2) as (L2 & N2 & K2).
  assert (R4 := b2z_range (cf_par c)).
  assert (F : Forall2 conv_range [CI; CI; CU; CI] [cf_id c; cf_status c; cf_crc c; b2z (cf_par c)])
    by ranges.
  pose proof (fmt_nums_len _ _ F) as K. cbn [length] in K.
  rewrite cl_cons, read_big.
  2:{ split.
      - apply line_text_app; [apply fmt_nums_line|]. constructor; [split; discriminate|].
        apply line_text_app; auto. constructor; [split; discriminate|]. auto.
      - rewrite app_length. cbn [length]. rewrite app_length. cbn [length]. lia. }
  rewrite scan_fmt_ok by (auto; reflexivity).
  rewrite fmt4_commas. rewrite after_commas_S by auto. cbn [after_commas].
  rewrite before_app by auto. rewrite before_none by auto.
  rewrite cl_cons, read_1k by auto. rewrite cl_cons, read_1k by now apply opt_text_short.
  rewrite cl_nil, !optstr_ostr, z2b_b2z.
  - now destruct c.
  - destruct (cf_orig c); cbn in T2; tauto.
  - destruct (cf_set c); cbn in H2; tauto.
  - destruct (cf_hash c); cbn in H1; tauto.
Qed.

(** ** Parameters *)

Lemma set_parameter_new : forall acc n v, v <> [] ->
  ~ In (map lower n) (map (fun p : param => map lower (fst p)) acc) ->
  set_parameter acc n v = acc ++ [(n, v)].
Proof.
  induction acc as [|[k w] acc IH]; intros n v V N; cbn [set_parameter app].
  - destruct v; [contradiction | reflexivity].
  - destruct (same_nocase k n) eqn:E.
    + exfalso. apply N. left. cbn [fst]. unfold same_nocase in E. now apply beqb_eq in E.
    + rewrite IH; auto. intros I. apply N. now right.
Qed.

Lemma load_params_ok : forall l acc rest, 
  NoDup (map (fun p : param => map lower (fst p)) (acc ++ l)) ->
  Forall (fun p : param => ~ In 61 (fst p) /\ snd p <> [] /\ line_text (fst p) /\ line_text (snd p) /\
                           (length (fst p) + length (snd p) <= 1022)%nat) l ->
  repeat_load (length l) load_param acc (cl (map (fun p : param => fst p ++ 61 :: snd p) l) ++ rest) = Some (acc ++ l, rest).
Proof.
  induction l as [|[n v] l IH]; intros acc rest D F; cbn [length repeat_load map].
  - rewrite cl_nil, app_nil_r. reflexivity.
  - inversion F as [|? ? (N & V & T1 & T2 & L) F']; subst. cbn [fst snd] in *.
    unfold load_param at 1. rewrite cl_cons, read_big.
    2:{ split; [apply line_text_app; auto; constructor; [split; discriminate | auto] | rewrite app_length; cbn [length]; lia]. }
    rewrite strchr_app, before_app by auto.
    rewrite set_parameter_new.
    + rewrite IH; auto; rewrite <- app_assoc; auto.
    + auto.
    + rewrite map_app in D. cbn [map fst] in D. apply NoDup_remove_2 in D.
      intros I. apply D. apply in_or_app. now left.
Qed.

(** ** Scripts, statistics, files *)

Lemma load_script_ok acc (s : Z * list Z) rest : script_ok s ->
  load_script acc (cl [fmt_nums [fst s] ++ 44 :: snd s] ++ rest) = Some (acc ++ [s], rest).
Proof.
  intros (R & T & L). unfold load_script. rewrite cl_cons, read_big.
  2:{ split; [apply line_text_app; [apply fmt_nums_line | constructor; [split; discriminate | auto]]|].
      rewrite app_length. cbn [length].
      pose proof (fmt_nums_len [CI] [fst s]) as K. specialize (K ltac:(ranges)). cbn [length] in K. lia. }
  cbn [fmt_nums]. rewrite strchr_app by (apply zdec_no; lia).
  rewrite atoll_zdec by (cbn; reflexivity). rewrite cl_nil. now destruct s.
Qed.

Lemma stat_op_new : forall acc id ok bad, ~ In id (map sv_id acc) ->
  stat_op acc id ok bad soSet = acc ++ [mkS id ok bad].
Proof.
  induction acc as [|s acc IH]; intros id ok bad N; cbn [stat_op app]; [reflexivity|].
  destruct (Z.eqb_spec (sv_id s) id); [exfalso; apply N; now left|].
  rewrite IH; auto. intro; apply N; now right.
Qed.

Lemma stat_op_same : forall acc id ok bad, ~ In id (map sv_id acc) ->
  stat_op (acc ++ [mkS id ok bad]) id ok bad soSet = acc ++ [mkS id ok bad].
Proof.
  induction acc as [|s acc IH]; intros id ok bad N; cbn [stat_op app].
  - cbn [sv_id]. now rewrite Z.eqb_refl.
  - destruct (Z.eqb_spec (sv_id s) id); [exfalso; apply N; now left|].
    rewrite IH; auto. intro; apply N; now right.
Qed.

Lemma fold_servers : forall servers acc id ok bad,
  Forall (fun sv : server => fst sv = snd sv) servers -> ~ In id (map sv_id acc) ->
  let g := fun a (sv : server) => if snd sv =? id then stat_op a (fst sv) ok bad soSet else a in
  fold_left g servers (acc ++ [mkS id ok bad]) = acc ++ [mkS id ok bad] /\
  (In id (map fst servers) -> fold_left g servers acc = acc ++ [mkS id ok bad]).
Proof.
  induction servers as [|[a b] servers IH]; intros acc id ok bad F N g; cbn [fold_left map].
  - split; [reflexivity | intros []].
  - inversion F as [|? ? E F']; subst. cbn [fst snd] in *. subst b.
    destruct (IH acc id ok bad F' N) as [I1 I2]. fold g in I1, I2.
    unfold g at 2 4. cbn [snd fst]. destruct (Z.eqb_spec a id) as [->|Ne].
    + rewrite stat_op_same, stat_op_new by auto. split; [exact I1 | intros _; exact I1].
    + split; [exact I1|]. intros [->|I]; [contradiction | auto].
Qed.

Lemma load_stats_ok servers : Forall (fun sv : server => fst sv = snd sv) servers ->
  forall l acc rest, Forall stat_ok l -> Forall (fun s => In (sv_id s) (map fst servers)) l ->
  NoDup (map sv_id (acc ++ l)) ->
  repeat_load (length l) (load_stat servers) acc (cl (map (fun s => fmt_nums [sv_id s; sv_ok s; sv_bad s]) l) ++ rest)
  = Some (acc ++ l, rest).
Proof.
  intros SV; induction l as [|s l IH]; intros acc rest F I D; cbn [length repeat_load map].
  - rewrite cl_nil, app_nil_r. reflexivity.
  - inversion F as [|? ? (R1 & R2 & R3) F']; subst. inversion I; subst.
    unfold load_stat at 1. rewrite cl_cons, scan_step by (first [ranges | cbn [length]; lia]).
    destruct (fold_servers servers acc (sv_id s) (sv_ok s) (sv_bad s) SV) as [_ K].
    { rewrite map_app in D. cbn [map] in D. apply NoDup_remove_2 in D. intros X; apply D, in_or_app; now left. }
    rewrite K by auto. replace (mkS (sv_id s) (sv_ok s) (sv_bad s)) with s by now destruct s.
    rewrite IH; auto; rewrite <- app_assoc; auto.
Qed.

Lemma load_qfile_ok acc f rest : in_i32 (qf_id f) /\ qf_deleted f = false ->
  load_qfile acc (cl [fmt_nums [qf_id f; b2z (qf_paused f); b2z (qf_extra f)]] ++ rest) = Some (acc ++ [f], rest).
Proof.
  intros [R D]. unfold load_qfile. rewrite cl_cons, scan_step.
  - rewrite !z2b_b2z, cl_nil. destruct f; cbn in *; subst; reflexivity.
  - pose proof b2z_range. ranges.
  - cbn [length]; lia.
Qed.

(** ** The queue entry *)

Definition reload (base : nzb) (stats : list sstat) (n : nzb) : nzb :=
  mkNzb (n_id n) (n_kind n) (n_url n) (n_filename n) (n_dest n) (n_final n) (n_queued n)
        (n_name n) (n_category n) (n_priority n)
        (match n_post n with
         | Some p => Some (mkPost (po_stage p + 1) (po_force_par p) (po_force_repair p))
         | None => match n_post base with Some p => Some (mkPost (po_stage p) false false) | None => None end
         end)
        (n_delete_paused n) (n_many_dupes n) (n_feed n)
        (n_par_status n) (n_unpack_status n) (n_move_status n) (n_par_rename n) (n_rar_rename n)
        (n_direct_rename n) (n_delete_status n) (n_mark_status n)
        (if (n_kind n =? 0) || (3 <=? n_url_status n) || (5 <=? n_url_status n) then n_url_status n else n_url_status base)
        (n_cleaned n) (n_health_paused n) (n_url_paused n)
        (n_file_count n) (n_parked n) (n_messages n) (n_min_time n) (n_max_time n)
        (n_par_full n) (n_extra_blocks n) (n_full_hash n) (n_filtered_hash n)
        (n_size n) (n_success n) (n_failed n) (n_par_size n) (n_par_success n) (n_par_failed n)
        (n_articles n) (n_ok_articles n) (n_bad_articles n)
        (n_dupe_key n) (n_dupe_hint n) (n_dupe_score n) (n_dupe_hint base)
        (n_downloaded n) (n_download_sec n) (n_post_sec n) (n_par_sec n) (n_repair_sec n) (n_unpack_sec n)
        (n_completed n) (n_params n) (n_scripts n) stats (live_files (n_files n)).

Lemma split_ok x : in_i64 x -> in_u32 (fst (split_int64 x)) /\ in_u32 (snd (split_int64 x)) /\
  join_int64 (fst (split_int64 x)) (snd (split_int64 x)) = x.
Proof.
  intros H. pose proof (split_halves x) as S. destruct (split_int64 x) as [h l] eqn:E.
  unfold in_u32. cbn [fst snd]. split; [tauto|]. split; [tauto|].
  change h with (fst (h, l)). change l with (snd (h, l)) at 2. rewrite <- E.
  apply split_join. exact H.
Qed.

Lemma u64s_range l : Forall in_i64 l -> Forall in_u32 (u64s l).
Proof.
  induction 1 as [|x l H _ IH]; [constructor|]. unfold u64s in *. cbn [flat_map app].
  destruct (split_ok x H) as (A & B & _). constructor; [exact A | constructor; [exact B | exact IH]].
Qed.

Ltac inv_forall H :=
  lazymatch type of H with
  | Forall _ [] => clear H
  | Forall _ (_ :: _) => let a := fresh "R" in let b := fresh "R" in
                         inversion H as [|? ? a b]; subst; clear H; inv_forall b
  end.

Lemma live_ok l : Forall (fun f => in_i32 (qf_id f)) l ->
  Forall (fun f => in_i32 (qf_id f) /\ qf_deleted f = false) (live_files l).
Proof.
  induction 1 as [|f l H _ IH]; [constructor|]. cbn [live_files filter].
  destruct (qf_deleted f) eqn:E; cbn [negb]; [exact IH|]. constructor; auto.
Qed.

Lemma live_count l : count_ok l -> count_ok (live_files l).
Proof.
  unfold count_ok, live_files. intros H.
  assert (K : (length (filter (fun f => negb (qf_deleted f)) l) <= length l)%nat).
  { clear. induction l as [|f l IH]; cbn [filter length]; [lia|]. destruct (negb (qf_deleted f)); cbn [length]; lia. }
  lia.
Qed.

(** The loaded statistics for an arbitrary list to start from. *)
Definition loaded_stats (servers : list server) (l acc : list sstat) : list sstat :=
  fold_left (fun a s => fold_left (fun a (sv : server) => if snd sv =? sv_id s then stat_op a (fst sv) (sv_ok s) (sv_bad s) soSet else a)
                          servers a) l acc.

Lemma load_stats_gen servers : forall l acc rest, Forall stat_ok l ->
  repeat_load (length l) (load_stat servers) acc (cl (map (fun s => fmt_nums [sv_id s; sv_ok s; sv_bad s]) l) ++ rest)
  = Some (loaded_stats servers l acc, rest).
Proof.
  induction l as [|s l IH]; intros acc rest F; cbn [length repeat_load map].
  - reflexivity.
  - inversion F as [|? ? (R1 & R2 & R3) F']; subst.
    unfold load_stat at 1. rewrite cl_cons, scan_step by (first [ranges | cbn [length]; lia]).
    rewrite IH by auto. reflexivity.
Qed.

Lemma loaded_stats_new servers l : servers_ok servers l -> Forall stat_ok l -> loaded_stats servers l [] = l.
Proof.
  intros (S1 & S2 & S3) F.
  pose proof (load_stats_gen servers l [] [] F) as A.
  rewrite (load_stats_ok servers S1 l [] [] F S2 S3) in A. cbn [app] in A. congruence.
Qed.

Ltac scan1 := rewrite cl_cons, scan_step by (first [ranges | cbn [length]; lia]); cbv beta iota.
Ltac read1 := rewrite cl_cons, read_big by assumption; cbv beta iota.

Lemma load_nzb_ok base servers n rest : nzb_ok servers n ->
  load_nzb base servers (cl (nzb_lines n) ++ rest)
  = Some (reload base (loaded_stats servers (n_stats n) (n_stats base)) n, rest).
Proof.
  intros [OI OT ON [OH1 OH2] OS OP [OC1 OC2] [[OPa OPb] OPc] [OSc1 OSc2] (OSt1 & OSt2 & OSt3) [OF1 OF2] OU].
  inv_forall OI. inv_forall OT. inv_forall OS.
  pose proof b2z_range as BR.
  assert (PS : in_i32 (match n_post n with Some p => po_stage p + 1 | None => 0 end))
    by (unfold in_i32; destruct (n_post n); lia).
  assert (PP : forall g : post -> bool, in_i32 (match n_post n with Some p => b2z (g p) | None => 0 end))
    by (intros g; destruct (n_post n); [apply BR | unfold in_i32; lia]).
  assert (T1 : as_int (n_min_time n) = n_min_time n) by now apply to_i32_id.
  assert (T2 : as_int (n_max_time n) = n_max_time n) by now apply to_i32_id.
  repeat match goal with H : in_i64 ?x |- _ => destruct (split_ok x H) as (? & ? & ?); clear H end.
  unfold load_nzb, nzb_lines.
  rewrite cl_app.
  scan1. scan1. read1. read1. read1. read1. read1. read1. read1. scan1. scan1. scan1. scan1.
  rewrite T1, T2.
  scan1.
  pose proof (PP po_force_par). pose proof (PP po_force_repair).
  scan1. scan1.
  unfold u64s at 1 2 3. cbn [flat_map app].
  scan1. scan1. scan1. read1. scan1. scan1.
  rewrite cl_nil.
  pose proof (count_range _ OC2). pose proof (count_range _ OPc). pose proof (count_range _ OSc2).
  pose proof (count_range _ OSt2). pose proof (count_range _ (live_count _ OF2)).
  scan1. rewrite Nat2Z.id. rewrite cl_app.
  rewrite (repeat_load_lines load_cfile cfile_lines (fun c => c) cfile_ok) by auto using load_cfile_ok.
  cbv beta iota. scan1. rewrite Nat2Z.id. rewrite cl_app.
  rewrite load_params_ok by auto. cbv beta iota.
  scan1. rewrite Nat2Z.id. rewrite cl_app.
  rewrite map_single.
  rewrite (repeat_load_lines load_script _ (fun c => c) script_ok) by auto using load_script_ok.
  cbv beta iota. rewrite cl_app. unfold stats_lines. scan1. rewrite Nat2Z.id.
  rewrite load_stats_gen by auto. cbv beta iota.
  unfold files_lines. scan1. rewrite Nat2Z.id. rewrite map_single.
  rewrite (repeat_load_lines load_qfile _ (fun c => c) (fun f => in_i32 (qf_id f) /\ qf_deleted f = false))
    by (auto using load_qfile_ok, live_ok).
  cbn [app]. rewrite !map_id.
  unfold reload.
  repeat match goal with H : join_int64 _ _ = _ |- _ => rewrite H; clear H end.
  rewrite !z2b_b2z.
  destruct (n_name n) as [|x xs] eqn:EN; [contradiction|].
  destruct (n_post n) as [p|].
  - destruct (Z.ltb_spec 0 (po_stage p + 1)); [|lia]. rewrite !z2b_b2z. reflexivity.
  - reflexivity.
Qed.
