(** Queue, progress and history files. *)
From Verif Require Import Base NumFmt CodecModel CodecProofs2 WildModel InfoModel InfoProofs LineModel LineSpec LineProofs DiskModel DiskSpec DiskProofs.

Definition fits (s : list Z) : Prop := (length s <= 1023)%nat.

Lemma nums_fit ks vs : Forall2 conv_range ks vs -> (length ks <= 80)%nat -> fits (fmt_nums vs).
Proof. intros F L. pose proof (fmt_nums_len _ _ F). unfold fits. lia. Qed.

Lemma nums_fit_all vs : Forall (fun v => in_i32 v \/ in_u32 v) vs -> (length vs <= 80)%nat -> fits (fmt_nums vs).
Proof.
  intros F L.
  assert (E : exists ks, Forall2 conv_range ks vs /\ length ks = length vs).
  { clear L. induction F as [|v vs R _ (ks & E & EL)]; [exists []; split; [constructor | reflexivity]|].
    destruct R; [exists (CI :: ks) | exists (CU :: ks)]; (split; [constructor; auto | cbn [length]; congruence]). }
  destruct E as (ks & E & EL). eapply nums_fit; eauto. lia.
Qed.

Ltac range_list := repeat (apply Forall_cons; [first [left; assumption | right; assumption] |]); apply Forall_nil.
Ltac nfit := apply nums_fit_all; [range_list | cbn [length]; lia].

Lemma cfile_fit c : cfile_ok c -> Forall fits (cfile_lines c).
Proof.
  intros (R1 & R2 & R3 & H1 & H2 & [_ T1] & T2).
  destruct (hash_text _ H1) as (L1 & N1 & K1). destruct (hash_text _ H2) as (L2 & N2 & K2).
  apply opt_text_short in T2 as [_ T2].
  pose proof (b2z_range (cf_par c)) as R4.
  unfold cfile_lines. apply Forall_cons; [|apply Forall_cons; [unfold fits; lia | apply Forall_cons; [unfold fits; lia | constructor]]].
  assert (F : Forall2 conv_range [CI; CI; CU; CI] [cf_id c; cf_status c; cf_crc c; b2z (cf_par c)]) by ranges.
  pose proof (fmt_nums_len _ _ F) as K. cbn [length] in K.
  unfold fits. rewrite app_length. cbn [length]. rewrite app_length. cbn [length]. lia.
Qed.

Lemma forall_flat_map {A} (f : A -> list (list Z)) (P : A -> Prop) l :
  (forall a, P a -> Forall fits (f a)) -> Forall P l -> Forall fits (flat_map f l).
Proof. intros H F. induction F; cbn [flat_map]; [constructor|]. apply Forall_app; split; auto. Qed.

Lemma nzb_fit servers n : nzb_ok servers n -> Forall fits (nzb_lines n).
Proof.
  intros [OI OT ON [OH1 OH2] OS OP [OC1 OC2] [[OPa OPb] OPc] [OSc1 OSc2] (OSt1 & OSt2 & OSt3) [OF1 OF2] OU].
  inv_forall OI. inv_forall OT. inv_forall OS.
  pose proof b2z_range as BR.
  assert (PS : in_i32 (match n_post n with Some p => po_stage p + 1 | None => 0 end))
    by (unfold in_i32; destruct (n_post n); lia).
  assert (PP : forall g : post -> bool, in_i32 (match n_post n with Some p => b2z (g p) | None => 0 end))
    by (intros g; destruct (n_post n); [apply BR | unfold in_i32; lia]).
  pose proof (PP po_force_par). pose proof (PP po_force_repair).
  assert (T1 : as_int (n_min_time n) = n_min_time n) by now apply to_i32_id.
  assert (T2 : as_int (n_max_time n) = n_max_time n) by now apply to_i32_id.
  repeat match goal with H : in_i64 ?x |- _ => destruct (split_ok x H) as (? & ? & ?); clear H end.
  pose proof (count_range _ OC2). pose proof (count_range _ OPc). pose proof (count_range _ OSc2).
  pose proof (count_range _ OSt2). pose proof (count_range _ (live_count _ OF2)).
  pose proof (BR (n_delete_paused n)). pose proof (BR (n_many_dupes n)). pose proof (BR (n_cleaned n)).
  pose proof (BR (n_health_paused n)). pose proof (BR (n_url_paused n)). pose proof (BR (n_par_full n)).
  unfold nzb_lines. rewrite T1, T2. unfold u64s. cbn [flat_map].
  repeat match goal with H : text _ |- _ => destruct H as [_ H] end.
  apply Forall_app; split.
  { cbn [app]. repeat (apply Forall_cons; [first [assumption | nfit] |]). apply Forall_nil. }
  apply Forall_app; split.
  { apply Forall_cons; [nfit|]. eapply forall_flat_map; [|exact OC1]. apply cfile_fit. }
  apply Forall_app; split.
  { apply Forall_cons; [nfit|]. rewrite Forall_map. eapply Forall_impl; [|exact OPb].
    cbn. intros [a b] (_ & _ & _ & _ & L). unfold fits. cbn [fst snd] in *. rewrite app_length. cbn [length]. lia. }
  apply Forall_app; split.
  { apply Forall_cons; [nfit|]. rewrite Forall_map. eapply Forall_impl; [|exact OSc1].
    intros [a b] (RR & _ & L). cbn [fst snd] in *. unfold fits. rewrite app_length. cbn [length].
    pose proof (fmt_nums_len [CI] [a]) as K. specialize (K ltac:(ranges)). cbn [length] in K. lia. }
  apply Forall_app; split.
  { unfold stats_lines. apply Forall_cons; [nfit|]. rewrite Forall_map. eapply Forall_impl; [|exact OSt1].
    intros s (A & B & C). nfit. }
  unfold files_lines. apply Forall_cons; [nfit|]. rewrite Forall_map. eapply Forall_impl; [|exact (live_ok _ OF1)].
  intros f (A & _). pose proof (BR (qf_paused f)). pose proof (BR (qf_extra f)). nfit.
Qed.

Lemma same_reload servers n base : nzb_ok servers n -> n_stats base = [] -> n_url_status base = 0 -> n_post base = None ->
  same_attributes n (reload base (loaded_stats servers (n_stats n) (n_stats base)) n).
Proof.
  intros OK B1 B2 B3. destruct OK as [_ _ _ _ _ _ _ _ _ (OSt1 & OSt2 & OSt3) _ OU].
  rewrite B1, loaded_stats_new by auto. unfold reload.
  constructor; cbn; repeat split; auto.
  - rewrite B2. destruct (Z.eqb_spec (n_kind n) 0); [reflexivity|].
    destruct (Z.leb_spec 3 (n_url_status n)); [reflexivity|]. cbn [orb].
    destruct (Z.leb_spec 5 (n_url_status n)); [reflexivity|]. destruct OU as [|[|]]; lia.
  - rewrite B3. destruct (n_post n); cbn; auto.
Qed.

Lemma print_cl ls : Forall fits ls -> print_lines ls = Some (cl ls).
Proof. apply print_lines_some. Qed.

Lemma entry_reload servers n : nzb_ok servers n ->
  exists out, print_lines (nzb_lines n) = Some out /\
  forall rest, exists m, load_nzb new_nzb servers (out ++ rest) = Some (m, rest) /\
    same_attributes n m /\ n_dupe_mode m = n_dupe_hint n /\ n_dupe_hint m = 0 /\
    match n_post n, n_post m with Some p, Some q => po_stage q = po_stage p + 1 | _, _ => True end.
Proof.
  intros OK. exists (cl (nzb_lines n)). split; [apply print_cl; eapply nzb_fit; eauto|].
  intros rest. eexists. split; [apply load_nzb_ok; auto|].
  split; [apply same_reload; auto|]. cbn. split; [reflexivity|]. split; [reflexivity|].
  destruct (n_post n); [reflexivity | exact I].
Qed.

(** ** Queue *)

Definition fresh (servers : list server) (n : nzb) : nzb := reload new_nzb (loaded_stats servers (n_stats n) []) n.

Lemma fresh_same servers n : nzb_ok servers n -> same_attributes n (fresh servers n).
Proof. intros H. apply (same_reload servers n new_nzb); auto. Qed.

Lemma load_queue_ok servers q rest : Forall (nzb_ok servers) q -> count_ok q ->
  load_queue servers (cl (queue_lines q) ++ rest) = Some (map (fresh servers) q, rest).
Proof.
  intros F C. unfold load_queue, queue_lines. pose proof (count_range _ C). scan1. rewrite Nat2Z.id.
  rewrite (repeat_load_lines _ nzb_lines (fresh servers) (nzb_ok servers)); auto.
  intros acc a r OK. rewrite load_nzb_ok by auto. reflexivity.
Qed.

Lemma queue_fit servers q : Forall (nzb_ok servers) q -> count_ok q -> Forall fits (queue_lines q).
Proof.
  intros F C. unfold queue_lines. pose proof (count_range _ C). apply Forall_cons; [nfit|].
  eapply forall_flat_map; [|exact F]. intros; eapply nzb_fit; eauto.
Qed.

Lemma forall2_fresh servers q : Forall (nzb_ok servers) q -> Forall2 same_attributes q (map (fresh servers) q).
Proof. induction 1; cbn [map]; constructor; auto using fresh_same. Qed.

Lemma queue_reload servers q : Forall (nzb_ok servers) q -> count_ok q ->
  exists out q', print_lines (queue_lines q) = Some out /\
    (forall rest, load_queue servers (out ++ rest) = Some (q', rest)) /\ Forall2 same_attributes q q'.
Proof.
  intros F C. exists (cl (queue_lines q)), (map (fresh servers) q).
  split; [apply print_cl; eapply queue_fit; eauto|]. split; [intros; now apply load_queue_ok | now apply forall2_fresh].
Qed.

(** ** Progress *)

Definition progressed (servers : list server) (base n : nzb) : nzb :=
  reload base (loaded_stats servers (n_stats n) (n_stats base)) n.

Lemma update_missing id g q : ~ In id (map n_id q) -> update_nzb id g q = None.
Proof.
  induction q as [|n q IH]; intros N; cbn [update_nzb]; [reflexivity|].
  destruct (Z.eqb_spec (n_id n) id); [exfalso; apply N; now left|]. rewrite IH; auto. intro; apply N; now right.
Qed.

Lemma update_found servers : forall q n rest, In (n_id n) (map n_id q) -> nzb_ok servers n ->
  exists q1 b q2, q = q1 ++ b :: q2 /\ n_id b = n_id n /\ ~ In (n_id n) (map n_id q1) /\
  update_nzb (n_id n) (fun x => load_nzb x servers (cl (nzb_lines n) ++ rest)) q
    = Some (q1 ++ progressed servers b n :: q2, rest).
Proof.
  induction q as [|x q IH]; intros n rest I OK; [destruct I|]. cbn [update_nzb].
  destruct (Z.eqb_spec (n_id x) (n_id n)).
  - exists [], x, q. repeat split; auto. rewrite load_nzb_ok by auto. reflexivity.
  - destruct I as [|I]; [contradiction|]. destruct (IH n rest I OK) as (q1 & b & q2 & -> & E & N & U).
    exists (x :: q1), b, q2. repeat split; auto.
    + intros [|]; contradiction.
    + rewrite U. reflexivity.
Qed.

(** A progress entry for a group that is not in the queue makes the load fail. *)
Lemma progress_missing servers q p1 n p2 rest :
  Forall (nzb_ok servers) (p1 ++ n :: p2) -> count_ok (p1 ++ n :: p2) -> ~ In (n_id n) (map n_id q) ->
  load_progress servers q (cl (progress_lines (p1 ++ n :: p2)) ++ rest) = None.
Proof.
  intros F C N. unfold load_progress, progress_lines. pose proof (count_range _ C).
  scan1. rewrite Nat2Z.id. clear C H.
  revert q N. induction p1 as [|a p1 IH]; intros q N.
  - cbn [app length repeat_load flat_map]. cbn [app] in F. inversion F as [|? ? OK F']; subst.
    assert (R : in_i32 (n_id n)) by (destruct OK as [OI]; now inversion OI).
    rewrite cl_cons, scan_step by (first [ranges | cbn [length]; lia]).
    rewrite update_missing by auto. reflexivity.
  - cbn [app length repeat_load flat_map]. cbn [app] in F. inversion F as [|? ? OK F']; subst.
    assert (R : in_i32 (n_id a)) by (destruct OK as [OI]; now inversion OI).
    rewrite cl_cons, scan_step by (first [ranges | cbn [length]; lia]).
    destruct (in_dec Z.eq_dec (n_id a) (map n_id q)) as [I|I].
    + rewrite cl_app. destruct (update_found servers q a (cl (flat_map (fun n0 => fmt_nums [n_id n0] :: nzb_lines n0) (p1 ++ n :: p2)) ++ rest) I OK)
        as (q1 & b & q2 & -> & E & _ & ->).
      apply IH; auto. rewrite map_app in *. cbn [map] in *. rewrite in_app_iff in *. cbn [In] in *. unfold progressed. cbn [reload n_id].
      rewrite <- E. tauto.
    + rewrite update_missing by auto. reflexivity.
Qed.

(** ** History *)

Lemma load_dup_ok id d rest : dup_ok d -> d_id d = id ->
  load_dup id (cl (dup_lines d) ++ rest) = Some (d, rest).
Proof.
  intros (A & B & C & D & E & F & G & H & I) <-. unfold load_dup, dup_lines.
  destruct (split_ok _ C) as (S1 & S2 & S3). scan1.
  rewrite cl_cons, read_1k by auto. rewrite cl_cons, read_1k by auto. rewrite S3. now destruct d.
Qed.

Definition fresh_h (servers : list server) (h : hentry) : hentry :=
  (fst h, match snd h with
          | HNzb n => HNzb (leave_post (fresh servers n))
          | HUrl n => HUrl (fresh servers n)
          | HDup d => HDup d
          end).

Lemma load_hentry_ok servers acc h rest : hentry_ok servers h ->
  load_hentry servers acc (cl (hentry_lines h) ++ rest) = Some (acc ++ [fresh_h servers h], rest).
Proof.
  destruct h as [t [n|n|d]]; intros [RT OK]; cbn [fst snd] in *; unfold load_hentry, hentry_lines; cbn [fst snd].
  - destruct OK as [OK _]. assert (in_i32 (n_id n)) by (destruct OK as [OI]; now inversion OI).
    assert (in_i32 1) by (unfold in_i32; lia).
    unfold as_int. rewrite (to_i32_id t) by auto. scan1. change (1 =? 1) with true. cbv iota.
    rewrite load_nzb_ok by auto. reflexivity.
  - destruct OK as [OK _]. assert (in_i32 (n_id n)) by (destruct OK as [OI]; now inversion OI).
    assert (in_i32 2) by (unfold in_i32; lia).
    unfold as_int. rewrite (to_i32_id t) by auto. scan1. change (2 =? 1) with false. change (2 =? 2) with true. cbv iota.
    rewrite load_nzb_ok by auto. reflexivity.
  - assert (in_i32 (d_id d)) by (now destruct OK).
    assert (in_i32 3) by (unfold in_i32; lia).
    unfold as_int. rewrite (to_i32_id t) by auto. scan1.
    change (3 =? 1) with false. change (3 =? 2) with false. change (3 =? 3) with true. cbv iota.
    rewrite load_dup_ok by auto. reflexivity.
Qed.

Lemma load_history_ok servers l rest : Forall (hentry_ok servers) l -> count_ok l ->
  load_history servers (cl (history_lines l) ++ rest) = Some (map (fresh_h servers) l, rest).
Proof.
  intros F C. unfold load_history, history_lines. pose proof (count_range _ C). scan1. rewrite Nat2Z.id.
  rewrite (repeat_load_lines _ hentry_lines (fresh_h servers) (hentry_ok servers)); auto using load_hentry_ok.
Qed.

Lemma hentry_fit servers h : hentry_ok servers h -> Forall fits (hentry_lines h).
Proof.
  destruct h as [t [n|n|d]]; intros [RT OK]; cbn [fst snd] in *; unfold hentry_lines; cbn [fst snd]; unfold as_int;
    rewrite (to_i32_id t) by auto.
  - destruct OK as [OK _]. assert (in_i32 (n_id n)) by (destruct OK as [OI]; now inversion OI).
    assert (in_i32 1) by (unfold in_i32; lia). apply Forall_cons; [nfit | eapply nzb_fit; eauto].
  - destruct OK as [OK _]. assert (in_i32 (n_id n)) by (destruct OK as [OI]; now inversion OI).
    assert (in_i32 2) by (unfold in_i32; lia). apply Forall_cons; [nfit | eapply nzb_fit; eauto].
  - destruct OK as (A & B & C & D & E & F & G & [_ H] & [_ I]).
    assert (in_i32 3) by (unfold in_i32; lia). destruct (split_ok _ C) as (S1 & S2 & S3).
    unfold dup_lines. apply Forall_cons; [nfit|]. apply Forall_cons; [nfit|].
    apply Forall_cons; [unfold fits; lia|]. apply Forall_cons; [unfold fits; lia | constructor].
Qed.

Lemma history_fit servers l : Forall (hentry_ok servers) l -> count_ok l -> Forall fits (history_lines l).
Proof.
  intros F C. unfold history_lines. pose proof (count_range _ C). apply Forall_cons; [nfit|].
  eapply forall_flat_map; [|exact F]. intros; eapply hentry_fit; eauto.
Qed.

Lemma fresh_h_same servers h : hentry_ok servers h -> same_hentry h (fresh_h servers h).
Proof.
  destruct h as [t [n|n|d]]; intros [RT OK]; cbn [fst snd] in *; (split; [reflexivity|]); cbn [snd fresh_h]; try reflexivity.
  - destruct OK as [OK NP]. destruct (fresh_same servers n OK). unfold fresh, reload in *. cbn in *. rewrite NP in *.
    constructor; cbn; auto. now rewrite NP.
  - destruct OK as [OK NP]. now apply fresh_same.
Qed.

Lemma history_reload servers l : Forall (hentry_ok servers) l -> count_ok l ->
  exists out l', print_lines (history_lines l) = Some out /\
    (forall rest, load_history servers (out ++ rest) = Some (l', rest)) /\ Forall2 same_hentry l l'.
Proof.
  intros F C. exists (cl (history_lines l)), (map (fresh_h servers) l).
  split; [apply print_cl; eapply history_fit; eauto|]. split; [intros; now apply load_history_ok|].
  induction F; cbn [map]; constructor; auto using fresh_h_same. apply IHF. unfold count_ok in *. cbn [length] in C. lia.
Qed.
