(** Proofs about saved files and their download state. *)
From Verif Require Import Base NumFmt CodecModel InfoModel LineModel LineSpec LineProofs DiskModel DiskSpec DiskProofs DiskProofs2 FileStateModel FileStateSpec.

Ltac read2 := rewrite cl_cons, read_1k by (first [assumption | apply opt_text_short; assumption]); cbv beta iota.

Lemma load_text_ok acc s rest : short_text s -> load_text acc (cl [s] ++ rest) = Some (acc ++ [s], rest).
Proof. intros H. unfold load_text. read2. now rewrite cl_nil. Qed.

Lemma load_part_ok acc p rest : part_ok p -> load_part acc (cl (part_lines p) ++ rest) = Some (acc ++ [p], rest).
Proof.
  intros (A & B & C). unfold load_part, part_lines. scan1. read2. rewrite cl_nil. now destruct p.
Qed.

Lemma opt_ne o : opt_text o -> match o with Some s => s <> [] | None => True end.
Proof. destruct o; cbn; tauto. Qed.

Lemma flat_single l : l = flat_map (fun s : list Z => [s]) l.
Proof. rewrite <- map_single. symmetry. apply map_id. Qed.

Lemma finfo_reload f : finfo_ok f ->
  exists out, print_lines (finfo_lines f) = Some out /\ forall rest, load_finfo (out ++ rest) = Some (f, rest).
Proof.
  intros (A & B & C & D & E & F & G & H & I & J & K & L).
  destruct (split_ok _ E) as (E1 & E2 & E3). destruct (split_ok _ F) as (F1 & F2 & F3).
  pose proof b2z_range as BR. pose proof (BR (fi_confirmed f)). pose proof (BR (fi_par f)).
  pose proof (count_range _ J). pose proof (count_range _ L).
  assert (T : as_int (fi_time f) = fi_time f) by now apply to_i32_id.
  exists (cl (finfo_lines f)). split.
  - apply print_cl. unfold finfo_lines. rewrite T. unfold u64s. cbn [flat_map].
    apply opt_text_short in C as [_ C]. destruct A as [_ A], B as [_ B].
    apply Forall_app; split.
    { cbn [app]. repeat (apply Forall_cons; [first [nfit | unfold fits; lia] |]). apply Forall_nil. }
    apply Forall_app; split.
    { apply Forall_cons; [nfit|]. eapply Forall_impl; [|exact I]. intros s [_ X]. unfold fits. lia. }
    apply Forall_cons; [nfit|]. eapply forall_flat_map; [|exact K].
    intros p (X & Y & [_ W]). unfold part_lines. apply Forall_cons; [nfit|].
    apply Forall_cons; [unfold fits; lia | constructor].
  - intros rest. unfold load_finfo, finfo_lines. rewrite cl_app.
    read2. read2. read2. rewrite T. scan1. unfold u64s. cbn [flat_map app].
    scan1. scan1. scan1. scan1. rewrite cl_nil. scan1. rewrite Nat2Z.id. rewrite cl_app.
    rewrite (flat_single (fi_groups f)) at 2.
    rewrite (repeat_load_lines load_text _ (fun s => s) short_text) by auto using load_text_ok. cbv beta iota.
    scan1. rewrite Nat2Z.id.
    rewrite (repeat_load_lines load_part part_lines (fun s => s) part_ok) by auto using load_part_ok.
    cbn [app]. rewrite !map_id, !z2b_b2z, E3, F3, optstr_ostr by now apply opt_ne. now destruct f.
Qed.

(** ** Articles *)

Definition defd (a : fart) : bool := negb (a_status a =? aiUndefined).
Definition ndef (l : list fart) : Z := Z.of_nat (length (filter defd l)).

Lemma ndef_app a b : ndef (a ++ b) = ndef a + ndef b.
Proof. unfold ndef. rewrite filter_app, app_length. lia. Qed.

Lemma ndef_le l : ndef l <= Z.of_nat (length l).
Proof. unfold ndef. induction l as [|a l IH]; cbn [filter length]; [lia|]. destruct (defd a); cbn [length]; lia. Qed.

(** Whatever the file contains, an article stays undefined. *)
Lemma load_arts_inv size : 1 <= size -> forall k acc done f arts done' f',
  repeat_load k (load_art false size) (acc, done) f = Some ((arts, done'), f') ->
  done = ndef acc -> done <= size - 1 ->
  done' = ndef arts /\ done' <= size - 1 /\ length arts = (length acc + k)%nat.
Proof.
  intros Sz; induction k as [|k IH]; intros acc done f arts done' f' H E L; cbn [repeat_load] in H.
  - inversion H; subst. repeat split; auto; lia.
  - destruct (load_art false size (acc, done) f) as [[[acc1 done1] f1]|] eqn:S1; [|discriminate].
    unfold load_art in S1. destruct (scan_line [CI; CU; CI; CU] f) as [[[|st [|off [|sz [|crc [|]]]]] f2]|]; try discriminate.
    cbn [fst snd] in S1. inversion S1; subst acc1 done1 f1; clear S1.
    assert (X : (if kept_status false size done st =? aiUndefined then done else done + 1)
              = ndef (acc ++ [mkArt (kept_status false size done st) off sz crc])).
    { rewrite ndef_app. unfold ndef at 2. cbn [filter defd a_status]. unfold defd. cbn [a_status].
      destruct (kept_status false size done st =? aiUndefined); cbn; lia. }
    assert (Y : (if kept_status false size done st =? aiUndefined then done else done + 1) <= size - 1).
    { unfold kept_status. destruct (Z.eqb_spec done (size - 1)); cbn [andb negb].
      - rewrite Z.eqb_refl. lia.
      - clear X IH. match goal with |- (if ?c then _ else _) <= _ => destruct c end; lia. }
    destruct (IH _ _ _ _ _ _ H X Y) as (I1 & I2 & I3). split; [exact I1|]. split; [exact I2|].
    rewrite I3, app_length. cbn [length]. lia.
Qed.

Lemma ndef_ex l : ndef l < Z.of_nat (length l) -> Exists (fun a => a_status a = aiUndefined) l.
Proof.
  unfold ndef. induction l as [|a l IH]; cbn [filter length]; intros H; [lia|].
  unfold defd in H at 1. destruct (Z.eqb_spec (a_status a) aiUndefined); [now left|].
  right. apply IH. cbn [negb length] in H. lia.
Qed.

Lemma never_stuck base servers f s done rest :
  load_fstate false base servers f = Some (s, done, rest) -> fs_arts s <> [] ->
  Exists (fun a => a_status a = aiUndefined) (fs_arts s).
Proof.
  unfold load_fstate. intros H N.
  repeat match type of H with
  | match ?l with [] => _ | _ => _ end = Some _ => is_var l; destruct l; try discriminate
  | (if ?e then _ else _) = Some _ => destruct e; try discriminate
  | match repeat_load (Z.to_nat ?k) (load_art _ _) ?a ?f with _ => _ end = Some _ =>
      destruct (repeat_load (Z.to_nat k) (load_art false k) a f) as [[[arts dn] f9]|] eqn:R; [|discriminate]
  | match ?e with _ => _ end = Some _ => destruct e as [[? ?]|]; try discriminate
  end.
  inversion H; subst; cbn [fs_arts] in *.
  match type of R with repeat_load (Z.to_nat ?size) _ _ _ = _ =>
    destruct (Z.le_gt_cases 1 size) as [S1|S1];
    [pose proof (load_arts_inv size S1 _ _ _ _ _ _ _ R) as K
    | replace (Z.to_nat size) with 0%nat in R by lia; cbn [repeat_load] in R; inversion R; subst; contradiction] end.
  assert (E0 : ndef [] = 0) by reflexivity.
  destruct K as (K1 & K2 & K3); [now rewrite E0 | lia |].
  apply ndef_ex. rewrite <- K1, K3. cbn [length]. lia.
Qed.

(** ** Round trip of the state *)

Definition npend (l : list fart) : Z := Z.of_nat (length (filter (fun a => negb ((a_status a =? aiUndefined) || (a_status a =? aiRunning))) l)).

Definition rst (a : fart) : fart :=
  mkArt (if a_status a =? aiRunning then aiUndefined else a_status a) (a_offset a) (a_size a) (a_crc a).

Lemma rst_ok a : restarted a (rst a).
Proof.
  unfold restarted, rst, pending. cbn. repeat split; auto.
  - intros [->| ->]; reflexivity.
  - intros N. destruct (Z.eqb_spec (a_status a) aiRunning); [exfalso; auto | reflexivity].
Qed.

Lemma load_arts_ok completed size : forall l acc done rest, Forall art_ok l ->
  (completed = true \/ done + npend l <= size - 1) ->
  repeat_load (length l) (load_art completed size) (acc, done) (cl (map art_line l) ++ rest)
  = Some ((acc ++ map rst l, done + npend l), rest).
Proof.
  induction l as [|a l IH]; intros acc done rest F C; cbn [length repeat_load map].
  - rewrite cl_nil, app_nil_r. unfold npend. cbn [filter length]. rewrite Z.add_0_r. reflexivity.
  - inversion F as [|? ? (A1 & A2 & A3 & A4) F']; subst.
    assert (M : a_offset a mod 2 ^ 32 = a_offset a) by (apply Z.mod_small; exact A2).
    unfold load_art at 1, art_line at 1. rewrite M. scan1. cbn [fst snd].
    assert (NP : npend (a :: l) = npend l + (if (a_status a =? aiUndefined) || (a_status a =? aiRunning) then 0 else 1)).
    { unfold npend. cbn [filter]. destruct ((a_status a =? aiUndefined) || (a_status a =? aiRunning)); cbn [negb length]; lia. }
    assert (NN : 0 <= npend l) by (unfold npend; lia).
    assert (KS : kept_status completed size done (a_status a) = a_status (rst a)).
    { unfold kept_status, rst. cbn [a_status]. destruct C as [->|C]; [now rewrite andb_false_r|].
      destruct (Z.eqb_spec done (size - 1)); [|reflexivity]. destruct completed; [reflexivity|]. cbn [andb negb].
      rewrite NP in C. destruct (Z.eqb_spec (a_status a) aiUndefined) as [E|E].
      - rewrite E. reflexivity.
      - destruct (Z.eqb_spec (a_status a) aiRunning); [reflexivity|]. cbn [orb] in C. lia. }
    rewrite KS.
    assert (DN : (if a_status (rst a) =? aiUndefined then done else done + 1) =
                 done + (if (a_status a =? aiUndefined) || (a_status a =? aiRunning) then 0 else 1)).
    { unfold rst; cbn [a_status]. destruct (Z.eqb_spec (a_status a) aiRunning).
      - rewrite orb_true_r. cbn. lia.
      - rewrite orb_false_r. destruct (Z.eqb_spec (a_status a) aiUndefined); lia. }
    rewrite DN. rewrite IH; auto.
    + rewrite <- app_assoc. cbn [app map]. rewrite NP. f_equal. f_equal. f_equal. lia.
    + destruct C as [C|C]; [now left | right; rewrite NP in C; lia].
Qed.

Lemma npend_lt l : Exists pending l -> npend l <= Z.of_nat (length l) - 1.
Proof.
  unfold npend. intros E. induction E as [a l P|a l E IH]; cbn [filter length].
  - assert (X : (a_status a =? aiUndefined) || (a_status a =? aiRunning) = true)
      by (unfold pending in P; destruct P as [-> | ->]; reflexivity).
    rewrite X. cbn [negb].
    assert (K : (length (filter (fun a0 => negb ((a_status a0 =? aiUndefined)%Z || (a_status a0 =? aiRunning)%Z)) l) <= length l)%nat).
    { clear. induction l as [|b l IH]; cbn [filter length]; [lia|]. destruct (negb _); cbn [length]; lia. }
    lia.
  - destruct (negb _); cbn [length]; lia.
Qed.

Lemma fstate_reload completed servers s base : fstate_ok servers s ->
  (completed = true \/ Exists pending (fs_arts s)) ->
  (base = 0 \/ base = Z.of_nat (length (fs_arts s))) ->
  exists out, print_lines (fstate_lines s) = Some out /\
  forall rest, exists t done, load_fstate completed base servers (out ++ rest) = Some (t, done, rest) /\
    same_fstate s t /\ done = Z.of_nat (length (settled (fs_arts s))).
Proof.
  intros (A & B & C & D & E & F & G & H & I & J & K & L & M) P BS.
  destruct (split_ok _ C) as (C1 & C2 & C3). destruct (split_ok _ D) as (D1 & D2 & D3). destruct (split_ok _ E) as (E1 & E2 & E3).
  pose proof (b2z_range (fs_par s)) as BP. pose proof (count_range _ J) as CJ. pose proof (count_range _ M) as CM.
  exists (cl (fstate_lines s)). split.
  - apply print_cl. unfold fstate_lines, u64s. cbn [flat_map].
    destruct F as [_ F]. apply opt_text_short in G as [_ G]. apply opt_text_short in H as [_ H].
    apply Forall_app; split.
    { cbn [app]. repeat (apply Forall_cons; [first [nfit | unfold fits; lia] |]). apply Forall_nil. }
    apply Forall_app; split.
    { unfold stats_lines. apply Forall_cons; [nfit|]. rewrite Forall_map. eapply Forall_impl; [|exact I].
      intros x (X & Y & W). nfit. }
    apply Forall_cons; [nfit|]. rewrite Forall_map. eapply Forall_impl; [|exact L].
    intros a (X & Y & W & V). unfold art_line. rewrite Z.mod_small by exact Y. nfit.
  - intros rest. unfold load_fstate, fstate_lines. rewrite cl_app.
    scan1. unfold u64s. cbn [flat_map app]. scan1. read2. read2. read2. scan1. rewrite cl_nil. rewrite cl_app.
    unfold stats_lines. scan1. rewrite Nat2Z.id. rewrite load_stats_gen by auto.
    rewrite loaded_stats_new by auto. cbv beta iota. scan1.
    assert (BB : (base =? 0) || (Z.of_nat (length (fs_arts s)) <=? base) = true) by (destruct BS; subst; lia).
    rewrite BB. rewrite Nat2Z.id.
    rewrite load_arts_ok; auto.
    2:{ destruct P as [P|P]; [now left | right; pose proof (npend_lt _ P); lia]. }
    cbn [app]. rewrite C3, D3, E3, z2b_b2z, !optstr_ostr by (now apply opt_ne).
    eexists; eexists. split; [reflexivity|]. unfold same_fstate. cbn [fs_ok fs_bad fs_remaining fs_success fs_failed fs_name fs_hash fs_set fs_par fs_stats fs_arts].
    split; [|unfold npend, settled; lia]. repeat (split; [reflexivity|]).
    clear. induction (fs_arts s); cbn [map]; constructor; auto using rst_ok.
Qed.
