From Verif Require Import Base InfoModel InfoSpec InfoProofs StatsModel StatsSpec StatsProofs StatsProofs2
  HistModel HistSpec HistProofs3.
From Coq Require Import Permutation.
Open Scope list_scope.
Open Scope Z_scope.

Lemma all_counted : forall p l, arts_count p l = Z.of_nat (length l) ->
  Forall (fun a : art => p (snd a) = true) l.
Proof.
  intros p l. unfold arts_count. induction l as [|a l IH]; intro H; [constructor|].
  cbn [filter length] in H. destruct (p (snd a)) eqn:E.
  - constructor; auto. apply IH. cbn [length] in H. lia.
  - exfalso. assert (L : (length (filter (fun a : art => p (snd a)) l) <= length l)%nat).
    { clear. induction l as [|b l IH]; cbn; [lia|]. destruct (p (snd b)); cbn; lia. }
    cbn [length] in H. lia.
Qed.

Lemma none_counted : forall p l, arts_count p l = 0 -> Forall (fun a : art => p (snd a) = false) l.
Proof.
  intros p l. unfold arts_count. induction l as [|a l IH]; intro H; [constructor|].
  cbn [filter] in H. destruct (p (snd a)) eqn:E; cbn [length] in H; [lia|].
  constructor; auto.
Qed.

Lemma erased_sums : forall l,
  arts_size good_art (map (fun a : art => (fst a, aiUndefined)) l) = 0 /\
  arts_size bad_art (map (fun a : art => (fst a, aiUndefined)) l) = 0 /\
  arts_count good_art (map (fun a : art => (fst a, aiUndefined)) l) = 0 /\
  arts_count bad_art (map (fun a : art => (fst a, aiUndefined)) l) = 0 /\
  arts_size open_art (map (fun a : art => (fst a, aiUndefined)) l) = arts_size (fun _ => true) l.
Proof.
  induction l as [|[n st] l IH]; [cbn; lia|].
  cbn [map fst]. rewrite !arts_size_cons, !arts_count_cons. cbn. lia.
Qed.

Lemma all_sums : forall l,
  arts_size (fun _ => true) l = arts_size open_art l + arts_size good_art l + arts_size bad_art l.
Proof.
  induction l as [|[n st] l IH]; [cbn; lia|]. rewrite !arts_size_cons. destruct st; cbn; lia.
Qed.

(** The description of a file is a file nothing is known of. *)
Lemma described_ok : forall f d, file_ok f -> described f d -> file_ok d.
Proof.
  intros f d [] (D1 & D2 & D3 & D4 & D5 & D6 & D7).
  destruct (erased_sums (f_arts f)) as (E1 & E2 & E3 & E4 & E5). pose proof (all_sums (f_arts f)) as A.
  constructor; rewrite ?D6, ?D7, ?E1, ?E2, ?E3, ?E4, ?E5, ?map_length; lia.
Qed.

Lemma recorded_ok : forall f d, file_ok f -> recorded f d -> file_ok d.
Proof.
  intros f d [] (D1 & D2 & D3 & D4 & D5 & D6 & D7).
  constructor; rewrite ?D6, ?D7; lia.
Qed.

(** Resetting the articles of a file that is not taken as failed as a whole. *)
Lemma reset_ok : forall rf gn f g, file_ok f -> f_num f FActive = 0 ->
  let '(f', g') := reset_articles false rf gn f g in
  file_ok f' /\ f_num f' FActive = 0 /\ f_id f' = f_id f /\ f_par f' = f_par f /\ f_paused f' = f_paused f /\
  f_extra f' = f_extra f /\
  (forall x, match x with
             | FSize | FMissed | FTotal | FMissedArt => f_num f' x = f_num f x
             | _ => True
             end) /\
  f_arts f' = map (renew false rf gn) (f_arts f) /\
  g_files g' = g_files g /\ g_done g' = g_done g /\ g_cur g' = g_cur g /\
  g_srv g' = list_op (g_srv g) (f_srv f) soSubtract /\
  (forall x, saved x -> g_st g' x = g_st g x - finished x f + queued x f').
Proof.
  intros rf gn f g F A. unfold reset_articles.
  pose proof (reset_loop_ok false rf gn (f_arts f) f) as R. cbn zeta in R.
  destruct (reset_loop false rf gn f (f_arts f)) as [f2 arts]. cbn [fst snd] in R.
  destruct R as (R0 & R1 & R2 & R3 & R4 & R5 & R6 & R7).
  destruct (renew_sums false rf gn (f_arts f)) as (S1 & S2 & S3 & S4 & S5).
  destruct (rsum_parts false rf gn (f_arts f) eq_refl) as (T1 & T2 & T3 & T4 & T5).
  destruct F.
  repeat split; try (cbn [f_id f_par f_paused f_extra with_arts f_arts]; congruence).
  1-9: cbn [with_arts f_num f_arts]; rewrite ?R7, ?R0, ?map_length; lia.
  - cbn [with_arts f_num]. rewrite R7. lia.
  - intro x. destruct x; auto; cbn [with_arts f_num]; rewrite R7; lia.
  - intros x S. gcbn. rewrite bump_delta, delta_app, delta_if.
    destruct x; cbn [saved] in S; try tauto;
      unfold if_par; cbn [delta fld_eqb fld_tag Nat.eqb queued finished with_arts f_num f_par]; unfold if_par;
      cbn [with_arts f_par]; rewrite ?R7, ?R2;
      destruct (f_par f); lia.
Qed.

(** A file all articles of which failed. *)
Lemma reset_failed_ok : forall f d g, file_ok f -> f_num f FActive = 0 ->
  f_num f FTotal = f_num f FMissedArt + f_num f FFailArt -> described f d ->
  let '(f', g') := reset_articles true true true d g in
  file_ok f' /\ f_num f' FActive = 0 /\ f_id f' = f_id f /\ f_par f' = f_par f /\ f_paused f' = false /\
  f_extra f' = false /\
  (forall x, match x with
             | FSize | FMissed | FTotal | FMissedArt => f_num f' x = f_num f x
             | _ => True
             end) /\
  f_arts f' = map (fun a : art => (fst a, aiUndefined)) (f_arts f) /\
  g_files g' = g_files g /\ g_done g' = g_done g /\ g_cur g' = g_cur g /\
  g_srv g' = list_op (g_srv g) [] soSubtract /\
  (forall x, saved x -> g_st g' x = g_st g x - finished x f + queued x f').
Proof.
  intros f d g F A T D. pose proof F as F0. destruct F.
  destruct D as (D1 & D2 & D3 & D4 & D5 & D6 & D7).
  assert (B : Forall (fun a : art => bad_art (snd a) = true) (f_arts f)) by (apply all_counted; lia).
  assert (Z1 : arts_size open_art (f_arts f) = 0 /\ arts_size good_art (f_arts f) = 0 /\
               arts_count good_art (f_arts f) = 0 /\
               arts_size bad_art (f_arts f) = arts_size (fun _ => true) (f_arts f)).
  { clear - B. induction B as [|[n st] l B1 B2 IH]; [cbn; lia|].
    rewrite !arts_size_cons, !arts_count_cons. destruct st; cbn in B1; try discriminate.
    cbn [open_art good_art bad_art]. lia. }
  destruct Z1 as (Z1 & Z2 & Z3 & Z4).
  unfold reset_articles. cbn zeta.
  set (f1 := with_num _ d).
  assert (N1 : forall x, f_num f1 x = match x with
     | FSize | FMissed | FTotal | FMissedArt => f_num f x
     | FFail => f_num f FSize - f_num f FMissed
     | FFailArt | FCompl => f_num f FTotal - f_num f FMissedArt
     | _ => 0 end).
  { intro x. subst f1. destruct x; cbn; rewrite ?D7; lia. }
  assert (A1 : f_arts f1 = map (fun a : art => (fst a, aiUndefined)) (f_arts f)) by exact D6.
  pose proof (reset_loop_ok true true true (f_arts f1) f1) as R. cbn zeta in R.
  destruct (reset_loop true true true f1 (f_arts f1)) as [f2 arts]. cbn [fst snd] in R.
  destruct R as (R0 & R1 & R2 & R3 & R4 & R5 & R6 & R7).
  assert (U : forall l : list art, map (renew true true true) (map (fun a : art => (fst a, aiUndefined)) l) =
              map (fun a : art => (fst a, aiUndefined)) l).
  { intro l. rewrite map_map. apply map_ext. intro a. reflexivity. }
  assert (V : forall l : list art, 
     rsum true true true (fun _ => true) (map (fun a : art => (fst a, aiUndefined)) l) = arts_size (fun _ => true) l /\
     rsum true true true lost_art (map (fun a : art => (fst a, aiUndefined)) l) = arts_size (fun _ => true) l /\
     rsum true true true good_art (map (fun a : art => (fst a, aiUndefined)) l) = 0 /\
     rcnt true true true (fun _ => true) (map (fun a : art => (fst a, aiUndefined)) l) = Z.of_nat (length l) /\
     rcnt true true true lost_art (map (fun a : art => (fst a, aiUndefined)) l) = Z.of_nat (length l) /\
     rcnt true true true good_art (map (fun a : art => (fst a, aiUndefined)) l) = 0).
  { unfold rsum, rcnt. induction l as [|[n st] l IH]; [cbn; lia|].
    cbn [map fst]. rewrite !arts_size_cons, !arts_count_cons.
    cbn [resets andb lost_art good_art length]. lia. }
  rewrite A1 in *. rewrite U in R0.
  destruct (V (f_arts f)) as (V1 & V2 & V3 & V4 & V5 & V6).
  destruct (erased_sums (f_arts f)) as (E1 & E2 & E3 & E4 & E5).
  assert (P1 : f_par f1 = f_par f) by exact D2.
  repeat split; try (cbn [f_id f_par f_paused f_extra with_arts f_arts]; congruence).
  1-9: cbn [with_arts f_num f_arts]; rewrite ?R7, ?N1, ?R0, ?map_length; lia.
  - cbn [with_arts f_num]. rewrite R7, N1. lia.
  - cbn [f_id with_arts]. rewrite R1. exact D1.
  - cbn [f_paused with_arts]. rewrite R3. exact D3.
  - cbn [f_extra with_arts]. rewrite R4. exact D4.
  - intro x. destruct x; auto; cbn [with_arts f_num]; rewrite R7, N1; lia.
  - cbn [g_srv with_gsrv with_st]. f_equal. exact D5.
  - intros x S. gcbn. rewrite bump_delta, delta_app, delta_if.
    destruct x; cbn [saved] in S; try tauto;
      cbn [delta fld_eqb fld_tag Nat.eqb queued finished with_arts f_num f_par]; unfold if_par;
      cbn [with_arts f_par]; rewrite ?R7, ?R2, ?N1, ?P1; destruct (f_par f); lia.
Qed.

Lemma wanted_iff : forall w rf c, disk_has w c ->
  (wanted w rf c = true <-> exists f, load_completed w rf c = Some f).
Proof.
  intros w rf c [D1 D2]. unfold wanted, load_completed. cbn zeta.
  destruct (0 <? f_id (c_f c)); cbn [andb].
  2: { rewrite andb_false_r. split; [discriminate|]. intros (f & ?); discriminate. }
  rewrite andb_true_r.
  destruct (w_load w (f_id (c_f c))) as [d|] eqn:L.
  2: { split; [discriminate|]. intros (f & H). destruct (_ && _); discriminate. }
  destruct (c_status c); cbn [is_status negb andb orb].
  - split; eauto.
  - split; [discriminate|]. intros (f & ?); discriminate.
  - destruct (w_state w (f_id (c_f c))) as [d'|] eqn:S.
    + destruct (D2 _ eq_refl) as (_ & _ & _ & _ & _ & _ & N). rewrite N.
      destruct (rf || (0 <? f_num (c_f c) FRem)); split; eauto; try discriminate. intros (f & ?); discriminate.
    + split; [discriminate|]. intros (f & ?); discriminate.
  - destruct rf; split; eauto; try discriminate. intros (f & ?); discriminate.
Qed.

Lemma undefined_arts : forall f, file_ok f -> Forall (fun a : art => snd a <> aiRunning) (f_arts f) ->
  f_num f FSuccArt = 0 -> f_num f FFailArt = 0 ->
  Forall (fun a : art => snd a = aiUndefined) (f_arts f).
Proof.
  intros f F R S B. destruct F.
  assert (G1 : arts_count good_art (f_arts f) = 0) by lia.
  assert (G2 : arts_count bad_art (f_arts f) = 0) by lia.
  apply none_counted in G1. apply none_counted in G2.
  rewrite Forall_forall in *. intros a I. specialize (R a I). specialize (G1 a I). specialize (G2 a I).
  cbv beta in *. destruct (snd a); cbn in G1, G2; congruence.
Qed.

Lemma take_back : forall w rf c f g, left_queue c -> disk_has w c -> load_completed w rf c = Some f ->
  let '(f', g') := reset_articles (is_status (c_status c) cfFailure) rf (output_gone w f) f g in
  back w rf c f' /\ f_num f' FActive = 0 /\
  g_files g' = g_files g /\ g_done g' = g_done g /\ g_cur g' = g_cur g /\
  g_srv g' = list_op (g_srv g) (match c_status c with cfPartial => f_srv (c_f c) | _ => [] end) soSubtract /\
  (forall x, saved x -> g_st g' x = g_st g x - finished x (c_f c) + queued x f').
Proof.
  intros w rf c f g (F & R & A & St) [D1 D2] L. unfold load_completed in L.
  destruct (0 <? f_id (c_f c)); [|now rewrite andb_false_r in L].
  rewrite andb_true_r in L.
  destruct (w_load w (f_id (c_f c))) as [d|] eqn:Ld.
  2: { destruct (_ && _) in L; discriminate. }
  specialize (D1 _ eq_refl).
  destruct (c_status c) eqn:Es; cbn [is_status negb andb orb] in *; try discriminate.
  - (* never started *)
    injection L as <-. destruct St as [St1 St2].
    pose proof (undefined_arts _ F R St1 St2) as U.
    pose proof D1 as (E1 & E2 & E3 & E4 & E5 & E6 & E7).
    assert (A0 : f_num d FActive = 0) by (rewrite E7; reflexivity).
    pose proof (reset_ok rf (output_gone w d) d g (described_ok _ _ F D1) A0) as K.
    destruct (reset_articles false rf (output_gone w d) d g) as [f' g'].
    destruct K as (K1 & K2 & K3 & K4 & K5 & K6 & K7 & K8 & K9 & K10 & K11 & K12 & K13).
    assert (Sa : forall x, finished x d = finished x (c_f c)).
    { intro x. destruct F. assert (f_num (c_f c) FSucc = 0 /\ f_num (c_f c) FFail = 0) as [Q1 Q2].
      { rewrite fo_succ, fo_fail.
        destruct (arts_none good_art _ U eq_refl) as [? _]. destruct (arts_none bad_art _ U eq_refl) as [? _]. auto. }
      unfold finished, if_par. rewrite E2. destruct x; rewrite ?E7; try reflexivity; try lia; destruct (f_par (c_f c)); lia. }
    unfold back; repeat apply conj; try exact K1; try congruence.
    + intro x. specialize (K7 x). destruct x; auto; rewrite K7, E7; reflexivity.
    + rewrite K8, E6, map_map. apply map_ext_in. intros a I. rewrite Forall_forall in U. rewrite (U a I).
      unfold renew. cbn [fst snd resets again]. rewrite andb_false_r. reflexivity.
    + intros x Sx. rewrite K13, Sa by exact Sx. reflexivity.
  - (* partially *)
    destruct (w_state w (f_id (c_f c))) as [d'|] eqn:Ls; [|discriminate].
    specialize (D2 _ eq_refl).
    destruct (rf || (0 <? f_num d' FRem)); [|discriminate]. injection L as <-.
    pose proof D2 as (E1 & E2 & E3 & E4 & E5 & E6 & E7).
    assert (A0 : f_num d' FActive = 0) by (rewrite E7; reflexivity).
    pose proof (reset_ok rf (output_gone w d') d' g (recorded_ok _ _ F D2) A0) as K.
    assert (O : output_gone w d' = negb (has_data w (c_f c))).
    { unfold output_gone, has_data. rewrite E7, E1.
      destruct (0 <? f_num (c_f c) FSuccArt); reflexivity. }
    rewrite O in *.
    destruct (reset_articles false rf (negb (has_data w (c_f c))) d' g) as [f' g'].
    destruct K as (K1 & K2 & K3 & K4 & K5 & K6 & K7 & K8 & K9 & K10 & K11 & K12 & K13).
    assert (Sa : forall x, finished x d' = finished x (c_f c)).
    { intro x. unfold finished, if_par. rewrite E2. destruct x; rewrite ?E7; reflexivity. }
    unfold back; repeat apply conj; try exact K1; try congruence.
    + intro x. specialize (K7 x). destruct x; auto; rewrite K7, E7; reflexivity.
    + rewrite K8, E6. apply map_ext. intros [n st]. unfold renew. cbn [fst snd].
      destruct st, rf, (has_data w (c_f c)); reflexivity.
    + intros x Sx. rewrite K13, Sa by exact Sx. reflexivity.
  - (* failed *)
    destruct rf; [|discriminate]. injection L as <-.
    pose proof D1 as (E1 & E2 & E3 & E4 & E5 & E6 & E7).
    assert (O : output_gone w d = true) by (unfold output_gone; rewrite E7; reflexivity).
    rewrite O.
    pose proof (reset_failed_ok (c_f c) d g F A St D1) as K.
    destruct (reset_articles true true true d g) as [f' g'].
    destruct K as (K1 & K2 & K3 & K4 & K5 & K6 & K7 & K8 & K9 & K10 & K11 & K12 & K13).
    unfold back; repeat apply conj; try exact K1; try congruence.
    + intro x. specialize (K7 x). destruct x; auto.
    + rewrite K8. apply map_ext_in. intros [n st] I. cbn [fst snd].
      destruct F. assert (B : Forall (fun a : art => bad_art (snd a) = true) (f_arts (c_f c))) by (apply all_counted; lia).
      rewrite Forall_forall in B. specialize (B _ I). cbn in B. destruct st; try discriminate B.
      cbn [again]. rewrite andb_false_r. reflexivity.
    + auto.
Qed.

Lemma retry_loop : forall w rf l g, Forall left_queue l -> Forall (disk_has w) l ->
  let '(g1, l1) := retry_files w rf g l in
  l1 = filter (fun c => negb (wanted w rf c)) l /\
  (exists new, g_files g1 = g_files g ++ new /\ Forall2 (back w rf) (filter (wanted w rf) l) new) /\
  g_done g1 = g_done g /\ g_cur g1 = g_cur g /\
  g_srv g1 = fold_left (fun s c => list_op s (match c_status c with cfPartial => f_srv (c_f c) | _ => [] end) soSubtract)
               (filter (wanted w rf) l) (g_srv g) /\
  (forall x, saved x -> g_st g1 x - total (queued x) (g_files g1) - total (finished x) (map c_f l1) =
     g_st g x - total (queued x) (g_files g) - total (finished x) (map c_f l)).
Proof.
  intros w rf. induction l as [|c l IH]; intros g LQ DH.
  - cbn. repeat split; auto. exists []. rewrite app_nil_r. split; auto.
  - inversion LQ as [|? ? LQ1 LQ2]; subst. inversion DH as [|? ? DH1 DH2]; subst.
    cbn [retry_files filter]. pose proof (wanted_iff w rf c DH1) as W.
    destruct (load_completed w rf c) as [f|] eqn:L.
    + assert (Wt : wanted w rf c = true) by (apply W; eauto). rewrite Wt. cbn [negb].
      pose proof (take_back w rf c f g LQ1 DH1 L) as K.
      destruct (reset_articles _ rf (output_gone w f) f g) as [f' g']. destruct K as (K1 & K2 & K3 & K4 & K5 & K6 & K7).
      specialize (IH (with_files (g_files g' ++ [f']) g') LQ2 DH2).
      destruct (retry_files w rf (with_files (g_files g' ++ [f']) g') l) as [g1 l1].
      destruct IH as (I1 & (new & I2 & I2') & I3 & I4 & I5 & I6).
      cbn [g_files g_done g_cur g_srv g_st with_files] in *.
      repeat split; try congruence.
      * exists (f' :: new). rewrite I2, K3, <- app_assoc. split; auto.
      * cbn [fold_left]. rewrite I5, K6. reflexivity.
      * intros x S. rewrite I6 by exact S. rewrite K7, K3, total_app, total_cons by exact S. cbn [map].
        rewrite total_cons. cbn. lia.
    + assert (Wt : wanted w rf c = false).
      { destruct (wanted w rf c); auto. destruct W as [W _]. destruct (W eq_refl); discriminate. }
      rewrite Wt. cbn [negb].
      specialize (IH g LQ2 DH2). destruct (retry_files w rf g l) as [g1 l1].
      destruct IH as (I1 & I2 & I3 & I4 & I5 & I6).
      repeat split; auto; try congruence.
      intros x S. specialize (I6 x S). cbn [map]. rewrite !total_cons. lia.
Qed.

Lemma retry_ok : forall w rf g l rest, Forall left_queue l -> Forall (disk_has w) l ->
  g_files g = [] -> history_sums g (map c_f l ++ rest) ->
  let '(g', l') := retry w rf g l in
  l' = filter (fun c => negb (wanted w rf c)) l /\
  Forall2 (back w rf) (filter (wanted w rf) l) (g_files g') /\
  (forall x, g_st g' x = summary x (g_files g') (map c_f l' ++ rest)).
Proof.
  intros w rf g l rest LQ DH E H. unfold retry.
  pose proof (retry_loop w rf l g LQ DH) as K. destruct (retry_files w rf g l) as [g1 l1].
  destruct K as (K1 & (new & K2 & K2') & K3 & K4 & K5 & K6).
  rewrite E in K2. cbn [app] in K2. rewrite E in K6.
  split; [exact K1|]. split.
  - change (g_files (update_current g1)) with (g_files g1). congruence.
  - intro x. change (g_st (update_current g1) x) with (g_st (update_current (with_done (map c_f l1 ++ rest) g1)) x).
    rewrite recount_ok; [reflexivity|].
    intros y S. cbn [g_st g_files g_done with_done]. unfold summary.
    specialize (K6 y S). rewrite (H y S) in K6. rewrite !total_app in *. cbn [total map fold_right] in K6.
    change (total (queued y) []) with 0 in K6. lia.
Qed.
