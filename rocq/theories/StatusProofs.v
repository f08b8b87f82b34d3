(** Proofs about health and status. *)
From Coq Require Import String.
From Verif Require Import Base StatusModel StatusSpec.

Lemma some_inj {A} (a b : A) : Some a = Some b -> a = b.
Proof. congruence. Qed.

(** ** Health *)
Lemma health_value s : sizes_ok s -> data_size s <> 0 ->
  calc_health s = Some ((data_size s - data_failed s) * 1000 / data_size s).
Proof.
  intros (P & F & D) N. unfold calc_health, data_size, data_failed in *.
  replace (z_size s =? z_par s) with false by lia. rewrite orb_false_r.
  set (n := z_size s - z_par s) in *. assert (Hn : 0 < n) by (unfold n; lia).
  destruct (Z.eqb_spec (z_failed s) 0) as [E|E].
  - replace (z_failed s - z_par_failed s) with 0 by lia. rewrite Z.sub_0_r, Z.mul_comm, Z.div_mul by lia. reflexivity.
  - replace (n =? 0) with false by lia. set (f := z_failed s - z_par_failed s) in *.
    rewrite Z.quot_div_nonneg by nia.
    destruct (0 <? f) eqn:Ef; [|rewrite andb_false_r; reflexivity].
    assert (L : (n - f) * 1000 / n < 1000) by (apply Z.div_lt_upper_bound; nia).
    replace ((n - f) * 1000 / n =? 1000) with false by lia. reflexivity.
Qed.
Lemma health_zero s : sizes_ok s -> data_size s = 0 -> calc_health s = Some 1000.
Proof. intros _ E. unfold calc_health, data_size in *. replace (z_size s =? z_par s) with true by lia. rewrite orb_true_r. reflexivity. Qed.

Lemma health_range s : sizes_ok s -> exists h, calc_health s = Some h /\ 0 <= h <= 1000 /\ (h = 1000 <-> data_failed s = 0).
Proof.
  intros O. destruct (Z.eq_dec (data_size s) 0) as [E|E].
  - rewrite health_zero by assumption. exists 1000. split; [reflexivity|]. split; [lia|].
    destruct O as (P & F & D). unfold data_size, data_failed in *. lia.
  - rewrite health_value by assumption. eexists. split; [reflexivity|].
    destruct O as (P & F & D). unfold data_size, data_failed in *.
    set (n := z_size s - z_par s) in *. set (f := z_failed s - z_par_failed s) in *.
    assert (Hn : 0 < n) by lia. split.
    + split; [apply Z.div_pos; nia|]. apply Z.div_le_upper_bound; nia.
    + split; intros H.
      * destruct (Z.eq_dec f 0); [assumption|]. assert ((n - f) * 1000 / n < 1000) by (apply Z.div_lt_upper_bound; nia). lia.
      * rewrite H, Z.sub_0_r, Z.mul_comm, Z.div_mul by lia. reflexivity.
Qed.

Lemma health_mono s s' h h' : sizes_ok s -> sizes_ok s' -> z_size s = z_size s' -> z_par s = z_par s' ->
  data_failed s <= data_failed s' -> calc_health s = Some h -> calc_health s' = Some h' -> h' <= h.
Proof.
  intros O O' E1 E2 L H H'. destruct (Z.eq_dec (data_size s) 0) as [E|E].
  - rewrite health_zero in H by assumption. rewrite health_zero in H' by (try assumption; unfold data_size in *; lia).
    injection H as <-. injection H' as <-. lia.
  - assert (E' : data_size s' <> 0) by (unfold data_size in *; lia).
    assert (ED : data_size s' = data_size s) by (unfold data_size in *; lia).
    rewrite health_value in H, H' by assumption. injection H as <-. injection H' as <-.
    rewrite ED. assert (0 < data_size s) by (destruct O as (P & F & D); unfold data_size in *; lia).
    apply Z.div_le_mono; [lia|nia].
Qed.

(** ** Critical health *)
Lemma critical_value e s : sizes_ok s -> data_size s <> 0 ->
  calc_critical e s =
  Some (if z_size s <? 2 * par_good s then 0
        else let c := (z_size s - 2 * par_good s) * 1000 / (z_size s - par_good s) in
             if c =? 1000 then (if 0 <? z_par s then 999 else if e then 850 else 1000) else c).
Proof.
  intros (P & F & D) N. unfold calc_critical, par_good, data_size in *.
  replace (z_size s =? 0) with false by lia. replace (z_size s =? z_par s) with false by lia.
  set (g := z_par s - z_par_failed s) in *. replace (z_size s - g =? 0) with false by (unfold g; lia).
  rewrite (Z.mul_comm g 2). destruct (z_size s <? 2 * g) eqn:L; [reflexivity|].
  rewrite Z.quot_div_nonneg by (unfold g in *; lia).
  set (c := (z_size s - 2 * g) * 1000 / (z_size s - g)). clearbody c. cbv zeta.
  destruct (Z.eqb_spec c 1000) as [->|Nc]; cbn [andb].
  - destruct (0 <? z_par s); [reflexivity|]. destruct e; reflexivity.
  - replace (c =? 1000) with false by lia. reflexivity.
Qed.
Lemma critical_range e s : sizes_ok s -> exists c, calc_critical e s = Some c /\ 0 <= c <= 1000.
Proof.
  intros O. destruct (Z.eq_dec (data_size s) 0) as [E|E].
  - unfold calc_critical, data_size in *. destruct (Z.eqb_spec (z_size s) 0); [eexists; split; [reflexivity|lia]|].
    replace (z_size s =? z_par s) with true by lia. eexists; split; [reflexivity|lia].
  - rewrite critical_value by assumption. eexists. split; [reflexivity|].
    destruct (z_size s <? 2 * par_good s) eqn:L; [lia|]. cbv zeta.
    assert (R : 0 <= (z_size s - 2 * par_good s) * 1000 / (z_size s - par_good s) <= 1000).
    { destruct O as (P & F & D). unfold par_good, data_size in *.
      set (g := z_par s - z_par_failed s) in *. assert (0 < z_size s - g) by (unfold g; lia).
      split; [apply Z.div_pos; lia|]. apply Z.div_le_upper_bound; unfold g in *; lia. }
    destruct (_ =? 1000); [|exact R]. destruct (0 <? z_par s); [lia|]. destruct e; lia.
Qed.

Lemma repairable e s h c : sizes_ok s -> z_par_failed s = 0 -> data_failed s <= par_good s ->
  calc_health s = Some h -> calc_critical e s = Some c -> c <= h.
Proof.
  intros O PF R Hh Hc. destruct (Z.eq_dec (data_size s) 0) as [E|E].
  - rewrite health_zero in Hh by assumption. injection Hh as <-. destruct (critical_range e s O) as (c' & Hc' & B). rewrite Hc in Hc'. injection Hc' as <-. lia.
  - destruct (health_range s O) as (h' & Hh' & B & Full). assert (h' = h) by congruence. subst h'.
    rewrite health_value in Hh by assumption. apply some_inj in Hh.
    rewrite critical_value in Hc by assumption. apply some_inj in Hc.
    destruct (z_size s <? 2 * par_good s) eqn:L; [lia|]. cbv zeta in Hc.
    destruct O as (P & F & D). unfold par_good, data_size, data_failed in *.
    rewrite PF in *. rewrite !Z.sub_0_r in *.
    assert (M : (z_size s - 2 * z_par s) * 1000 / (z_size s - z_par s) <= h).
    { rewrite <- Hh. apply Z.div_le_mono; lia. }
    destruct (Z.eqb_spec ((z_size s - 2 * z_par s) * 1000 / (z_size s - z_par s)) 1000); [|lia].
    destruct (0 <? z_par s); [lia|]. destruct e; lia.
Qed.
Lemma unrepairable s h c : sizes_ok s -> z_par_failed s = 0 -> par_good s < data_failed s ->
  data_size s <= 1000 * (data_failed s - par_good s) ->
  calc_health s = Some h -> calc_critical false s = Some c -> h < c.
Proof.
  intros O PF R G Hh Hc. destruct (Z.eq_dec (data_size s) 0) as [E|E].
  - exfalso. destruct O as (P & F & D). unfold par_good, data_size, data_failed in *. lia.
  - destruct (health_range s O) as (h' & Hh' & B & Full). assert (h' = h) by congruence. subst h'.
    assert (NF : h <> 1000).
    { intros X. apply Full in X. destruct O as (P & F & D). unfold par_good, data_failed in *. lia. }
    rewrite health_value in Hh by assumption. apply some_inj in Hh.
    rewrite critical_value in Hc by assumption. apply some_inj in Hc.
    destruct (z_size s <? 2 * par_good s) eqn:L.
    { exfalso. destruct O as (P & F & D). unfold par_good, data_size, data_failed in *. lia. }
    cbv zeta in Hc. destruct O as (P & F & D). unfold par_good, data_size, data_failed in *.
    rewrite PF in *. rewrite !Z.sub_0_r in *.
    assert (M : h + 1 <= (z_size s - 2 * z_par s) * 1000 / (z_size s - z_par s)).
    { rewrite <- Hh. set (n := z_size s - z_par s) in *. assert (0 < n) by lia.
      replace ((n - z_failed s) * 1000 / n + 1) with (((n - z_failed s) * 1000 + 1 * n) / n) by (rewrite Z.div_add by lia; reflexivity).
      apply Z.div_le_mono; lia. }
    destruct (Z.eqb_spec ((z_size s - 2 * z_par s) * 1000 / (z_size s - z_par s)) 1000) as [X|X]; [|lia].
    destruct (0 <? z_par s) eqn:ZP; [|lia].
    (* 1000 with par data *)
    exfalso. assert ((z_size s - 2 * z_par s) * 1000 / (z_size s - z_par s) < 1000) by (apply Z.div_lt_upper_bound; lia). lia.
Qed.

(** ** Status *)
Lemma total_failure l : total_scripts l = srFailure <-> In srFailure l.
Proof.
  unfold total_scripts.
  assert (G : forall st, fold_left script_step l st = srFailure <-> st = srFailure \/ In srFailure l).
  { induction l as [|s l IH]; intros st; cbn [fold_left In].
    - tauto.
    - rewrite IH. destruct s, st; cbn [script_step]; intuition discriminate. }
  rewrite G. intuition discriminate.
Qed.

Ltac lit := match goal with
  | |- context [prefixb ?a ?b] => let r := eval vm_compute in (prefixb a b) in change (prefixb a b) with r
  end.
Definition word_of_status (t : list Z) : bool * bool * bool * bool :=
  (prefixb (str "SUCCESS/") t, prefixb (str "FAILURE/") t, prefixb (str "DELETED/") t, prefixb (str "WARNING/") t).

(** The first word of the status of an nzb download whose health and scripts are known. *)
Definition verdict (ignore : bool) (o : outcome) (h c : Z) (script : script_status) : bool * bool * bool * bool :=
  let S := (true, false, false, false) in let F := (false, true, false, false) in
  let D := (false, false, true, false) in let W := (false, false, false, true) in
  match o_mark o with
  | ksBad => F | ksGood | ksSuccess => S
  | ksNone =>
    match o_delete o with
    | dsHealth | dsBad | dsScan => F
    | dsManual | dsDupe | dsGood | dsCopy => D
    | dsNone =>
      match o_par o, o_unpack o, o_move o with
      | psFailure, _, _ | _, usFailure, _ | _, _, msFailure => F
      | psManual, _, _ | psRepairPossible, _, _ => W
      | (psNone | psSkipped), (usNone | usSkipped), _ =>
          if h <? c then F else if h <? 1000 then W else match script with srFailure => W | _ => S end
      | _, (usSpace | usPassword), _ => W
      | _, _, _ => match script with srFailure => W | _ => S end
      end
    end
  end.
Lemma text_verdict ignore o h c : o_kind o = nkNzb -> calc_health (o_sizes o) = Some h -> calc_critical false (o_sizes o) = Some c ->
  h <= 1000 ->
  exists t, text_status ignore o = Some t /\ t <> str "FAILURE/INTERNAL_ERROR" /\
    word_of_status t = verdict ignore o h c (if ignore then srSuccess else total_scripts (o_scripts o)).
Proof.
  intros K Hh Hc L. unfold text_status. rewrite K, Hh, Hc. cbv zeta.
  set (script := if ignore then srSuccess else total_scripts (o_scripts o)). clearbody script. clear Hh Hc.
  eexists. split; [reflexivity|]. unfold verdict, not_processed.
  destruct (o_mark o); try (split; [discriminate|reflexivity]).
  destruct (o_delete o); try (split; [discriminate|reflexivity]).
  destruct (o_par o), (o_unpack o), (o_move o); cbn [andb];
    try (split; [discriminate|reflexivity]);
    try (destruct (Z.ltb_spec h c); [split; [discriminate|reflexivity]|]);
    try (destruct (Z.ltb_spec h 1000); cbn [andb];
         [replace (c <=? h) with true by lia; split; [discriminate|reflexivity]|
          replace (h =? 1000) with true by lia]);
    destruct script; cbn [andb]; (split; [discriminate|reflexivity]).
Qed.

Ltac crush := repeat match goal with
  | H : _ \/ _ |- _ => destruct H
  | H : _ /\ _ |- _ => destruct H
  end; try discriminate; try contradiction; try lia; try congruence.
Lemma verdict_failure ignore o h c script : calc_health (o_sizes o) = Some h -> calc_critical false (o_sizes o) = Some c ->
  snd (fst (fst (verdict ignore o h c script))) = true <-> failed_download o.
Proof.
  intros Hh Hc. unfold verdict, failed_download.
  destruct (o_mark o); cbn [fst snd]; [|intuition discriminate|intuition discriminate|intuition discriminate].
  destruct (o_delete o); cbn [fst snd In];
    try (split; [intros _|reflexivity]; right; split; [reflexivity|]; left; tauto);
    try (split; [discriminate|]; intros [H|(_ & [H|(H & _)])]; [discriminate|intuition discriminate|discriminate]).
  unfold stage_failed, too_damaged, unprocessed. rewrite Hh, Hc.
  assert (T : (exists h0 c0, Some h = Some h0 /\ Some c = Some c0 /\ h0 < c0) <-> h < c).
  { split; [intros (x & y & X & Y & L); injection X as <-; injection Y as <-; exact L|]. intros L. exists h, c. auto. }
  rewrite T. clear T Hh Hc.
  destruct (o_par o), (o_unpack o), (o_move o); cbn [fst snd In];
    try (split; [intros _; right; split; [reflexivity|]; right; split; [reflexivity|]; left; tauto|reflexivity]);
    try (destruct script; (split; [discriminate|intros H; crush]));
    destruct (Z.ltb_spec h c); cbn [fst snd];
    try (split; [intros _; right; split; [reflexivity|]; right; split; [reflexivity|]; right; split; [tauto|intros X; crush]|reflexivity]);
    destruct (h <? 1000); try destruct script; (split; [discriminate|intros X; crush]).
Qed.
Lemma verdict_deleted ignore o h c script :
  snd (fst (verdict ignore o h c script)) = true <-> o_mark o = ksNone /\ deleted_by_user_or_dupe o.
Proof.
  unfold verdict, deleted_by_user_or_dupe.
  destruct (o_mark o); cbn [fst snd]; [|intuition discriminate|intuition discriminate|intuition discriminate].
  destruct (o_delete o); cbn [fst snd In]; try (intuition discriminate);
  destruct (o_par o), (o_unpack o), (o_move o); cbn [fst snd]; try (intuition discriminate);
  try (destruct (h <? c); cbn [fst snd]; [intuition discriminate|]; destruct (h <? 1000); cbn [fst snd]; [intuition discriminate|]);
  destruct script; cbn [fst snd]; intuition discriminate.
Qed.
Lemma verdict_success ignore o h c : calc_health (o_sizes o) = Some h -> calc_critical false (o_sizes o) = Some c -> h <= 1000 -> c <= 1000 ->
  fst (fst (fst (verdict ignore o h c (if ignore then srSuccess else total_scripts (o_scripts o))))) = true <->
  marked_ok o \/ all_went_well ignore o.
Proof.
  intros Hh Hc L L'. unfold verdict, marked_ok, all_went_well.
  assert (SC : (ignore = false -> ~ In srFailure (o_scripts o)) <-> (if ignore then srSuccess else total_scripts (o_scripts o)) <> srFailure).
  { rewrite <- total_failure. destruct ignore; [split; [discriminate|discriminate]|]. split; [auto|]. intros H _. exact H. }
  set (script := if ignore then srSuccess else total_scripts (o_scripts o)) in *. clearbody script. rewrite SC. clear SC.
  assert (H1000 : calc_health (o_sizes o) = Some 1000 <-> ~ h < 1000).
  { rewrite Hh. split; [intros X; injection X as ->; lia|]. intros X. f_equal. lia. }
  rewrite H1000. clear H1000.
  destruct (o_mark o); cbn [fst snd]; [|intuition discriminate|intuition discriminate|intuition discriminate].
  destruct (o_delete o); cbn [fst snd]; try (intuition discriminate).
  unfold stage_failed, unprocessed.
  destruct (o_par o), (o_unpack o), (o_move o); cbn [fst snd In]; try (intuition discriminate);
  try (destruct (Z.ltb_spec h c); cbn [fst snd];
       [split; [discriminate|]; intros [[X|X]|(_ & _ & _ & _ & _ & X & _)]; [discriminate|discriminate|exfalso; apply X; [tauto|lia]]|];
       destruct (Z.ltb_spec h 1000); cbn [fst snd];
       [split; [discriminate|]; intros [[X|X]|(_ & _ & _ & _ & _ & X & _)]; [discriminate|discriminate|exfalso; apply X; [tauto|lia]]|]);
  destruct script; cbn [fst snd]; intuition (try discriminate; try lia; try congruence).
Qed.

Lemma text_words ignore o : o_kind o = nkNzb -> sizes_ok (o_sizes o) ->
  exists t, text_status ignore o = Some t /\ t <> str "FAILURE/INTERNAL_ERROR" /\
    (says_failure t <-> failed_download o) /\
    (says_deleted t <-> o_mark o = ksNone /\ deleted_by_user_or_dupe o) /\
    (says_success t <-> marked_ok o \/ all_went_well ignore o) /\
    (says_warning t <-> ~ says_failure t /\ ~ says_deleted t /\ ~ says_success t).
Proof.
  intros K O. destruct (health_range _ O) as (h & Hh & Bh & _). destruct (critical_range false _ O) as (c & Hc & Bc).
  destruct (text_verdict ignore o h c K Hh Hc ltac:(lia)) as (t & Ht & Ni & W).
  exists t. split; [exact Ht|]. split; [exact Ni|].
  unfold says_failure, says_deleted, says_success, says_warning, starts_with. rewrite <- !prefixb_iff.
  unfold word_of_status in W.
  assert (W1 := f_equal (fun x => fst (fst (fst x))) W). assert (W2 := f_equal (fun x => snd (fst (fst x))) W).
  assert (W3 := f_equal (fun x => snd (fst x)) W). assert (W4 := f_equal snd W).
  cbv beta in W1, W2, W3. cbn [fst snd] in W1, W2, W3, W4.
  rewrite W1, W2, W3, W4.
  split; [apply verdict_failure; assumption|]. split; [apply verdict_deleted|].
  split; [apply verdict_success; try assumption; lia|].
  unfold verdict. destruct (o_mark o); cbn [fst snd]; try (intuition congruence).
  destruct (o_delete o); cbn [fst snd]; try (intuition congruence).
  destruct (o_par o), (o_unpack o), (o_move o); cbn [fst snd]; try (intuition congruence);
  try (destruct (h <? c); cbn [fst snd]; [intuition congruence|]; destruct (h <? 1000); cbn [fst snd]; [intuition congruence|]);
  destruct (if ignore then srSuccess else total_scripts (o_scripts o)); cbn [fst snd]; intuition congruence.
Qed.

Lemma success_is_dupe_success ignore o t : o_kind o = nkNzb -> sizes_ok (o_sizes o) ->
  ~ In (o_url o) [lsFailed; lsScanSkipped; lsScanFailed] ->
  text_status ignore o = Some t -> says_success t -> is_dupe_success o = Some true.
Proof.
  intros K O U Ht St. destruct (text_words ignore o K O) as (t' & Ht' & _ & _ & _ & Hs & _).
  assert (t' = t) by congruence. subst t'. apply Hs in St. clear Hs Ht Ht'.
  destruct (health_range _ O) as (h & Hh & Bh & _). destruct (critical_range true _ O) as (c & Hc & Bc).
  unfold is_dupe_success. rewrite Hh, Hc. f_equal.
  destruct St as [[M|M]|(M & D & F & P & UP & HH & _)]; [rewrite M; reflexivity|rewrite M; reflexivity|].
  rewrite M, D. unfold stage_failed, unprocessed in *. rewrite Hh in HH. cbn [In] in *.
  destruct (o_par o), (o_unpack o), (o_url o); try reflexivity; try (exfalso; tauto);
    (assert (X : Some h = Some 1000) by (apply HH; tauto); injection X as ->; replace (1000 <? c) with false by lia; reflexivity).
Qed.
Lemma dupe_failure ignore o t : o_kind o = nkNzb -> sizes_ok (o_sizes o) ->
  text_status ignore o = Some t -> (says_failure t \/ says_deleted t) ->
  o_move o <> msFailure -> ~ unprocessed o -> is_dupe_success o = Some false.
Proof.
  intros K O Ht St MV UN. destruct (text_words ignore o K O) as (t' & Ht' & _ & Hf & Hd & _).
  assert (t' = t) by congruence. subst t'. rewrite Hf, Hd in St. clear Hf Hd Ht Ht'.
  destruct (health_range _ O) as (h & Hh & Bh & _). destruct (critical_range true _ O) as (c & Hc & Bc).
  unfold is_dupe_success. rewrite Hh, Hc. f_equal. unfold failed_download, deleted_by_user_or_dupe, stage_failed in St.
  destruct St as [[M|(M & [D|(D & [[F|[F|F]]|[(F & _) _]])])]|(M & D)].
  - rewrite M. reflexivity.
  - rewrite M. cbn [In] in D. destruct (o_delete o); try reflexivity. crush.
  - rewrite M, D, F. reflexivity.
  - rewrite M, D, F. destruct (o_par o); reflexivity.
  - congruence.
  - contradiction.
  - rewrite M. cbn [In] in D. destruct (o_delete o); try reflexivity. crush.
Qed.

Lemma dupe_success_exact o : sizes_ok (o_sizes o) -> exists b, is_dupe_success o = Some b /\ (b = true <-> good_for_dupes o).
Proof.
  intros O. destruct (health_range _ O) as (h & Hh & Bh & _). destruct (critical_range true _ O) as (c & Hc & Bc).
  unfold is_dupe_success, good_for_dupes, marked_ok. rewrite Hh, Hc. eexists. split; [reflexivity|].
  destruct (o_mark o) eqn:M; try (intuition congruence).
  destruct (o_delete o) eqn:D; try (intuition congruence).
  assert (X : (forall h' c', Some h = Some h' -> Some c = Some c' -> c' <= h') <-> c <= h).
  { split; [intros X; apply X; reflexivity|]. intros X h' c' E1 E2. apply some_inj in E1. apply some_inj in E2. lia. }
  destruct (Z.ltb_spec h c) as [L | L].
  - assert (~ c <= h) by lia. clear L. cbn [In]. destruct (o_par o), (o_unpack o), (o_url o); cbn [negb orb]; intuition (try congruence).
  - cbn [In]. destruct (o_par o), (o_unpack o), (o_url o); cbn [negb orb]; intuition (try congruence).
Qed.

Lemma url_words ignore o : o_kind o = nkUrl -> exists t, text_status ignore o = Some t /\
  (says_deleted t <-> In (o_delete o) [dsManual; dsDupe; dsGood]) /\ ~ says_success t /\
  (~ says_deleted t -> (says_warning t <-> o_url o = lsScanSkipped) /\ (says_failure t <-> o_url o <> lsScanSkipped) /\
    (t = str "FAILURE/INTERNAL_ERROR" <-> ~ In (o_url o) [lsFailed; lsScanSkipped; lsScanFailed])).
Proof.
  intros K. unfold text_status. rewrite K. eexists. split; [reflexivity|].
  assert (W : forall a b r, length a = length b -> starts_with a (b ++ r) <-> a = b).
  { intros a b r L. split; [|intros ->; exists r; reflexivity]. intros [x E]. revert b L E. induction a as [|y a IH]; intros [|z b] L E; try discriminate; [reflexivity|].
    cbn [app] in E. injection E as -> E. f_equal. apply IH; [injection L; auto|exact E]. }
  assert (T : forall t, (exists w r, t = w ++ r /\ length w = 8%nat /\ (says_deleted t <-> w = str "DELETED/") /\ (says_success t <-> w = str "SUCCESS/") /\
     (says_warning t <-> w = str "WARNING/") /\ (says_failure t <-> w = str "FAILURE/")) \/ (length t < 8)%nat).
  { intros t. destruct (Nat.lt_ge_cases (length t) 8) as [L | L]; [right; exact L|left]. exists (firstn 8 t), (skipn 8 t).
    assert (LW : length (firstn 8 t) = 8%nat) by (apply firstn_length_le; exact L).
    split; [symmetry; apply firstn_skipn|]. split; [exact LW|]. unfold says_deleted, says_success, says_warning, says_failure.
    rewrite <- (firstn_skipn 8 t) at 1 3 5 7. rewrite !W by (rewrite LW; reflexivity). clear. intuition congruence. }
  destruct (o_delete o), (o_url o);
    match goal with |- (says_deleted ?t <-> _) /\ _ => destruct (T t) as [(w & r & E & L & H1 & H2 & H3 & H4) | L]; [|vm_compute in L; lia] end;
    rewrite H1, H2, H3, H4; do 8 (destruct w as [|? w]; [discriminate L|]); (destruct w; [|discriminate L]); clear - E;
    vm_compute in E; injection E; intros; subst; vm_compute; intuition congruence.
Qed.
