(** The loop over the queue comes to an end, and leaves nothing behind that could be started. *)
From Verif Require Import Base UnpackModel PostModel PostSpec PostProofs PostProofs2 PostProofs3 PostProofs4.
Open Scope list_scope. Open Scope Z_scope.

(** The active jobs have nothing to be tidied up. *)
Definition settled (o : opts) (s : state) : Prop :=
  forall i d, In i (q_active s) -> find_dl i (q_list s) = Some d -> stays d = true /\ check_request o d = d.

Lemma settled_tidied o s t : sysinv o s -> tidied o s t -> settled o t.
Proof.
  intros I (T1 & T2 & T3 & T4) i d' Hi F. pose proof (active_post o s I) as AP. destruct I as (N1 & N2 & N3 & N4 & N5).
  rewrite T3 in Hi. apply filter_In in Hi. destruct Hi as [Hi ST].
  destruct (AP i Hi) as (d & p & Fd & P). rewrite Fd in ST. apply memb_in in Hi as Hm.
  rewrite T4, Fd, Hm in F. cbn in F. injection F as <-.
  destruct (N5 i (d, true)) as [J _]; [unfold look; now rewrite Fd, Hm|].
  destruct (request_gone o d p J P) as (q & Q1 & Q2 & _).
  assert (A : after (check_request o d) = check_request o d).
  { unfold stays in ST. unfold after. destruct (cleanup_job (check_request o d)) as [[]|]; try discriminate; reflexivity. }
  rewrite A. split; [exact ST|]. unfold check_request at 1. rewrite Q1, Q2. reflexivity.
Qed.

Lemma list_ext l : forall l', map d_id l' = map d_id l -> NoDup (map d_id l) ->
  (forall i, find_dl i l' = find_dl i l) -> l' = l.
Proof.
  induction l as [|d r IH]; intros [|d' r'] M N H; cbn in M; try discriminate; [reflexivity|].
  injection M as M1 M2. cbn in N. inversion N as [|? ? N1 N2]; subst.
  pose proof (H (d_id d)) as E. cbn in E. rewrite M1, Z.eqb_refl in E. injection E as ->. f_equal.
  apply IH; auto. intros i. pose proof (H i) as E. cbn in E. destruct (d_id d =? i) eqn:X; [|exact E].
  zb. subst i. destruct (find_dl (d_id d) r') as [y|] eqn:Y.
  - apply find_in in Y. destruct Y as [Y1 Y2]. exfalso. apply N1. rewrite <- M2, <- Y2. now apply in_map.
  - destruct (find_dl (d_id d) r) as [y|] eqn:Y'; [|reflexivity]. apply find_in in Y'. destruct Y' as [Y1 Y2].
    exfalso. apply N1. rewrite <- Y2. now apply in_map.
Qed.

(** ** A measure for the loop *)

Definition minor (d : dl) (p : post) : Z :=
  2 * (if e_pars (d_env d) then if d_par d =? psSkipped then 2 else if d_par d =? psNone then 1 else 0
       else if d_par d =? psNone then 1 else 0) + (if p_need p then 0 else 1).
Definition weight (act : list Z) (d : dl) : Z :=
  match d_post d with Some p => if memb (d_id d) act then 0 else 1 + minor d p | None => 0 end.
Definition mu (act : list Z) (l : list dl) : Z := fold_right (fun d n => weight act d + n) 0 l.
Lemma minor_range d p : 0 <= minor d p <= 5.
Proof. unfold minor. ifs; lia. Qed.
Lemma weight_range act d : 0 <= weight act d <= 6.
Proof. unfold weight. destruct (d_post d) as [p|]; [|lia]. pose proof (minor_range d p). destruct (memb (d_id d) act); lia. Qed.
Lemma mu_range act l : 0 <= mu act l <= 6 * Z.of_nat (length l).
Proof. induction l as [|d r IH]; cbn [mu fold_right length]; [lia|]. fold (mu act r). pose proof (weight_range act d). lia. Qed.
Lemma mu_set act act' l d x : NoDup (map d_id l) -> find_dl (d_id d) l = Some x ->
  (forall i, i <> d_id d -> memb i act' = memb i act) ->
  mu act' (set_dl d l) = mu act l - weight act x + weight act' d.
Proof.
  intros N F H. induction l as [|y r IH]; cbn [find_dl] in F; [discriminate|]. cbn [map] in N. inversion N as [|? ? N1 N2]; subst.
  cbn [set_dl map]. fold (set_dl d r). cbn [mu fold_right]. fold (mu act' (set_dl d r)) (mu act r).
  destruct (d_id y =? d_id d) eqn:E.
  - injection F as ->. zb. rewrite E in N1. rewrite set_other by exact N1.
    enough (X : mu act' r = mu act r) by lia. clear -N1 H. induction r as [|z r IH]; [reflexivity|].
    cbn [mu fold_right]. fold (mu act' r) (mu act r). cbn in N1. rewrite IH by tauto. f_equal. unfold weight.
    destruct (d_post z); [|reflexivity]. rewrite H; [reflexivity|]. tauto.
  - zb. rewrite IH by assumption. assert (X : weight act' y = weight act y); [|lia]. unfold weight. destruct (d_post y); [|reflexivity].
    now rewrite H.
Qed.

Lemma start_weight o ap p d d' j : inv o (d, false) -> d_post d = Some p -> p_stage p = ptQueued -> p_thread p = TNone ->
  p_working p = false -> (ap = true \/ p_need p = false) -> start_job o ap p d = (d', j) ->
  let d2 := after (check_request o d') in
  d_id d2 = d_id d /\
  (stays (check_request o d') = true \/
   (stays (check_request o d') = false /\
    (d_post d2 = None \/ exists q, d_post d2 = Some q /\ minor d2 q < minor d p))).
Proof.
  intros I P ST TH W ND SJ d2. unfold d2. clear d2. split; [now rewrite id_after, id_request, (id_start _ _ _ _ _ _ SJ)|].
  open_inv I. rewrite P in I. parts I.
  assert (Q : p_request p = false).
  { destruct (p_request p); [|reflexivity]. now destruct (I1 eq_refl). }
  unfold start_job in SJ. destruct (choose o ap d) as [a skip] eqn:C. pose proof (choose_action _ _ _ _ _ C) as CA.
  assert (CR : forall x q, d_post x = Some q -> p_request q = false -> check_request o x = x).
  { intros x q A B. unfold check_request. now rewrite A, B. }
  destruct a as [k|x| |].
  - injection SJ as <- <-. left.
    match goal with |- context [with_post ?a (Some ?b)] => remember b as q eqn:Eq end.
    assert (Q1 : p_request q = false /\ p_working q = true) by (subst q; destruct k; cbn; auto). destruct Q1 as [Q1 Q2].
    rewrite (CR _ q) by (reflexivity || exact Q1). unfold stays, cleanup_job. cbn [d_post with_post]. now rewrite Q2.
  - destruct CA as [-> CA]. injection SJ as <- <-. right.
    rewrite (CR _ p) by (exact P || exact Q). unfold stays, after, cleanup_job. cbn [d_post with_par]. rewrite P, W, TH. cbn [negb andb].
    rewrite ST. cbn [ptQueued ptFinished Z.eqb orb]. destruct (p_deleted p); (split; [reflexivity|]); [now left|right].
    eexists. split; [reflexivity|]. unfold minor. cbn [d_env d_par with_post with_par p_need p_with_thread p_with_stage].
    destruct CA as [(-> & -> & ->)|(-> & ->)]; cbn [psSkipped psNone psFailure Z.eqb Pos.eqb]; [|destruct (e_pars (d_env d)) eqn:X]; try lia.
    exfalso. revert C. unfold choose. clear -X. rewrite X, !andb_false_r. intros C.
    repeat match type of C with context [if ?b then _ else _] => destruct b end; discriminate.
  - destruct CA as (-> & CP & CE). injection SJ as <- <-. right.
    unfold check_request. cbn [d_post with_post p_request p_with_request andb d_par p_force d_full]. rewrite CP. change (psSkipped <=? psSkipped) with true. cbn [orb andb].
    destruct (pc_manual (o_parcheck o)); cbn [negb andb].
    + unfold stays, after, cleanup_job. cbn [d_post with_post with_par p_working negb p_thread p_with_request]. rewrite TH. cbn [andb].
      match goal with |- context [if ?b then Some (Left _) else _] => destruct b end; (split; [reflexivity|]); [now left|right].
      eexists. split; [reflexivity|]. unfold minor. cbn [d_env d_par with_post with_par p_need p_with_thread p_with_stage p_with_request].
      rewrite CP, CE. cbn [psManual psSkipped psNone Z.eqb Pos.eqb]. destruct (p_need p); lia.
    + unfold stays, after, cleanup_job. cbn [d_post with_post with_par with_scripts p_working negb p_thread p_with_request]. rewrite TH. cbn [andb].
      match goal with |- context [if ?b then Some (Left _) else _] => destruct b end; (split; [reflexivity|]); [now left|right].
      eexists. split; [reflexivity|]. unfold minor. cbn [d_env d_par with_post with_par with_scripts p_need p_with_thread p_with_stage p_with_request].
      rewrite CP, CE. cbn [psManual psSkipped psNone Z.eqb Pos.eqb]. destruct (p_need p); lia.
  - destruct CA as [-> ->]. injection SJ as <- <-. right.
    rewrite (CR _ (p_with_need p true)) by (reflexivity || exact Q). unfold stays, after, cleanup_job.
    cbn [d_post with_post p_working p_with_need p_thread p_stage p_deleted]. rewrite W, TH, ST. cbn [negb andb ptQueued ptFinished Z.eqb orb].
    destruct (p_deleted p); (split; [reflexivity|]); [now left|right].
    eexists. split; [reflexivity|]. unfold minor. cbn [d_env d_par with_post p_need p_with_thread p_with_stage p_with_need].
    destruct ND as [|ND]; [discriminate|]. rewrite ND. lia.
Qed.

Lemma round_measure o paused s t k : sysinv o s -> settled o s -> round o paused s = Some (Some (t, k)) ->
  settled o t /\ mu (q_active t) (q_list t) < mu (q_active s) (q_list s).
Proof.
  intros I SE E. destruct (round_shape _ _ _ _ _ I E) as
    (ds & ap & d & p & d' & j & EA & CR & _ & IN & F & NA & P & ST & TH & W & J & ND & SJ & _ & I1 & T).
  split; [eapply settled_tidied; eassumption|].
  destruct (start_weight _ _ _ _ _ _ J P ST TH W ND SJ) as [D2 SW]. set (d2 := after (check_request o d')) in *.
  destruct T as (T1 & T2 & T3 & T4). cbn [q_list q_active q_jobs] in *. rewrite ids_set in T1.
  destruct I as (N1 & N2 & N3 & N4 & N5). pose proof (id_start _ _ _ _ _ _ SJ) as Di.
  assert (EL : q_list t = set_dl d2 (q_list s)).
  { apply list_ext; [now rewrite ids_set|now rewrite ids_set|]. intros i. rewrite T4, find_set, Di, (find_set i d2), D2.
    destruct (d_id d =? i) eqn:X.
    - zb. subst i. rewrite memb_app. cbn [memb existsb]. rewrite Z.eqb_refl, orb_true_r, F. reflexivity.
    - rewrite memb_app. cbn [memb existsb]. rewrite (Z.eqb_sym i), X, !orb_false_r.
      destruct (memb i (q_active s)) eqn:M; [|reflexivity]. destruct (find_dl i (q_list s)) as [x|] eqn:Fx; [|reflexivity].
      cbn. destruct (SE i x) as [S1 S2]; [now apply memb_in|exact Fx|]. rewrite S2. unfold after. unfold stays in S1.
      destruct (cleanup_job x) as [[]|]; try discriminate; reflexivity. }
  assert (EM : forall i, memb i (q_active t) = if i =? d_id d then stays (check_request o d') else memb i (q_active s)).
  { intros i. rewrite T3, memb_filter, find_set, Di, memb_app. cbn [memb existsb]. rewrite (Z.eqb_sym (d_id d) i).
    destruct (i =? d_id d) eqn:X.
    - zb. subst i. rewrite F. cbn. now rewrite orb_true_r.
    - rewrite !orb_false_r. destruct (memb i (q_active s)) eqn:M; [|reflexivity]. cbn.
      destruct (find_dl i (q_list s)) as [x|] eqn:Fx.
      + destruct (SE i x) as [S1 S2]; [now apply memb_in|exact Fx|]. now rewrite S2.
      + exfalso. apply memb_in in M. apply N3 in M. destruct (find_some _ _ M). congruence. }
  rewrite EL, (mu_set (q_active s) (q_active t) (q_list s) d2 d); [|exact N1|now rewrite D2|].
  2:{ intros i Hi. rewrite D2 in Hi. rewrite EM. now rewrite (proj2 (Z.eqb_neq i (d_id d)) Hi). }
  enough (weight (q_active t) d2 < weight (q_active s) d) by lia.
  unfold weight at 2. rewrite P, NA. pose proof (minor_range d p).
  unfold weight. rewrite D2, EM, Z.eqb_refl.
  destruct SW as [-> |(-> & [-> |(q & -> & Q)])].
  - destruct (d_post d2); lia.
  - lia.
  - lia.
Qed.

Lemma rounds_end fuel : forall o paused s, sysinv o s -> settled o s -> mu (q_active s) (q_list s) < Z.of_nat fuel ->
  exists t ks, rounds fuel o paused s = Some (t, ks, true) /\ round o paused t = Some None /\ sysinv o t /\
    map d_id (q_list t) = map d_id (q_list s).
Proof.
  induction fuel as [|n IH]; intros o paused s I SE M.
  { pose proof (mu_range (q_active s) (q_list s)). lia. }
  cbn [rounds]. pose proof (round_ok o paused s I) as RO. destruct (round o paused s) as [[[s' k]|]|] eqn:R; [| |contradiction].
  - destruct RO as [RO _]. pose proof (refines_inv _ _ _ _ _ _ I RO) as I'.
    destruct (round_measure _ _ _ _ _ I SE R) as [SE' M'].
    destruct (IH o paused s' I' SE') as (t & ks & -> & E2 & It & Mt); [lia|]. eexists _, _. split; [reflexivity|].
    split; [exact E2|]. split; [exact It|]. destruct RO as (RI & _). congruence.
  - exists s, []. auto.
Qed.
Lemma check_end fuel o paused s : sysinv o s -> (6 * length (q_list s) < fuel)%nat ->
  exists t ks, check_queue fuel o paused s = Some (t, ks, true) /\ round o paused t = Some None /\ sysinv o t.
Proof.
  intros I H. unfold check_queue. destruct (tidy_ok _ _ I) as (s' & -> & T). pose proof (tidied_refines _ _ _ I T) as R.
  pose proof (refines_inv _ _ _ _ _ _ I R) as I'. pose proof (settled_tidied _ _ _ I T) as SE.
  destruct (rounds_end fuel o paused s' I' SE) as (t & ks & E1 & E2 & E3 & _); [|eauto].
  pose proof (mu_range (q_active s') (q_list s')). destruct T as (T1 & _).
  assert (length (q_list s') = length (q_list s)) by (rewrite <- (map_length d_id), T1; apply map_length). lia.
Qed.

(** Nothing more to do: what waits, waits for a reason. *)
Lemma round_none o paused s d : sysinv o s -> round o paused s = Some None -> waiting paused s d ->
  full (o_strategy o) s \/ (exists p, d_post d = Some p /\ p_need p = true /\ most_pars (o_strategy o) <= checking s).
Proof.
  intros I E (W1 & W2 & W3 & W4 & W5). pose proof (active_post o s I) as AP. unfold round in E.
  destruct (actives_ok _ _ AP) as (ds & EA & DM). rewrite EA in E.
  destruct (actives_counts _ _ _ DM) as [C1 C2].
  assert (I' := I). destruct I as (N1 & N2 & N3 & N4 & N5). apply memb_not in W4.
  pose proof (find_nodup _ _ N1 W1) as F.
  destruct (N5 (d_id d) (d, false)) as [(_ & _ & J) _]; [unfold look; now rewrite F, W4|]. cbn [fst snd] in J.
  destruct (d_post d) as [p|] eqn:P; [|congruence]. parts J.
  assert (WK : p_working p = false).
  { destruct (p_working p); [|reflexivity]. discriminate (I8 eq_refl). }
  unfold can_run in E. rewrite C1, C2 in E.
  change (cnt (fun i => match find_dl i (q_list s) with Some d => par_stage (stage d) | None => false end) (q_active s)) with (checking s) in E.
  change (Z.of_nat (length (q_active s))) with (n_active s) in E.
  assert (CL : 0 <= checking s <= n_active s).
  { unfold checking, n_active. pose proof (cnt_len (fun i => match find_dl i (q_list s) with Some d => par_stage (stage d) | None => false end) (q_active s)) as X.
    unfold cnt in X. lia. }
  assert (PK : forall ap, pick_next paused ap (q_active s) (q_list s) = None -> ap = false /\ p_need p = true).
  { intros ap X. pose proof (pick_ok paused ap (q_active s) (q_list s)) as Y. rewrite X in Y. specialize (Y d W1).
    unfold startable in Y. unfold memb in W4. rewrite P, WK, W2, W4 in Y. cbn [negb andb] in Y.
    assert (Z0 : negb paused || force d = true) by (destruct paused; [cbn; auto|reflexivity]). rewrite Z0 in Y. cbn [andb] in Y.
    rewrite andb_true_r in Y. destruct ap; [discriminate|]. cbn in Y. zb. auto. }
  assert (PK' : forall ap, match pick_next paused ap (q_active s) (q_list s) with
           | None => Some (@None (state * option (dl * kind)))
           | Some d => match d_post d with None => None | Some p =>
              if p_stage p =? ptQueued then let '(d', k) := start_job o ap p d in
               match tidy o (mkSt (set_dl d' (q_list s)) (q_active s ++ [d_id d]) (q_jobs s)) with
               | None => None | Some s' => Some (Some (s', option_map (fun k => (d, k)) k)) end
              else Some (Some (mkSt (q_list s) (q_active s ++ [d_id d]) (q_jobs s), None)) end end = Some None ->
            pick_next paused ap (q_active s) (q_list s) = None).
  { intros ap X. destruct (pick_next paused ap (q_active s) (q_list s)) as [y|]; [|reflexivity]. exfalso.
    destruct (d_post y) as [q|]; [|discriminate]. destruct (p_stage q =? ptQueued); [|discriminate].
    destruct (start_job o ap q y). destruct (tidy o _); discriminate. }
  destruct (o_strategy o); cbn [full most_pars].
  - destruct (n_active s =? 0) eqn:X; cbn [negb] in E; [|left; zb; lia].
    destruct (PK _ (PK' _ E)); discriminate.
  - destruct ((n_active s - checking s =? 0) && ((checking s =? 0) || existsb (fun d => stage d =? ptRepairing) ds)) eqn:X; cbn [negb] in E.
    + destruct (PK _ (PK' _ E)) as [A B]. right. exists p. zb. repeat split; auto. lia.
    + left. apply andb_false_iff in X. destruct X as [X|X]; zb; [left; lia|].
      right. split; [lia|]. intros x Hx Ax Rx.
      assert (existsb (fun d => stage d =? ptRepairing) ds = true); [|congruence].
      apply existsb_exists. exists x. split; [|now apply Z.eqb_eq].
      assert (Hs : In (find_dl (d_id x) (q_list s)) (map (fun i => find_dl i (q_list s)) (q_active s))) by (now apply in_map with (f := fun i => find_dl i (q_list s))).
      rewrite DM, (find_nodup _ _ N1 Hx) in Hs. apply in_map_iff in Hs. destruct Hs as (y & Y1 & Y2). now injection Y1 as ->.
  - destruct (n_active s <? 3) eqn:X; cbn [negb] in E; [|left; zb; lia].
    destruct (PK _ (PK' _ E)) as [A B]. right. exists p. zb. auto.
  - destruct (n_active s <? 6) eqn:X; cbn [negb] in E; [|left; zb; lia].
    destruct (PK _ (PK' _ E)) as [A B]. right. exists p. zb. auto.
Qed.

(** Nothing waits beside an idle queue. *)
Lemma full_active st s : full st s -> q_active s <> [].
Proof. unfold full, n_active, checking. intros H E. rewrite E in H. destruct st; cbn in H; lia. Qed.

(** An execution as long as it does not crash, and its last check. *)
Lemma check_idle fuel o s es paused t ks :
  starting o s -> deletions_ok fuel o s (es ++ [ECheck paused]) = true ->
  (6 * length (q_list s) < fuel)%nat ->
  steps fuel o s (es ++ [ECheck paused]) = Some (t, ks) ->
  forall d, waiting paused t d ->
  full (o_strategy o) t \/ (exists p, d_post d = Some p /\ p_need p = true /\ most_pars (o_strategy o) <= checking t).
Proof.
  intros ST D FU. pose proof (starting_inv _ _ ST) as I. clear ST. revert s t ks I D FU.
  induction es as [|e r IH]; intros s t ks I D FU E; cbn [app] in *.
  - cbn [steps step] in E. destruct (check_end fuel o paused s I FU) as (u & kk & E1 & E2 & E3). rewrite E1 in E.
    injection E as <- <-. intros d Wd. now apply round_none with (paused := paused).
  - cbn [steps deletions_ok] in *. apply andb_true_iff in D. destruct D as [D1 D2].
    destruct (step_ok fuel o s e I D1) as (s' & ks1 & E1 & R & _). rewrite E1 in *.
    pose proof (refines_inv _ _ _ _ _ _ I R) as I'.
    destruct (steps fuel o s' (r ++ [ECheck paused])) as [[t' ks']|] eqn:E2; [|discriminate]. injection E as <- <-.
    eapply IH; [exact I'|exact D2| |exact E2]. destruct R as (R1 & _).
    assert (length (q_list s') = length (q_list s)) by (rewrite <- (map_length d_id), R1; apply map_length). lia.
Qed.
