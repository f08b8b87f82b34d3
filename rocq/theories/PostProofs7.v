(** What is remembered of an unpack while a check is under way, and the status after a check. *)
From Verif Require Import Base UnpackModel PostModel PostSpec PostProofs PostProofs2 PostProofs3 PostProofs4.
Open Scope list_scope. Open Scope Z_scope.

Definition memo (p : post) : bool * bool * Z := (p_tried p, p_passtried p, p_last p).
(** What is known of an unpack stays, and nothing becomes repaired. *)
Definition kp (d d' : dl) : Prop :=
  forall p', d_post d' = Some p' -> exists p, d_post d = Some p /\ memo p' = memo p /\ (p_repaired p = false -> p_repaired p' = false).
Lemma kp_refl d : kp d d.
Proof. intros p H. exists p. auto. Qed.
Lemma kp_trans a b c : kp a b -> kp b c -> kp a c.
Proof. intros A B p H. destruct (B p H) as (q & Q & M & R). destruct (A q Q) as (r & R1 & M1 & R2). exists r. split; [exact R1|]. split; [congruence|auto]. Qed.
Lemma kp_request o d : kp d (check_request o d).
Proof.
  unfold check_request. destruct (d_post d) as [p|] eqn:P; [|apply kp_refl].
  repeat match goal with |- kp _ (if ?b then _ else _) => destruct b end; try apply kp_refl;
    intros q Q; cbn in Q; injection Q as <-; exists p; auto.
Qed.
Lemma kp_start o ap p d d' k : d_post d = Some p -> start_job o ap p d = (d', k) -> kp d d'.
Proof.
  unfold start_job. intros P. destruct (choose o ap d) as [a skip]. intros E.
  destruct a as [j|s| |]; injection E as <- _; intros q Q; destruct skip; cbn in Q; try (rewrite P in Q); injection Q as <-; exists p;
    split; auto; try (destruct j; cbn; auto).
Qed.
Lemma kp_cleanup d : match cleanup_job d with Some (Requeued d') | Some (Left d') => kp d d' | _ => True end.
Proof.
  unfold cleanup_job. destruct (d_post d) as [p|] eqn:P; [|exact I]. ifs; try exact I.
  - intros q Q. discriminate Q.
  - intros q Q. cbn in Q. injection Q as <-. exists p. auto.
Qed.

Definition kps (id : Z) (s t : list dl) : Prop :=
  forall d', find_dl id t = Some d' -> exists d, find_dl id s = Some d /\ kp d d'.
Lemma kps_refl id s : kps id s s.
Proof. intros d H. exists d. split; [exact H|apply kp_refl]. Qed.
Lemma kps_trans id a b c : kps id a b -> kps id b c -> kps id a c.
Proof. intros A B d H. destruct (B d H) as (e & E & K). destruct (A e E) as (g & G & K'). exists g. split; [exact G|eapply kp_trans; eassumption]. Qed.
Lemma kps_set id i d d' l : find_dl i l = Some d -> d_id d' = d_id d -> (i = id -> kp d d') -> kps id l (set_dl d' l).
Proof.
  intros F E K x H. rewrite find_set, E in H. pose proof (find_in _ _ _ F) as [_ <-]. destruct (d_id d =? id) eqn:Q.
  - apply Z.eqb_eq in Q. subst id. rewrite F in H. cbn in H. injection H as <-. exists d. auto.
  - exists x. split; [exact H|apply kp_refl].
Qed.
Lemma kps_requests o id : forall ids l l', check_requests o ids l = Some l' -> kps id l l'.
Proof.
  induction ids as [|i r IH]; cbn [check_requests]; intros l l' E; [injection E as <-; apply kps_refl|].
  destruct (find_dl i l) as [d|] eqn:F; [|discriminate]. destruct (d_post d); [|discriminate].
  eapply kps_trans; [|apply IH, E]. eapply kps_set; [exact F|apply id_request|intros _; apply kp_request].
Qed.
Lemma id_cleanup d d' : cleanup_job d = Some (Requeued d') \/ cleanup_job d = Some (Left d') -> d_id d' = d_id d.
Proof. intros H. pose proof (id_after d) as X. unfold after in X. destruct H as [H|H]; rewrite H in X; exact X. Qed.
Lemma kps_cleanups id : forall ids s t, cleanup_jobs ids s = Some t -> kps id (q_list s) (q_list t).
Proof.
  induction ids as [|i r IH]; cbn [cleanup_jobs]; intros s t E; [injection E as <-; apply kps_refl|].
  destruct (find_dl i (q_list s)) as [d|] eqn:F; [|discriminate]. pose proof (kp_cleanup d) as K.
  destruct (cleanup_job d) as [[|d'|d']|] eqn:C; [| | |discriminate].
  - destruct (cleanup_jobs r s) as [u|] eqn:E'; [|discriminate]. cbn in E. injection E as <-. apply (IH s u E').
  - eapply kps_trans; [|apply (IH _ _ E)]. cbn [q_list]. eapply kps_set; [exact F|apply id_cleanup; auto|auto].
  - eapply kps_trans; [|apply (IH _ _ E)]. cbn [q_list]. eapply kps_set; [exact F|apply id_cleanup; auto|auto].
Qed.
Lemma kps_tidy o id s t : tidy o s = Some t -> kps id (q_list s) (q_list t).
Proof.
  unfold tidy. destruct (check_requests o (q_active s) (q_list s)) as [l|] eqn:E; [|discriminate]. intros H.
  eapply kps_trans; [eapply kps_requests, E|]. apply (kps_cleanups id) in H. exact H.
Qed.
Lemma pick_gen_in can l : forall best d, fold_left (fun best d => if can d && match best with Some b => d_prio b <? d_prio d | None => true end
    then Some d else best) l best = Some d -> In d l \/ best = Some d.
Proof.
  induction l as [|x r IH]; cbn [fold_left]; intros best d H; [auto|]. apply IH in H as [H|H]; [left; right; exact H|].
  destruct (can x && _); [injection H as <-; left; left; reflexivity|auto].
Qed.
Lemma kps_round o paused id s t k : sysinv o s -> round o paused s = Some (Some (t, k)) -> kps id (q_list s) (q_list t).
Proof.
  intros I E. assert (E' := E). destruct (round_shape _ _ _ _ _ I E) as (ds & ap & d & p & d' & j & A1 & A2 & A3 & A4 & F & A5 & P & St & _ & _ & _ & _ & Sj & _ & I1 & T).
  unfold tidied in T. destruct (tidy_ok _ _ I1) as (u & U & _).
  unfold round in E'. rewrite A1, A2 in E'. cbn [negb] in E'.
  destruct (pick_next paused ap (q_active s) (q_list s)) as [d0|] eqn:Pk; [|discriminate].
  destruct (d_post d0) as [p0|] eqn:P0; [|discriminate].
  assert (N : NoDup (map d_id (q_list s))) by apply I.
  assert (F0 : find_dl (d_id d0) (q_list s) = Some d0).
  { apply find_nodup; [exact N|]. apply pick_gen_in in Pk as [H|H]; [exact H|discriminate]. }
  destruct (p_stage p0 =? ptQueued).
  - destruct (start_job o ap p0 d0) as [d1 j1] eqn:Sj1. destruct (tidy o _) as [v|] eqn:V in E'; [|discriminate]. injection E' as <- _.
    eapply kps_trans; [|eapply kps_tidy, V]. cbn [q_list]. eapply kps_set; [exact F0|eapply id_start, Sj1|intros _; eapply kp_start; eassumption].
  - injection E' as <- _. apply kps_refl.
Qed.
Lemma kps_rounds fuel id : forall o paused s t ks b, sysinv o s -> rounds fuel o paused s = Some (t, ks, b) -> kps id (q_list s) (q_list t).
Proof.
  induction fuel as [|n IH]; intros o paused s t ks b I E; cbn [rounds] in E.
  { injection E as <- <- <-. apply kps_refl. }
  pose proof (round_ok o paused s I) as RO. destruct (round o paused s) as [[[s' k]|]|] eqn:R; [| |contradiction].
  - destruct RO as [RO _]. pose proof (refines_inv _ _ _ _ _ _ I RO) as I'. pose proof (kps_round _ _ id _ _ _ I R) as L'.
    destruct (rounds n o paused s') as [[[t' ks'] b']|] eqn:E'; [|discriminate]. injection E as <- <- <-.
    eapply kps_trans; [exact L'|]. eapply IH; eassumption.
  - injection E as <- <- <-. apply kps_refl.
Qed.
Lemma kp_done o r d d' : job_done o r d = Some d' ->
  match r with RPar PRepaired _ => False | RUnpack _ _ _ _ => False | _ => True end -> kp d d'.
Proof.
  unfold job_done. destruct (d_post d) as [p|] eqn:P; [|discriminate]. destruct (negb (p_working p)); [discriminate|].
  destruct r as [a b c|x full|a|pw pf f runs|ok|ok|codes]; intros E H; try contradiction;
    (match type of E with (if ?c then _ else _) = _ => destruct c; [|discriminate] end);
    injection E as <-; intros q Q; exists p; (split; [exact P|]).
  - unfold done_prename in Q. cbn in Q. injection Q as <-. ifs; auto.
  - unfold done_par in Q. destruct x; try contradiction; cbn [with_post d_post] in Q; injection Q as <-; (split; [reflexivity|]); cbn [p_repaired]; ifs; auto.
  - cbn in Q. injection Q as <-. auto.
  - cbn in Q. injection Q as <-. auto.
  - cbn in Q. injection Q as <-. auto.
  - unfold done_script in Q. destruct (run_scripts _ _). cbn in Q. injection Q as <-. auto.
Qed.
Lemma kps_step fuel o id s e t ks : sysinv o s -> deletion_ok s e = true -> step fuel o s e = Some (t, ks) -> quiet id e ->
  kps id (q_list s) (q_list t).
Proof.
  intros I D E Q. assert (I' := I). destruct I as (N1 & N2 & N3 & N4 & N5).
  assert (OD : forall i f, option_map (fun t => (t, @nil (dl * kind))) (on_dl i s f) = Some (t, ks) ->
               (forall d d', f d = Some d' -> d_id d' = d_id d /\ (i = id -> kp d d')) -> kps id (q_list s) (q_list t)).
  { intros i f X H. unfold on_dl in X. destruct (find_dl i (q_list s)) as [d|] eqn:F; [|cbn in X; injection X as <- <-; apply kps_refl].
    destruct (f d) as [d'|] eqn:Fd; cbn in X; injection X as <- <-; [|apply kps_refl]. destruct (H d d' Fd). cbn [q_list].
    eapply kps_set; eauto. }
  assert (OP : forall f, (forall p q, f p = Some q -> memo q = memo p /\ p_repaired q = p_repaired p) ->
              forall d d', on_post f d = Some d' -> d_id d' = d_id d /\ kp d d').
  { intros f Hf d d' H. apply on_post_some in H. destruct H as (p & q & P & H & ->). split; [reflexivity|]. intros x X. cbn in X. injection X as <-.
    destruct (Hf p q H) as [M R]. exists p. split; [exact P|]. split; [exact M|congruence]. }
  destruct e as [i direct|i r|i|i n|i|i e' ready|i|paused]; cbn [step] in E; cbn [quiet] in Q.
  - injection E as <- <-. destruct (find_dl i (q_list s)) as [d|] eqn:F; [|apply kps_refl].
    destruct (d_post d) eqn:P; [apply kps_refl|]. unfold downloaded. cbn [q_list]. eapply kps_set; [exact F| |intros H; contradiction].
    destruct ((d_par d =? psNone) && negb (pc_always (o_parcheck o))); reflexivity.
  - eapply OD; [exact E|]. intros d d' H. split; [now destruct (id_done _ _ _ _ H)|]. intros Hi. eapply kp_done; [exact H|].
    destruct r as [| [] | | | | |]; auto.
  - eapply OD; [exact E|]. intros d d' H. edestruct OP as [A B]; [|exact H|split; [exact A|intros _; exact B]]. intros p q X.
    cbn beta in X. destruct (p_thread p); [discriminate X| |discriminate X]. destruct (p_working p); [discriminate X|]. injection X as <-. auto.
  - eapply OD; [exact E|]. intros d d' H. edestruct OP as [A B]; [|exact H|split; [exact A|intros _; exact B]]. intros p q X.
    cbn beta in X. destruct (par_stage (p_stage p) && par_stage n && p_working p); [|discriminate X]. injection X as <-. auto.
  - eapply OD; [exact E|]. intros d d' H. edestruct OP as [A B]; [|exact H|split; [exact A|intros _; exact B]]. intros p q X.
    cbn beta in X. destruct (p_thread p); [|discriminate X|discriminate X]. destruct (p_working p); [|discriminate X]. injection X as <-. auto.
  - eapply OD; [exact E|]. intros d d' H. injection H as <-. split; [reflexivity|]. intros _ p P. cbn in P. exists p. auto.
  - injection E as <- <-. destruct (find_dl i (q_list s)) as [d|] eqn:F; [|apply kps_refl].
    unfold delete_job. destruct (d_post d) as [p|] eqn:P; [|apply kps_refl].
    destruct (p_working p); cbn [q_list]; (eapply kps_set; [exact F|reflexivity|intros _ q X]); cbn in X; [|discriminate].
    injection X as <-. exists p. auto.
  - unfold check_queue in E. destruct (tidy_ok _ _ I') as (u & EU & T). rewrite EU in E.
    pose proof (refines_inv _ _ _ _ _ _ I' (tidied_refines _ _ _ I' T)) as Iu.
    destruct (rounds fuel o paused u) as [[[t' ks'] b]|] eqn:ER; [|discriminate]. injection E as <- <-.
    eapply kps_trans; [eapply kps_tidy, EU|]. eapply kps_rounds; [exact Iu|exact ER].
Qed.
Lemma kps_steps fuel o id : forall es s t ks, sysinv o s -> deletions_ok fuel o s es = true ->
  steps fuel o s es = Some (t, ks) -> Forall (quiet id) es -> kps id (q_list s) (q_list t).
Proof.
  induction es as [|e r IH]; intros s t ks I D E Q; cbn [steps] in E.
  { injection E as <- <-. apply kps_refl. }
  cbn [deletions_ok] in D. apply andb_true_iff in D. destruct D as [D1 D2]. apply Forall_cons_iff in Q as [Q1 Q2].
  destruct (step_ok fuel o s e I D1) as (s' & ks1 & E1 & R & _). rewrite E1 in *.
  pose proof (refines_inv _ _ _ _ _ _ I R) as I'. pose proof (kps_step _ _ id _ _ _ _ I D1 E1 Q1) as L'.
  destruct (steps fuel o s' r) as [[t' ks']|] eqn:E2; [|discriminate]. injection E as <- <-.
  eapply kps_trans; [exact L'|]. eapply IH; eassumption.
Qed.
Lemma steps_inv fuel o : forall es s t ks, sysinv o s -> deletions_ok fuel o s es = true ->
  steps fuel o s es = Some (t, ks) -> sysinv o t.
Proof.
  induction es as [|e r IH]; intros s t ks I D E; cbn [steps] in E.
  { injection E as <- <-. exact I. }
  cbn [deletions_ok] in D. apply andb_true_iff in D. destruct D as [D1 D2].
  destruct (step_ok fuel o s e I D1) as (s' & ks1 & E1 & R & _). rewrite E1 in *.
  pose proof (refines_inv _ _ _ _ _ _ I R) as I'.
  destruct (steps fuel o s' r) as [[t' ks']|] eqn:E2; [|discriminate]. injection E as <- <-. eapply IH; eassumption.
Qed.

(** ** The status after a check *)

Lemma checked_ok fuel o s es t ks id d r full d' :
  starting o s -> deletions_ok fuel o s es = true -> steps fuel o s es = Some (t, ks) ->
  find_dl id (q_list t) = Some d -> job_done o (RPar r full) d = Some d' -> d_par d' = checked r.
Proof.
  intros St D E F J. pose proof (steps_inv _ _ _ _ _ _ (starting_inv _ _ St) D E) as (_ & _ & _ & _ & N5).
  destruct (N5 id (d, memb id (q_active t))) as [(_ & _ & X) _]; [unfold look; now rewrite F|]. cbn [fst snd] in X.
  unfold job_done in J. destruct (d_post d) as [p|] eqn:P; [|discriminate]. destruct (p_working p) eqn:W; [|discriminate]. cbn [negb] in J.
  destruct (par_stage (p_stage p)) eqn:S1; [|discriminate]. injection J as <-.
  assert (d_par d = psNone) as Hp. { destruct X as (_ & _ & _ & X4 & _). apply X4. unfold fl. now rewrite W. }
  unfold done_par. cbn [with_post with_full with_par d_par]. rewrite Hp. destruct r; reflexivity.
Qed.

(** ** No second try *)

Lemma unpack_asks_bad i f runs force listed last tried : unpack_run i f runs = Some (URequest force listed last, tried) ->
  last = usFailure \/ last = usSpace \/ last = usPassword.
Proof.
  unfold unpack_run. intros E. destruct (i_tried i && negb (i_repaired i) && _) eqn:E1 in E; [discriminate|].
  destruct (f_wanted f && _) eqn:E2 in E.
  - cbv zeta in E. match type of E with match ?a with _ => _ end = _ => destruct a as [[[[u tr] n] li]|] end; [|discriminate].
    match type of E with context [completed _ _ ?x _] => remember x as v end. clear Heqv. unfold completed in E.
    destruct (u_ok v && f_moved f); [discriminate|]. match type of E with context [if ?b then _ else _] => destruct b eqn:C end; [|discriminate].
    injection E as _ _ <- _. unfold fail_status. destruct (u_space v); [auto|]. destruct (u_pwd v || u_dec v); auto.
  - destruct (f_wanted f); [|discriminate]. destruct ((i_par i <=? psSkipped) && negb (f_prenamed f) && i_haspars i).
    + injection E as _ _ <- _. auto.
    + destruct (f_renamed f); discriminate.
Qed.
Lemma unpack_asks o pw pf f runs d d1 p p1 : d_post d = Some p -> p_request p = false ->
  job_done o (RUnpack pw pf f runs) d = Some d1 -> d_post d1 = Some p1 -> p_request p1 = true ->
  p_tried p1 = true /\ p_repaired p1 = p_repaired p /\ (p_last p1 = usFailure \/ p_last p1 = usSpace \/ p_last p1 = usPassword).
Proof.
  intros P N J P1 R1. unfold job_done in J. rewrite P in J. destruct (negb (p_working p)); [discriminate|].
  destruct (p_stage p =? ptUnpacking); [|discriminate]. unfold done_unpack in J.
  destruct (unpack_run _ _ _) as [[[st|fo li la] tr]|] eqn:U; [| |discriminate]; injection J as <-.
  - cbn [with_post d_post] in P1. injection P1 as <-. cbn in R1. congruence.
  - cbn [with_post d_post] in P1. injection P1 as <-. cbn. repeat (split; [reflexivity|]). eapply unpack_asks_bad, U.
Qed.
Lemma unpack_again o pw pf f runs d d1 p : d_post d = Some p -> p_tried p = true -> p_repaired p = false ->
  (pw <> [] \/ pf = None \/ p_passtried p = true) ->
  job_done o (RUnpack pw pf f runs) d = Some d1 -> d_unpack d1 = p_last p.
Proof.
  intros P T R W J. unfold job_done in J. rewrite P in J. destruct (negb (p_working p)); [discriminate|].
  destruct (p_stage p =? ptUnpacking); [|discriminate]. unfold done_unpack, unpack_run in J.
  cbn [i_tried i_repaired i_password i_passfile i_passtried i_last] in J. rewrite T, R in J. cbn [negb andb] in J.
  replace (match pw with [] => false | _ => true end || match pf with Some _ => false | None => true end || p_passtried p) with true in J.
  - injection J as <-. destruct ((p_last p =? usSuccess) && o_parrename o); reflexivity.
  - symmetry. rewrite !orb_true_iff. destruct W as [W|[W|W]]; [left; left; now destruct pw|subst pf; left; right; reflexivity|right; exact W].
Qed.
Lemma once_ok fuel o s es0 t0 ks0 id d pw pf f runs d1 p p1 t1 ks1 es t ks d2 pw' pf' f' runs' d3 :
  starting o s -> deletions_ok fuel o s es0 = true -> steps fuel o s es0 = Some (t0, ks0) ->
  find_dl id (q_list t0) = Some d -> d_post d = Some p -> p_repaired p = false ->
  job_done o (RUnpack pw pf f runs) d = Some d1 -> d_post d1 = Some p1 -> p_request p1 = true ->
  step fuel o t0 (EDone id (RUnpack pw pf f runs)) = Some (t1, ks1) ->
  deletions_ok fuel o t1 es = true -> steps fuel o t1 es = Some (t, ks) -> Forall (quiet id) es ->
  find_dl id (q_list t) = Some d2 -> (pw' <> [] \/ pf' = None \/ p_passtried p1 = true) ->
  job_done o (RUnpack pw' pf' f' runs') d2 = Some d3 -> d_unpack d3 = p_last p1 /\ unpack_bad d3.
Proof.
  intros St D0 E0 F P Rp J P1 Rq E1 D E Q F2 Pw J3.
  pose proof (steps_inv _ _ _ _ _ _ (starting_inv _ _ St) D0 E0) as I0.
  assert (Rq0 : p_request p = false).
  { destruct (p_request p) eqn:Y; [|reflexivity]. exfalso. destruct I0 as (_ & _ & _ & _ & N5).
    destruct (N5 id (d, memb id (q_active t0))) as [(_ & _ & X) _]; [unfold look; now rewrite F|]. cbn [fst snd] in X. rewrite P in X. destruct X as (X1 & _).
    destruct (X1 Y) as [_ W]. unfold job_done in J. rewrite P, W in J. discriminate. }
  destruct (unpack_asks _ _ _ _ _ _ _ _ _ P Rq0 J P1 Rq) as (T1 & R1 & B1).
  destruct (step_ok fuel o t0 (EDone id (RUnpack pw pf f runs)) I0 eq_refl) as (t1' & ks1' & E1' & Rf & _).
  rewrite E1 in E1'. injection E1' as <- <-. pose proof (refines_inv _ _ _ _ _ _ I0 Rf) as I1.
  assert (F1 : find_dl id (q_list t1) = Some d1).
  { cbn [step] in E1. unfold on_dl in E1. rewrite F, J in E1. cbn [option_map] in E1. injection E1 as <- _. cbn [q_list].
    rewrite find_set. destruct (id_done _ _ _ _ J) as [Hid _]. rewrite Hid. pose proof (find_in _ _ _ F) as [_ Hd]. rewrite Hd, Z.eqb_refl, F. reflexivity. }
  destruct (kps_steps _ _ id _ _ _ _ I1 D E Q d2 F2) as (d1' & F1' & K). rewrite F1 in F1'. injection F1' as <-.
  destruct (d_post d2) as [p2|] eqn:P2; [|unfold job_done in J3; rewrite P2 in J3; discriminate].
  destruct (K p2 P2) as (p1' & P1' & M & R2). rewrite P1 in P1'. injection P1' as <-. unfold memo in M. injection M as M1 M2 M3.
  assert (Y : d_unpack d3 = p_last p1); [|unfold unpack_bad; rewrite Y; auto].
  rewrite <- M3. eapply unpack_again; [exact P2|congruence|apply R2; congruence| |exact J3].
  destruct Pw as [W|[W|W]]; auto. right; right. congruence.
Qed.
