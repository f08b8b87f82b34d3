(** Limits of the strategies, the end of the loop, and what waits after it. *)
From Verif Require Import Base UnpackModel PostModel PostSpec PostProofs PostProofs2 PostProofs3.
Open Scope list_scope. Open Scope Z_scope.

Lemma round_shape o paused s t k : sysinv o s -> round o paused s = Some (Some (t, k)) ->
  exists ds ap d p d' j, actives (q_active s) (q_list s) = Some ds /\ can_run (o_strategy o) ds = (true, ap) /\
    best_of (startable paused ap (q_active s)) (q_list s) d /\ In d (q_list s) /\
    find_dl (d_id d) (q_list s) = Some d /\ memb (d_id d) (q_active s) = false /\
    d_post d = Some p /\ p_stage p = ptQueued /\ p_thread p = TNone /\ p_working p = false /\ inv o (d, false) /\
    (ap = true \/ p_need p = false) /\
    start_job o ap p d = (d', j) /\ k = option_map (fun j => (d, j)) j /\
    sysinv o (mkSt (set_dl d' (q_list s)) (q_active s ++ [d_id d]) (q_jobs s)) /\
    tidied o (mkSt (set_dl d' (q_list s)) (q_active s ++ [d_id d]) (q_jobs s)) t.
Proof.
  intros I E. pose proof (active_post o s I) as AP. unfold round in E.
  destruct (actives_ok _ _ AP) as (ds & EA & DM). rewrite EA in E. destruct (can_run (o_strategy o) ds) as [more ap] eqn:CR.
  destruct more; [|discriminate]. cbn [negb] in E.
  pose proof (pick_ok paused ap (q_active s) (q_list s)) as PK.
  destruct (pick_next paused ap (q_active s) (q_list s)) as [d|]; [|discriminate].
  assert (PK' := PK). destruct PK' as (l1 & l2 & EL & CD & _ & _).
  destruct (startable_parts _ _ _ _ CD) as (p & P & W & RD & PA & ND & NA). rewrite P in E.
  assert (IN : In d (q_list s)) by (rewrite EL; apply in_elt).
  assert (I' := I). destruct I as (N1 & N2 & N3 & N4 & N5).
  assert (F : find_dl (d_id d) (q_list s) = Some d) by (now apply find_nodup).
  destruct (N5 (d_id d) (d, false)) as [J1 J2]; [unfold look; now rewrite F, NA|].
  destruct (J2 eq_refl p P) as [J3 J4]. rewrite J3 in E. cbn [ptQueued Z.eqb] in E.
  destruct (start_job o ap p d) as [d' j] eqn:SJ.
  assert (R : refines o s (mkSt (set_dl d' (q_list s)) (q_active s ++ [d_id d]) (q_jobs s)) (opt_list (option_map (fun k => (d, k)) j)) zero same).
  { eapply refines_set; [exact I'|exact F|eapply id_start, SJ| | | | | | | | |].
    - rewrite NA, memb_app. cbn [memb existsb]. rewrite Z.eqb_refl, orb_true_r.
      apply mpath_one. eapply m_start; eassumption.
    - intros i Hi. rewrite memb_app. cbn. rewrite (proj2 (Z.eqb_neq i (d_id d)) Hi). now rewrite !orb_false_r.
    - apply memb_not in NA.
      clear -N2 NA. induction (q_active s) as [|a r IH]; cbn; [constructor; [easy|constructor]|].
      inversion N2; subst. constructor; [|apply IH; auto; firstorder]. rewrite in_app_iff. cbn. intros [|[|[]]]; [auto|]. apply NA. now left.
    - intros i Hi. apply in_app_iff in Hi. destruct Hi as [Hi|[<-|[]]]; [auto|]. now apply in_map.
    - unfold hp. rewrite P. pose proof (post_start _ _ _ _ _ _ P SJ). destruct (d_post d'); [lia|congruence].
    - intros i. destruct j as [j|]; cbn [option_map opt_list sum fold_right started jobs_of filter fst snd].
      + unfold jobs_of. cbn [filter fst snd]. rewrite Z.eqb_refl. cbn [andb]. destruct i, j; cbn; lia.
      + destruct i; cbn; lia.
    - intros i x Hi. split; [|lia]. destruct j as [j|]; [|reflexivity]. unfold jobs_of. cbn.
      rewrite (proj2 (Z.eqb_neq (d_id d) i)) by congruence. reflexivity.
    - eapply env_start, SJ.
    - reflexivity. }
  pose proof (refines_inv _ _ _ _ _ _ I' R) as I1.
  destruct (tidy_ok _ _ I1) as (u & EU & T). rewrite EU in E. injection E as <- <-.
  exists ds, ap, d, p, d', j. repeat (split; [assumption|]). split; [reflexivity|]. split; [exact I1|exact T].
Qed.

(** ** Limits *)

Definition thr (s : state) (i : Z) : bool :=
  match find_dl i (q_list s) with
  | Some d => match d_post d with Some p => match p_thread p with TNone => false | _ => true end | None => false end
  | None => false
  end.
Definition par_at (s : state) (i : Z) : bool :=
  match find_dl i (q_list s) with Some d => par_stage (stage d) | None => false end.
Definition cnt (f : Z -> bool) (l : list Z) : Z := Z.of_nat (length (filter f l)).
Definition lim (o : opts) (s : state) : Prop :=
  cnt (thr s) (q_active s) <= most_jobs (o_strategy o) /\ cnt (par_at s) (q_active s) <= most_pars (o_strategy o).

Lemma cnt_le f g l : (forall i, In i l -> f i = true -> g i = true) -> cnt f l <= cnt g l.
Proof.
  unfold cnt. induction l as [|a r IH]; intros H; [cbn; lia|]. cbn [filter].
  assert (X : Z.of_nat (length (filter f r)) <= Z.of_nat (length (filter g r))) by (apply IH; intros; apply H; [now right|assumption]).
  destruct (f a) eqn:Fa; [rewrite (H a) by (auto; now left); cbn [length]; lia|]. destruct (g a); cbn [length]; lia.
Qed.
Lemma cnt_filter f g l : cnt f (filter g l) <= cnt f l.
Proof.
  unfold cnt. induction l as [|a r IH]; [cbn; lia|]. cbn [filter]. destruct (g a); cbn [filter]; destruct (f a); cbn [length]; lia.
Qed.
Lemma cnt_app f a b : cnt f (a ++ b) = cnt f a + cnt f b.
Proof. unfold cnt. rewrite filter_app, app_length. lia. Qed.
Lemma cnt_len f l : cnt f l <= Z.of_nat (length l).
Proof. unfold cnt. induction l as [|a r IH]; cbn [filter length]; [lia|]. destruct (f a); cbn [length]; lia. Qed.

(** One download cannot get a thread or a stage of a par-check. *)
Definition calm (d d' : dl) : Prop :=
  (match d_post d' with Some p => match p_thread p with TNone => false | _ => true end | None => false end = true ->
   match d_post d with Some p => match p_thread p with TNone => false | _ => true end | None => false end = true) /\
  (par_stage (stage d') = true -> par_stage (stage d) = true).
Lemma calm_refl d : calm d d. Proof. split; auto. Qed.
Lemma calm_trans a b c : calm a b -> calm b c -> calm a c.
Proof. intros [A1 A2] [B1 B2]. split; auto. Qed.
Lemma calm_request o d : calm d (check_request o d).
Proof.
  unfold check_request, calm. destruct (d_post d) as [p|] eqn:P; [|rewrite ?P; auto].
  unfold stage. rewrite P. repeat match goal with |- context [if ?b then _ else _] => match b with context [p_request p] => destruct b end end; cbn; rewrite ?P; auto.
  split; auto. destruct (e_left (d_env d)); [discriminate|auto].
Qed.
Lemma calm_after d : calm d (after d).
Proof.
  unfold after, cleanup_job, calm. destruct (d_post d) as [p|] eqn:P; [|rewrite ?P; auto]. unfold stage.
  destruct (negb (p_working p) && _); [|rewrite ?P; auto].
  destruct ((p_stage p =? ptFinished) || p_deleted p); cbn; split; discriminate.
Qed.
Lemma calm_done o r d d' : job_done o r d = Some d' -> calm d d'.
Proof.
  unfold job_done, calm. destruct (d_post d) as [p|] eqn:P; [|discriminate]. destruct (negb (p_working p)); [discriminate|].
  unfold stage. rewrite P.
  destruct r; match goal with |- context [if ?b then _ else None] => destruct b; [|discriminate] end.
  1,2,3,5,6,7: intros E; injection E as <-.
  - unfold done_prename. destruct (missing && _); cbn; auto.
  - unfold done_par. cbn. auto.
  - cbn; auto.
  - cbn; auto.
  - cbn; auto.
  - unfold done_script. destruct (run_scripts _ _). cbn. split; [auto|discriminate].
  - unfold done_unpack. destruct (unpack_run _ _ _) as [[[] ?]|]; intros E; [| |discriminate]; injection E as <-; cbn; auto.
Qed.

Lemma lim_calm o s t : incl (q_active t) (q_active s) -> (exists f, q_active t = filter f (q_active s)) ->
  (forall i d', find_dl i (q_list t) = Some d' -> exists d, find_dl i (q_list s) = Some d /\ calm d d') -> lim o s -> lim o t.
Proof.
  intros _ (f & A) C [L1 L2].
  assert (X : forall i, (thr t i = true -> thr s i = true) /\ (par_at t i = true -> par_at s i = true)).
  { intros i. unfold thr, par_at. destruct (find_dl i (q_list t)) as [d'|] eqn:F; [|split; discriminate].
    destruct (C i d' F) as (d & -> & C1 & C2). auto. }
  unfold lim. rewrite A. split.
  - pose proof (cnt_filter (thr t) f (q_active s)). pose proof (cnt_le (thr t) (thr s) (q_active s) (fun i _ => proj1 (X i))). lia.
  - pose proof (cnt_filter (par_at t) f (q_active s)). pose proof (cnt_le (par_at t) (par_at s) (q_active s) (fun i _ => proj2 (X i))). lia.
Qed.
Lemma filter_id {A} (l : list A) : filter (fun _ => true) l = l.
Proof. induction l; cbn; congruence. Qed.

Lemma lim_tidied o s t : tidied o s t -> lim o s -> lim o t.
Proof.
  intros (T1 & T2 & T3 & T4) L. eapply lim_calm; [| | |exact L].
  - rewrite T3. intros i Hi. now apply filter_In in Hi.
  - rewrite T3. eauto.
  - intros i d' F. rewrite T4 in F. destruct (find_dl i (q_list s)) as [d|]; [|destruct (memb i (q_active s)); discriminate].
    exists d. split; [reflexivity|]. destruct (memb i (q_active s)); cbn in F; injection F as <-; [|apply calm_refl].
    eapply calm_trans; [apply calm_request|apply calm_after].
Qed.
Lemma lim_set o s d d' n : find_dl (d_id d) (q_list s) = Some d -> d_id d' = d_id d -> calm d d' -> lim o s ->
  lim o (mkSt (set_dl d' (q_list s)) (q_active s) n).
Proof.
  intros F D C L. eapply lim_calm; [| | |exact L].
  - cbn. apply incl_refl.
  - cbn. exists (fun _ => true). now rewrite filter_id.
  - cbn. intros i x Fx. rewrite find_set, D in Fx. destruct (d_id d =? i) eqn:X.
    + zb. subst i. rewrite F in *. cbn in Fx. injection Fx as <-. eauto.
    + exists x. split; [exact Fx|apply calm_refl].
Qed.

Lemma actives_counts ids l ds : map (fun i => find_dl i l) ids = map Some ds ->
  Z.of_nat (length ds) = Z.of_nat (length ids) /\
  Z.of_nat (length (filter (fun d => par_stage (stage d)) ds)) =
  cnt (fun i => match find_dl i l with Some d => par_stage (stage d) | None => false end) ids.
Proof.
  unfold cnt. revert ds. induction ids as [|i r IH]; intros [|d ds] E; cbn in E; try discriminate; [split; reflexivity|].
  injection E as E1 E2. destruct (IH ds E2) as [A B]. cbn [filter length]. rewrite E1.
  split; [lia|]. destruct (par_stage (stage d)); cbn [length]; lia.
Qed.
Lemma actives_inv ids l ds : actives ids l = Some ds -> map (fun i => find_dl i l) ids = map Some ds.
Proof.
  revert ds. induction ids as [|i r IH]; intros ds E; cbn in E; [now injection E as <-|].
  destruct (find_dl i l) as [d|] eqn:F; [|discriminate]. destruct (actives r l) as [ds'|]; [|discriminate].
  destruct (d_post d); [|discriminate]. injection E as <-. cbn. rewrite F. f_equal. auto.
Qed.

Lemma choose_nopar o d skip : choose o false d = (Run JPar, skip) -> False.
Proof.
  unfold choose. intros E.
  repeat match type of E with context [if ?b then _ else _] => destruct b end; discriminate.
Qed.
Lemma start_par o ap p d d' k : d_post d = Some p -> p_stage p = ptQueued -> start_job o ap p d = (d', k) ->
  par_stage (stage d') = true -> ap = true.
Proof.
  unfold start_job. intros P ST E. destruct (choose o ap d) as [a skip] eqn:C. unfold stage.
  destruct a as [j|x| |]; injection E as <- <-; destruct skip; cbn; rewrite ?P; try rewrite ST; try discriminate.
  all: destruct j; try discriminate; destruct ap; auto; intros _; exfalso; eapply choose_nopar, C.
Qed.

Lemma cnt_ext f g l : (forall i, In i l -> f i = g i) -> cnt f l = cnt g l.
Proof. intros H. unfold cnt. f_equal. f_equal. now apply filter_ext_in. Qed.

Lemma lim_round o paused s t k : sysinv o s -> round o paused s = Some (Some (t, k)) -> lim o s -> lim o t.
Proof.
  intros I E [L1 L2]. destruct (round_shape _ _ _ _ _ I E) as
    (ds & ap & d & p & d' & j & EA & CR & _ & IN & F & NA & P & ST & TH & W & _ & ND & SJ & _ & I1 & T).
  eapply lim_tidied; [exact T|]. clear T I1.
  destruct (actives_counts _ _ _ (actives_inv _ _ _ EA)) as [C1 C2].
  set (s1 := mkSt (set_dl d' (q_list s)) (q_active s ++ [d_id d]) (q_jobs s)).
  assert (X : forall i, In i (q_active s) -> thr s1 i = thr s i /\ par_at s1 i = par_at s i).
  { intros i Hi. unfold thr, par_at. cbn. rewrite find_set, (id_start _ _ _ _ _ _ SJ).
    destruct (d_id d =? i) eqn:Y; [|auto]. zb. subst i. apply memb_not in NA. contradiction. }
  assert (A1 : cnt (thr s1) (q_active s1) <= cnt (thr s) (q_active s) + 1).
  { cbn [q_active s1]. rewrite cnt_app. rewrite (cnt_ext (thr s1) (thr s)) by (intros; now apply X).
    pose proof (cnt_len (thr s1) [d_id d]). cbn [length] in *. lia. }
  assert (A2 : cnt (par_at s1) (q_active s1) <= cnt (par_at s) (q_active s) + (if ap then 1 else 0)).
  { cbn [q_active s1]. rewrite cnt_app. rewrite (cnt_ext (par_at s1) (par_at s)) by (intros; now apply X).
    enough (cnt (par_at s1) [d_id d] <= if ap then 1 else 0) by lia.
    unfold cnt. cbn [filter]. destruct (par_at s1 (d_id d)) eqn:Y; [|destruct ap; cbn; lia].
    unfold par_at in Y. cbn in Y. rewrite find_set, (id_start _ _ _ _ _ _ SJ), Z.eqb_refl, F in Y. cbn in Y.
    rewrite (start_par _ _ _ _ _ _ P ST SJ Y). cbn. lia. }
  change (cnt (fun i => match find_dl i (q_list s) with Some d => par_stage (stage d) | None => false end) (q_active s))
    with (cnt (par_at s) (q_active s)) in C2.
  pose proof (cnt_len (thr s) (q_active s)) as C3.
  unfold can_run in CR. rewrite C1, C2 in CR. unfold lim.
  destruct (o_strategy o); cbn [most_jobs most_pars] in *; injection CR as CA CB; zb; subst ap.
  - split; [lia|]. assert (cnt (par_at s) (q_active s) <= Z.of_nat (length (q_active s))) by apply cnt_len. lia.
  - assert (cnt (par_at s) (q_active s) <= 1) by assumption. split; [lia|].
    destruct (cnt (par_at s) (q_active s) =? 0) eqn:Y; zb; lia.
  - split; [lia|]. destruct (cnt (par_at s) (q_active s) <? 1) eqn:Y; zb; lia.
  - split; [lia|]. destruct (cnt (par_at s) (q_active s) <? 2) eqn:Y; zb; lia.
Qed.
Lemma lim_rounds fuel : forall o paused s t ks b, sysinv o s -> rounds fuel o paused s = Some (t, ks, b) -> lim o s -> lim o t.
Proof.
  induction fuel as [|n IH]; intros o paused s t ks b I E L; cbn [rounds] in E.
  { injection E as <- <- <-. exact L. }
  pose proof (round_ok o paused s I) as RO. destruct (round o paused s) as [[[s' k]|]|] eqn:R; [| |contradiction].
  - destruct RO as [RO _]. pose proof (refines_inv _ _ _ _ _ _ I RO) as I'. pose proof (lim_round _ _ _ _ _ I R L) as L'.
    destruct (rounds n o paused s') as [[[t' ks'] b']|] eqn:E'; [|discriminate]. injection E as <- <- <-.
    eapply IH; eassumption.
  - injection E as <- <- <-. exact L.
Qed.

Lemma lim_step fuel o s e t ks : sysinv o s -> deletion_ok s e = true -> step fuel o s e = Some (t, ks) -> lim o s -> lim o t.
Proof.
  intros I D E L. assert (I' := I). destruct I as (N1 & N2 & N3 & N4 & N5).
  assert (OD : forall id f, option_map (fun t => (t, @nil (dl * kind))) (on_dl id s f) = Some (t, ks) ->
               (forall d d', f d = Some d' -> d_id d' = d_id d /\ calm d d') -> lim o t).
  { intros id f X H. unfold on_dl in X. destruct (find_dl id (q_list s)) as [d|] eqn:F; [|cbn in X; now injection X as <- <-].
    destruct (f d) as [d'|] eqn:Fd; cbn in X; injection X as <- <-; [|exact L]. destruct (H d d' Fd).
    pose proof (find_in _ _ _ F) as [_ <-]. eapply lim_set; eauto. }
  destruct e as [id direct|id r|id|id n|id|id e' ready|id|paused]; cbn [step] in E.
  - injection E as <- <-. destruct (find_dl id (q_list s)) as [d|] eqn:F; [|exact L].
    destruct (find_in _ _ _ F) as [FI <-]. destruct (d_post d) eqn:P; [exact L|].
    destruct (N5 (d_id d) (d, memb (d_id d) (q_active s))) as [(_ & _ & J) _]; [unfold look; now rewrite F|].
    cbn [fst snd] in J. rewrite P in J. unfold downloaded.
    match goal with |- lim o ?x => set (s1 := x) end. destruct L as [L1 L2].
    assert (X : forall i, In i (q_active s) -> thr s1 i = thr s i /\ par_at s1 i = par_at s i).
    { intros i Hi. unfold thr, par_at, s1. cbn [q_list]. rewrite find_set. cbn [d_id with_post].
      replace (d_id (if (d_par d =? psNone) && negb (pc_always (o_parcheck o)) then with_par d psSkipped else d)) with (d_id d)
        by (destruct ((d_par d =? psNone) && negb (pc_always (o_parcheck o))); reflexivity).
      destruct (d_id d =? i) eqn:Y; [|auto]. zb. subst i. apply memb_not in J. contradiction. }
    assert (Y : thr s1 (d_id d) = false /\ par_at s1 (d_id d) = false).
    { unfold thr, par_at, s1. cbn [q_list]. rewrite find_set. cbn [d_id with_post].
      replace (d_id (if (d_par d =? psNone) && negb (pc_always (o_parcheck o)) then with_par d psSkipped else d)) with (d_id d)
        by (destruct ((d_par d =? psNone) && negb (pc_always (o_parcheck o))); reflexivity).
      rewrite Z.eqb_refl, F. cbn. destruct direct; split; reflexivity. }
    destruct Y as [Y1 Y2].
    assert (A : forall f g, (forall i, In i (q_active s) -> f i = g i) -> f (d_id d) = false -> cnt f (q_active s1) = cnt g (q_active s)).
    { intros f g H1 H2. unfold s1. cbn [q_active]. destruct direct; [|now apply cnt_ext]. rewrite cnt_app. unfold cnt at 2. cbn [filter].
      rewrite H2. cbn. rewrite Z.add_0_r. now apply cnt_ext. }
    unfold lim. rewrite (A (thr s1) (thr s)), (A (par_at s1) (par_at s)); auto; intros; now apply X.
  - eapply OD; [exact E|]. intros d d' H. split; [now destruct (id_done _ _ _ _ H)|]. eapply calm_done, H.
  - eapply OD; [exact E|]. intros d d' H. apply on_post_some in H. destruct H as (p & q & P & H & ->). split; [reflexivity|].
    unfold calm, stage. rewrite P. destruct (p_thread p) eqn:T; [discriminate| |discriminate]. destruct (p_working p); [discriminate|].
    injection H as <-. cbn. auto.
  - eapply OD; [exact E|]. intros d d' H. apply on_post_some in H. destruct H as (p & q & P & H & ->). split; [reflexivity|].
    unfold calm, stage. rewrite P. destruct (par_stage (p_stage p) && par_stage n && p_working p) eqn:C; [|discriminate].
    injection H as <-. zb. cbn. auto.
  - eapply OD; [exact E|]. intros d d' H. apply on_post_some in H. destruct H as (p & q & P & H & ->). split; [reflexivity|].
    unfold calm, stage. rewrite P. destruct (p_thread p) eqn:T; try discriminate. destruct (p_working p); [|discriminate].
    injection H as <-. cbn. rewrite T. auto.
  - eapply OD; [exact E|]. intros d d' H. injection H as <-. split; [reflexivity|]. split; auto.
  - injection E as <- <-. destruct (find_dl id (q_list s)) as [d|] eqn:F; [|exact L].
    destruct (find_in _ _ _ F) as [FI <-]. unfold delete_job. destruct (d_post d) as [p|] eqn:P; [|exact L].
    destruct (p_working p); eapply lim_set; eauto; unfold calm, stage; rewrite P; cbn; auto. split; discriminate.
  - unfold check_queue in E. destruct (tidy_ok _ _ I') as (u & EU & T). rewrite EU in E.
    pose proof (refines_inv _ _ _ _ _ _ I' (tidied_refines _ _ _ I' T)) as Iu.
    destruct (rounds fuel o paused u) as [[[t' ks'] b]|] eqn:ER; [|discriminate]. injection E as <- <-.
    eapply lim_rounds; [exact Iu|exact ER|]. eapply lim_tidied; eassumption.
Qed.

Lemma lim_steps fuel o : forall es s t ks, sysinv o s -> lim o s -> deletions_ok fuel o s es = true ->
  steps fuel o s es = Some (t, ks) -> lim o t /\ sysinv o t.
Proof.
  induction es as [|e r IH]; intros s t ks I L D E; cbn [steps] in E.
  { injection E as <- <-. auto. }
  cbn [deletions_ok] in D. apply andb_true_iff in D. destruct D as [D1 D2].
  destruct (step_ok fuel o s e I D1) as (s' & ks1 & E1 & R & _). rewrite E1 in *.
  pose proof (refines_inv _ _ _ _ _ _ I R) as I'. pose proof (lim_step _ _ _ _ _ _ I D1 E1 L) as L'.
  destruct (steps fuel o s' r) as [[t' ks']|] eqn:E2; [|discriminate]. injection E as <- <-. eapply IH; eassumption.
Qed.

Lemma count_ids (f : dl -> bool) g l act : NoDup (map d_id l) ->
  (forall d, In d l -> f d = true -> In (d_id d) act /\ g (d_id d) = true) ->
  Z.of_nat (length (filter f l)) <= cnt g act.
Proof.
  intros N H. unfold cnt. apply inj_le. rewrite <- (map_length d_id). apply NoDup_incl_length.
  - clear H. induction l as [|d r IH]; cbn; [constructor|]. inversion N as [|? ? N1 N2]; subst.
    destruct (f d); cbn; auto. constructor; auto. intros X. apply N1. apply in_map_iff in X. destruct X as (y & <- & Y).
    apply filter_In in Y. now apply in_map.
  - intros i Hi. apply in_map_iff in Hi. destruct Hi as (d & <- & Hd). apply filter_In in Hd. destruct Hd as [A B].
    apply filter_In. now apply H.
Qed.

Lemma lim_counts o s : sysinv o s -> lim o s -> n_running s <= most_jobs (o_strategy o) /\ n_pars s <= most_pars (o_strategy o).
Proof.
  intros (N1 & N2 & N3 & N4 & N5) [L1 L2].
  assert (X : forall d, In d (q_list s) -> running d = true -> In (d_id d) (q_active s) /\ thr s (d_id d) = true).
  { intros d Hd R. pose proof (find_nodup _ _ N1 Hd) as F. unfold thr. rewrite F. unfold running in R.
    destruct (d_post d) as [p|] eqn:P; [|discriminate]. destruct (p_thread p) eqn:T; try discriminate. split; [|reflexivity].
    destruct (memb (d_id d) (q_active s)) eqn:M; [now apply memb_in|].
    destruct (N5 (d_id d) (d, false)) as [_ J]; [unfold look; now rewrite F, M|]. destruct (J eq_refl p P). congruence. }
  unfold n_running, n_pars. split.
  - pose proof (count_ids running (thr s) (q_list s) (q_active s) N1 X). lia.
  - enough (Z.of_nat (length (filter (fun d => running d && par_stage (stage d)) (q_list s))) <= cnt (par_at s) (q_active s)) by lia.
    apply count_ids; [exact N1|]. intros d Hd R. zb. destruct (X d Hd H). split; [assumption|].
    unfold par_at. now rewrite (find_nodup _ _ N1 Hd).
Qed.

Lemma limits fuel o s es t ks : starting o s -> deletions_ok fuel o s es = true -> steps fuel o s es = Some (t, ks) ->
  n_running t <= most_jobs (o_strategy o) /\ n_pars t <= most_pars (o_strategy o).
Proof.
  intros ST D E. assert (L : lim o s).
  { destruct ST as (_ & A & _). unfold lim. rewrite A. cbn. destruct (o_strategy o); cbn; lia. }
  destruct (lim_steps fuel o es s t ks (starting_inv _ _ ST) L D E). now apply lim_counts.
Qed.
