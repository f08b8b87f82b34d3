(** Rounds of the loop and events. *)
From Verif Require Import Base UnpackModel PostModel PostSpec PostProofs PostProofs2.
Open Scope list_scope. Open Scope Z_scope.
Notation zero := (fun (_ : Z) (_ : kind) => 0).
Notation same := (fun (_ : Z) (e : env) => e).

Lemma refines_set o s d d' act n ls ks al ne :
  sysinv o s -> find_dl (d_id d) (q_list s) = Some d -> d_id d' = d_id d ->
  mpath o (d, memb (d_id d) (q_active s)) (d', memb (d_id d) act) ls ->
  (forall i, i <> d_id d -> memb i act = memb i (q_active s)) -> NoDup act -> incl act (map d_id (q_list s)) ->
  n - hp d' = q_jobs s - hp d ->
  (forall k, sum (started k) ls = jobs_of (d_id d) k ks /\ sum (allowance k) ls <= al (d_id d) k) ->
  (forall i k, i <> d_id d -> jobs_of i k ks = 0 /\ 0 <= al i k) ->
  d_env d' = ne (d_id d) (d_env d) -> (forall i e, i <> d_id d -> ne i e = e) ->
  refines o s (mkSt (set_dl d' (q_list s)) act n) ks al ne.
Proof.
  intros (N1 & N2 & N3 & N4 & N5) F D P A1 A2 A3 H S1 S2 E1 E2. unfold refines. cbn [q_list q_active q_jobs].
  split; [apply ids_set|]. split; [exact A2|]. split; [now rewrite ids_set|]. split.
  { rewrite (posts_set _ _ d); [lia|exact N1|now rewrite D]. }
  intros i x L. unfold look in *. cbn [q_list q_active] in *. rewrite find_set, D. destruct (d_id d =? i) eqn:X.
  - zb. subst i. rewrite F in *. cbn in L |- *. injection L as <-. exists (d', memb (d_id d) act), ls. auto.
  - zb. destruct (find_dl i (q_list s)) as [y|]; [|discriminate]. cbn in L |- *. injection L as <-.
    exists (y, memb i act), []. rewrite A1 by congruence. split; [reflexivity|]. split; [constructor|].
    split; [cbn; now rewrite E2 by congruence|]. intros k. destruct (S2 i k); [congruence|]. cbn. split; lia.
Qed.

(** ** The choice of the next job *)

Lemma pick_gen can l : forall best,
  match fold_left (fun best d => if can d && match best with Some b => d_prio b <? d_prio d | None => true end
                                 then Some d else best) l best with
  | Some d => (best = Some d /\ forall x, In x l -> can x = true -> d_prio x <= d_prio d) \/
              (best_of can l d /\ match best with Some b => d_prio b < d_prio d | None => True end)
  | None => best = None /\ forall x, In x l -> can x = false
  end.
Proof.
  induction l as [|y r IH]; intros best; cbn [fold_left].
  { destruct best; [left|]; split; auto; contradiction. }
  specialize (IH (if can y && match best with Some b => d_prio b <? d_prio y | None => true end then Some y else best)).
  destruct (fold_left _ r _) as [d|].
  - destruct IH as [[E H]|[(l1 & l2 & E & C & H1 & H2) H]].
    + destruct (can y && match best with Some b => d_prio b <? d_prio y | None => true end) eqn:Cy.
      * injection E as ->. zb. right. split.
        -- exists [], r. repeat split; auto. intros x [].
        -- destruct best; [zb; assumption|exact I].
      * subst best. left. split; [reflexivity|]. intros x [-> |Hx] Cx; [|auto]. rewrite Cx in Cy. cbn in Cy. zb. assumption.
    + right. split.
      * exists (y :: l1), l2. split; [now rewrite E|]. split; [exact C|]. split; [|exact H2].
        intros x [-> |Hx] Cx; [|auto]. rewrite Cx in H. cbn [andb] in H.
        destruct best as [b|]; [destruct (d_prio b <? d_prio x) eqn:X; zb; lia|exact H].
      * destruct best as [b|]; [|exact I]. destruct (can y && (d_prio b <? d_prio y)) eqn:X; zb; lia.
  - destruct IH as [E H]. destruct (can y && match best with Some b => d_prio b <? d_prio y | None => true end) eqn:Cy; [discriminate|].
    split; [exact E|]. subst best. rewrite andb_true_r in Cy. intros x [<-|Hx]; auto.
Qed.
Lemma pick_ok paused ap act l :
  match pick_next paused ap act l with
  | Some d => best_of (startable paused ap act) l d
  | None => forall x, In x l -> startable paused ap act x = false
  end.
Proof.
  unfold pick_next. pose proof (pick_gen (startable paused ap act) l None) as H.
  destruct (fold_left _ l None); [|tauto]. destruct H as [[X _]|[X _]]; [discriminate|exact X].
Qed.

Lemma actives_ok ids l : (forall i, In i ids -> exists d p, find_dl i l = Some d /\ d_post d = Some p) ->
  exists ds, actives ids l = Some ds /\ map (fun i => find_dl i l) ids = map Some ds.
Proof.
  induction ids as [|i r IH]; intros H; cbn [actives].
  { exists []. auto. }
  destruct (H i) as (d & p & F & P); [now left|]. destruct IH as (ds & E & M); [intros j J; apply H; now right|].
  rewrite F, E, P. exists (d :: ds). cbn. now rewrite F, M.
Qed.

(** ** One round *)

Lemma post_start o ap p d d' k : d_post d = Some p -> start_job o ap p d = (d', k) -> d_post d' <> None.
Proof. unfold start_job. intros P. destruct (choose o ap d) as [[] []]; intros E; injection E as <- <-; cbn; congruence. Qed.

Lemma startable_parts paused ap act d : startable paused ap act d = true ->
  exists p, d_post d = Some p /\ p_working p = false /\ d_ready d = true /\ (paused = true -> force d = true) /\
            (ap = true \/ p_need p = false) /\ memb (d_id d) act = false.
Proof.
  unfold startable. destruct (d_post d) as [p|]; [|discriminate]. intros E. zb. exists p. repeat split; auto.
  - intros ->. match goal with H : _ || _ = true |- _ => now cbn in H end.
  - destruct ap; [auto|]. match goal with H : false || _ = true |- _ => cbn in H; zb; auto end.
Qed.

Definition opt_list {A} (x : option A) : list A := match x with Some a => [a] | None => [] end.

Definition begun (o : opts) (paused : bool) (s : state) (x : dl * kind) : Prop :=
  may_start o (fst x) (snd x) /\ In (fst x) (q_list s) /\ d_ready (fst x) = true /\ (paused = true -> force (fst x) = true).

Lemma round_ok o paused s : sysinv o s ->
  match round o paused s with
  | None => False
  | Some None => True
  | Some (Some (t, k)) => refines o s t (opt_list k) zero same /\ forall x, k = Some x -> begun o paused s x
  end.
Proof.
  intros I. pose proof (active_post o s I) as AP. unfold round.
  destruct (actives_ok _ _ AP) as (ds & -> & DM). destruct (can_run (o_strategy o) ds) as [more ap].
  destruct (negb more); [exact Logic.I|].
  pose proof (pick_ok paused ap (q_active s) (q_list s)) as PK.
  destruct (pick_next paused ap (q_active s) (q_list s)) as [d|]; [|exact Logic.I].
  destruct PK as (l1 & l2 & EL & CD & _ & _).
  destruct (startable_parts _ _ _ _ CD) as (p & P & W & RD & PA & ND & NA). rewrite P.
  assert (IN : In d (q_list s)) by (rewrite EL; apply in_elt).
  assert (I' := I). destruct I as (N1 & N2 & N3 & N4 & N5).
  assert (F : find_dl (d_id d) (q_list s) = Some d) by (now apply find_nodup).
  destruct (N5 (d_id d) (d, false)) as [J1 J2]; [unfold look; now rewrite F, NA|].
  destruct (J2 eq_refl p P) as [J3 J4]. rewrite J3. cbn [ptQueued Z.eqb].
  destruct (start_job o ap p d) as [d' k] eqn:SJ.
  assert (R : refines o s (mkSt (set_dl d' (q_list s)) (q_active s ++ [d_id d]) (q_jobs s)) (opt_list (option_map (fun k => (d, k)) k)) zero same).
  { eapply refines_set; [exact I'|exact F|eapply id_start, SJ| | | | | | | | |].
    - rewrite NA, memb_app. cbn [memb existsb]. rewrite Z.eqb_refl, orb_true_r.
      apply mpath_one. eapply m_start; eassumption.
    - intros i Hi. rewrite memb_app. cbn. rewrite (proj2 (Z.eqb_neq i (d_id d)) Hi). now rewrite !orb_false_r.
    - apply memb_not in NA.
      clear -N2 NA. induction (q_active s) as [|a r IH]; cbn; [constructor; [easy|constructor]|].
      inversion N2; subst. constructor; [|apply IH; auto; firstorder]. rewrite in_app_iff. cbn. intros [|[|[]]]; [auto|]. apply NA. now left.
    - intros i Hi. apply in_app_iff in Hi. destruct Hi as [Hi|[<-|[]]]; [auto|]. now apply in_map.
    - unfold hp. rewrite P. pose proof (post_start _ _ _ _ _ _ P SJ). destruct (d_post d'); [lia|congruence].
    - intros j. destruct k as [k|]; cbn [option_map opt_list sum fold_right started jobs_of filter fst snd].
      + unfold jobs_of. cbn [filter fst snd]. rewrite Z.eqb_refl. cbn [andb]. destruct k, j; cbn; lia.
      + destruct j; cbn; lia.
    - intros i j Hi. split; [|lia]. destruct k as [k|]; [|reflexivity]. unfold jobs_of. cbn.
      rewrite (proj2 (Z.eqb_neq (d_id d) i)) by congruence. reflexivity.
    - eapply env_start, SJ.
    - reflexivity. }
  pose proof (refines_inv _ _ _ _ _ _ I' R) as I1.
  destruct (tidy_ok _ _ I1) as (t & -> & T). pose proof (tidied_refines _ _ _ I1 T) as R'. split.
  - pose proof (refines_trans _ _ _ _ _ _ _ _ _ _ R R') as X. rewrite app_nil_r in X.
    eapply refines_weak; [exact X|]. intros; cbn; lia.
  - intros x E. destruct k as [k|]; [|discriminate]. injection E as <-. unfold begun. cbn [fst snd].
    repeat split; auto. unfold start_job in SJ. destruct (choose o ap d) as [a skip] eqn:C. 
    destruct a as [j| | |]; injection SJ as _ SJ; try discriminate. subst j. eapply choose_gate, C.
Qed.

(** ** The loop and the events *)

Definition start_ok (o : opts) (paused : bool) (s : state) (x : dl * kind) : Prop :=
  may_start o (fst x) (snd x) /\ In (d_id (fst x)) (map d_id (q_list s)) /\ d_ready (fst x) = true /\
  (paused = true -> force (fst x) = true).

Lemma rounds_ok fuel : forall o paused s, sysinv o s ->
  exists t ks b, rounds fuel o paused s = Some (t, ks, b) /\ refines o s t ks zero same /\ Forall (start_ok o paused s) ks.
Proof.
  induction fuel as [|n IH]; intros o paused s I; cbn [rounds].
  { exists s, [], false. split; [reflexivity|]. split; [now apply refines_refl|constructor]. }
  pose proof (round_ok o paused s I) as RO. destruct (round o paused s) as [[[s' k]|]|]; [| |contradiction].
  2:{ exists s, [], true. split; [reflexivity|]. split; [now apply refines_refl|constructor]. }
  destruct RO as [R B]. pose proof (refines_inv _ _ _ _ _ _ I R) as I'.
  destruct (IH o paused s' I') as (t & ks & b & -> & R' & FA).
  exists t, (opt_list k ++ ks), b. split; [now destruct k|]. split.
  - pose proof (refines_trans _ _ _ _ _ _ _ _ _ _ R R') as X. eapply refines_weak; [exact X|]. intros; cbn; lia.
  - apply Forall_app. split.
    + destruct k as [x|]; [|constructor]. constructor; [|constructor]. destruct (B x eq_refl) as (B1 & B2 & B3 & B4).
      repeat split; auto. now apply in_map.
    + destruct R as (RI & _). eapply Forall_impl; [|exact FA]. intros x. unfold start_ok. now rewrite RI.
Qed.
Lemma check_ok fuel o paused s : sysinv o s ->
  exists t ks b, check_queue fuel o paused s = Some (t, ks, b) /\ refines o s t ks zero same /\ Forall (start_ok o paused s) ks.
Proof.
  intros I. unfold check_queue. destruct (tidy_ok _ _ I) as (s' & -> & T). pose proof (tidied_refines _ _ _ I T) as R.
  pose proof (refines_inv _ _ _ _ _ _ I R) as I'. destruct (rounds_ok fuel o paused s' I') as (t & ks & b & E & R' & FA).
  exists t, ks, b. split; [exact E|]. split.
  - pose proof (refines_trans _ _ _ _ _ _ _ _ _ _ R R') as X. eapply refines_weak; [exact X|]. intros; cbn; lia.
  - destruct R as (RI & _). eapply Forall_impl; [|exact FA]. intros x. unfold start_ok. now rewrite RI.
Qed.

Definition pars_of (s : state) (i : Z) : bool :=
  match find_dl i (q_list s) with Some d => e_pars (d_env d) | None => false end.
Definition al_event (s : state) (e : event) (i : Z) (k : kind) : Z :=
  match e with
  | EDownloaded j _ => if j =? i then allowance k MDown else 0
  | EDone j (RParRename false true _) => if j =? i then allowance k MAgain else 0
  | EEnv j e' _ => if j =? i then if negb (pars_of s i) && e_pars e' then allowance k MAppear else 0 else 0
  | _ => 0
  end.
Definition ne_event (e : event) (i : Z) (v : env) : env := match e with EEnv j e' _ => if j =? i then e' else v | _ => v end.

Lemma al_nonneg s e i k : 0 <= al_event s e i k.
Proof.
  assert (forall l, 0 <= allowance k l) by (intros []; destruct k; cbn; lia).
  unfold al_event. destruct e; try lia; try (ifs; auto; lia).
  destruct r; try lia. destruct renamed, again; try lia. destruct (id =? i); auto; lia.
Qed.

Lemma refines_one o s e d d' l :
  sysinv o s -> find_dl (d_id d) (q_list s) = Some d -> d_id d' = d_id d ->
  mstep o (d, memb (d_id d) (q_active s)) (d', memb (d_id d) (q_active s)) l ->
  hp d' = hp d -> (forall k, started k l = 0 /\ allowance k l <= al_event s e (d_id d) k) ->
  d_env d' = ne_event e (d_id d) (d_env d) -> (forall i v, i <> d_id d -> ne_event e i v = v) ->
  refines o s (mkSt (set_dl d' (q_list s)) (q_active s) (q_jobs s)) [] (al_event s e) (ne_event e).
Proof.
  intros I F D M H S1 E1 E2. assert (I' := I). destruct I as (N1 & N2 & N3 & N4 & N5).
  eapply refines_set; try eassumption; auto.
  - eapply mpath_one, M.
  - lia.
  - intros k. destruct (S1 k). cbn. lia.
  - intros i k _. split; [reflexivity|]. apply al_nonneg.
Qed.

Lemma refines_none o s e : sysinv o s -> (match e with EEnv j _ _ => find_dl j (q_list s) = None | _ => True end) ->
  refines o s s [] (al_event s e) (ne_event e).
Proof.
  intros I E. eapply refines_weak with (al := zero); [|intros; apply al_nonneg].
  destruct (refines_refl o s I) as (R1 & R2 & R3 & R4 & R5). unfold refines. repeat apply conj; auto.
  intros i x L. destruct (R5 i x L) as (y & ls & L' & P & Ee & A). exists y, ls. repeat apply conj; auto.
  rewrite Ee. unfold ne_event. destruct e; auto. destruct (id =? i) eqn:X; [|reflexivity]. zb. subst.
  unfold look in L. rewrite E in L. discriminate.
Qed.

Lemma on_dl_ok o s e id f :
  sysinv o s -> (match e with EEnv j _ _ => j = id /\ forall d, f d <> None | _ => True end) ->
  (forall d d', find_dl id (q_list s) = Some d -> f d = Some d' -> d_id d' = d_id d /\ hp d' = hp d /\
     d_env d' = ne_event e id (d_env d) /\
     exists l, mstep o (d, memb id (q_active s)) (d', memb id (q_active s)) l /\
               (forall k, started k l = 0 /\ allowance k l <= al_event s e id k)) ->
  exists t, on_dl id s f = Some t /\ refines o s t [] (al_event s e) (ne_event e).
Proof.
  intros I E H. unfold on_dl. destruct (find_dl id (q_list s)) as [d|] eqn:F.
  2:{ exists s. split; [reflexivity|]. apply refines_none; [exact I|]. destruct e; auto. now destruct E as [-> _]. }
  destruct (f d) as [d'|] eqn:Fd.
  2:{ exists s. split; [reflexivity|]. apply refines_none; [exact I|]. destruct e; auto. destruct E as [_ E]. now destruct (E d). }
  destruct (H d d' eq_refl Fd) as (H1 & H2 & H3 & l & M & L). eexists. split; [reflexivity|].
  destruct (find_in _ _ _ F) as [_ Fi]. subst id. eapply refines_one; try eassumption.
  intros i v Hi. unfold ne_event. destruct e; auto. destruct E as [-> _]. now rewrite (proj2 (Z.eqb_neq (d_id d) i)) by congruence.
Qed.
Lemma on_post_some f d d' : on_post f d = Some d' -> exists p q, d_post d = Some p /\ f p = Some q /\ d' = with_post d (Some q).
Proof.
  unfold on_post. destruct (d_post d) as [p|]; [|discriminate]. destruct (f p) as [q|] eqn:E; [|discriminate].
  intros X; injection X as <-. eauto.
Qed.

Definition ev_paused (e : event) : bool := match e with ECheck p => p | _ => false end.

Lemma step_ok fuel o s e : sysinv o s -> deletion_ok s e = true ->
  exists t ks, step fuel o s e = Some (t, ks) /\ refines o s t ks (al_event s e) (ne_event e) /\
               Forall (start_ok o (ev_paused e) s) ks.
Proof.
  intros I D. assert (I' := I). destruct I as (N1 & N2 & N3 & N4 & N5).
  assert (Z0 : forall e' id k, started k MTau = 0 /\ allowance k MTau <= al_event s e' id k).
  { intros e' id k. split; [reflexivity|]. pose proof (al_nonneg s e' id k). destruct k; exact H. }
  destruct e as [id direct|id r|id|id n|id|id e' ready|id|paused]; cbn [step].
  - (* downloaded *)
    destruct (find_dl id (q_list s)) as [d|] eqn:F.
    2:{ eexists _, _. split; [reflexivity|]. split; [now apply refines_none|constructor]. }
    destruct (find_in _ _ _ F) as [FI <-].
    destruct (d_post d) as [p|] eqn:P.
    { eexists _, _. split; [reflexivity|]. split; [now apply refines_none|constructor]. }
    eexists _, _. split; [reflexivity|]. split; [|constructor]. unfold downloaded.
    destruct (N5 (d_id d) (d, memb (d_id d) (q_active s))) as [(_ & _ & J) _]; [unfold look; now rewrite F|].
    cbn [fst snd] in J. rewrite P in J.
    eapply refines_set; [exact I'|exact F| | | | | | | | | |].
    + destruct ((d_par d =? psNone) && negb (pc_always (o_parcheck o))); reflexivity.
    + eapply mp_cons; [|constructor]. rewrite J.
      replace (memb (d_id d) (if direct then q_active s ++ [d_id d] else q_active s)) with direct.
      { apply m_down; [exact P|discriminate]. }
      destruct direct; [|congruence]. symmetry. apply memb_in, in_app_iff. right. now left.
    + intros i Hi. destruct direct; [|reflexivity]. rewrite memb_app. cbn. rewrite (proj2 (Z.eqb_neq i (d_id d)) Hi). now rewrite !orb_false_r.
    + destruct direct; [|exact N2]. apply memb_not in J.
      clear -N2 J. induction (q_active s) as [|a r IH]; cbn; [constructor; [easy|constructor]|].
      inversion N2; subst. constructor; [|apply IH; auto; firstorder]. rewrite in_app_iff. cbn. intros [|[|[]]]; [auto|]. apply J. now left.
    + intros i Hi. destruct direct; [|auto]. apply in_app_iff in Hi. destruct Hi as [Hi|[<-|[]]]; [auto|]. now apply in_map.
    + unfold hp. rewrite P. cbn. lia.
    + intros k. cbn [sum fold_right started al_event]. rewrite Z.eqb_refl. unfold jobs_of. cbn. lia.
    + intros i k _. split; [reflexivity|apply al_nonneg].
    + cbn. destruct ((d_par d =? psNone) && negb (pc_always (o_parcheck o))); reflexivity.
    + reflexivity.
  - destruct (on_dl_ok o s (EDone id r) id (job_done o r) I' Logic.I) as (t & E & R).
    + intros d d' F E. destruct (id_done _ _ _ _ E) as (E1 & E2 & E3). split; [exact E1|]. split.
      { unfold hp. destruct (d_post d') as [q|]; [|congruence]. unfold job_done in E. destruct (d_post d); [reflexivity|discriminate]. }
      split; [exact E2|]. eexists. split; [apply m_done, E|].
      intros k. pose proof (al_nonneg s (EDone id r) id k) as A.
      destruct r as [[] [] c| | | | | | ]; cbn [started allowance al_event] in *; rewrite ?Z.eqb_refl in *; destruct k; cbn in *; lia.
    + eexists _, _. rewrite E. split; [reflexivity|]. split; [exact R|constructor].
  - edestruct (on_dl_ok o s (EThread id) id) as (t & E & R); [exact I'|exact Logic.I| |rewrite E; eexists _, _; split; [reflexivity|]; split; [exact R|constructor]].
    intros d d' F E. apply on_post_some in E. destruct E as (p & q & P & E & ->).
    destruct (p_thread p) eqn:T; [discriminate| |discriminate]. destruct (p_working p) eqn:W; [discriminate|]. injection E as <-.
    split; [reflexivity|]. split; [unfold hp; now rewrite P|]. split; [reflexivity|]. eexists. split; [now apply m_thread|]. apply Z0.
  - edestruct (on_dl_ok o s (EStage id n) id) as (t & E & R); [exact I'|exact Logic.I| |rewrite E; eexists _, _; split; [reflexivity|]; split; [exact R|constructor]].
    intros d d' F E. apply on_post_some in E. destruct E as (p & q & P & E & ->).
    destruct (par_stage (p_stage p) && par_stage n && p_working p) eqn:C; [|discriminate]. injection E as <-. zb.
    split; [reflexivity|]. split; [unfold hp; now rewrite P|]. split; [reflexivity|]. eexists. split; [now apply m_stage|]. apply Z0.
  - edestruct (on_dl_ok o s (EDirect id) id) as (t & E & R); [exact I'|exact Logic.I| |rewrite E; eexists _, _; split; [reflexivity|]; split; [exact R|constructor]].
    intros d d' F E. apply on_post_some in E. destruct E as (p & q & P & E & ->).
    destruct (p_thread p) eqn:T; [|discriminate|discriminate]. destruct (p_working p) eqn:W; [|discriminate]. injection E as <-.
    split; [reflexivity|]. split; [unfold hp; now rewrite P|]. split; [reflexivity|]. eexists. split; [now apply m_direct|]. apply Z0.
  - edestruct (on_dl_ok o s (EEnv id e' ready) id) as (t & E & R); [exact I'| | |rewrite E; eexists _, _; split; [reflexivity|]; split; [exact R|constructor]].
    { split; [reflexivity|discriminate]. }
    intros d d' F E. injection E as <-. split; [reflexivity|]. split; [reflexivity|]. split; [cbn; now rewrite Z.eqb_refl|].
    eexists. split; [apply m_env|]. intros k. cbn [al_event]. rewrite Z.eqb_refl. unfold pars_of. rewrite F.
    destruct (negb (e_pars (d_env d)) && e_pars e'); cbn [started]; split; try reflexivity; destruct k; cbn; lia.
  - destruct (find_dl id (q_list s)) as [d|] eqn:F.
    2:{ eexists _, _. split; [reflexivity|]. split; [now apply refines_none|constructor]. }
    destruct (find_in _ _ _ F) as [FI <-]. eexists _, _. split; [reflexivity|]. split; [|constructor]. unfold delete_job.
    cbn [deletion_ok] in D. rewrite F in D.
    destruct (d_post d) as [p|] eqn:P; [|now apply refines_none].
    destruct (p_working p) eqn:W.
    + eapply refines_one; try eassumption; try reflexivity; [|unfold hp; now rewrite P|apply Z0].
      pose proof (m_mark o d (memb (d_id d) (q_active s)) p P W) as X. rewrite W in X. exact X.
    + cbn [orb] in D. zb. fold (memb (d_id d) (q_active s)) in D.
      eapply refines_set; try eassumption; try reflexivity.
      * rewrite D. apply mpath_one. now apply m_delete with (p := p).
      * unfold hp. rewrite P. cbn. lia.
      * intros k. cbn. unfold jobs_of. cbn. split; [reflexivity|]. destruct k; cbn; lia.
      * intros i k _. unfold jobs_of. cbn. lia.
  - destruct (check_ok fuel o paused s I') as (t & ks & b & -> & R & FA). exists t, ks. split; [reflexivity|]. split; [|exact FA].
    eapply refines_weak; [exact R|]. intros; cbn; lia.
Qed.

(** ** Executions *)

Lemma pars_next s i d : find_dl i (q_list s) = Some d -> pars_of s i = e_pars (d_env d).
Proof. unfold pars_of. now intros ->. Qed.

Definition total_allowed (i : Z) (k : kind) (b : bool) (es : list event) : Z :=
  allowance k MDown * completions i es + allowance k MAppear * appearances i b es + allowance k MAgain * retries i es.
Lemma total_step s e i k es d : find_dl i (q_list s) = Some d ->
  al_event s e i k + total_allowed i k (e_pars (ne_event e i (d_env d))) es <= total_allowed i k (e_pars (d_env d)) (e :: es).
Proof.
  intros F. unfold total_allowed, completions, retries. cbn [filter appearances].
  assert (A : forall l, 0 <= allowance k l) by (intros []; destruct k; cbn; lia).
  pose proof (A MDown). pose proof (A MAppear). pose proof (A MAgain). clear A.
  destruct e as [j dr|j r|j|j n|j|j e' ready|j|pz]; cbn [al_event ne_event]; try lia.
  - destruct (j =? i); cbn [length]; [|lia]. rewrite Nat2Z.inj_succ. lia.
  - destruct r as [[] [] c| | | | | | ]; try lia. destruct (j =? i); cbn [length]; [|lia]. rewrite Nat2Z.inj_succ. lia.
  - destruct (j =? i); [|lia]. rewrite (pars_next _ _ _ F).
    destruct (negb (e_pars (d_env d)) && e_pars e'); lia.
Qed.

Definition next_ok (o : opts) (x : dl * kind) : Prop := may_start o (fst x) (snd x) /\ d_ready (fst x) = true.

Lemma steps_ok fuel o : forall es s, sysinv o s -> deletions_ok fuel o s es = true ->
  exists t ks, steps fuel o s es = Some (t, ks) /\ sysinv o t /\ map d_id (q_list t) = map d_id (q_list s) /\
    Forall (fun x => next_ok o x /\ In (d_id (fst x)) (map d_id (q_list s))) ks /\
    forall i d, find_dl i (q_list s) = Some d -> exists d', find_dl i (q_list t) = Some d' /\
      forall k, budget k d' + jobs_of i k ks <= budget k d + total_allowed i k (e_pars (d_env d)) es.
Proof.
  induction es as [|e r IH]; intros s I D; cbn [steps].
  { exists s, []. split; [reflexivity|]. split; [exact I|]. split; [reflexivity|]. split; [constructor|]. intros i d F. exists d. split; [exact F|]. intros k.
    unfold total_allowed, completions, retries, jobs_of. cbn. lia. }
  cbn [deletions_ok] in D. apply andb_true_iff in D. destruct D as [D1 D2].
  destruct (step_ok fuel o s e I D1) as (s' & ks & E & R & FA). rewrite E in D2 |- *.
  pose proof (refines_inv _ _ _ _ _ _ I R) as I'. destruct (IH s' I' D2) as (t & ks' & -> & It & Mt & FA' & B).
  exists t, (ks ++ ks'). split; [reflexivity|]. split; [exact It|]. pose proof R as (R1 & _ & _ & _ & R5).
  split; [congruence|]. split.
  { apply Forall_app. split.
    - eapply Forall_impl; [|exact FA]. intros x (A1 & A2 & A3 & A4). split; [split; assumption|assumption].
    - rewrite R1 in FA'. exact FA'. }
  intros i d F. destruct (R5 i (d, memb i (q_active s))) as (y & ls & L & P & Ev & A); [unfold look; now rewrite F|].
  unfold look in L. destruct (find_dl i (q_list s')) as [d1|] eqn:F1; [|discriminate]. cbn in L. injection L as <-.
  destruct (B i d1 F1) as (d2 & F2 & B2). exists d2. split; [exact F2|]. intros k. rewrite jobs_app.
  destruct I as (_ & _ & _ & _ & N5). destruct (N5 i (d, memb i (q_active s))) as [J _]; [unfold look; now rewrite F|].
  destruct (mpath_good _ _ _ _ P J) as [_ G]. specialize (G k). cbn [fst] in *. destruct (A k) as [A1 A2].
  specialize (B2 k). rewrite Ev in B2. pose proof (total_step s e i k r d F). lia.
Qed.

Lemma starting_inv o s : starting o s -> sysinv o s.
Proof.
  intros (S1 & S2 & S3 & S4). unfold sysinv. rewrite S2. repeat apply conj; auto.
  - constructor.
  - intros x [].
  - rewrite S3. unfold posts. rewrite Forall_forall in S4.
    assert (X : filter (fun d => match d_post d with Some _ => true | None => false end) (q_list s) = []).
    { clear -S4. induction (q_list s) as [|d r IH]; [reflexivity|]. cbn. destruct (S4 d) as [-> _]; [now left|].
      apply IH. intros x Hx. apply S4. now right. }
    now rewrite X.
  - intros i x L. unfold look in L. rewrite S2 in L. destruct (find_dl i (q_list s)) as [d|] eqn:F; [|discriminate].
    cbn in L. injection L as <-. apply find_in in F. destruct F as [F _]. rewrite Forall_forall in S4.
    destruct (S4 d F) as (P & R & M). split; [|intros _ p Q; cbn in Q; congruence].
    split; [exact R|]. split; [|cbn; now rewrite P].
    cbn. intros PM. destruct (o_parcheck o); try discriminate. destruct (M eq_refl) as [-> | ->]; discriminate.
Qed.

(** How many jobs are started for a download. *)
Lemma job_bounds fuel o s es : starting o s -> deletions_ok fuel o s es = true ->
  exists t ks, steps fuel o s es = Some (t, ks) /\
    forall id, exists b,
    (forall d, find_dl id (q_list s) = Some d -> b = e_pars (d_env d)) /\
    jobs_of id JScript ks <= completions id es /\ jobs_of id JMove ks <= 1 /\ jobs_of id JCleanup ks <= 1 /\
    jobs_of id JRarRename ks <= 1 /\ jobs_of id JParRename ks <= 2 + retries id es /\
    jobs_of id JPar ks <= 2 * (completions id es + appearances id b es) /\
    jobs_of id JUnpack ks <= 3 * completions id es + 2 * appearances id b es.
Proof.
  intros ST D. pose proof (starting_inv _ _ ST) as I. destruct (steps_ok fuel o es s I D) as (t & ks & E & It & _ & FA & B).
  exists t, ks. split; [exact E|]. intros id.
  destruct (find_dl id (q_list s)) as [d|] eqn:F.
  - exists (e_pars (d_env d)). split; [intros d' X; now injection X as <-|].
    destruct (B id d F) as (d' & F' & B').
    assert (P : d_post d = None).
    { destruct ST as (_ & _ & _ & S4). rewrite Forall_forall in S4. apply S4. now apply find_in in F. }
    assert (N : forall k, 0 <= budget k d').
    { intros k. destruct It as (_ & _ & _ & _ & N5). destruct (N5 id (d', memb id (q_active t))) as [J _]; [unfold look; now rewrite F'|].
      eapply budget_nonneg, J. }
    pose proof (fun k => conj (N k) (B' k)) as C. clear B' N. unfold total_allowed in C.
    assert (HB : forall b, 0 <= b2z b <= 1) by (intros []; cbn; lia).
    assert (BN : forall k, budget k d = match k with
            | JParRename => b2z (d_prename d =? rsNone) + b2z (d_unpack d =? usNone)
            | JRarRename => b2z (d_rrename d =? rsNone)
            | JCleanup => b2z (d_cleanup d =? csNone)
            | JMove => b2z (d_move d =? msNone)
            | _ => 0
            end) by (intros k; unfold budget; now rewrite P).
    pose proof (HB (d_prename d =? rsNone)). pose proof (HB (d_unpack d =? usNone)). pose proof (HB (d_rrename d =? rsNone)).
    pose proof (HB (d_cleanup d =? csNone)). pose proof (HB (d_move d =? msNone)).
    pose proof (C JParRename). pose proof (C JPar). pose proof (C JRarRename). pose proof (C JUnpack). pose proof (C JCleanup).
    pose proof (C JMove). pose proof (C JScript). clear C. rewrite !BN in *. cbn [allowance] in *. clear BN HB.
    repeat apply conj; lia.
  - exists false. split; [discriminate|].
    assert (Zr : forall k, jobs_of id k ks = 0).
    { intros k. unfold jobs_of. replace (filter _ ks) with (@nil (dl * kind)); [reflexivity|].
      clear -F FA. induction ks as [|x r IH]; [reflexivity|]. cbn. inversion FA as [|? ? [_ A] A2]; subst.
      destruct (d_id (fst x) =? id) eqn:X; cbn [andb]; [|auto]. zb. rewrite X in A. destruct (find_some _ _ A). congruence. }
    rewrite !Zr. unfold completions, retries.
    assert (0 <= appearances id false es).
    { clear. generalize false. induction es as [|e r IH]; intros b; cbn [appearances]; [lia|].
      destruct e; auto. destruct (id0 =? id); auto. specialize (IH (e_pars e)). destruct (negb b && e_pars e); lia. }
    lia.
Qed.
