(** The whole queue: every operation is a sequence of small steps for each of the downloads. *)
From Verif Require Import Base UnpackModel PostModel PostSpec PostProofs.
Open Scope list_scope. Open Scope Z_scope.

Definition memb (i : Z) (l : list Z) : bool := existsb (Z.eqb i) l.
Lemma memb_in i l : memb i l = true <-> In i l.
Proof.
  unfold memb. rewrite existsb_exists. split.
  - intros (x & H & E). apply Z.eqb_eq in E. now subst.
  - intros H. exists i. now rewrite Z.eqb_refl.
Qed.
Lemma memb_not i l : memb i l = false <-> ~ In i l.
Proof. rewrite <- memb_in. destruct (memb i l); split; congruence. Qed.
Lemma memb_app i a b : memb i (a ++ b) = memb i a || memb i b.
Proof. apply existsb_app. Qed.
Lemma memb_filter i f l : memb i (filter f l) = memb i l && f i.
Proof.
  destruct (memb i l && f i) eqn:E.
  - apply andb_true_iff in E. destruct E as [A B]. apply memb_in, filter_In. now rewrite <- memb_in.
  - apply memb_not. intros X. apply filter_In in X. destruct X as [A B]. apply memb_in in A. rewrite A, B in E. discriminate.
Qed.

Lemma find_in i l d : find_dl i l = Some d -> In d l /\ d_id d = i.
Proof.
  induction l as [|x r IH]; cbn; [discriminate|]. destruct (d_id x =? i) eqn:E.
  - intros X; injection X as <-. apply Z.eqb_eq in E. auto.
  - intros X. destruct (IH X). auto.
Qed.
Lemma find_some i l : In i (map d_id l) -> exists d, find_dl i l = Some d.
Proof.
  induction l as [|x r IH]; cbn; [contradiction|]. intros [H|H].
  - rewrite H, Z.eqb_refl. eauto.
  - destruct (d_id x =? i); eauto.
Qed.
Lemma find_nodup l d : NoDup (map d_id l) -> In d l -> find_dl (d_id d) l = Some d.
Proof.
  induction l as [|x r IH]; cbn; [contradiction|]. intros N [H|H].
  - subst. now rewrite Z.eqb_refl.
  - inversion N as [|? ? N1 N2]; subst. destruct (d_id x =? d_id d) eqn:E.
    + apply Z.eqb_eq in E. exfalso. apply N1. rewrite E. now apply in_map.
    + auto.
Qed.
Lemma find_set i d l : find_dl i (set_dl d l) = if d_id d =? i then option_map (fun _ => d) (find_dl i l) else find_dl i l.
Proof.
  induction l as [|x r IH]; cbn; [now destruct (d_id d =? i)|].
  destruct (d_id x =? d_id d) eqn:E.
  - apply Z.eqb_eq in E. rewrite E. destruct (d_id d =? i); [reflexivity|]. exact IH.
  - destruct (d_id d =? i) eqn:F.
    + destruct (d_id x =? i) eqn:G; [|exact IH]. exfalso. zb. lia.
    + destruct (d_id x =? i); [reflexivity|exact IH].
Qed.
Lemma ids_set d l : map d_id (set_dl d l) = map d_id l.
Proof.
  induction l as [|x r IH]; cbn; [reflexivity|]. f_equal; [|exact IH].
  destruct (d_id x =? d_id d) eqn:E; [|reflexivity]. zb. congruence.
Qed.

Definition hp (d : dl) : Z := match d_post d with Some _ => 1 | None => 0 end.
Definition posts (l : list dl) : Z :=
  Z.of_nat (length (filter (fun d => match d_post d with Some _ => true | None => false end) l)).
Lemma posts_cons d l : posts (d :: l) = hp d + posts l.
Proof. unfold posts, hp. cbn [filter]. destruct (d_post d); cbn [length]; lia. Qed.
Lemma set_other d l : ~ In (d_id d) (map d_id l) -> set_dl d l = l.
Proof.
  induction l as [|x r IH]; cbn; [reflexivity|]. intros H.
  destruct (d_id x =? d_id d) eqn:E; [zb; exfalso; apply H; auto|]. f_equal. apply IH. auto.
Qed.
Lemma posts_set d l x : NoDup (map d_id l) -> find_dl (d_id d) l = Some x -> posts (set_dl d l) = posts l - hp x + hp d.
Proof.
  induction l as [|y r IH]; cbn [find_dl]; [discriminate|]. cbn [map]. intros N F. inversion N as [|? ? N1 N2]; subst.
  cbn [set_dl map]. fold (set_dl d r). rewrite !posts_cons. destruct (d_id y =? d_id d) eqn:E.
  - injection F as ->. zb. rewrite E in N1. rewrite set_other by exact N1. lia.
  - rewrite IH by assumption. lia.
Qed.

(** ** Numbers stay *)

Lemma id_request o d : d_id (check_request o d) = d_id d.
Proof. unfold check_request. destruct (d_post d); [|reflexivity]. ifs; reflexivity. Qed.
Lemma id_start o ap p d d' k : start_job o ap p d = (d', k) -> d_id d' = d_id d.
Proof. unfold start_job. destruct (choose o ap d) as [[] []]; intros E; injection E as <- <-; reflexivity. Qed.
Lemma env_start o ap p d d' k : start_job o ap p d = (d', k) -> d_env d' = d_env d.
Proof. unfold start_job. destruct (choose o ap d) as [[] []]; intros E; injection E as <- <-; reflexivity. Qed.
Lemma env_request o d : d_env (check_request o d) = d_env d.
Proof. unfold check_request. destruct (d_post d); [|reflexivity]. ifs; reflexivity. Qed.
Definition after (d : dl) : dl := match cleanup_job d with Some (Requeued x) | Some (Left x) => x | _ => d end.
Definition stays (d : dl) : bool := match cleanup_job d with Some Stays => true | _ => false end.
Lemma id_after d : d_id (after d) = d_id d.
Proof. unfold after, cleanup_job. destruct (d_post d); [|reflexivity]. ifs; reflexivity. Qed.
Lemma env_after d : d_env (after d) = d_env d.
Proof. unfold after, cleanup_job. destruct (d_post d); [|reflexivity]. ifs; reflexivity. Qed.
Lemma id_done o r d d' : job_done o r d = Some d' -> d_id d' = d_id d /\ d_env d' = d_env d /\ d_post d' <> None.
Proof.
  unfold job_done. destruct (d_post d) as [p|]; [|discriminate]. destruct (negb (p_working p)); [discriminate|].
  destruct r; match goal with |- context [if ?b then _ else None] => destruct b; [|discriminate] end.
  1,2,3,5,6,7: intros E; injection E as <-.
  - unfold done_prename. repeat split. discriminate.
  - unfold done_par. repeat split. discriminate.
  - repeat split. discriminate.
  - repeat split. discriminate.
  - repeat split. discriminate.
  - unfold done_script. destruct (run_scripts _ _). repeat split. discriminate.
  - unfold done_unpack. destruct (unpack_run _ _ _) as [[[] ?]|]; intros E; [| |discriminate]; injection E as <-.
    + destruct ((s =? usSuccess) && o_parrename o); repeat split; discriminate.
    + repeat split. discriminate.
Qed.

(** ** Looking at one download *)

Definition look (i : Z) (s : state) : option (dl * bool) :=
  option_map (fun d => (d, memb i (q_active s))) (find_dl i (q_list s)).
Definition rest (x : dl * bool) : Prop := snd x = false -> forall p, d_post (fst x) = Some p -> p_stage p = ptQueued /\ p_thread p = TNone.
Definition sysinv (o : opts) (s : state) : Prop :=
  NoDup (map d_id (q_list s)) /\ NoDup (q_active s) /\ incl (q_active s) (map d_id (q_list s)) /\
  q_jobs s = posts (q_list s) /\ (forall i x, look i s = Some x -> inv o x /\ rest x).

Lemma mstep_rest o x y l : mstep o x y l -> inv o x -> rest x -> rest y.
Proof.
  unfold rest. intros H I R. destruct H; cbn [fst snd] in *; try discriminate; intros A q Q.
  - unfold cleanup_job in H1. rewrite H in H1. ifs; try discriminate. injection H1 as <-. fields. cbn in Q. injection Q as <-. auto.
  - unfold cleanup_job in H. destruct (d_post d); [|discriminate]. ifs; try discriminate. injection H as <-. discriminate.
  - cbn in Q. injection Q as <-. destruct direct; auto.
  - subst a. unfold job_done in H. destruct (d_post d) as [p|] eqn:P; [|discriminate].
    destruct (negb (p_working p)) eqn:W; [discriminate|]. zb. 
    destruct I as (_ & _ & I). cbn in I. rewrite P in I. parts I. discriminate (I8 W).
  - destruct (R A p H). congruence.
  - subst a. destruct (R eq_refl _ H) as [X _]. rewrite X in H0. discriminate.
  - cbn in Q. injection Q as <-. cbn. eauto.
  - eauto.
  - cbn in Q. injection Q as <-. cbn. eauto.
Qed.
Lemma mpath_rest o x y ls : mpath o x y ls -> inv o x -> rest x -> rest y.
Proof.
  induction 1 as [|x y z l ls S1 S2 IH]; intros I R; [exact R|].
  apply IH; [|eapply mstep_rest; eassumption]. now destruct (mstep_good _ _ _ _ S1 I).
Qed.

Definition refines (o : opts) (s t : state) (ks : list (dl * kind)) (al : Z -> kind -> Z) (ne : Z -> env -> env) : Prop :=
  map d_id (q_list t) = map d_id (q_list s) /\ NoDup (q_active t) /\ incl (q_active t) (map d_id (q_list t)) /\
  q_jobs t - posts (q_list t) = q_jobs s - posts (q_list s) /\
  forall i x, look i s = Some x -> exists y ls, look i t = Some y /\ mpath o x y ls /\
    d_env (fst y) = ne i (d_env (fst x)) /\
    forall k, sum (started k) ls = jobs_of i k ks /\ sum (allowance k) ls <= al i k.
Notation zero := (fun (_ : Z) (_ : kind) => 0).
Notation same := (fun (_ : Z) (e : env) => e).

Lemma look_id i s x : look i s = Some x -> d_id (fst x) = i.
Proof. unfold look. destruct (find_dl i (q_list s)) as [d|] eqn:F; [|discriminate]. intros E; injection E as <-. cbn. eapply find_in, F. Qed.

Lemma refines_inv o s t ks al ne : sysinv o s -> refines o s t ks al ne -> sysinv o t.
Proof.
  intros (N1 & N2 & N3 & N4 & N5) (R1 & R2 & R3 & R4 & R5). unfold sysinv. rewrite R1 in *.
  repeat apply conj; auto; [lia|].
  intros i y L. assert (X : exists d, find_dl i (q_list s) = Some d).
  { apply find_some. rewrite <- R1. unfold look in L. destruct (find_dl i (q_list t)) as [d|] eqn:F; [|discriminate].
    apply find_in in F. destruct F as [F <-]. now apply in_map. }
  destruct X as (d & F).
  destruct (R5 i (d, memb i (q_active s))) as (z & ls & L' & P & _); [unfold look; now rewrite F|].
  rewrite L in L'. injection L' as <-.
  destruct (N5 i (d, memb i (q_active s))) as [J1 J2]; [unfold look; now rewrite F|].
  split; [eapply mpath_good; eassumption|]. eapply mpath_rest; eassumption.
Qed.

Lemma jobs_app i k a b : jobs_of i k (a ++ b) = jobs_of i k a + jobs_of i k b.
Proof. unfold jobs_of. rewrite filter_app, app_length. lia. Qed.

Lemma refines_trans o s t u ks ks' al al' ne ne' :
  refines o s t ks al ne -> refines o t u ks' al' ne' ->
  refines o s u (ks ++ ks') (fun i k => al i k + al' i k) (fun i e => ne' i (ne i e)).
Proof.
  intros (R1 & R2 & R3 & R4 & R5) (Q1 & Q2 & Q3 & Q4 & Q5). unfold refines.
  repeat apply conj; auto; [congruence|lia|].
  intros i x L. destruct (R5 i x L) as (y & ls & L' & P & E & A). destruct (Q5 i y L') as (z & ms & L'' & P' & E' & A').
  exists z, (ls ++ ms). split; [exact L''|]. split; [eapply mpath_app; eassumption|]. split; [congruence|].
  intros k. destruct (A k), (A' k). rewrite !sum_app, jobs_app. split; lia.
Qed.
Lemma refines_refl o s : sysinv o s -> refines o s s [] zero same.
Proof.
  intros (N1 & N2 & N3 & N4 & N5). unfold refines. repeat apply conj; auto.
  intros i x L. exists x, []. split; [exact L|]. split; [constructor|]. split; [reflexivity|]. intros k. cbn. split; [reflexivity|lia].
Qed.
Lemma refines_weak o s t ks al al' ne : refines o s t ks al ne -> (forall i k, al i k <= al' i k) -> refines o s t ks al' ne.
Proof.
  intros (R1 & R2 & R3 & R4 & R5) H. unfold refines. repeat apply conj; auto.
  intros i x L. destruct (R5 i x L) as (y & ls & L' & P & E & A). exists y, ls. repeat apply conj; auto.
  intros k. destruct (A k). split; [assumption|]. specialize (H i k). lia.
Qed.

(** ** Tidying up *)

Lemma post_request o d p : d_post d = Some p -> exists q, d_post (check_request o d) = Some q.
Proof. intros P. unfold check_request. rewrite P. ifs; cbn; eauto. Qed.
Lemma requests_ok o ids : forall l, NoDup ids -> NoDup (map d_id l) ->
  (forall i, In i ids -> exists d p, find_dl i l = Some d /\ d_post d = Some p) ->
  exists l', check_requests o ids l = Some l' /\ map d_id l' = map d_id l /\ posts l' = posts l /\
    forall i, find_dl i l' = if memb i ids then option_map (check_request o) (find_dl i l) else find_dl i l.
Proof.
  induction ids as [|i r IH]; intros l N M H; cbn [check_requests].
  { exists l. auto. }
  inversion N as [|? ? N1 N2]; subst.
  destruct (H i) as (d & p & F & P); [now left|]. rewrite F, P.
  pose proof (find_in _ _ _ F) as [_ Fi].
  destruct (IH (set_dl (check_request o d) l)) as (l' & E & Em & Ep & Ef).
  - exact N2.
  - now rewrite ids_set.
  - intros j J. rewrite find_set, id_request, Fi. destruct (i =? j) eqn:X; [zb; congruence|]. apply H. now right.
  - exists l'. split; [exact E|]. split; [now rewrite Em, ids_set|]. split.
    + rewrite Ep. rewrite (posts_set _ _ d); [|exact M|now rewrite id_request, Fi].
      assert (X : hp (check_request o d) = hp d); [|lia].
      unfold hp. destruct (post_request o d p P) as (q & ->). now rewrite P.
    + intros j. rewrite Ef, find_set, id_request, Fi. cbn [memb existsb]. fold (memb j r). rewrite (Z.eqb_sym j i).
      destruct (i =? j) eqn:X; cbn [orb]; [|reflexivity]. zb. subst j. rewrite F. cbn.
      destruct (memb i r) eqn:Y; [apply memb_in in Y; contradiction|reflexivity].
Qed.

Lemma cleanup_cases d p : d_post d = Some p ->
  match cleanup_job d with Some Stays => True | Some (Requeued x) => hp x = 1 | Some (Left x) => hp x = 0 | None => False end.
Proof. intros P. unfold cleanup_job. rewrite P. ifs; try exact I; reflexivity. Qed.
Lemma cleanups_ok ids : forall s, NoDup ids -> NoDup (map d_id (q_list s)) ->
  (forall i, In i ids -> exists d p, find_dl i (q_list s) = Some d /\ d_post d = Some p) ->
  exists t, cleanup_jobs ids s = Some t /\ map d_id (q_list t) = map d_id (q_list s) /\
    q_jobs t - posts (q_list t) = q_jobs s - posts (q_list s) /\
    q_active t = filter (fun i => match find_dl i (q_list s) with Some d => stays d | None => false end) ids ++ q_active s /\
    forall i, find_dl i (q_list t) = if memb i ids then option_map after (find_dl i (q_list s)) else find_dl i (q_list s).
Proof.
  induction ids as [|i r IH]; intros s N M H; cbn [cleanup_jobs].
  { exists s. auto 6. }
  inversion N as [|? ? N1 N2]; subst.
  destruct (H i) as (d & p & F & P); [now left|]. rewrite F.
  pose proof (find_in _ _ _ F) as [_ Fi].
  assert (Gen : forall d' n, d_id d' = i -> after d = d' -> stays d = false -> 
     n - hp d' = q_jobs s - hp d ->
     exists t, cleanup_jobs r (mkSt (set_dl d' (q_list s)) (q_active s) n) = Some t /\ map d_id (q_list t) = map d_id (q_list s) /\
    q_jobs t - posts (q_list t) = q_jobs s - posts (q_list s) /\
    q_active t = filter (fun i => match find_dl i (q_list s) with Some d => stays d | None => false end) (i :: r) ++ q_active s /\
    forall j, find_dl j (q_list t) = if memb j (i :: r) then option_map after (find_dl j (q_list s)) else find_dl j (q_list s)).
  { intros d' n D1 D2 D3 D4.
    destruct (IH (mkSt (set_dl d' (q_list s)) (q_active s) n)) as (t & E & Em & Ej & Ea & Ef).
    - exact N2.
    - cbn. now rewrite ids_set.
    - intros j J. cbn. rewrite find_set, D1. destruct (i =? j) eqn:X; [zb; congruence|]. apply H. now right.
    - cbn [q_list q_active q_jobs] in *. exists t. split; [exact E|]. split; [now rewrite Em, ids_set|]. split.
      { rewrite Ej, (posts_set _ _ d); [lia|exact M|now rewrite D1]. }
      split.
      { rewrite Ea. cbn [filter]. rewrite F, D3. f_equal. apply filter_ext_in. intros j J. rewrite find_set, D1.
        destruct (i =? j) eqn:X; [zb; congruence|reflexivity]. }
      intros j. rewrite Ef, find_set, D1. cbn [memb existsb]. fold (memb j r). rewrite (Z.eqb_sym j i).
      destruct (i =? j) eqn:X; cbn [orb]; [|reflexivity]. zb. subst j. rewrite F. cbn.
      destruct (memb i r) eqn:Y; [apply memb_in in Y; contradiction|]. now rewrite D2. }
  assert (A := id_after d). pose proof (cleanup_cases d p P) as CC. unfold after, stays in *.
  destruct (cleanup_job d) as [[|d'|d']|] eqn:C.
  - destruct (IH s) as (t & E & Em & Ej & Ea & Ef).
    { exact N2. } { exact M. } { intros j J. apply H. now right. }
    rewrite E. cbn [option_map]. exists (mkSt (q_list t) (i :: q_active t) (q_jobs t)). cbn [q_list q_active q_jobs].
    split; [reflexivity|]. split; [exact Em|]. split; [exact Ej|]. split.
    { rewrite Ea. cbn [filter]. rewrite F, C. reflexivity. }
    intros j. rewrite Ef. cbn [memb existsb]. fold (memb j r). rewrite (Z.eqb_sym j i).
    destruct (i =? j) eqn:X; cbn [orb]; [|reflexivity]. zb. subst j. rewrite F. cbn. rewrite C.
    destruct (memb i r); reflexivity.
  - apply Gen; try congruence. unfold hp at 2. rewrite P. lia.
  - apply Gen; try congruence. unfold hp at 2. rewrite P. lia.
  - contradiction.
Qed.

Lemma active_post o s : sysinv o s -> forall i, In i (q_active s) -> exists d p, find_dl i (q_list s) = Some d /\ d_post d = Some p.
Proof.
  intros (N1 & N2 & N3 & N4 & N5) i Hi. destruct (find_some i (q_list s)) as (d & F); [now apply N3|].
  exists d. destruct (N5 i (d, memb i (q_active s))) as [(_ & _ & X) _]; [unfold look; now rewrite F|]. cbn in X.
  destruct (d_post d) as [p|]; [eauto|]. apply memb_in in Hi. congruence.
Qed.

Definition tidied (o : opts) (s t : state) : Prop :=
  map d_id (q_list t) = map d_id (q_list s) /\ q_jobs t - posts (q_list t) = q_jobs s - posts (q_list s) /\
  q_active t = filter (fun i => match find_dl i (q_list s) with Some d => stays (check_request o d) | None => false end) (q_active s) /\
  forall i, find_dl i (q_list t) = if memb i (q_active s) then option_map (fun d => after (check_request o d)) (find_dl i (q_list s))
                                   else find_dl i (q_list s).

Lemma tidy_ok o s : sysinv o s -> exists t, tidy o s = Some t /\ tidied o s t.
Proof.
  intros I. pose proof (active_post o s I) as AP. destruct I as (N1 & N2 & N3 & N4 & N5). unfold tidy.
  destruct (requests_ok o (q_active s) (q_list s) N2 N1 AP) as (l & E & Em & Ep & Ef). rewrite E.
  destruct (cleanups_ok (q_active s) (mkSt l [] (q_jobs s))) as (t & T & Tm & Tj & Ta & Tf).
  - exact N2.
  - cbn. now rewrite Em.
  - intros i Hi. cbn. rewrite Ef. rewrite (proj2 (memb_in i _)) by exact Hi. destruct (AP i Hi) as (d & p & -> & P). cbn.
    destruct (post_request o d p P) as (q & Q). eauto.
  - cbn [q_list q_active q_jobs] in *. exists t. split; [exact T|]. unfold tidied. split; [congruence|]. split; [lia|]. split.
    + rewrite Ta, app_nil_r. apply filter_ext_in. intros i Hi. rewrite Ef, (proj2 (memb_in i _)) by exact Hi.
      now destruct (find_dl i (q_list s)).
    + intros i. rewrite Tf, Ef. destruct (memb i (q_active s)); [|reflexivity]. now destruct (find_dl i (q_list s)).
Qed.

Lemma tidied_refines o s t : sysinv o s -> tidied o s t -> refines o s t [] zero same.
Proof.
  intros I (T1 & T2 & T3 & T4). assert (AP := active_post o s I). assert (I' := I). destruct I as (N1 & N2 & N3 & N4 & N5).
  unfold refines. split; [exact T1|]. split; [rewrite T3; now apply NoDup_filter|]. split.
  { rewrite T1, T3. intros i Hi. apply filter_In in Hi. apply N3, Hi. }
  split; [exact T2|].
  intros i x L. unfold look in L |- *. rewrite T4, T3, memb_filter.
  destruct (find_dl i (q_list s)) as [d|] eqn:F; [|discriminate]. cbn [option_map] in L. injection L as <-.
  destruct (memb i (q_active s)) eqn:A; cbn [option_map andb].
  2:{ exists (d, false), []. split; [reflexivity|]. split; [constructor|]. split; [reflexivity|]. intros k. cbn. split; [reflexivity|lia]. }
  destruct (AP i) as (d0 & p & F0 & P); [now apply memb_in|]. rewrite F in F0. injection F0 as <-.
  destruct (N5 i (d, true)) as [J _]; [unfold look; now rewrite F, A|].
  destruct (request_gone o d p J P) as (q & Q1 & Q2 & _).
  eexists _, [MTau; MTau]. split; [reflexivity|]. split.
  2:{ split; [cbn [fst]; now rewrite env_after, env_request|]. intros k. cbn. split; [reflexivity|]. destruct k; lia. }
  econstructor; [eapply m_request; exact P|].
  unfold after, stays. destruct (cleanup_job (check_request o d)) as [[|d'|d']|] eqn:C.
  - eapply mp_cons; [|constructor]. 
    replace (check_request o d) with (check_request o (check_request o d)) at 2.
    { eapply m_request. exact Q1. }
    unfold check_request at 1. rewrite Q1, Q2. reflexivity.
  - apply mpath_one. eapply m_requeue; eassumption.
  - apply mpath_one. now apply m_left.
  - exfalso. unfold cleanup_job in C. rewrite Q1 in C. ifs; discriminate.
Qed.
