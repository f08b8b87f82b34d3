(** The post-processing queue: what follows for whole executions. *)
From Verif Require Import Base UnpackModel PostModel PostSpec PostProofs PostProofs2 PostProofs3 PostProofs4 PostProofs5.
Open Scope list_scope. Open Scope Z_scope.

Lemma deletions_app fuel o : forall es s r, deletions_ok fuel o s (es ++ r) = true -> deletions_ok fuel o s es = true.
Proof.
  induction es as [|e es IH]; intros s r H; [reflexivity|]. cbn [deletions_ok app] in *. apply andb_true_iff in H.
  destruct H as [A B]. rewrite A. cbn [andb]. destruct (step fuel o s e) as [[t k]|]; eauto.
Qed.

Lemma next_gate fuel o s es paused t ks t' ks' :
  starting o s -> deletions_ok fuel o s es = true -> steps fuel o s es = Some (t, ks) ->
  step fuel o t (ECheck paused) = Some (t', ks') ->
  forall d k, In (d, k) ks' -> may_start o d k /\ d_ready d = true /\ (paused = true -> force d = true) /\
                               In (d_id d) (map d_id (q_list s)).
Proof.
  intros St D E E' d k I. destruct (steps_ok fuel o es s (starting_inv _ _ St) D) as (u & l & E1 & Inv & Ids & _).
  rewrite E in E1. injection E1 as <- <-.
  destruct (step_ok fuel o t (ECheck paused) Inv eq_refl) as (t2 & k2 & E2 & _ & F). rewrite E' in E2. injection E2 as <- <-.
  rewrite Forall_forall in F. destruct (F _ I) as (A & B & C & G). cbn [fst snd] in *. rewrite Ids in B. auto.
Qed.

Lemma all_gates fuel o s es t ks :
  starting o s -> deletions_ok fuel o s es = true -> steps fuel o s es = Some (t, ks) ->
  forall d k, In (d, k) ks -> may_start o d k /\ d_ready d = true.
Proof.
  intros St D E d k I. destruct (steps_ok fuel o es s (starting_inv _ _ St) D) as (u & l & E1 & _ & _ & F & _).
  rewrite E in E1. injection E1 as <- <-. rewrite Forall_forall in F. now destruct (F _ I) as [[A B] _].
Qed.

Lemma counted fuel o s es t ks : starting o s -> deletions_ok fuel o s es = true -> steps fuel o s es = Some (t, ks) ->
  q_jobs t = n_posts t.
Proof.
  intros St D E. destruct (steps_ok fuel o es s (starting_inv _ _ St) D) as (u & l & E1 & (_ & _ & _ & J & _) & _).
  rewrite E in E1. injection E1 as <- <-. exact J.
Qed.

Lemma defined fuel o s es : starting o s -> deletions_ok fuel o s es = true -> steps fuel o s es <> None.
Proof.
  intros St D. destruct (steps_ok fuel o es s (starting_inv _ _ St) D) as (u & l & E1 & _). now rewrite E1.
Qed.

Lemma looks_end fuel o s es paused t ks :
  starting o s -> deletions_ok fuel o s es = true -> steps fuel o s es = Some (t, ks) ->
  (6 * length (q_list s) < fuel)%nat ->
  exists u ks', check_queue fuel o paused t = Some (u, ks', true).
Proof.
  intros St D E F. destruct (steps_ok fuel o es s (starting_inv _ _ St) D) as (u & l & E1 & Inv & Ids & _).
  rewrite E in E1. injection E1 as <- <-.
  assert (L : length (q_list t) = length (q_list s)) by (apply (f_equal (@length Z)) in Ids; now rewrite !map_length in Ids).
  destruct (check_end fuel o paused t Inv) as (v & k & C & _); [lia|]. eauto.
Qed.

Lemma idle fuel o s es paused t ks :
  starting o s -> deletions_ok fuel o s (es ++ [ECheck paused]) = true ->
  (6 * length (q_list s) < fuel)%nat ->
  steps fuel o s (es ++ [ECheck paused]) = Some (t, ks) ->
  q_active t = [] -> forall d, ~ waiting paused t d.
Proof.
  intros St D F E A d W. destruct (check_idle _ _ _ _ _ _ _ St D F E d W) as [H | (p & _ & _ & H)].
  - exact (full_active _ _ H A).
  - unfold checking in H. rewrite A in H. cbn in H. destruct (o_strategy o); discriminate H || (cbn in H; lia).
Qed.

Lemma scripts_ok o d p codes d' : d_post d = Some p -> p_request p = false -> job_done o (RScript codes) d = Some d' ->
  d_scripts d' = map (verdict (psSkipped <? d_par d)) (scripts_run (psSkipped <? d_par d) codes).
Proof.
  intros P R J. unfold job_done in J. rewrite P in J. destruct (negb (p_working p)); [discriminate|].
  destruct (p_stage p =? ptExecutingScript); [|discriminate]. injection J as <-. unfold done_script. rewrite R.
  remember (psSkipped <? d_par d) as b eqn:B.
  assert (H : fst (run_scripts (d_par d) codes) = map (verdict b) (scripts_run b codes)).
  { clear P R. induction codes as [|c r IH]; [reflexivity|]. cbn [run_scripts scripts_run].
    unfold script_status. rewrite <- B. unfold verdict in *.
    destruct (c =? 93) eqn:E3.
    { apply Z.eqb_eq in E3. subst c. cbn. destruct (run_scripts (d_par d) r) as [l q]. cbn in *. now rewrite IH. }
    destruct (c =? 95) eqn:E5.
    { apply Z.eqb_eq in E5. subst c. cbn. destruct (run_scripts (d_par d) r) as [l q]. cbn in *. now rewrite IH. }
    destruct (c =? 92) eqn:E2.
    { apply Z.eqb_eq in E2. subst c. cbn. destruct b; cbn; [|reflexivity].
      destruct (run_scripts (d_par d) r) as [l q]. cbn in *. now rewrite IH. }
    cbn [andb map]. rewrite E3, E5, E2. cbn [andb].
    destruct ((c =? 94) || (c =? -1)); destruct (run_scripts (d_par d) r) as [l q]; cbn in *; now rewrite IH. }
  destruct (run_scripts (d_par d) codes) as [l q]. cbn in *. exact H.
Qed.

Lemma startable_iff paused allow_par active d : startable paused allow_par active d = true <->
  exists p, d_post d = Some p /\ p_working p = false /\ d_ready d = true /\ (paused = true -> 900 <= d_prio d) /\
            (p_need p = true -> allow_par = true) /\ ~ In (d_id d) active.
Proof.
  unfold startable. destruct (d_post d) as [p|]; [|split; [discriminate|intros (q & E & _); discriminate]].
  rewrite !andb_true_iff, !orb_true_iff, !negb_true_iff. unfold force. rewrite Z.leb_le.
  assert (M : existsb (Z.eqb (d_id d)) active = false <-> ~ In (d_id d) active).
  { rewrite <- not_true_iff_false, existsb_exists. split; intros H K; apply H.
    - exists (d_id d). split; [exact K|]. apply Z.eqb_refl.
    - destruct K as (x & I & E). apply Z.eqb_eq in E. now rewrite E. }
  rewrite M. split.
  - intros ((((A & B) & C) & D) & E). exists p. repeat split; auto.
    + intros ->. destruct C; [discriminate|assumption].
    + intros N. destruct D as [D|D]; [exact D|congruence].
  - intros (q & [= <-] & A & B & C & D & E). repeat split; auto.
    + destruct paused; auto.
    + destruct (p_need p); auto.
Qed.
