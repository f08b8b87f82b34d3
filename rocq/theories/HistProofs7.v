From Verif Require Import Base InfoModel InfoSpec InfoProofs StatsModel StatsSpec StatsProofs StatsProofs2
  HistModel HistSpec HistProofs3 HistProofs6.
Open Scope list_scope.
Open Scope Z_scope.

Lemma keep_ok : forall par unpack deleted parking wiped g cs,
  (forall x, saved x -> g_st g x = summary x (g_files g) (g_done g)) ->
  Forall (fun f => f_num f FActive = 0) (g_files g) ->
  let '(g', cs', n) := add_to_history par unpack deleted parking wiped g cs in
  (not_needed par unpack deleted parking wiped (g_done g') -> cs' = []) /\
  (~ not_needed par unpack deleted parking wiped (g_done g') -> cs' = cs ++ map (mkC cfNone) (g_files g)) /\
  (n = 0 <-> Forall (fun c => c_status c <> cfNone) cs' /\ (forall a c, cs' = a ++ [c] -> c_status c <> cfPartial)).
Proof.
  intros par unpack deleted parking wiped g cs H A. unfold add_to_history.
  destruct (park_loop (g_files g) g cs A) as (P1 & P2 & P3 & _).
  destruct (fold_left park_one (g_files g) (g, cs)) as [g1 l1]. cbn [fst snd] in *.
  assert (C : (g_st g1 Failed - g_st g1 ParFailed =? 0) = true <-> ~ damaged (g_done g1)).
  { rewrite Z.eqb_eq. unfold damaged. rewrite <- clean_sum, P2, !total_app, !total_rev.
    pose proof (P1 Failed I) as Q1. pose proof (P1 ParFailed I) as Q2.
    pose proof (H Failed I) as Q3. pose proof (H ParFailed I) as Q4. unfold summary in Q3, Q4. lia. }
  change (g_done (with_st (assign [(RemPar, 0)] (g_st g1)) (with_files [] g1))) with (g_done g1).
  assert (F : forget_files par unpack deleted (g_st g1 Failed - g_st g1 ParFailed =? 0) parking wiped = true <->
              not_needed par unpack deleted parking wiped (g_done g1)).
  { rewrite forget_iff. unfold not_needed. rewrite C. reflexivity. }
  split; [|split].
  - intro N. apply F in N. now rewrite N.
  - intro N. destruct (forget_files _ _ _ _ _ _) eqn:E; [exfalso; tauto|]. exact P3.
  - apply parked_zero.
Qed.

Lemma status_ok : forall f, file_ok f -> Forall (fun a : art => snd a <> aiRunning) (f_arts f) ->
  f_num f FActive = 0 -> left_queue (mkC (status_of f) f).
Proof.
  intros f F R A. split; [exact F|]. split; [exact R|]. split; [exact A|]. cbn [c_status c_f]. unfold status_of.
  destruct F. assert (0 <= arts_count good_art (f_arts f)) by (unfold arts_count; lia).
  assert (0 <= arts_count bad_art (f_arts f)) by (unfold arts_count; lia).
  destruct (f_num f FTotal =? f_num f FSuccArt); [exact I|].
  destruct (f_num f FTotal =? f_num f FMissedArt + f_num f FFailArt) eqn:E; [lia|].
  destruct (0 <? f_num f FSuccArt) eqn:E1; [exact I|]. destruct (0 <? f_num f FFailArt) eqn:E2; [exact I|]. cbn. lia.
Qed.
