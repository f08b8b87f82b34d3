(** The binary remote protocol: which messages of the log are sent. *)
From Coq Require Import String.
From Verif Require Import Base WildModel BinModel BinSpec BinProofs BinProofs2.
Open Scope list_scope. Open Scope Z_scope.

Lemma consecutive_tl v ids : consecutive (v :: ids) -> consecutive ids.
Proof. intros H k a b Ha Hb. exact (H (S k) a b Ha Hb). Qed.
Lemma consecutive_nth ids v : consecutive (v :: ids) -> forall k w, nth_error (v :: ids) k = Some w -> w = v + Z.of_nat k.
Proof.
  intros H. induction k as [|k IH]; intros w N; [cbn in N; injection N as <-; lia|].
  destruct (nth_error (v :: ids) k) as [u|] eqn:Q. { rewrite (H k u w Q N), (IH u eq_refl). lia. }
  apply nth_error_None in Q. assert (nth_error (v :: ids) (S k) <> None) by congruence. apply nth_error_Some in H0. lia.
Qed.
Lemma log_last (A : Type) (id : A -> Z) (msgs : list A) lines start nr : 0 < lines -> log_range 0 lines (map id msgs) = (start, nr) ->
  nr = Z.min lines (Z.of_nat (length msgs)) /\ (exists before, msgs = before ++ log_sent start msgs) /\ Z.of_nat (length (log_sent start msgs)) = nr.
Proof.
  intros L H. unfold log_range in H. cbv zeta in H. rewrite map_length in H. assert (Q : (0 <? lines) = true) by lia. rewrite Q in H. set (n := Z.of_nat (length msgs)) in *.
  assert (R : (start, nr) = (n - (if n <? lines then n else lines), if n <? lines then n else lines)). { destruct (map id msgs); cbn in H; congruence. }
  injection R as -> ->. assert (M : (if n <? lines then n else lines) = Z.min lines n) by (destruct (n <? lines) eqn:E1; lia). rewrite M. split; [reflexivity|]. unfold log_sent. split.
  - exists (firstn (Z.to_nat (n - Z.min lines n)) msgs). symmetry. apply firstn_skipn.
  - rewrite skipn_length. unfold n. lia.
Qed.
Lemma filter_consecutive (A : Type) (id : A -> Z) (msgs : list A) from : forall v, consecutive (map id msgs) -> (forall m r, msgs = m :: r -> id m = v) ->
  filter (fun m => from <=? id m) msgs = skipn (Z.to_nat (from - v)) msgs.
Proof.
  induction msgs as [|m msgs IH]; intros v K H; [destruct (Z.to_nat (from - v)); reflexivity|]. cbn [filter]. pose proof (H m msgs eq_refl) as E1. cbn [map] in K.
  assert (IH' := IH (v + 1) (consecutive_tl _ _ K)). assert (Hn : forall m0 r, msgs = m0 :: r -> id m0 = v + 1). { intros m0 r ->. cbn [map] in K. rewrite (K 0%nat (id m) (id m0) eq_refl eq_refl). lia. }
  specialize (IH' Hn). destruct (from <=? id m) eqn:F.
  - replace (Z.to_nat (from - v)) with 0%nat by lia. cbn [skipn]. f_equal. rewrite IH'. replace (Z.to_nat (from - (v + 1))) with 0%nat by lia. reflexivity.
  - rewrite IH'. replace (Z.to_nat (from - v)) with (S (Z.to_nat (from - (v + 1)))) by lia. reflexivity.
Qed.
Lemma log_from (A : Type) (id : A -> Z) (msgs : list A) from lines start nr : consecutive (map id msgs) -> 0 < from < 2 ^ 31 -> (forall m, In m msgs -> 0 <= id m < 2 ^ 31) -> msgs <> [] ->
  log_range from lines (map id msgs) = (start, nr) -> log_sent start msgs = filter (fun m => from <=? id m) msgs /\ nr = Z.of_nat (length (log_sent start msgs)).
Proof.
  intros K F B N H. destruct msgs as [|m r]; [congruence|]. assert (Bm := B m (or_introl eq_refl)). unfold log_range in H. cbv zeta in H. cbn [map] in H.
  set (n := Z.of_nat (length (id m :: map id r))) in *. assert (Ln : n = Z.of_nat (length (m :: r))) by (unfold n; cbn [length]; rewrite map_length; reflexivity).
  assert (Q : (0 <? from) = true) by lia. rewrite Q in H.
  assert (S1 : s32 ((from - id m) mod 2 ^ 32) = from - id m).
  { unfold s32. destruct (Z_lt_ge_dec from (id m)) as [X|X].
    - replace ((from - id m) mod 2 ^ 32) with (from - id m + 2 ^ 32) by (rewrite <- (Z_mod_plus_full (from - id m) 1 (2 ^ 32)), Z.mod_small; lia). destruct (from - id m + 2 ^ 32 <? 2 ^ 31) eqn:Y; lia.
    - rewrite Z.mod_small by lia. destruct (from - id m <? 2 ^ 31) eqn:Y; lia. }
  rewrite S1 in H. set (s := if from - id m <? 0 then 0 else from - id m) in *.
  assert (R : (start, nr) = (s, if n - s <? 0 then 0 else n - s)) by (destruct (0 <? lines); symmetry; exact H). clearbody n. clear H. injection R as -> ->.
  assert (T : Z.to_nat s = Z.to_nat (from - id m)) by (unfold s; destruct (from - id m <? 0) eqn:Y; lia). unfold log_sent. split.
  - rewrite (filter_consecutive A id (m :: r) from (id m) K); [rewrite T; reflexivity|]. intros m0 r0 X. injection X as X _. rewrite X. reflexivity.
  - rewrite skipn_length. assert (0 <= s) by (unfold s; destruct (from - id m <? 0) eqn:Y; lia). destruct (n - s <? 0) eqn:Y; lia.
Qed.

