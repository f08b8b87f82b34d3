From Verif Require Import Base LogModel LogSpec.

Lemma u32_id : forall z, 0 <= z < 4294967296 -> u32 z = z.
Proof. intros. unfold u32. apply Z.mod_small. lia. Qed.

Lemma trim_newest : forall limit l, 0 <= limit < 4294967296 -> trim_front limit l = newest limit l.
Proof.
  intros limit l H. unfold newest. induction l as [|m l IH]; cbn [trim_front]; rewrite u32_id by lia.
  - replace (limit <? Z.of_nat (length (@nil msg))) with false by (cbn [length]; lia). reflexivity.
  - destruct (limit <? Z.of_nat (length (m :: l))) eqn:E; cbn [length] in *.
    + rewrite IH. replace (S (length l) - Z.to_nat limit)%nat with (S (length l - Z.to_nat limit)) by lia. reflexivity.
    + replace (S (length l) - Z.to_nat limit)%nat with 0%nat by lia. reflexivity.
Qed.

Lemma newest_short : forall (A : Type) n (l : list A), Z.of_nat (length l) <= n -> newest n l = l.
Proof. intros A n l H. unfold newest. replace (length l - Z.to_nat n)%nat with 0%nat by lia. reflexivity. Qed.

Lemma newest_length : forall (A : Type) n (l : list A), 0 <= n ->
  Z.of_nat (length (newest n l)) = Z.min n (Z.of_nat (length l)).
Proof. intros A n l H. unfold newest. rewrite skipn_length. lia. Qed.

Lemma skipn_app_le : forall (A : Type) k (a b : list A), (k <= length a)%nat -> skipn k (a ++ b) = skipn k a ++ b.
Proof. intros A k a b H. rewrite skipn_app. replace (k - length a)%nat with 0%nat by lia. reflexivity. Qed.

Lemma skipn_skipn' : forall (A : Type) i j (l : list A), skipn i (skipn j l) = skipn (j + i) l.
Proof.
  induction j as [|j IH]; intro l; [reflexivity|]. destruct l as [|x l]; [cbn; now rewrite skipn_nil|].
  cbn [Nat.add skipn]. apply IH.
Qed.

(** Trimming early makes no difference. *)
Lemma newest_twice : forall (A : Type) n (a b : list A), 0 <= n ->
  newest n (newest n a ++ b) = newest n (a ++ b).
Proof.
  intros A n a b H. unfold newest. rewrite !app_length, skipn_length.
  rewrite <- skipn_app_le by lia. rewrite skipn_skipn'. f_equal. lia.
Qed.

Lemma map_newest : forall (A B : Type) (f : A -> B) n l, map f (newest n l) = newest n (map f l).
Proof. intros. unfold newest. rewrite map_length, skipn_map. reflexivity. Qed.

Definition add_all (limit : Z) (ms : list (Z * list Z)) (s : mlog) : mlog :=
  fold_left (fun s x => add_message limit (fst x) (snd x) s) ms s.

Lemma add_all_run : forall limit ms s,
  log_run limit (map (fun x => LAdd (fst x) (snd x)) ms) s = add_all limit ms s.
Proof.
  intros limit. unfold log_run, add_all. induction ms as [|x ms IH]; intro s; [reflexivity|].
  cbn [map fold_left]. apply IH.
Qed.

Lemma add_all_ok : forall limit ms s, 0 <= limit < 4294967296 -> l_init s = true -> ms <> [] ->
  map content (l_msgs (add_all limit ms s)) = newest limit (map content (l_msgs s) ++ map shown ms) /\
  l_init (add_all limit ms s) = true.
Proof.
  intros limit ms s H. revert s. unfold add_all.
  induction ms as [|x ms IH]; intros s Hi Hm; [congruence|]. cbn [fold_left].
  set (s1 := add_message limit (fst x) (snd x) s).
  assert (E1 : map content (l_msgs s1) = newest limit (map content (l_msgs s) ++ [shown x])).
  { unfold s1, add_message. cbn [l_msgs]. rewrite Hi, trim_newest, map_newest, map_app by lia. reflexivity. }
  assert (I1 : l_init s1 = true) by exact Hi.
  destruct ms as [|y ms].
  - cbn [fold_left map]. auto.
  - destruct (IH s1 I1 ltac:(discriminate)) as [A B]. split; [|exact B]. rewrite A, E1.
    rewrite newest_twice by lia. rewrite <- app_assoc. reflexivity.
Qed.

(** *** Identifiers are consecutive and end with m_idGen *)

Fixpoint consec (i : Z) (l : list msg) (g : Z) : Prop :=
  match l with [] => i = g | m :: r => g_id m = i + 1 /\ consec (i + 1) r g end.

Definition ids_ok (s : mlog) : Prop := exists i, 0 <= i /\ consec i (l_msgs s) (l_gen s).

Lemma consec_gen : forall l i g, consec i l g -> g = i + Z.of_nat (length l).
Proof.
  induction l as [|m l IH]; intros i g H; cbn [consec length] in *; [lia|]. destruct H as [_ H].
  apply IH in H. lia.
Qed.

Lemma consec_app : forall l i g, consec i l g -> forall m, g_id m = g + 1 -> consec i (l ++ [m]) (g + 1).
Proof.
  induction l as [|x l IH]; intros i g H m Hm; cbn [consec app] in *.
  - subst i. split; auto.
  - destruct H as [H1 H2]. split; auto.
Qed.

Lemma consec_skip : forall k l i g, consec i l g -> (k <= length l)%nat -> consec (i + Z.of_nat k) (skipn k l) g.
Proof.
  induction k as [|k IH]; intros l i g H Hk; [rewrite Z.add_0_r; exact H|].
  destruct l as [|m l]; cbn [length] in Hk; [lia|]. cbn [consec skipn] in *. destruct H as [_ H].
  replace (i + Z.of_nat (S k)) with (i + 1 + Z.of_nat k) by lia. apply IH; auto. lia.
Qed.

Lemma consec_increase : forall l i g, consec i l g -> ids_increase i l.
Proof.
  induction l as [|m l IH]; intros i g H; cbn [consec ids_increase] in *; auto. destruct H as [H1 H2].
  split; [lia|]. rewrite H1. eapply IH. exact H2.
Qed.

Lemma trim_suffix : forall limit l, exists k, (k <= length l)%nat /\ trim_front limit l = skipn k l.
Proof.
  intros limit. induction l as [|m l IH]; cbn [trim_front].
  - exists 0%nat. destruct (_ <? _); auto.
  - destruct (_ <? _).
    + destruct IH as (k & Hk & E). exists (S k). cbn [length skipn]. split; [lia|exact E].
    + exists 0%nat. split; [lia|reflexivity].
Qed.

Lemma renumber_ok : forall keep l g l' g', renumber keep g l = (l', g') -> 0 <= g ->
  g + Z.of_nat (length l) < 4294967296 ->
  consec g l' g' /\ map content l' = filter (fun x => keep (fst x)) (map content l) /\ g <= g' <= g + Z.of_nat (length l).
Proof.
  intros keep. induction l as [|m l IH]; intros g l' g' H Hg Hb; cbn [renumber length] in *.
  - injection H as <- <-. repeat split; auto; lia.
  - cbn [map filter content fst]. destruct (keep (g_kind m)).
    + rewrite u32_id in H by lia. destruct (renumber keep (g + 1) l) as [l1 g1] eqn:E. injection H as <- <-.
      destruct (IH _ _ _ E) as (A & B & C); [lia|lia|]. cbn [consec map content g_id g_kind g_text].
      split; [auto|]. split; [f_equal; exact B|]. lia.
    + destruct (IH _ _ _ H) as (A & B & C); [lia|lia|]. repeat split; auto; lia.
Qed.

Lemma ids_step : forall limit o s, ids_ok s -> l_gen s < 4294967295 ->
  ids_ok (log_step limit s o) /\ l_gen (log_step limit s o) <= l_gen s + 1.
Proof.
  intros limit o s (i & Hi & C) Hg. pose proof (consec_gen _ _ _ C) as G.
  destruct o as [k t| |keep]; cbn [log_step].
  - unfold add_message, ids_ok. cbn [l_msgs l_gen]. rewrite u32_id by lia.
    assert (C1 : consec i (l_msgs s ++ [mkMsg (l_gen s + 1) k (cut_text t)]) (l_gen s + 1))
      by (apply consec_app; auto).
    split; [|lia]. destruct (l_init s); [|exists i; auto].
    destruct (trim_suffix limit (l_msgs s ++ [mkMsg (l_gen s + 1) k (cut_text t)])) as (n & Hn & ->).
    exists (i + Z.of_nat n). split; [lia|]. now apply consec_skip.
  - unfold clear_log, ids_ok. cbn [l_msgs l_gen]. split; [|lia]. exists (l_gen s). cbn [consec]. split; [lia|reflexivity].
  - unfold init_options. destruct (renumber keep 0 (l_msgs s)) as [l g] eqn:E.
    destruct (renumber_ok _ _ _ _ _ E) as (A & B & D); [lia|lia|]. unfold ids_ok. cbn [l_msgs l_gen].
    split; [exists 0; split; [lia|exact A]|lia].
Qed.

Lemma ids_run : forall limit ops s, ids_ok s -> l_gen s + Z.of_nat (length ops) < 4294967296 ->
  ids_ok (log_run limit ops s) /\ l_gen (log_run limit ops s) <= l_gen s + Z.of_nat (length ops).
Proof.
  intros limit. unfold log_run. induction ops as [|o ops IH]; intros s H Hb; cbn [fold_left length] in *.
  - split; auto. lia.
  - destruct (ids_step limit o s H ltac:(lia)) as [A B]. destruct (IH _ A) as [C D]; [lia|]. split; auto. lia.
Qed.

Lemma ids_new : ids_ok new_log.
Proof. exists 0. split; [lia|reflexivity]. Qed.

(** *** The remote call *)

Lemma consec_all : forall l i g n, consec i l g -> n <= i + 1 -> filter (fun m => n <=? g_id m) l = l.
Proof.
  induction l as [|m l IH]; intros i g n H Hn; [reflexivity|]. cbn [consec filter] in *. destruct H as [H1 H2].
  replace (n <=? g_id m) with true by lia. f_equal. apply (IH (i + 1) g n); auto. lia.
Qed.

Lemma consec_from : forall l i g n, consec i l g -> i < n ->
  skipn (Z.to_nat (n - (i + 1))) l = filter (fun m => n <=? g_id m) l.
Proof.
  induction l as [|m l IH]; intros i g n H Hn; [now rewrite skipn_nil|]. cbn [consec] in H. destruct H as [H1 H2].
  cbn [filter]. destruct (Z.eq_dec n (i + 1)) as [->|N].
  - replace (Z.to_nat (i + 1 - (i + 1))) with 0%nat by lia. cbn [skipn].
    replace (i + 1 <=? g_id m) with true by lia. f_equal. symmetry. apply (consec_all _ (i + 1) g); auto. lia.
  - replace (n <=? g_id m) with false by lia.
    replace (Z.to_nat (n - (i + 1))) with (S (Z.to_nat (n - (i + 1 + 1)))) by lia. cbn [skipn].
    apply (IH (i + 1) g n); auto. lia.
Qed.

Lemma log_from : forall s n, ids_ok s -> l_gen s < 2147483648 -> 0 < n < 2147483648 ->
  forall e, e <= 0 -> log_call n e (l_msgs s) = Some (filter (fun m => n <=? g_id m) (l_msgs s)).
Proof.
  intros s n (i & Hi & C) Hg Hn e He. pose proof (consec_gen _ _ _ C) as G. unfold log_call.
  replace (0 <? e) with false by lia. replace (0 <? n) with true by lia. cbn [andb].
  destruct (l_msgs s) as [|m l] eqn:E; [now rewrite skipn_nil|].
  pose proof C as C'. cbn [consec] in C'. destruct C' as [M _]. cbn [length] in G.
  assert (D : s32 (u32 (n - g_id m)) = n - g_id m) by (unfold s32, u32; lia). rewrite D.
  f_equal. destruct (n - g_id m <? 0) eqn:Q.
  - change (Z.to_nat (u32 0)) with 0%nat. cbn [skipn]. symmetry. apply (consec_all _ i (l_gen s)); auto. lia.
  - rewrite u32_id by lia. replace (n - g_id m) with (n - (i + 1)) by lia. apply (consec_from _ _ (l_gen s)); auto. lia.
Qed.

Lemma log_newest : forall l n i, Z.of_nat (length l) < 4294967296 -> 0 < n -> i <= 0 ->
  log_call i n l = Some (newest n l).
Proof.
  intros l n i H Hn Hi. unfold log_call, newest. replace (0 <? i) with false by lia.
  replace (0 <? n) with true by lia. cbn [andb].
  replace (match l with [] => _ | _ :: _ => _ end) with
    (Z.of_nat (length l) - (if Z.of_nat (length l) <? n then Z.of_nat (length l) else n)) by (destruct l; reflexivity).
  f_equal. f_equal. rewrite u32_id by (destruct (_ <? n) eqn:?; lia). destruct (_ <? n) eqn:?; lia.
Qed.
