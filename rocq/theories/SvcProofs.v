(** Proofs about services and the watch over the disk. *)
From Coq Require Import String.
From Verif Require Import Base WildModel WildSpec TextProofs SvcModel SvcSpec.
Open Scope list_scope. Open Scope Z_scope.

Lemma put_same l i v x : nth_error l i = Some x -> nth_error (put l i v) i = Some v.
Proof. revert i. induction l as [|y l IH]; intros [|i] H; try discriminate; [reflexivity|]. cbn [put nth_error] in *. apply IH, H. Qed.
Lemma put_other l i j v : i <> j -> nth_error (put l i v) j = nth_error l j.
Proof. revert i j. induction l as [|y l IH]; intros [|i] [|j] H; try reflexivity; try congruence. cbn [put nth_error]. apply IH. congruence. Qed.

(** What was found out for a service while it is not changed behind the thread's back. *)
Definition known (s : st) (t w : Z) (x : svc) : Prop := s_flag s = true \/ v_dirty x = true \/ (0 <= v_interval x -> w <= v_interval x - (t - v_last x)).
Definition inv (s : st) : Prop :=
  match s_at s with
  | Work _ => True
  | Calc i t w => t <= s_now s /\ w <= 86400 /\ forall j x, (j < i)%nat -> nth_error (s_svcs s) j = Some x -> known s t w x
  | Wait t t' w => t <= t' <= s_now s /\ 0 < w <= 86400 /\ forall j x, nth_error (s_svcs s) j = Some x -> known s t w x
  end.
Lemma nth_lt {A} (l : list A) i j x : nth_error l i = None -> nth_error l j = Some x -> (j < i)%nat.
Proof. intros A0 B. apply nth_error_None in A0. assert (nth_error l j <> None) by congruence. apply nth_error_Some in H. lia. Qed.
Lemma inv_step l s s' : inv s -> step false l s = Some s' -> inv s'.
Proof.
  destruct s as [vs p fl now]. unfold inv, known. cbn [s_at s_svcs s_flag s_now]. intros I0 H. destruct l as [d v| | |d|i v|i]; cbn [step s_at s_svcs s_flag s_now] in H.
  - destruct p as [i|i t w|t t' w]; try discriminate. destruct (nth_error vs i) as [x|] eqn:Q.
    + destruct ((0 <=? v_interval x) && (v_interval x <=? Z.abs (now - v_last x))); [destruct (0 <=? d); [|discriminate]|]; injection H as <-; exact Logic.I.
    + injection H as <-. cbn [s_at s_svcs s_flag s_now]. split; [lia|]. split; [lia|]. intros j x L. lia.
  - destruct p as [i|i t w|t t' w]; try discriminate. destruct I0 as (T & W & I0). destruct (nth_error vs i) as [x|] eqn:Q; injection H as <-; cbn [s_at s_svcs s_flag s_now].
    + split; [exact T|]. split; [destruct (0 <=? v_interval x); lia|]. intros j y L J. destruct (Nat.eq_dec j i) as [-> | NE].
      * rewrite Q in J. injection J as <-. right. right. intros P. apply Z.leb_le in P. rewrite P. lia.
      * destruct (I0 j y ltac:(lia) J) as [A | [A | A]]; [left; exact A|right; left; exact A|]. right. right. intros P. specialize (A P). destruct (0 <=? v_interval x); lia.
    + destruct (0 <? w) eqn:P; [|exact Logic.I]. apply Z.ltb_lt in P. split; [lia|]. split; [lia|]. intros j y J. apply (I0 j y (nth_lt _ _ _ _ Q J) J).
  - destruct p as [i|i t w|t t' w]; try discriminate. destruct (fl || (t' + w <=? now)); [|discriminate]. injection H as <-. exact Logic.I.
  - rewrite orb_false_r in H. destruct (0 <=? d) eqn:D; [|destruct p; discriminate]. apply Z.leb_le in D. destruct p as [i|i t w|t t' w]; injection H as <-; cbn [s_at s_svcs s_flag s_now]; [exact Logic.I| |].
    + destruct I0 as (T & W & I0). split; [lia|]. split; [exact W|exact I0].
    + destruct I0 as (T & W & I0). split; [lia|]. split; [exact W|exact I0].
  - destruct (nth_error vs i) as [x|] eqn:Q; [|destruct p; discriminate].
    assert (G : forall t w j y, (forall z, nth_error vs j = Some z -> fl = true \/ v_dirty z = true \/ (0 <= v_interval z -> w <= v_interval z - (t - v_last z))) ->
      nth_error (put vs i (Svc v (v_last x) true)) j = Some y -> fl = true \/ v_dirty y = true \/ (0 <= v_interval y -> w <= v_interval y - (t - v_last y))).
    { intros t w j y K J. destruct (Nat.eq_dec i j) as [<- | NE]; [rewrite (put_same _ _ _ _ Q) in J; injection J as <-; right; left; reflexivity|]. rewrite put_other in J by exact NE. apply K, J. }
    destruct p as [k|k t w|t t' w]; injection H as <-; cbn [s_at s_svcs s_flag s_now]; [exact Logic.I| |].
    + destruct I0 as (T & W & I0). split; [exact T|]. split; [exact W|]. intros j y L J. apply (G t w j y); [|exact J]. intros z. apply I0, L.
    + destruct I0 as (T & W & I0). split; [exact T|]. split; [exact W|]. intros j y J. apply (G t w j y); [|exact J]. intros z. apply I0.
  - destruct (nth_error vs i) as [x|] eqn:Q; [|destruct p; discriminate]. destruct p as [k|k t w|t t' w]; injection H as <-; cbn [s_at s_svcs s_flag s_now]; [exact Logic.I| |].
    + destruct I0 as (T & W & I0). split; [exact T|]. split; [exact W|]. intros; left; reflexivity.
    + destruct I0 as (T & W & I0). split; [exact T|]. split; [exact W|]. intros; left; reflexivity.
Qed.
Lemma inv_run ls : forall s s', inv s -> run false ls s = Some s' -> inv s'.
Proof. induction ls as [|l ls IH]; intros s s' I0 H; cbn [run] in H; [injection H as <-; exact I0|]. destruct (step false l s) as [s1|] eqn:Q; [|discriminate]. exact (IH s1 s' (inv_step _ _ _ I0 Q) H). Qed.
Lemma wait_thm is now ls s t t' w i x : run false ls (start is now) = Some s -> s_at s = Wait t t' w -> s_flag s = false -> nth_error (s_svcs s) i = Some x -> v_dirty x = false ->
  0 < w <= 86400 /\ t <= t' <= s_now s /\ ~ due x t /\ forall u, t <= u -> u < t + w -> ~ due x u.
Proof.
  intros R A F N D. pose proof (inv_run ls _ _ (Logic.I : inv (start is now)) R) as K. unfold inv in K. rewrite A in K. destruct K as (T & W & K). specialize (K i x N).
  assert (G : 0 <= v_interval x -> w <= v_interval x - (t - v_last x)) by (destruct K as [B | [B | B]]; [congruence|congruence|exact B]).
  split; [exact W|]. split; [exact T|]. split; [intros [P Q]; specialize (G P); lia|]. intros u L1 L2 [P Q]. specialize (G P). lia.
Qed.
Lemma wakes_thm back s t t' w : s_at s = Wait t t' w -> s_flag s = true \/ t' + w <= s_now s -> exists s', step back CWake s = Some s' /\ s_at s' = Work 0 /\ s_svcs s' = s_svcs s.
Proof.
  intros A H. cbn [step]. rewrite A. replace (s_flag s || (t' + w <=? s_now s)) with true; [eexists; split; [reflexivity|split; reflexivity]|].
  symmetry. apply orb_true_iff. destruct H as [H | H]; [left; exact H|right; apply Z.leb_le, H].
Qed.
(** The check of a service that is due runs it, of another one does not; other services stay as they are. *)
Lemma check_thm d v s s' i x : step false (CCheck d v) s = Some s' -> s_at s = Work i -> nth_error (s_svcs s) i = Some x -> v_last x <= s_now s ->
  s_at s' = Work (S i) /\ (due x (s_now s) -> exists x', nth_error (s_svcs s') i = Some x' /\ v_last x' = s_now s') /\ (~ due x (s_now s) -> s_svcs s' = s_svcs s) /\
  forall j, j <> i -> nth_error (s_svcs s') j = nth_error (s_svcs s) j.
Proof.
  cbn [step]. intros H A N L. rewrite A, N in H. destruct ((0 <=? v_interval x) && (v_interval x <=? Z.abs (s_now s - v_last x))) eqn:B.
  - apply andb_true_iff in B as [B1 B2]. apply Z.leb_le in B1, B2. destruct (0 <=? d); [|discriminate]. injection H as <-. cbn [s_at s_svcs s_now]. split; [reflexivity|]. split; [|split].
    + intros _. eexists. split; [apply (put_same _ _ _ _ N)|reflexivity].
    + intros K. destruct K. split; lia.
    + intros j J. apply put_other. congruence.
  - injection H as <-. cbn [s_at s_svcs s_now]. split; [reflexivity|]. split; [|split; reflexivity]. intros [P Q]. apply andb_false_iff in B as [B | B]; apply Z.leb_gt in B; lia.
Qed.

(** No service has worked in the future. *)
Definition inv2 (s : st) : Prop := forall j x, nth_error (s_svcs s) j = Some x -> v_last x <= match s_at s with Work _ => s_now s | Calc _ t _ => t | Wait t _ _ => t end.
Lemma inv2_step l s s' : inv s -> inv2 s -> step false l s = Some s' -> inv2 s'.
Proof.
  destruct s as [vs p fl now]. unfold inv, inv2. cbn [s_at s_svcs s_flag s_now]. intros I0 I2 H. destruct l as [d v| | |d|i v|i]; cbn [step s_at s_svcs s_flag s_now] in H.
  - destruct p as [i|i t w|t t' w]; try discriminate. destruct (nth_error vs i) as [x|] eqn:Q.
    + destruct ((0 <=? v_interval x) && (v_interval x <=? Z.abs (now - v_last x))); [destruct (0 <=? d) eqn:D; [|discriminate]|]; injection H as <-; cbn [s_at s_svcs s_now]; [|exact I2].
      apply Z.leb_le in D. intros j y J. destruct (Nat.eq_dec i j) as [<- | NE]; [rewrite (put_same _ _ _ _ Q) in J; injection J as <-; cbn [v_last]; lia|]. rewrite put_other in J by exact NE. specialize (I2 j y J). lia.
    + injection H as <-. exact I2.
  - destruct p as [i|i t w|t t' w]; try discriminate. destruct (nth_error vs i) as [x|] eqn:Q; injection H as <-; cbn [s_at s_svcs s_now]; [exact I2|]. destruct (0 <? w); [exact I2|]. intros j y J. specialize (I2 j y J). lia.
  - destruct p as [i|i t w|t t' w]; try discriminate. destruct (fl || (t' + w <=? now)); [|discriminate]. injection H as <-. cbn [s_at s_svcs s_now]. intros j y J. specialize (I2 j y J). lia.
  - rewrite orb_false_r in H. destruct (0 <=? d) eqn:D; [|destruct p; discriminate]. apply Z.leb_le in D. destruct p as [i|i t w|t t' w]; injection H as <-; cbn [s_at s_svcs s_flag s_now]; [|exact I2|exact I2]. intros j y J. specialize (I2 j y J). lia.
  - destruct (nth_error vs i) as [x|] eqn:Q; [|destruct p; discriminate]. assert (G : forall b, (forall j y, nth_error vs j = Some y -> v_last y <= b) -> forall j y, nth_error (put vs i (Svc v (v_last x) true)) j = Some y -> v_last y <= b).
    { intros b K j y J. destruct (Nat.eq_dec i j) as [<- | NE]; [rewrite (put_same _ _ _ _ Q) in J; injection J as <-; exact (K i x Q)|]. rewrite put_other in J by exact NE. exact (K j y J). }
    destruct p as [k|k t w|t t' w]; injection H as <-; cbn [s_at s_svcs s_now]; apply G; exact I2.
  - destruct (nth_error vs i) as [x|] eqn:Q; [|destruct p; discriminate]. assert (G : forall b, (forall j y, nth_error vs j = Some y -> v_last y <= b) -> forall j y, nth_error (put vs i (Svc (v_interval x) (v_last x) false)) j = Some y -> v_last y <= b).
    { intros b K j y J. destruct (Nat.eq_dec i j) as [<- | NE]; [rewrite (put_same _ _ _ _ Q) in J; injection J as <-; exact (K i x Q)|]. rewrite put_other in J by exact NE. exact (K j y J). }
    destruct p as [k|k t w|t t' w]; injection H as <-; cbn [s_at s_svcs s_now]; apply G; exact I2.
Qed.
Lemma inv2_run ls : forall s s', inv s -> inv2 s -> run false ls s = Some s' -> inv2 s'.
Proof. induction ls as [|l ls IH]; intros s s' I0 I2 H; cbn [run] in H; [injection H as <-; exact I2|]. destruct (step false l s) as [s1|] eqn:Q; [|discriminate]. exact (IH s1 s' (inv_step _ _ _ I0 Q) (inv2_step _ _ _ I0 I2 Q) H). Qed.
Lemma inv2_start is now : 0 <= now -> inv2 (start is now).
Proof. intros N j x J. cbn [start s_svcs s_at s_now] in *. rewrite nth_error_map in J. destruct (nth_error is j); [injection J as <-; exact N|discriminate J]. Qed.
Lemma last_thm is now ls s i x : 0 <= now -> run false ls (start is now) = Some s -> nth_error (s_svcs s) i = Some x -> v_last x <= s_now s.
Proof.
  intros N R J. pose proof (inv_run ls _ _ (Logic.I : inv (start is now)) R) as K. pose proof (inv2_run ls _ _ (Logic.I : inv (start is now)) (inv2_start is now N) R i x J) as L. unfold inv in K. destruct (s_at s); lia.
Qed.
Lemma interval_thm is now ls s t t' w i x : 0 <= now -> run false ls (start is now) = Some s -> s_at s = Wait t t' w -> s_flag s = false -> nth_error (s_svcs s) i = Some x -> v_dirty x = false -> 0 <= v_interval x -> w <= v_interval x.
Proof.
  intros N R A F J D P. pose proof (inv_run ls _ _ (Logic.I : inv (start is now)) R) as K. pose proof (inv2_run ls _ _ (Logic.I : inv (start is now)) (inv2_start is now N) R i x J) as L. unfold inv in K. rewrite A in K, L.
  destruct K as (_ & _ & K). destruct (K i x J) as [B | [B | B]]; [congruence|congruence|]. specialize (B P). lia.
Qed.
Lemma run_check_thm is now ls s d v s' i x : 0 <= now -> run false ls (start is now) = Some s -> step false (CCheck d v) s = Some s' -> s_at s = Work i -> nth_error (s_svcs s) i = Some x ->
  s_at s' = Work (S i) /\ (due x (s_now s) -> exists x', nth_error (s_svcs s') i = Some x' /\ v_last x' = s_now s') /\ (~ due x (s_now s) -> s_svcs s' = s_svcs s) /\
  forall j, j <> i -> nth_error (s_svcs s') j = nth_error (s_svcs s) j.
Proof. intros N R H A J. apply (check_thm d v s s' i x H A J). exact (last_thm is now ls s i x N R J). Qed.

(** ** The disk *)
Lemma low_thm limit f : (-1 <? f) && (f / 1024 / 1024 <? limit) = true <-> too_little limit f.
Proof.
  unfold too_little. rewrite andb_true_iff, Z.ltb_lt, Z.ltb_lt. rewrite Z.div_div by lia. split; intros [A B]; (split; [lia|]).
  - pose proof (Z.mul_succ_div_gt f (1024 * 1024) ltac:(lia)). nia.
  - apply Z.div_lt_upper_bound; lia.
Qed.
Lemma disk_thm limit downloading dest inter paused : disk_work limit downloading dest inter paused = true <->
  paused = true \/ (downloading = true /\ (too_little limit dest \/ exists f, inter = Some f /\ too_little limit f)).
Proof.
  unfold disk_work. destruct ((0 <? limit) && downloading) eqn:E0.
  - apply andb_true_iff in E0 as [_ ->]. unfold check_disk. destruct ((-1 <? dest) && (dest / 1024 / 1024 <? limit)) eqn:A.
    + apply low_thm in A. assert (X : match inter with Some f => if (-1 <? f) && (f / 1024 / 1024 <? limit) then true else true | None => true end = true) by (destruct inter as [f|]; [destruct ((-1 <? f) && (f / 1024 / 1024 <? limit))|]; reflexivity).
      rewrite X. tauto.
    + assert (NA : ~ too_little limit dest) by (rewrite <- low_thm; congruence). destruct inter as [f|].
      * destruct ((-1 <? f) && (f / 1024 / 1024 <? limit)) eqn:B.
        -- apply low_thm in B. split; [intros _; right; split; [reflexivity|right; exists f; split; [reflexivity|exact B]]|reflexivity].
        -- assert (NB : ~ too_little limit f) by (rewrite <- low_thm; congruence). split; [intros H; left; exact H|]. intros [H | [_ [H | (g & Q & H)]]]; [exact H|contradiction|]. injection Q as <-. contradiction.
      * split; [intros H; left; exact H|]. intros [H | [_ [H | (g & Q & H)]]]; [exact H|contradiction|discriminate Q].
  - split; [intros H; left; exact H|]. intros [H | (D & H)]; [exact H|]. rewrite D, andb_true_r in E0. apply Z.ltb_ge in E0.
    assert (G : forall f, ~ too_little limit f) by (intros f [A B]; lia). destruct H as [H | (f & _ & H)]; destruct (G _ H).
Qed.
Lemma fields_ext p q s : (forall c, p c = q c) -> fields p s = fields q s.
Proof. intros H. induction s as [|c s IH]; [reflexivity|]. cbn [fields]. rewrite H, IH. reflexivity. Qed.
Lemma all_exist_thm r ex : exists b, all_exist r ex = Some b /\ (b = true <-> forall d, required_dir r d -> ex d = true).
Proof.
  unfold all_exist. rewrite tokens_ok. eexists. split; [reflexivity|]. rewrite forallb_forall.
  assert (E0 : fields (in_set (str ",;")) r = fields (fun c => (c =? 44) || (c =? 59)) r).
  { apply fields_ext. intros c. unfold in_set. change (str ",;") with [44; 59]. cbn [existsb]. rewrite orb_false_r. reflexivity. }
  unfold kept. rewrite E0. split.
  - intros H d (f & I0 & T & N). apply H. apply filter_In. split; [|destruct d; [congruence|reflexivity]]. apply in_map_iff. exists f. split; [|exact I0]. apply (trimmed_unique f); [apply trim_ok|exact T].
  - intros H d I0. apply filter_In in I0 as [I0 N]. apply in_map_iff in I0 as (f & <- & I0). apply H. exists f. split; [exact I0|]. split; [apply trim_ok|]. intros Q. rewrite Q in N. discriminate N.
Qed.
Definition rinv (r : list Z) (q : rq) (there : Prop) : Prop := there \/ q = rq0.
Lemma required_inv r ls : forall q0 q, rrun r ls q0 = Some q -> q0 = rq0 -> was_there r ls \/ q = rq0.
Proof.
  induction ls as [|l ls IH]; intros q0 q H ->; cbn [rrun] in H; [injection H as <-; right; reflexivity|]. destruct l as [ex| |need]; cbn [rstep rq0 q_waiting q_post q_running] in H; try discriminate.
  destruct (all_exist_thm r ex) as (b & Q & B). rewrite Q in H. destruct b.
  - left. exists ex. split; [left; reflexivity|]. apply B. reflexivity.
  - destruct (IH _ _ H eq_refl) as [(ex' & I0 & K) | K]; [left; exists ex'; split; [right; exact I0|exact K]|right; exact K].
Qed.
Lemma required_thm r ls q : rrun r ls rq0 = Some q -> (q_down q = false \/ q_post q = false \/ q_running q = true \/ exists b, In (PPause b) ls) -> was_there r ls.
Proof.
  intros H K. destruct K as [K | [K | [K | (b & K)]]].
  1-3: destruct (required_inv r ls _ _ H eq_refl) as [W | ->]; [exact W|discriminate K].
  apply in_split in K as (l1 & l2 & ->). revert H. assert (G : forall a b q0, rrun r (a ++ b) q0 = match rrun r a q0 with Some q' => rrun r b q' | None => None end).
  { intros a. induction a as [|x a IH]; intros b0 q0; [reflexivity|]. cbn [app rrun]. destruct (rstep r x q0); [apply IH|reflexivity]. }
  rewrite G. destruct (rrun r l1 rq0) as [q1|] eqn:Q; [|discriminate]. cbn [rrun rstep]. destruct (q_running q1) eqn:R; [|discriminate]. intros _.
  destruct (required_inv r l1 _ _ Q eq_refl) as [(ex & I0 & W) | ->]; [|discriminate R]. exists ex. split; [apply in_or_app; left; exact I0|exact W].
Qed.
(** As soon as all are there the next check lets both begin. *)
Lemma released_thm r ls q ex : rrun r ls rq0 = Some q -> q_waiting q = true -> (forall d, required_dir r d -> ex d = true) ->
  exists q', rstep r (DCheck ex) q = Some q' /\ q_down q' = false /\ q_post q' = false /\ q_waiting q' = false.
Proof.
  intros _ W H. cbn [rstep]. rewrite W. destruct (all_exist_thm r ex) as (b & Q & B). rewrite Q. rewrite (proj2 B H). eexists. split; [reflexivity|]. repeat split; reflexivity.
Qed.
