(** Proofs about the coordinator of queue-scripts: events, the queue, executions. *)
From Coq Require Import String Sorted Permutation.
From Verif Require Import Base WildModel WildSpec InfoModel WebModel OptModel QScrModel QScrSpec.
From Verif Require Import QScrProofs.
Open Scope list_scope. Open Scope Z_scope.

(** ** Events *)

Definition seen (q : list qitem) (id : Z) (i : nat) : bool := existsb (fun t => (i_nzb t =? id) && Nat.eqb (i_script t) i) q.
Lemma seen_iff q id i : seen q id i = true <-> waits q id i.
Proof.
  unfold seen, waits. rewrite existsb_exists. split; intros (t & I & E); exists t; (split; [exact I|]).
  - apply andb_true_iff in E as (A & B). split; [apply Z.eqb_eq, A|apply Nat.eqb_eq, B].
  - destruct E as (-> & ->). rewrite Z.eqb_refl, Nat.eqb_refl. reflexivity.
Qed.

(** The items in the order of scripts. *)
Fixpoint fresh (g : qcfg) (n : qnzb) (e : Z) (q : list qitem) (i : nat) (l : list script) : list qitem :=
  match l with
  | [] => []
  | s :: r => (if usable g s n e && negb ((e =? evFile) && seen q (q_id n) i) then [Item (q_id n) i e] else []) ++ fresh g n e q (S i) r
  end.
Definition any_usable (g : qcfg) (n : qnzb) (e : Z) (l : list script) : bool := existsb (fun s => usable g s n e) l.

Lemma seen_app q id i l : (forall t, In t l -> (i_script t < i)%nat) -> seen (q ++ l) id i = seen q id i.
Proof.
  intros H. unfold seen. rewrite existsb_app. replace (existsb _ l) with false; [apply orb_false_r|]. symmetry. apply not_true_iff_false. intros E.
  apply existsb_exists in E as (t & I & E). apply andb_true_iff in E as (_ & E). apply Nat.eqb_eq in E. specialize (H t I). lia.
Qed.

Lemma put_running g n e : forall l i q q0 c st f add, q = q0 ++ add -> (forall t, In t add -> (i_script t < i)%nat) ->
  put_scripts g n e i l q (Some c) st f = (q ++ fresh g n e q0 i l, Some c, st, f || any_usable g n e l).
Proof.
  induction l as [|s r IH]; intros i q q0 c st f add E A; cbn [put_scripts fresh any_usable existsb]; [rewrite app_nil_r, orb_false_r; reflexivity|].
  fold (any_usable g n e r). destruct (usable g s n e) eqn:U; cbn [orb andb].
  - fold (seen q (q_id n) i). rewrite E at 1. rewrite (seen_app q0 _ i add A). destruct ((e =? evFile) && seen q0 (q_id n) i) eqn:W; cbn [negb].
    + rewrite (IH _ q q0 c st true add E) by (intros t I; specialize (A t I); lia). rewrite orb_true_r. reflexivity.
    + rewrite (IH _ (q ++ [Item (q_id n) i e]) q0 c st true (add ++ [Item (q_id n) i e])).
      * rewrite <- app_assoc, orb_true_r. reflexivity.
      * rewrite E, app_assoc. reflexivity.
      * intros t I. apply in_app_or in I as [I|[<-|[]]]; [specialize (A t I); lia|cbn; lia].
  - cbn [app]. rewrite (IH _ q q0 c st f add E) by (intros t I; specialize (A t I); lia). reflexivity.
Qed.
Lemma put_idle g n e : forall l i q st f,
  put_scripts g n e i l q None st f = (q ++ tl (fresh g n e q i l), hd_error (fresh g n e q i l), st ++ firstn 1 (fresh g n e q i l), f || any_usable g n e l).
Proof.
  induction l as [|s r IH]; intros i q st f; cbn [put_scripts fresh any_usable existsb]; [cbn; rewrite !app_nil_r, orb_false_r; reflexivity|].
  fold (any_usable g n e r). destruct (usable g s n e) eqn:U; cbn [orb andb].
  - fold (seen q (q_id n) i). destruct ((e =? evFile) && seen q (q_id n) i) eqn:W; cbn [negb app].
    + rewrite IH, orb_true_r. reflexivity.
    + rewrite (put_running g n e r (S i) q q _ _ true []); [|rewrite app_nil_r; reflexivity|intros t []]. cbn [tl hd_error firstn]. rewrite orb_true_r. reflexivity.
  - cbn [app]. rewrite IH. reflexivity.
Qed.

Lemma in_fresh g n e q : forall l i t, In t (fresh g n e q i l) <->
  i_nzb t = q_id n /\ i_event t = e /\ (exists k s, i_script t = (i + k)%nat /\ nth_error l k = Some s /\ usable g s n e = true) /\ ~ (e = evFile /\ waits q (q_id n) (i_script t)).
Proof.
  induction l as [|s r IH]; intros i t; cbn [fresh].
  - split; [intros []|]. intros (_ & _ & (k & s & _ & Q & _) & _). destruct k; discriminate Q.
  - rewrite in_app_iff, IH. split.
    + intros [I|(A & B & (k & s1 & E & Q & U) & W)].
      * destruct (usable g s n e) eqn:U; [|destruct I]. destruct ((e =? evFile) && seen q (q_id n) i) eqn:W; cbn in I; [destruct I|]. destruct I as [<-|[]]. cbn.
        split; [reflexivity|]. split; [reflexivity|]. split; [exists O, s; rewrite Nat.add_0_r; auto|]. intros (Q & H). apply seen_iff in H. rewrite H, Q in W. discriminate W.
      * split; [exact A|]. split; [exact B|]. split; [exists (S k), s1; split; [lia|]; auto|exact W].
    + intros (A & B & (k & s1 & E & Q & U) & W). destruct k as [|k].
      * left. injection Q as <-. rewrite U. replace ((e =? evFile) && seen q (q_id n) i) with false.
        -- cbn. left. destruct t as [a b c]. cbn in *. subst. rewrite Nat.add_0_r. reflexivity.
        -- symmetry. apply not_true_iff_false. intros H. apply W. apply andb_true_iff in H as (H1 & H2). apply Z.eqb_eq in H1. apply seen_iff in H2. rewrite E, Nat.add_0_r. auto.
      * right. split; [exact A|]. split; [exact B|]. split; [exists k, s1; split; [lia|]; auto|exact W].
Qed.
Lemma fresh_sorted g n e q : forall l i, StronglySorted (fun a b => (i_script a < i_script b)%nat) (fresh g n e q i l).
Proof.
  induction l as [|s r IH]; intros i; cbn [fresh]; [constructor|]. destruct (usable g s n e && _); cbn [app]; [|apply IH]. constructor; [apply IH|].
  apply Forall_forall. intros t I. apply in_fresh in I as (_ & _ & (k & s1 & E & _) & _). cbn. lia.
Qed.
Lemma sorted_same : forall a b : list qitem, (forall t, In t a <-> In t b) ->
  StronglySorted (fun a b => (i_script a < i_script b)%nat) a -> StronglySorted (fun a b => (i_script a < i_script b)%nat) b -> a = b.
Proof.
  induction a as [|x a IH]; intros b H Sa Sb.
  - destruct b as [|y b]; [reflexivity|]. destruct (proj2 (H y) (or_introl eq_refl)).
  - destruct b as [|y b]; [destruct (proj1 (H x) (or_introl eq_refl))|]. inversion Sa as [|? ? Sa1 Fa]; subst. inversion Sb as [|? ? Sb1 Fb]; subst. rewrite Forall_forall in Fa, Fb.
    assert (E : x = y).
    { destruct (proj1 (H x) (or_introl eq_refl)) as [E|I]; [auto|]. destruct (proj2 (H y) (or_introl eq_refl)) as [E|J]; [auto|]. specialize (Fa y J). specialize (Fb x I). lia. }
    subst y. f_equal. apply IH; auto. intros t. split; intros I.
    + destruct (proj1 (H t) (or_intror I)) as [<-|J]; [specialize (Fa _ I); lia|exact J].
    + destruct (proj2 (H t) (or_intror I)) as [<-|J]; [specialize (Fb _ I); lia|exact J].
Qed.
Lemma fresh_new g scripts n e q : short_params n -> new_items g scripts n e q (fresh g n e q 0 scripts).
Proof.
  intros Sh. split; [apply fresh_sorted|]. intros t. rewrite in_fresh. split; intros (A & B & C & D); (split; [exact A|]); (split; [exact B|]); (split; [|exact D]).
  - destruct C as (k & s & E & Q & U). exists s. cbn in E. rewrite E. split; [exact Q|]. apply usable_iff; auto.
  - destruct C as (s & Q & U). exists (i_script t), s. split; [reflexivity|]. split; [exact Q|]. apply usable_iff; auto.
Qed.
Lemma new_unique g scripts n e q l : short_params n -> new_items g scripts n e q l -> l = fresh g n e q 0 scripts.
Proof.
  intros Sh (So & I). destruct (fresh_new g scripts n e q Sh) as (So1 & I1). apply sorted_same; auto. intros t. rewrite I, I1. tauto.
Qed.

Lemma blocked_iff g now n e : -1 <= g_interval g < 2 ^ 31 -> - 2 ^ 31 <= now - q_time n < 2 ^ 31 -> (too_soon g now n e = true <-> blocked g now n e).
Proof.
  intros G T. unfold too_soon, blocked. rewrite andb_true_iff, orb_true_iff, !andb_true_iff, !Z.eqb_eq, !Z.gtb_lt, Z.ltb_lt.
  assert (E : to_i32 (now - q_time n) = now - q_time n) by (unfold to_i32; rewrite Z.mod_small; lia). rewrite E. lia.
Qed.

(** The queue after an event. *)
Definition kept_queue (e id : Z) (q : list qitem) : list qitem := if e =? evDownloaded then filter (fun t => negb (i_nzb t =? id)) q else q.
Lemma enqueue_ok g scripts now n e x : existsb s_queue scripts = true \/ fresh g n e (kept_queue e (q_id n) (x_queue x)) 0 scripts <> [] ->
  too_soon g now n e = false ->
  let q := kept_queue e (q_id n) (x_queue x) in let l := fresh g n e q 0 scripts in
  enqueue g scripts now n e x =
    (match x_cur x with Some c => QState (q ++ l) (Some c) (x_stopped x) | None => QState (q ++ tl l) (hd_error l) (x_stopped x) end,
     match x_cur x with Some _ => [] | None => firstn 1 l end, if any_usable g n e scripts then now else q_time n).
Proof.
  intros H T. cbv zeta. unfold enqueue. replace (negb (existsb s_queue scripts)) with false.
  - fold (kept_queue e (q_id n) (x_queue x)). rewrite T. destruct (x_cur x) as [c|].
    + rewrite (put_running g n e scripts 0 _ (kept_queue e (q_id n) (x_queue x)) c [] false []); [reflexivity|rewrite app_nil_r; reflexivity|intros t []].
    + rewrite put_idle. reflexivity.
  - symmetry. apply negb_false_iff. destruct H as [H|H]; [exact H|]. destruct (fresh _ _ _ _ _ _) as [|t l] eqn:E; [congruence|].
    assert (I : In t (fresh g n e (kept_queue e (q_id n) (x_queue x)) 0 scripts)) by (rewrite E; left; reflexivity). apply in_fresh in I as (_ & _ & (k & s & _ & Q & U) & _).
    apply existsb_exists. exists s. split; [exact (nth_error_In _ _ Q)|]. unfold usable in U. rewrite !andb_true_iff in U. tauto.
Qed.
Lemma enqueue_none g scripts now n e x : existsb s_queue scripts = false -> enqueue g scripts now n e x = (x, [], q_time n) /\ forall q i, fresh g n e q i scripts = [].
Proof.
  intros H. unfold enqueue. rewrite H. split; [reflexivity|]. intros q i. destruct (fresh g n e q i scripts) as [|t l] eqn:E; [reflexivity|].
  assert (I : In t (fresh g n e q i scripts)) by (rewrite E; left; reflexivity). apply in_fresh in I as (_ & _ & (k & s & _ & Q & U) & _).
  unfold usable in U. rewrite !andb_true_iff in U. assert (X : existsb s_queue scripts = true) by (apply existsb_exists; exists s; split; [exact (nth_error_In _ _ Q)|tauto]). congruence.
Qed.

(** ** The end of a script *)

Lemma ignored_iff w t : ignored_item w t = true <-> obsolete w t.
Proof.
  unfold ignored_item, obsolete. destruct (w (i_nzb t)) as [(d, b)|]; [|tauto]. rewrite orb_true_iff, !andb_true_iff, !negb_true_iff, !Z.eqb_neq. split.
  - intros [((-> & A) & B)|(-> & A)]; right; [left; exists b; auto|right; exists d; auto].
  - intros [Q|[(b1 & Q & A & B)|(d1 & Q & A)]]; [discriminate Q| |]; injection Q as -> ->; auto.
Qed.
Definition good (w : world) (q : list qitem) : list qitem := filter (fun t => negb (ignored_item w t)) q.

Lemma remove_at_app {A} (a : list A) x b : remove_at (length a) (a ++ x :: b) = a ++ b.
Proof. induction a as [|y a IH]; [reflexivity|]. cbn. rewrite IH. reflexivity. Qed.
Lemma good_app w a b : good w (a ++ b) = good w a ++ good w b.
Proof. apply filter_app. Qed.
Lemma good_all w a : Forall (fun t => ignored_item w t = false) a -> good w a = a.
Proof. induction 1 as [|t a H F IH]; [reflexivity|]. unfold good in *. cbn. rewrite H. cbn. f_equal. exact IH. Qed.

Lemma good_drop w t b : ignored_item w t = true -> good w (t :: b) = good w b.
Proof. intros G. unfold good. cbn [filter]. rewrite G. reflexivity. Qed.
Lemma good_keep w t b : ignored_item w t = false -> good w (t :: b) = t :: good w b.
Proof. intros G. unfold good. cbn [filter]. rewrite G. reflexivity. Qed.
(** The loop: all before the position are to be kept; the one chosen is the last of them. *)
Lemma check_go_ok w : forall fuel a b, Forall (fun t => ignored_item w t = false) a ->
  (length b + (length (a ++ b)) * S (length (filter (ignored_item w) b)) < fuel)%nat ->
  let c := match a with [] => None | _ => Some (length a - 1)%nat end in let r := a ++ good w b in
  check_go fuel w None (a ++ b) (length a) c = Some (r, match r with [] => None | _ => Some (length r - 1)%nat end).
Proof.
  induction fuel as [|f IH]; intros a b Fa L; [lia|]. cbv zeta in *. cbn [check_go]. destruct b as [|t b].
  - rewrite app_nil_r, (proj2 (nth_error_None a (length a)) (le_n _)). unfold good. cbn [filter]. rewrite app_nil_r. reflexivity.
  - rewrite nth_error_app2, Nat.sub_diag by lia. cbn [nth_error]. destruct (ignored_item w t) eqn:G.
    + rewrite remove_at_app. cbn [filter length] in L. rewrite G in L. cbn [length] in L. rewrite (good_drop w t b G).
      rewrite app_length in L. cbn [length] in L.
      destruct a as [|u a1].
      * cbn [app length] in *. apply (IH [] b Fa). cbn [app length]. lia.
      * assert (R := IH [] ((u :: a1) ++ b) (Forall_nil _)). cbn [app length] in R. cbn [length app].
        rewrite R.
        -- change (good w (u :: a1 ++ b)) with (good w ((u :: a1) ++ b)). rewrite good_app, (good_all w _ Fa). reflexivity.
        -- change (filter (ignored_item w) (u :: a1 ++ b)) with (filter (ignored_item w) ((u :: a1) ++ b)). rewrite filter_app, app_length.
           assert (N : filter (ignored_item w) (u :: a1) = []).
           { clear - Fa. induction Fa as [|y l H F IH]; [reflexivity|]. cbn. rewrite H. exact IH. }
           rewrite N. cbn [length Nat.add] in L |- *. rewrite app_length. revert L. generalize (length (filter (ignored_item w) b)) (length a1) (length b). clear. intros k A B L. change (length (@nil qitem) + k)%nat with k. nia.
    + assert (R := IH (a ++ [t]) b). rewrite <- app_assoc in R. cbn [app] in R. assert (Ln : length (a ++ [t]) = S (length a)) by (rewrite app_length; cbn; lia). rewrite Ln in R.
      assert (Fa1 : Forall (fun t0 => ignored_item w t0 = false) (a ++ [t])) by (apply Forall_app; split; [exact Fa|constructor; [exact G|constructor]]).
      assert (Lb : (length b + length (a ++ t :: b) * S (length (filter (ignored_item w) b)) < f)%nat) by (cbn [filter length] in L; rewrite G in L; lia).
      specialize (R Fa1 Lb). replace (match a ++ [t] with [] => None | _ :: _ => Some (S (length a) - 1)%nat end) with (Some (length a)) in R
        by (destruct a; cbn [app length]; f_equal; lia).
      rewrite R. rewrite (good_keep w t b G), <- !app_assoc. reflexivity.
Qed.

Lemma check_queue_ok w x : x_stopped x = false -> check_queue w x = Some
  (match rev (good w (x_queue x)) with [] => (QState [] None false, []) | t :: r => (QState (rev r) (Some t) false, [t]) end).
Proof.
  intros N. unfold check_queue. rewrite N. assert (R := check_go_ok w (check_fuel (x_queue x)) [] (x_queue x) (Forall_nil _)). cbn [app length] in R. cbv zeta in R. rewrite R.
  - destruct (rev (good w (x_queue x))) as [|t r] eqn:E.
    + assert (G : good w (x_queue x) = []) by (rewrite <- (rev_involutive (good _ _)), E; reflexivity). rewrite G. reflexivity.
    + assert (G : good w (x_queue x) = rev r ++ [t]) by (rewrite <- (rev_involutive (good _ _)), E; reflexivity). rewrite G.
      replace (match rev r ++ [t] with [] => None | _ :: _ => Some (length (rev r ++ [t]) - 1)%nat end) with (Some (length (rev r)))
        by (rewrite app_length; cbn [length]; destruct (rev r); cbn [app length]; f_equal; lia).
      rewrite nth_error_app2, Nat.sub_diag by lia. cbn [nth_error]. rewrite remove_at_app, app_nil_r. reflexivity.
  - unfold check_fuel. assert (B : (length (filter (ignored_item w) (x_queue x)) <= length (x_queue x))%nat).
    { generalize (x_queue x) as l. induction l as [|y l IHl]; cbn [filter length]; [lia|]. destruct (ignored_item w y); cbn [length]; lia. }
    nia.
Qed.

Lemma left_over_iff w q r : left_over w q r <-> r = good w q.
Proof.
  split.
  - induction 1 as [|t q r O H IH|t q r O H IH]; [reflexivity| |]; unfold good in *; cbn [filter]; destruct (ignored_item w t) eqn:E; cbn [negb]; subst; auto.
    + apply ignored_iff in O. congruence.
    + apply ignored_iff in E. contradiction.
  - intros ->. induction q as [|t q IH]; [constructor|]. unfold good. cbn [filter]. destruct (ignored_item w t) eqn:E; cbn [negb].
    + apply lo_drop; [apply ignored_iff, E|exact IH].
    + apply lo_keep; [intros O; apply ignored_iff in O; congruence|exact IH].
Qed.

(** ** Executions *)

(** Nothing waits while nothing runs. *)
Definition idle_empty (x : qstate) : Prop := x_cur x = None -> x_queue x = [].
Lemma step_total g scripts o x : exists y, qstep g scripts o x = Some y.
Proof.
  destruct o as [now n e|w|]; cbn [qstep].
  - destruct (enqueue g scripts now n e (fst x)) as ((x1, st), t). eauto.
  - destruct (x_cur (fst x)); [|eauto]. destruct (x_stopped (fst x)) eqn:N; [unfold check_queue; rewrite N; eauto|]. rewrite (check_queue_ok w _ N). destruct (rev _); eauto.
  - eauto.
Qed.
Lemma filter_nil {A} (f : A -> bool) : filter f [] = []. Proof. reflexivity. Qed.
Lemma kept_nil e id : kept_queue e id [] = [].
Proof. unfold kept_queue. destruct (e =? evDownloaded); reflexivity. Qed.
Lemma step_idle g scripts o x y : qstep g scripts o x = Some y -> idle_empty (fst x) -> idle_empty (fst y) /\
  exists st, snd y = snd x ++ st /\ (st = [] \/ exists t, st = [t] /\ x_cur (fst y) = Some t /\ ((exists now n e, o = OpEvent now n e /\ x_cur (fst x) = None) \/ exists w, o = OpDone w /\ x_cur (fst x) <> None)).
Proof.
  intros E H. destruct o as [now n e|w|]; cbn [qstep] in E.
  - destruct (existsb s_queue scripts) eqn:Q.
    + destruct (too_soon g now n e) eqn:T.
      * unfold enqueue in E. rewrite Q, T in E. cbn [negb] in E. injection E as <-. cbn [fst snd]. split.
        -- intros C. cbn in *. rewrite (H C). apply kept_nil.
        -- exists []. auto.
      * pose proof (enqueue_ok g scripts now n e (fst x) (or_introl Q) T) as R. cbv zeta in R. rewrite R in E. injection E as <-. cbn [fst snd]. destruct (x_cur (fst x)) as [c|] eqn:C.
        -- split; [intros Q1; discriminate Q1|]. exists []. auto.
        -- rewrite (H C), kept_nil. set (l := fresh g n e [] 0 scripts). split; [intros Q1; cbn in Q1 |- *; destruct l; [reflexivity|discriminate Q1]|].
           exists (firstn 1 l). split; [reflexivity|]. destruct l as [|t l]; [auto|]. right. exists t. cbn. split; [reflexivity|]. split; [reflexivity|]. left. eauto 6.
    + destruct (enqueue_none g scripts now n e (fst x) Q) as (R & _). rewrite R in E. injection E as <-. cbn [fst snd]. split; [exact H|]. exists []. auto.
  - destruct (x_cur (fst x)) as [c|] eqn:C.
    + destruct (x_stopped (fst x)) eqn:N.
      * unfold check_queue in E. rewrite N in E. injection E as <-. cbn [fst snd]. split; [exact H|]. exists []. auto.
      * rewrite (check_queue_ok w _ N) in E. destruct (rev (good w (x_queue (fst x)))) as [|t r]; injection E as <-; cbn [fst snd]; (split; [intros Q; cbn in *; congruence|]).
        -- exists []. auto.
        -- exists [t]. split; [reflexivity|]. right. exists t. split; [reflexivity|]. split; [reflexivity|]. right. exists w. split; [reflexivity|discriminate].
    + injection E as <-. split; [exact H|]. exists []. rewrite app_nil_r. auto.
  - injection E as <-. cbn [fst snd]. split; [exact H|]. exists []. rewrite app_nil_r. auto.
Qed.
Lemma run_ok g scripts : forall ops x, idle_empty (fst x) -> exists y, qrun g scripts ops x = Some y /\ idle_empty (fst y).
Proof.
  induction ops as [|o r IH]; intros x H; cbn [qrun]; [eauto|]. destruct (step_total g scripts o x) as (y & E). rewrite E. apply IH. exact (proj1 (step_idle _ _ _ _ _ E H)).
Qed.

(** With nothing new all waiting scripts are executed. *)
Lemma good_rev w l : good w (rev l) = rev (good w l).
Proof. unfold good. induction l as [|t l IH]; [reflexivity|]. cbn [rev filter]. rewrite filter_app, IH. cbn [filter]. destruct (negb _); cbn [rev app]; [reflexivity|apply app_nil_r]. Qed.
Lemma good_good w l : Forall (fun t => ignored_item w t = false) (good w l).
Proof. apply Forall_forall. intros t I. apply filter_In in I as (_ & I). apply negb_true_iff, I. Qed.
Lemma drained g scripts w : forall k q c st, (length q < k)%nat ->
  qrun g scripts (repeat (OpDone w) k) (QState q (Some c) false, st) = Some (QState [] None false, st ++ rev (good w q)).
Proof.
  assert (D : forall r k c st, Forall (fun t => ignored_item w t = false) r -> (length r < k)%nat ->
    qrun g scripts (repeat (OpDone w) k) (QState (rev r) (Some c) false, st) = Some (QState [] None false, st ++ r)).
  { induction r as [|t r IH]; intros k c st F L.
    - destruct k as [|k]; [lia|]. cbn [repeat qrun qstep fst snd x_cur rev]. rewrite check_queue_ok by reflexivity. cbn. clear. induction k as [|k IH]; [reflexivity|]. cbn [repeat qrun qstep fst x_cur]. exact IH.
    - destruct k as [|k]; [lia|]. inversion F as [|? ? Ft Fr]; subst. cbn [repeat qrun qstep fst snd x_cur]. rewrite check_queue_ok by reflexivity. cbn [x_queue].
      rewrite good_rev, (good_all w (t :: r) F). rewrite rev_involutive. rewrite (IH k t (st ++ [t]) Fr) by (cbn [length] in L; lia). rewrite <- app_assoc. reflexivity. }
  intros k q c st L. destruct k as [|k]; [lia|]. cbn [repeat qrun qstep fst snd x_cur]. rewrite check_queue_ok by reflexivity. cbn [x_queue].
  destruct (rev (good w q)) as [|t r] eqn:E.
  - cbn. clear. rewrite app_nil_r. induction k as [|k IH]; [reflexivity|]. cbn [repeat qrun qstep fst x_cur]. exact IH.
  - assert (F : Forall (fun t => ignored_item w t = false) (t :: r)) by (rewrite <- E; apply Forall_rev, good_good). inversion F as [|? ? Ft Fr]; subst.
    rewrite D; [rewrite <- app_assoc; reflexivity|exact Fr|]. assert (B : (length (good w q) <= length q)%nat) by (unfold good; clear; induction q as [|y q IH]; cbn [filter length]; [lia|]; destruct (negb _); cbn [length]; lia).
    apply (f_equal (@length _)) in E. rewrite rev_length in E. cbn [length] in E. lia.
Qed.

Lemma seen_ok x id :
  (fst (has_job x id) = true <-> exists t, (x_cur x = Some t \/ In t (x_queue x)) /\ i_nzb t = id) /\
  (snd (has_job x id) = true <-> exists t, x_cur x = Some t /\ i_nzb t = id) /\
  queue_size x = Z.of_nat (length (match x_cur x with Some t => t :: x_queue x | None => x_queue x end)).
Proof.
  unfold has_job, queue_size. cbn [fst snd].
  assert (A : (match x_cur x with Some t => i_nzb t =? id | None => false end) = true <-> exists t, x_cur x = Some t /\ i_nzb t = id).
  { destruct (x_cur x) as [t|]; split.
    - intros E. exists t. split; [reflexivity|apply Z.eqb_eq, E].
    - intros (u & E & F). injection E as <-. apply Z.eqb_eq, F.
    - discriminate.
    - intros (u & E & _). discriminate E. }
  split; [|split; [exact A|]].
  - rewrite orb_true_iff, A, existsb_exists. split.
    + intros [(t & E & F)|(t & I1 & F)]; exists t; [auto|]. apply Z.eqb_eq in F. auto.
    + intros (t & [E|I1] & F); [left; eauto|right]. exists t. split; [exact I1|apply Z.eqb_eq, F].
  - destruct (x_cur x); cbn [length]; lia.
Qed.
