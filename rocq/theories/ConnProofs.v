(** Proofs about connections. *)
From Verif Require Import Base ConnModel ConnSpec.

Fixpoint line_of (n : nat) (s : list Z) : list Z :=
  match n, s with
  | O, _ | _, [] => []
  | S m, c :: r => if c =? 10 then [c] else c :: line_of m r
  end.

Lemma skipn_add {A} a b (l : list A) : skipn (a + b) l = skipn b (skipn a l).
Proof. revert a. induction l as [|x l IH]; intros a; [rewrite !skipn_nil; reflexivity|]. destruct a; [reflexivity|]. apply IH. Qed.

Lemma line_of_ok n : forall s, next_line n s (line_of n s).
Proof.
  induction n as [|n IH]; intros s.
  - exists s. repeat split; auto. intros a b H. destruct a; discriminate.
  - destruct s as [|c r]; cbn [line_of].
    + exists []. repeat split; cbn [length]; auto with arith. intros a b H. destruct a; discriminate.
    + destruct (c =? 10) eqn:E.
      * exists r. split; [reflexivity|]. split; [cbn [length]; lia|]. split.
        -- intros a b H. destruct a as [|x a]; [injection H as _ <-; reflexivity|destruct a; discriminate].
        -- right; right. exists []. apply Z.eqb_eq in E. subst. reflexivity.
      * destruct (IH r) as (rest & E1 & L & P & F). exists rest. split; [rewrite E1 at 1; reflexivity|].
        split; [cbn [length]; lia|]. split.
        -- intros a b H. destruct a as [|x a].
           ++ injection H as -> _. discriminate.
           ++ injection H as -> H. exact (P _ _ H).
        -- destruct F as [F | [F | [a F]]]; [left; cbn [length]; lia|right; left; exact F|].
           right; right. exists (c :: a). rewrite F. reflexivity.
Qed.

Lemma next_line_unique n s l : next_line n s l -> l = line_of n s.
Proof.
  revert n s. induction l as [|c l IH]; intros n s (rest & -> & L & P & F).
  - destruct F as [F | [-> | [a F]]].
    + cbn [length] in F. subst n. reflexivity.
    + destruct n; reflexivity.
    + destruct a; discriminate.
  - destruct n as [|n]; [cbn [length] in L; lia|]. cbn [app line_of]. destruct (c =? 10) eqn:E.
    + apply Z.eqb_eq in E. subst c. rewrite (P [] l eq_refl). reflexivity.
    + f_equal. apply IH. exists rest. split; [reflexivity|]. cbn [length] in L. split; [lia|]. split.
      * intros a b H. exact (P (c :: a) b (f_equal (cons c) H)).
      * destruct F as [F | [F | [a F]]]; [left; cbn [length] in F; lia|right; left; exact F|].
        destruct a as [|x a]; [injection F as -> _; discriminate|]. injection F as _ F. right; right. exists a. exact F.
Qed.

Lemma line_len n : forall s, (length (line_of n s) <= n)%nat /\ (length (line_of n s) <= length s)%nat.
Proof.
  induction n as [|n IH]; intros s; [cbn; lia|]. destruct s as [|c r]; [cbn; lia|]. cbn [line_of].
  destruct (c =? 10); cbn [length]; [lia|]. specialize (IH r). lia.
Qed.

Lemma line_prefix n : forall s, s = line_of n s ++ skipn (length (line_of n s)) s.
Proof.
  induction n as [|n IH]; intros s; [reflexivity|]. destruct s as [|c r]; [reflexivity|]. cbn [line_of].
  destruct (c =? 10); [reflexivity|]. cbn [length app skipn]. rewrite <- IH. reflexivity.
Qed.

Lemma line_lf n s : forall i, find_lf s = Some i -> forall t,
  line_of n (s ++ t) = firstn (Nat.min n (S i)) s.
Proof.
  revert n. induction s as [|c r IH]; intros n i H t; [discriminate|]. cbn [find_lf] in H.
  destruct n as [|n]; [reflexivity|]. cbn [app line_of]. destruct (c =? 10).
  - injection H as <-. cbn. rewrite Nat.min_0_r. reflexivity.
  - destruct (find_lf r) as [j|] eqn:F; [|discriminate]. injection H as <-.
    change (Nat.min (S n) (S (S j))) with (S (Nat.min n (S j))). cbn [firstn]. f_equal. apply IH. reflexivity.
Qed.

Lemma line_no_lf s : find_lf s = None -> forall n t, 
  line_of n (s ++ t) = firstn n s ++ line_of (n - length s) t.
Proof.
  induction s as [|c r IH]; intros H n t.
  - rewrite firstn_nil. cbn [length app]. rewrite Nat.sub_0_r. reflexivity.
  - cbn [find_lf] in H. destruct n as [|n]; [reflexivity|]. cbn [app line_of]. destruct (c =? 10); [discriminate|].
    destruct (find_lf r); [discriminate|]. cbn [firstn length]. rewrite (IH eq_refl). reflexivity.
Qed.

Lemma find_lf_len s i : find_lf s = Some i -> (i < length s)%nat.
Proof.
  revert i. induction s as [|c r IH]; intros i; [discriminate|]. cbn [find_lf]. destruct (c =? 10).
  - intros H. injection H as <-. cbn [length]. lia.
  - destruct (find_lf r) as [j|]; [|discriminate]. intros H. injection H as <-. specialize (IH j eq_refl). cbn [length]. lia.
Qed.

Lemma refill_pending cap c : c_buf c = [] ->
  pending (let '(got, c') := recv cap c in Conn got (c_net c') (c_sched c')) = pending c.
Proof.
  intros E. unfold recv, pending. cbn [c_buf c_net c_sched]. rewrite E. rewrite firstn_skipn. reflexivity.
Qed.

Lemma recv_nil n c : (1 <= n)%nat -> fst (recv n c) = [] -> c_net c = [].
Proof.
  intros N H. unfold recv in H. cbn [fst] in H. destruct (c_net c) as [|x t]; [reflexivity|].
  destruct (c_sched c) as [|k l].
  - destruct n; [lia|discriminate].
  - destruct (Nat.min n (Nat.max 1 k)) eqn:E; [lia|discriminate].
Qed.

Lemma read_loop_ok cap : (1 <= cap)%nat -> forall fuel size c, (size < fuel)%nat ->
  exists c', read_loop fuel cap size c = Some (line_of size (pending c), c') /\
             pending c' = skipn (length (line_of size (pending c))) (pending c).
Proof.
  intros Hcap fuel. induction fuel as [|f IH]; intros size c L; [lia|]. cbn [read_loop].
  destruct size as [|m]; [exists c; split; reflexivity|].
  set (c1 := match c_buf c with [] => let '(got, c') := recv cap c in Conn got (c_net c') (c_sched c') | _ => c end).
  assert (P1 : pending c1 = pending c).
  { unfold c1. destruct (c_buf c) eqn:E; [apply refill_pending, E|reflexivity]. }
  assert (N1 : c_buf c1 = [] -> pending c = []).
  { unfold c1. destruct (c_buf c) eqn:E.
    - destruct (recv cap c) as [got c'] eqn:R. cbn [c_buf]. intros ->.
      assert (X := recv_nil cap c Hcap). rewrite R in X. unfold pending. rewrite E, (X eq_refl). reflexivity.
    - intros X. rewrite E in X. discriminate. }
  clearbody c1. rewrite <- P1 in *. destruct (c_buf c1) as [|x b0] eqn:B.
  - rewrite (N1 eq_refl). exists c1. split; [reflexivity|]. rewrite (N1 eq_refl). reflexivity.
  - set (b := x :: b0) in *. assert (PB : pending c1 = b ++ c_net c1) by (unfold pending; rewrite B; reflexivity).
    destruct (find_lf b) as [i|] eqn:F.
    + assert (Q := find_lf_len _ _ F). rewrite PB, (line_lf _ _ _ F).
      eexists. split; [reflexivity|]. unfold pending. cbn [c_buf c_net].
      rewrite firstn_length_le by lia. rewrite skipn_app.
      replace (Nat.min (S m) (S i) - length b)%nat with 0%nat by lia. reflexivity.
    + set (len := Nat.min (S m) (length b)).
      assert (LB : (1 <= length b)%nat) by (unfold b; cbn [length]; lia).
      destruct (IH (S m - len)%nat (Conn (skipn len b) (c_net c1) (c_sched c1)) ltac:(unfold len; lia)) as (c' & E & PC).
      rewrite E. exists c'.
      assert (LL : line_of (S m) (pending c1) = firstn len b ++ line_of (S m - len) (skipn len b ++ c_net c1)).
      { rewrite PB, (line_no_lf _ F). unfold len. destruct (Nat.le_gt_cases (S m) (length b)) as [X | X].
        - replace (S m - length b)%nat with 0%nat by lia. rewrite Nat.min_l by lia. rewrite Nat.sub_diag. reflexivity.
        - rewrite Nat.min_r by lia. rewrite firstn_all. rewrite skipn_all. rewrite firstn_all2 by lia. reflexivity. }
      change (pending (Conn (skipn len b) (c_net c1) (c_sched c1))) with (skipn len b ++ c_net c1) in *.
      split; [rewrite LL; reflexivity|].
      rewrite LL. rewrite PC. rewrite app_length. rewrite firstn_length_le by (unfold len; lia).
      set (k := length (line_of (S m - len) (skipn len b ++ c_net c1))).
      rewrite PB. transitivity (skipn k (skipn len (b ++ c_net c1))).
      * f_equal. rewrite skipn_app. replace (len - length b)%nat with 0%nat by (unfold len; lia). reflexivity.
      * symmetry. apply skipn_add.
Qed.

Theorem read_line_ok : forall cap size c, (1 <= cap)%nat -> exists l c',
  read_line cap size c = Some (l, c') /\ next_line (size - 1) (pending c) l /\ pending c = l ++ pending c'.
Proof.
  intros cap size c H. unfold read_line.
  destruct (read_loop_ok cap H (S (S size)) (size - 1) c ltac:(lia)) as (c' & E & P).
  exists (line_of (size - 1) (pending c)), c'. split; [exact E|]. split; [apply line_of_ok|].
  rewrite P. apply line_prefix.
Qed.

Lemma recv_loop_ok : forall fuel need c, (need < fuel)%nat -> c_buf c = [] \/ need = O -> exists o c',
  recv_loop fuel need c = Some (o, c') /\
  ((o = Some (firstn need (c_net c)) /\ (need <= length (c_net c))%nat /\ c_buf c' = c_buf c /\ c_net c' = skipn need (c_net c)) \/
   (o = None /\ (length (c_net c) < need)%nat /\ c_buf c' = c_buf c /\ c_net c' = [])).
Proof.
  induction fuel as [|f IH]; intros need c L B; [lia|]. cbn [recv_loop].
  destruct need as [|m]; [exists (Some []), c; split; [reflexivity|]; left; repeat split; lia|].
  destruct B as [B|B]; [|discriminate].
  destruct (recv (S m) c) as [got c1] eqn:R.
  assert (N := recv_nil (S m) c ltac:(lia)). rewrite R in N. cbn [fst] in N.
  unfold recv in R. set (k := match c_sched c with [] => S m | s :: _ => Nat.min (S m) (Nat.max 1 s) end) in R.
  assert (K : (1 <= k <= S m)%nat) by (unfold k; destruct (c_sched c); lia).
  clearbody k. injection R as <- <-.
  destruct (firstn k (c_net c)) as [|x g] eqn:G.
  - exists None. eexists. split; [reflexivity|]. right. rewrite (N eq_refl). cbn [c_buf c_net length].
    rewrite skipn_nil. repeat split; lia.
  - assert (LG : length (x :: g) = Nat.min k (length (c_net c))) by (rewrite <- G; apply firstn_length).
    assert (1 <= length (c_net c))%nat by (cbn [length] in LG; lia).
    destruct (IH (S m - length (x :: g))%nat (Conn (c_buf c) (skipn k (c_net c)) (tl (c_sched c))) ltac:(lia) (or_introl B))
      as (o & c' & E & D). cbn [c_buf c_net] in D. rewrite E. rewrite skipn_length in D.
    destruct D as [(-> & D1 & D2 & D3) | (-> & D1 & D2 & D3)].
    + exists (Some ((x :: g) ++ firstn (S m - length (x :: g)) (skipn k (c_net c)))), c'. split; [reflexivity|]. left.
      assert (LK : length (x :: g) = k) by lia.
      rewrite LK in *. split; [|repeat split; try lia; try exact D2].
      * f_equal. rewrite <- G. rewrite <- (firstn_skipn k (c_net c)) at 3. rewrite firstn_app.
        rewrite firstn_firstn. rewrite Nat.min_r by lia. rewrite firstn_length_le by lia. reflexivity.
      * rewrite D3, <- skipn_add. f_equal. lia.
    + exists None, c'. split; [reflexivity|]. right. split; [reflexivity|]. split; [lia|]. split; assumption.
Qed.

Theorem recv_all_ok : forall size c, exists o c',
  recv_all size c = Some (o, c') /\ answer (CBytes size) (pending c) o (pending c').
Proof.
  intros size c. unfold recv_all. set (len := Nat.min size (length (c_buf c))).
  destruct (recv_loop_ok (S size) (size - len) (Conn (skipn len (c_buf c)) (c_net c) (c_sched c)) ltac:(lia)) as (o & c' & E & D).
  { cbn [c_buf]. destruct (Nat.le_gt_cases size (length (c_buf c))); [right; unfold len; lia|left].
    apply skipn_all2. unfold len. lia. }
  rewrite E. cbn [c_buf c_net] in D. destruct D as [(-> & D1 & D2 & D3) | (-> & D1 & D2 & D3)].
  - exists (Some (firstn len (c_buf c) ++ firstn (size - len) (c_net c))), c'. split; [reflexivity|]. left.
    eexists. split; [|split; [reflexivity|]].
    + rewrite app_length, !firstn_length_le by (unfold len in *; lia). unfold len. lia.
    + unfold pending. rewrite D2, D3. destruct (Nat.le_gt_cases size (length (c_buf c))).
      * replace (size - len)%nat with 0%nat by (unfold len; lia). cbn [firstn skipn]. rewrite app_nil_r, app_assoc, firstn_skipn. reflexivity.
      * rewrite skipn_all2 by (unfold len; lia). rewrite firstn_all2 by (unfold len; lia).
        cbn [app]. rewrite <- app_assoc, firstn_skipn. reflexivity.
  - exists None, c'. split; [reflexivity|]. right. unfold pending. rewrite D2, D3, app_nil_r, app_length.
    assert (length (c_buf c) < size)%nat by (unfold len in *; lia).
    split; [unfold len in *; lia|]. split; [reflexivity|]. apply skipn_all2. unfold len. lia.
Qed.

Theorem rrun_ok : forall cap rs c, (1 <= cap)%nat -> exists outs c',
  rrun cap rs c = Some (outs, c') /\ answers rs (pending c) outs (pending c').
Proof.
  intros cap rs. induction rs as [|r rs IH]; intros c H.
  - exists [], c. split; [reflexivity|]. constructor.
  - assert (X : exists o c', rstep cap r c = Some (o, c') /\ answer r (pending c) o (pending c')).
    { destruct r as [size|size]; cbn [rstep].
      - destruct (read_line_ok cap size c H) as (l & c' & E & P & Q). rewrite E. exists (Some l), c'.
        split; [reflexivity|]. exists l. auto.
      - apply recv_all_ok. }
    destruct X as (o & c' & E & A). destruct (IH c' H) as (os & c'' & E2 & A2).
    exists (o :: os), c''. cbn [rrun]. rewrite E, E2. split; [reflexivity|]. econstructor; eassumption.
Qed.

Lemma answer_unique r s o1 s1 o2 s2 : answer r s o1 s1 -> answer r s o2 s2 -> o1 = o2 /\ s1 = s2.
Proof.
  destruct r as [size|size]; cbn [answer].
  - intros (l & N1 & -> & E1) (l' & N2 & -> & E2). apply next_line_unique in N1, N2. rewrite <- N1 in N2. subst l'.
    split; [reflexivity|]. rewrite E2 in E1. apply app_inv_head in E1. symmetry. exact E1.
  - intros [(l & L1 & -> & E1) | (L1 & -> & ->)] [(l' & L2 & -> & E2) | (L2 & -> & ->)].
    + rewrite E1 in E2. apply app_eq_app in E2. destruct E2 as (t & [[E F] | [E F]]).
      * assert (length t = O) by (apply (f_equal (@length Z)) in E; rewrite app_length in E; lia).
        destruct t; [|discriminate]. rewrite app_nil_r in E. subst. split; reflexivity.
      * assert (length t = O) by (apply (f_equal (@length Z)) in E; rewrite app_length in E; lia).
        destruct t; [|discriminate]. rewrite app_nil_r in E. subst. split; reflexivity.
    + apply (f_equal (@length Z)) in E1. rewrite app_length in E1. lia.
    + apply (f_equal (@length Z)) in E2. rewrite app_length in E2. lia.
    + split; reflexivity.
Qed.

Lemma answers_unique rs : forall s o1 s1 o2 s2, answers rs s o1 s1 -> answers rs s o2 s2 -> o1 = o2 /\ s1 = s2.
Proof.
  induction rs as [|r rs IH]; intros s o1 s1 o2 s2 A B; inversion A; inversion B; subst; [split; reflexivity|].
  match goal with H : answer r s _ _, K : answer r s _ _ |- _ => destruct (answer_unique _ _ _ _ _ _ H K); subst end.
  match goal with H : answers rs ?x _ _, K : answers rs ?x _ _ |- _ => destruct (IH _ _ _ _ _ H K); subst end.
  split; reflexivity.
Qed.

Theorem chunks_irrelevant : forall cap1 cap2 rs c1 c2, (1 <= cap1)%nat -> (1 <= cap2)%nat ->
  pending c1 = pending c2 -> exists outs c1' c2',
  rrun cap1 rs c1 = Some (outs, c1') /\ rrun cap2 rs c2 = Some (outs, c2') /\ pending c1' = pending c2'.
Proof.
  intros cap1 cap2 rs c1 c2 H1 H2 E.
  destruct (rrun_ok cap1 rs c1 H1) as (o1 & c1' & R1 & A1). destruct (rrun_ok cap2 rs c2 H2) as (o2 & c2' & R2 & A2).
  rewrite <- E in A2. destruct (answers_unique _ _ _ _ _ _ A1 A2) as [<- P]. exists o1, c1', c2'. auto.
Qed.

Theorem fetches_all : forall size fuel c, (1 <= size)%nat -> (length (pending c) < fuel)%nat ->
  concat (fetches fuel size c) = pending c.
Proof.
  intros size fuel. induction fuel as [|f IH]; intros c H L; [lia|]. cbn [fetches]. unfold fetch.
  destruct (c_buf c) as [|x b] eqn:B.
  - assert (N := recv_nil size c H). destruct (recv size c) as [got c1] eqn:R. cbn [fst] in N.
    unfold recv in R. set (k := match c_sched c with [] => size | s :: _ => Nat.min size (Nat.max 1 s) end) in R.
    clearbody k. injection R as <- <-. unfold pending in *. rewrite B in *. cbn [app] in *.
    destruct (firstn k (c_net c)) as [|y g] eqn:G; [cbn [concat]; rewrite (N eq_refl); reflexivity|].
    cbn [concat]. rewrite IH; cbn [c_buf c_net app]; [|exact H|].
    + rewrite <- (firstn_skipn k (c_net c)) at 2. rewrite G. reflexivity.
    + assert (X := f_equal (@length Z) (firstn_skipn k (c_net c))). rewrite app_length, G in X. cbn [length] in X. lia.
  - cbn [concat]. rewrite IH; [|exact H|].
    + unfold pending. cbn [c_buf c_net app]. rewrite B. reflexivity.
    + unfold pending in *. cbn [c_buf c_net app]. rewrite B, app_length in L. cbn [length] in L. lia.
Qed.

Theorem send_all_ok : forall sched data, send_all sched data = Some data.
Proof.
  intros sched data. unfold send_all.
  enough (G : forall fuel s d, (length d < fuel)%nat -> send_loop fuel s d = Some d) by (apply G; lia).
  induction fuel as [|f IH]; intros s d L; [lia|]. cbn [send_loop]. destruct d as [|x d]; [reflexivity|].
  destruct (send s (x :: d)) as [n s'] eqn:E.
  assert (1 <= n)%nat.
  { unfold send in E. injection E as E _. rewrite <- E. clear. destruct s as [|[|k] s]; cbn [length]; lia. }
  rewrite IH by (rewrite skipn_length; cbn [length] in *; lia). rewrite firstn_skipn. reflexivity.
Qed.
