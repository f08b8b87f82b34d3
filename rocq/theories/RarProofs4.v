(** Proofs that the reading of rar-volumes ends. *)
From Coq Require Import String.
From Verif Require Import Base RarModel RarSpec RarProofs.
Open Scope list_scope. Open Scope Z_scope.

(** A reader that goes forward and says how much it read; the rest of the block follows. *)
Lemma bind_inv {A B} (m : rdr A) (k : A -> rdr B) c s r : bind m k c s = Ok r -> exists a s', m c s = Ok (a, s') /\ k a c s' = Ok r.
Proof. unfold bind. destruct (m c s) as [[a s']| | |]; try discriminate. intros H. exists a, s'. auto. Qed.
Lemma ret_inv {A} (a b : A) c p t q u : ret a c (p, t) = Ok (b, (q, u)) -> b = a /\ q = p /\ u = t.
Proof. unfold ret. intros H. injection H as <- <- <-. auto. Qed.
Lemma read_inv n c p t a q t' : read n c (p, t) = Ok (a, (q, t')) ->
  a = firstn (Z.to_nat n) (skipn (Z.to_nat p) c) /\ q = p + n /\ t' = (t - n) mod u64 /\ q <= zlen c.
Proof. unfold read. destruct (p + n <=? zlen c) eqn:E; [|discriminate]. intros H. injection H as <- <- <-. repeat apply conj; auto. lia. Qed.
Lemma num_inv n c p t a q t' : read_num n c (p, t) = Ok (a, (q, t')) ->
  a = number_at c p (Z.to_nat n) /\ q = p + n /\ t' = (t - n) mod u64 /\ q <= zlen c.
Proof. unfold read_num. intros H. apply bind_inv in H as (b & [q1 t1] & H & H1). apply read_inv in H as (-> & -> & -> & ?). injection H1 as <- <- <-. auto. Qed.
Lemma skip_inv n c p t a q t' : 0 < n < 2 ^ 63 -> skip n c (p, t) = Ok (a, (q, t')) -> q = p + n /\ t' = (t - n) mod u64 /\ q <= zlen c.
Proof.
  intros Hn. unfold skip, s64. replace (n <? 2 ^ 63) with true by lia. replace (0 <? n) with true by lia. intros H. apply read_inv in H as (_ & ? & ? & ?). auto.
Qed.

(** Readers that never are undefined and never run for ever. *)
Definition quiet {A} (m : rdr A) : Prop := forall c s, m c s <> Ub /\ m c s <> Endless.
Lemma quiet_bind {A B} (m : rdr A) (k : A -> rdr B) : quiet m -> (forall a, quiet (k a)) -> quiet (bind m k).
Proof. intros Hm Hk c s. unfold bind. specialize (Hm c s). destruct (m c s) as [[a s']| | |]; try (split; discriminate); [apply Hk|destruct Hm; congruence|destruct Hm; congruence]. Qed.
Lemma quiet_ret {A} (a : A) : quiet (ret a). Proof. intros c s. split; discriminate. Qed.
Lemma quiet_fail {A} : quiet (@fail A). Proof. intros c s. split; discriminate. Qed.
Lemma quiet_read n : quiet (read n). Proof. intros c [p t]. unfold read. destruct (_ <=? _); split; discriminate. Qed.
Lemma quiet_num n : quiet (read_num n). Proof. apply quiet_bind; [apply quiet_read|intros; apply quiet_ret]. Qed.
Lemma quiet_skip n : quiet (skip n). Proof. unfold skip. destruct (0 <? s64 n); [apply quiet_read|apply quiet_ret]. Qed.
Lemma quiet_get : quiet get_trail. Proof. intros c s. split; discriminate. Qed.
Lemma quiet_set t : quiet (set_trail t). Proof. intros c s. split; discriminate. Qed.
Ltac quiet := repeat first [apply quiet_bind; [|intros] | apply quiet_ret | apply quiet_fail | apply quiet_read | apply quiet_num | apply quiet_skip | apply quiet_get | apply quiet_set
  | match goal with |- quiet (if ?b then _ else _) => destruct b end].
Lemma quiet_step3 v : quiet (step3 v).
Proof. unfold step3, read3_block, read3_file. quiet. Qed.

Lemma number_pos c p n : bytes_ok c -> 0 <= number_at c p n < 256 ^ Z.of_nat n.
Proof.
  intros H. unfold number_at. assert (F : bytes_ok (skipn (Z.to_nat p) c)).
  { unfold bytes_ok in *. rewrite Forall_forall in *. intros x I. apply H. rewrite <- (firstn_skipn (Z.to_nat p) c). apply in_or_app. right. exact I. }
  revert F. generalize (skipn (Z.to_nat p) c) as l. clear. induction n as [|n IH]; intros l F; [cbn; lia|].
  destruct l as [|x l]; [cbn [firstn le]; split; [lia|apply Z.pow_pos_nonneg; lia]|]. cbn [firstn le]. apply Forall_cons_iff in F as [X F]. specialize (IH l F). unfold is_byte in X.
  rewrite Nat2Z.inj_succ, Z.pow_succ_r by lia. lia.
Qed.

Lemma skipn_skipn {A} a b (l : list A) : skipn a (skipn b l) = skipn (a + b) l.
Proof.
  revert l. induction b as [|b IH]; intros l; [rewrite Nat.add_0_r; reflexivity|]. destruct l as [|x l]; [rewrite !skipn_nil; reflexivity|].
  rewrite Nat.add_succ_r. cbn [skipn]. apply IH.
Qed.
Lemma num_in c p k n : 0 <= p -> le (firstn n (skipn k (firstn 7 (skipn (Z.to_nat p) c)))) = le (firstn (Nat.min n (7 - k)) (skipn (Z.to_nat (p + Z.of_nat k)) c)).
Proof.
  intros H. rewrite skipn_firstn_comm, firstn_firstn, skipn_skipn. do 3 f_equal. lia.
Qed.

Lemma block3_inv c p a q t' : 0 <= p -> read3_block c (p, 0) = Ok (a, (q, t')) ->
  let flags := number_at c (p + 3) 2 in
  b_flags a = flags /\ q <= zlen c /\ q = p + (if bit flags 15 then 11 else 7) /\
  b_type a = number_at c (p + 2) 1 /\
  t' = ((if bit flags 15 then (number_at c (p + 5) 2 + number_at c (p + 7) 4) mod 2 ^ 32 else number_at c (p + 5) 2) - (if bit flags 15 then 11 else 7)) mod u64.
Proof.
  intros P H. unfold read3_block in H. apply bind_inv in H as (buf & [q1 t1] & H & H1). apply read_inv in H as (-> & -> & -> & L).
  change (Z.to_nat 7) with 7%nat in H1. set (b7 := firstn 7 (skipn (Z.to_nat p) c)) in *.
  assert (E1 : le (firstn 2 (skipn 3 b7)) = number_at c (p + 3) 2) by (unfold b7; rewrite num_in by exact P; reflexivity).
  assert (E2 : le (skipn 5 b7) = number_at c (p + 5) 2).
  { unfold b7. rewrite skipn_firstn_comm, skipn_skipn. unfold number_at. do 3 f_equal. lia. }
  assert (E3 : nth 2 b7 0 = number_at c (p + 2) 1).
  { unfold number_at, b7. replace (Z.to_nat (p + 2)) with (2 + Z.to_nat p)%nat by lia. rewrite <- skipn_skipn.
    destruct (skipn (Z.to_nat p) c) as [|x0 [|x1 [|x2 l]]]; cbn [firstn skipn nth le]; try reflexivity. lia. }
  rewrite E1, E2, E3 in H1. clear E1 E2 E3. change 32768 with (2 ^ 15) in H1. rewrite has_pow in H1 by lia. cbn zeta.
  destruct (bit (number_at c (p + 3) 2) 15) eqn:B.
  - apply bind_inv in H1 as (add & [q2 t2] & H & H1). apply num_inv in H as (-> & -> & -> & L2). apply bind_inv in H1 as ([] & [q3 t3] & H & H1). injection H as <- <-. injection H1 as <- <- <-.
    cbn [b_flags b_type]. repeat apply conj; auto; try lia. change (Z.to_nat 4) with 4%nat. match goal with |- ?a mod u64 = ?b mod u64 => replace a with b; [reflexivity|] end. change (Z.pow_pos 2 32) with (2 ^ 32). change (Pos.to_nat 4) with 4%nat. clear. lia.
  - apply bind_inv in H1 as ([] & [q3 t3] & H & H1). injection H as <- <-. injection H1 as <- <- <-.
    cbn [b_flags b_type]. repeat apply conj; auto.
Qed.

Lemma file3_inv c b p x a q t' : bytes_ok c -> read3_file b c (p, x mod u64) = Ok (a, (q, t')) -> 0 <= p ->
  exists d, 0 <= d /\ q = p + d /\ q <= zlen c /\ t' = (x - d + (if bit (b_flags b) 8 then number_at c (p + 21) 4 * 2 ^ 32 else 0)) mod u64.
Proof.
  intros Bc H P. unfold read3_file in H.
  apply bind_inv in H as (a1 & [q1 t1] & H1 & H). apply num_inv in H1 as (_ & -> & -> & _). rewrite sub_mod in H.
  apply bind_inv in H as (a2 & [q1 t1] & H1 & H). apply skip_inv in H1 as (-> & -> & _); [|lia]. rewrite sub_mod in H.
  apply bind_inv in H as (a3 & [q1 t1] & H1 & H). apply skip_inv in H1 as (-> & -> & _); [|lia]. rewrite sub_mod in H.
  apply bind_inv in H as (a4 & [q1 t1] & H1 & H). apply num_inv in H1 as (_ & -> & -> & _). rewrite sub_mod in H.
  apply bind_inv in H as (a5 & [q1 t1] & H1 & H). apply skip_inv in H1 as (-> & -> & _); [|lia]. rewrite sub_mod in H.
  apply bind_inv in H as (nl & [q1 t1] & H1 & H). apply num_inv in H1 as (Enl & -> & -> & _). rewrite sub_mod in H.
  apply bind_inv in H as (a7 & [q1 t1] & H1 & H). apply num_inv in H1 as (_ & -> & -> & L). rewrite sub_mod in H.
  apply bind_inv in H as (a8 & [q1 t1] & H1 & H).
  change 256 with (2 ^ 8) in H1. rewrite has_pow in H1 by lia.
  assert (G : exists d, 0 <= d /\ q1 = p + 21 + d /\ t1 = (x - 21 - d + (if bit (b_flags b) 8 then number_at c (p + 21) 4 * 2 ^ 32 else 0)) mod u64).
  { destruct (bit (b_flags b) 8).
    - apply bind_inv in H1 as (h1 & [q2 t2] & H2 & H1). apply num_inv in H2 as (-> & -> & -> & _). rewrite sub_mod in H1.
      rewrite get_at, set_at, Zplus_mod_idemp_l, Z.shiftl_mul_pow2 in H1 by lia.
      apply bind_inv in H1 as (h2 & [q2 t2] & H2 & H1). apply num_inv in H2 as (_ & -> & -> & _). apply ret_inv in H1 as (-> & -> & ->). rewrite sub_mod. change (Z.to_nat 4) with 4%nat.
      exists 8. split; [lia|]. split; [lia|]. replace (p + 4 + 1 + 4 + 4 + 2 + 2 + 4) with (p + 21) by lia. f_equal. lia.
    - apply ret_inv in H1 as (-> & -> & ->). exists 0. split; [lia|]. split; [lia|]. f_equal. lia. }
  destruct G as (d & D0 & -> & ->). destruct (8192 <? nl); [discriminate|].
  apply bind_inv in H as (nm & [q2 t2] & H3 & H). apply read_inv in H3 as (_ & -> & -> & L3). apply ret_inv in H as (-> & -> & ->).
  rewrite sub_mod. assert (Hnl : 0 <= nl).
  { rewrite Enl. apply number_pos. exact Bc. }
  exists (21 + d + nl). split; [lia|]. split; [lia|]. split; [lia|]. f_equal. lia.
Qed.

Lemma step3_inv v c p v' q t r : bytes_ok c -> 0 <= p -> step3 v c (p, 0) = Ok ((v', false), (q, t)) -> 0 < total3 c p < 2 ^ 62 -> zlen c < 2 ^ 62 ->
  seek q t = Some r -> r = p + total3 c p /\ p < zlen c.
Proof.
  intros Bc P H T C S0. unfold step3 in H. apply bind_inv in H as (b & [q1 t1] & Hb & H). apply block3_inv in Hb as (Ef & L & Eq & Ety & Et); [|exact P].
  unfold total3 in T |- *. rewrite <- Ety in T |- *. set (flags := number_at c (p + 3) 2) in *. set (start := if bit flags 15 then 11 else 7) in *.
  set (base := if bit flags 15 then (number_at c (p + 5) 2 + number_at c (p + 7) 4) mod 2 ^ 32 else number_at c (p + 5) 2) in *.
  assert (St : 7 <= start <= 11) by (unfold start; destruct (bit flags 15); lia).
  assert (G : exists d hi, 0 <= d /\ q = p + start + d /\ q <= zlen c /\ t = (base - start - d + hi) mod u64 /\ hi = (if (b_type b =? 116) && bit flags 8 then number_at c (p + start + 21) 4 * 2 ^ 32 else 0)).
  { assert (K : forall w : vinfo, (Ok ((w, false), (q1, t1)) : got (vinfo * bool * (Z * Z))) = Ok ((v', false), (q, t)) -> (b_type b =? 116) = false ->
      exists d hi, 0 <= d /\ q = p + start + d /\ q <= zlen c /\ t = (base - start - d + hi) mod u64 /\ hi = (if (b_type b =? 116) && bit flags 8 then number_at c (p + start + 21) 4 * 2 ^ 32 else 0)).
    { intros w E N. injection E as _ <- <-. rewrite N. cbn [andb]. exists 0, 0. repeat apply conj; try lia. rewrite Et. f_equal. lia. }
    destruct (b_type b =? 0) eqn:T0; [discriminate|].
    destruct (b_type b =? 115) eqn:T1. { destruct (has (b_flags b) 128); [discriminate|]. apply (K _ H). lia. }
    destruct (b_type b =? 116) eqn:T2.
    { apply bind_inv in H as (f & [q2 t2] & H1 & H). rewrite Et in H1. apply file3_inv in H1 as (d & D & E1 & E2 & E3); [|exact Bc|lia]. apply ret_inv in H as (_ & -> & ->).
      rewrite Ef in E3. exists d, (if bit flags 8 then number_at c (p + start + 21) 4 * 2 ^ 32 else 0). split; [exact D|]. split; [lia|]. split; [exact E2|]. split; [rewrite E3, Eq; reflexivity|reflexivity]. }
    destruct (b_type b =? 123) eqn:T3.
    { apply bind_inv in H as (f & [q2 t2] & H1 & H). destruct (has (b_flags b) 8); [|discriminate]. apply bind_inv in H as (f2 & [q3 t3] & H2 & H). discriminate. }
    destruct ((b_type b <? 114) || (123 <? b_type b)); [discriminate|]. apply (K _ H). reflexivity. }
  destruct G as (d & hi & D & E1 & E2 & E3 & E4). rewrite <- E4 in T |- *. split; [|lia].
  unfold seek, s64 in S0. assert (M : t = base - start - d + hi \/ t = base - start - d + hi + 2 ^ 64 /\ base - start - d + hi < 0).
  { destruct (Z_lt_le_dec (base - start - d + hi) 0) as [N|N].
    - right. split; [|exact N]. rewrite E3. rewrite <- (Z_mod_plus_full _ 1). apply Z.mod_small. unfold u64. lia.
    - left. rewrite E3. apply Z.mod_small. unfold u64. lia. }
  destruct (t <? 2 ^ 63) eqn:W; destruct (_ && _); try discriminate; injection S0 as <-; lia.
Qed.

Lemma blocks3_end c : bytes_ok c -> zlen c < 2 ^ 62 -> (forall p, reach3 c p -> p + 7 <= zlen c -> 0 < total3 c p < 2 ^ 62) ->
  forall fuel v p, reach3 c p -> 0 <= p -> zlen c - p < Z.of_nat fuel -> (0 < fuel)%nat ->
  blocks step3 fuel v c p <> Endless /\ blocks step3 fuel v c p <> Ub.
Proof.
  intros Bc C T. induction fuel as [|fuel IH]; intros v p R P L F; [lia|]. cbn [blocks].
  pose proof (quiet_step3 v c (p, 0)) as [Q1 Q2]. destruct (step3 v c (p, 0)) as [[[v' e] [q t]]| | |] eqn:E; try (split; congruence).
  destruct e; [split; discriminate|]. destruct (seek q t) as [r|] eqn:K; [|split; discriminate].
  assert (B7 : p + 7 <= zlen c).
  { unfold step3 in E. apply bind_inv in E as (b & [q1 t1] & Hb & _). unfold read3_block in Hb. apply bind_inv in Hb as (buf & [q2 t2] & Hb & _). apply read_inv in Hb as (_ & ? & _ & ?). lia. }
  destruct (step3_inv _ _ _ _ _ _ _ Bc P E (T p R B7) C K) as [-> _]. specialize (T p R B7). 
  apply IH; [constructor; exact R|lia| |]; [lia|]. destruct fuel; [|lia]. lia.
Qed.
