(** Proofs about the reading of rar-volumes of version 5. *)
From Coq Require Import String.
From Verif Require Import Base RarModel RarSpec RarProofs RarProofs2.
Open Scope list_scope. Open Scope Z_scope.

Lemma block5_at c p x h type body extra data r B (k : blk -> rdr B) :
  at_ c p (put5 h body extra data ++ r) -> head5_ok h type body extra data -> type < 256 ->
  exists q add, bind read5_block k c (p, x mod u64) =
    k (Blk type (vval (h5_flags h)) add) c (q, (zlen (body ++ extra ++ data)) mod u64) /\
  (bit (vval (h5_flags h)) 0 = true -> add = zlen extra) /\ at_ c q (body ++ extra ++ data ++ r).
Proof.
  intros A (Hc & Vs & Vt & Vf & Ety & Hf & Esz & Hsz & X1 & X0 & D1 & D0 & Hd) Ht.
  unfold put5, inner5 in A. rewrite <- !app_assoc in A.
  unfold inner5 in Esz. rewrite !zlen_app in Esz. unfold read5_block.
  pose proof (vval_pos (h5_size h)) as Ps. pose proof (vval_pos (h5_flags h)) as Pf. pose proof (vval_pos (h5_type h)) as Pt.
  rewrite bind_bind. unfold read_num at 1. rewrite bind_bind. rewrite (read_at _ _ _ _ _ 4 _ _ A Hc). rewrite bind_ret. apply at_app in A. rewrite Hc in A.
  rewrite bind_bind. rewrite (v_at _ _ _ _ _ _ _ Vs A). apply at_app in A.
  rewrite bind_bind, set_at. rewrite (Z.mod_small (vval (h5_size h)) (2 ^ 32)) by lia.
  rewrite bind_bind. rewrite (v_at _ _ _ _ _ _ _ Vt A). apply at_app in A.
  rewrite bind_bind. rewrite (v_at _ _ _ _ _ _ _ Vf A). apply at_app in A.
  rewrite (Z.mod_small (vval (h5_flags h))) by lia. rewrite (Z.mod_small (vval (h5_type h))) by lia.
  rewrite bind_bind. change (has (vval (h5_flags h)) 1) with (has (vval (h5_flags h)) (2 ^ 0)). change (has (vval (h5_flags h)) 2) with (has (vval (h5_flags h)) (2 ^ 1)).
  rewrite !has_pow by lia. rewrite Ety.
  destruct (bit (vval (h5_flags h)) 0) eqn:B0.
  - destruct (X1 eq_refl) as [V E]. rewrite (v_at _ _ _ _ _ _ _ V A). apply at_app in A. rewrite bind_bind.
    destruct (bit (vval (h5_flags h)) 1) eqn:B1.
    + destruct (D1 eq_refl) as [V2 E2]. rewrite (v_at _ _ _ _ _ _ _ V2 A). apply at_app in A. rewrite bind_bind, get_at, bind_bind, set_at, bind_ret.
      eexists _, _. split; [|split; [intros _; reflexivity|exact A]]. rewrite E, Zplus_mod_idemp_l.
      match goal with |- k _ c (_, ?a mod u64) = k _ c (_, ?b mod u64) => replace a with b; [reflexivity|] end. rewrite !zlen_app. lia.
    + rewrite bind_ret. cbn [app] in A. rewrite bind_bind, get_at, bind_bind, set_at, bind_ret. rewrite (D0 eq_refl) in *.
      eexists _, _. split; [|split; [intros _; reflexivity|exact A]]. rewrite E, Zplus_mod_idemp_l.
      match goal with |- k _ c (_, ?a mod u64) = k _ c (_, ?b mod u64) => replace a with b; [reflexivity|] end. rewrite !zlen_app, !zlen_nil in *. lia.
  - rewrite bind_ret. cbn [app] in A. rewrite (X0 eq_refl) in *. rewrite bind_bind.
    destruct (bit (vval (h5_flags h)) 1) eqn:B1.
    + destruct (D1 eq_refl) as [V2 E2]. rewrite (v_at _ _ _ _ _ _ _ V2 A). apply at_app in A. rewrite bind_bind, get_at, bind_bind, set_at, bind_ret.
      eexists _, _. split; [|split; [intros X; discriminate X|exact A]]. rewrite Zplus_mod_idemp_l.
      match goal with |- k _ c (_, ?a mod u64) = k _ c (_, ?b mod u64) => replace a with b; [reflexivity|] end. rewrite !zlen_app, !zlen_nil in *. lia.
    + rewrite bind_ret. cbn [app] in A. rewrite bind_bind, get_at, bind_bind, set_at, bind_ret. rewrite (D0 eq_refl) in *.
      eexists _, _. split; [|split; [intros X; discriminate X|exact A]]. rewrite Zplus_mod_idemp_l.
      match goal with |- k _ c (_, ?a mod u64) = k _ c (_, ?b mod u64) => replace a with b; [reflexivity|] end. rewrite !zlen_app, !zlen_nil in *. lia.
Qed.

Lemma vint_len l : is_vint l -> 1 <= zlen l <= 10.
Proof. intros (i & z & -> & _ & _ & L & _). rewrite zlen_app in *. pose proof (zlen_pos i). change (zlen [z]) with 1 in *. lia. Qed.

Lemma bytes8 t : bytes_of 8 t = bytes_of 4 t ++ bytes_of 4 (t / 2 ^ 32).
Proof.
  cbn [bytes_of app]. change (2 ^ 32) with (256 * 256 * 256 * 256). rewrite <- !Z.div_div by lia. reflexivity.
Qed.

(** One further record: [len] bytes of it are left at the place where the type is read. *)
Lemma skip_any c p x n f r B (k : list Z -> rdr B) : at_ c p (f ++ r) -> zlen f = n -> n < 2 ^ 63 ->
  exists g, bind (skip n) k c (p, x mod u64) = k g c (p + n, (x - n) mod u64).
Proof.
  intros A L H. pose proof (zlen_pos f) as Pf. destruct (Z.eq_dec n 0) as [E|E].
  - exists []. rewrite E. unfold skip, s64. cbn. rewrite Z.add_0_r, Z.sub_0_r. reflexivity.
  - exists f. apply (skip_at _ _ _ _ _ r); auto. lia.
Qed.

Lemma mod_sub x y n : n = x - y -> 0 <= n < u64 -> (x mod u64 - y mod u64) mod u64 = n.
Proof. intros -> H. rewrite <- Zminus_mod. apply Z.mod_small. exact H. Qed.

Lemma extra_at xs : forall fuel c p x t r B (k : Z -> rdr B),
  Forall extra_ok xs -> (length xs <= fuel)%nat -> at_ c p (flat_map write_extra xs ++ r) -> zlen c < 2 ^ 62 ->
  bind (read5_extra fuel (zlen (flat_map write_extra xs)) t) k c (p, x mod u64) =
  k (time_of t xs) c (p + zlen (flat_map write_extra xs), (x - zlen (flat_map write_extra xs)) mod u64).
Proof.
  induction xs as [|e xs IH]; intros fuel c p x t r B k F Hf A C.
  - cbn [flat_map time_of]. rewrite zlen_nil, Z.add_0_r, Z.sub_0_r. destruct fuel; reflexivity.
  - apply Forall_cons_iff in F as [K F]. destruct fuel as [|fuel]; [cbn [length] in Hf; lia|]. cbn [flat_map] in A |- *. rewrite <- app_assoc in A.
    pose proof (at_len _ _ _ A) as Lc. rewrite !zlen_app in Lc. pose proof (zlen_pos r) as Pr. destruct A as [A0 A']. assert (A : at_ c p (write_extra e ++ flat_map write_extra xs ++ r)) by (split; assumption).
    clear A'. rewrite zlen_app. pose proof (zlen_pos (flat_map write_extra xs)) as Px.
    cbn [read5_extra].
    assert (L1 : 1 <= zlen (write_extra e)).
    { destruct e; cbn [write_extra extra_ok] in *; destruct K as (V & _); apply vint_len in V; rewrite !zlen_app;
      repeat match goal with |- context [zlen ?l] => lazymatch goal with H : 0 <= zlen l |- _ => fail | _ => pose proof (zlen_pos l) end end; lia. }
    replace (zlen (write_extra e) + zlen (flat_map write_extra xs) =? 0) with false by lia.
    rewrite bind_bind, get_at, bind_bind.
    assert (R : exists size type rest, write_extra e = size ++ type ++ rest /\ is_vint size /\ is_vint type /\ vval size = zlen type + zlen rest).
    { destruct e as [size type fl time rest|size type fl time rest|size type data]; cbn [write_extra extra_ok] in *.
      - destruct K as (V1 & V2 & V3 & E & _). exists size, type, (fl ++ bytes_of 4 time ++ rest). repeat apply conj; auto. rewrite E, !zlen_app, bytes_len. lia.
      - destruct K as (V1 & V2 & V3 & E & _). exists size, type, (fl ++ bytes_of 8 time ++ rest). repeat apply conj; auto. rewrite E, !zlen_app, bytes_len. lia.
      - destruct K as (V1 & V2 & E & _). exists size, type, data. repeat apply conj; auto. }
    destruct e as [size type fl time rest|size type fl time rest|size type data]; cbn [write_extra extra_ok] in *; clear R.
    + destruct K as (V1 & V2 & V3 & E & T3 & B0 & Ht). rewrite <- !app_assoc in A. rewrite !zlen_app, bytes_len in *. change (Z.of_nat 4) with 4 in *.
      pose proof (zlen_pos rest). apply vint_len in V1 as W1. apply vint_len in V2 as W2. apply vint_len in V3 as W3.
      rewrite (v_at _ _ _ _ _ _ _ V1 A). apply at_app in A.
      rewrite bind_bind, get_at, bind_bind. rewrite (v_at _ _ _ _ _ _ _ V2 A). apply at_app in A. rewrite T3. change (3 =? 3) with true. cbn iota.
      rewrite bind_bind, bind_bind. rewrite (v_at _ _ _ _ _ _ _ V3 A). apply at_app in A. change (has (vval fl) 1) with (has (vval fl) (2 ^ 0)). rewrite has_pow, B0 by lia.
      rewrite (num4_at _ _ _ _ _ _ _ A) by lia. apply at_app in A. rewrite bytes_len in A. change (Z.of_nat 4) with 4 in A. rewrite (Z.mod_small time) by lia.
      rewrite bind_bind, get_at, bind_bind.
      rewrite (mod_sub _ _ (zlen type + zlen fl + 4)) by (unfold u64; lia). rewrite (mod_sub _ _ (zlen size)) by (unfold u64; lia).
      rewrite E. replace ((zlen type + zlen fl + 4 + zlen rest - (zlen type + zlen fl + 4)) mod u64) with (zlen rest) by (rewrite Z.mod_small; unfold u64; lia).
      destruct (skip_any _ _ (x - zlen size - zlen type - zlen fl - 4) _ _ _ _ (fun _ : list Z => bind (read5_extra fuel (zlen (flat_map write_extra xs)) time) k) A eq_refl) as [g G]; [lia|].
      replace ((zlen size + (zlen type + (zlen fl + (4 + zlen rest))) + zlen (flat_map write_extra xs) - (zlen size + (zlen type + zlen fl + 4 + zlen rest))) mod u64) with (zlen (flat_map write_extra xs)) by (rewrite Z.mod_small; unfold u64; lia).
      etransitivity; [exact G|]. apply at_app in A. erewrite IH; [|exact F|cbn [length] in Hf; lia|exact A|exact C]. cbn [time_of].
      match goal with |- k _ c (?u, ?v) = k _ c (?u', ?v') => replace u with u' by lia; replace v with v' by (f_equal; lia); reflexivity end.
    + destruct K as (V1 & V2 & V3 & E & T3 & B0 & Ht). rewrite bytes8 in *. rewrite <- !app_assoc in A. rewrite !zlen_app, !bytes_len in *. change (Z.of_nat 4) with 4 in *.
      pose proof (zlen_pos rest). apply vint_len in V1 as W1. apply vint_len in V2 as W2. apply vint_len in V3 as W3.
      rewrite (v_at _ _ _ _ _ _ _ V1 A). apply at_app in A.
      rewrite bind_bind, get_at, bind_bind. rewrite (v_at _ _ _ _ _ _ _ V2 A). apply at_app in A. rewrite T3. change (3 =? 3) with true. cbn iota.
      rewrite bind_bind, bind_bind. rewrite (v_at _ _ _ _ _ _ _ V3 A). apply at_app in A. change (has (vval fl) 1) with (has (vval fl) (2 ^ 0)). rewrite has_pow, B0 by lia.
      rewrite bind_bind. rewrite (num4_at _ _ _ _ _ _ _ A) by (unfold epoch in Ht; lia). apply at_app in A. rewrite bytes_len in A. change (Z.of_nat 4) with 4 in A.
      rewrite bind_bind. rewrite (num4_at _ _ _ _ _ _ _ A) by (unfold epoch in Ht; lia). apply at_app in A. rewrite bytes_len in A. change (Z.of_nat 4) with 4 in A.
      rewrite bind_ret. rewrite bind_bind, get_at, bind_bind.
      replace (((Z.shiftl (time / 2 ^ 32 mod 2 ^ 32) 32 + time mod 2 ^ 32) / 10000000 - 11644473600) mod 2 ^ 32) with (time / 10000000 - epoch).
      2:{ rewrite Z.shiftl_mul_pow2 by lia. rewrite (Z.mod_small (time / 2 ^ 32)) by (clear -Ht; unfold epoch in Ht; lia).
          replace (time / 2 ^ 32 * 2 ^ 32 + time mod 2 ^ 32) with time by (clear; lia). rewrite Z.mod_small; [reflexivity|]. clear -Ht. unfold epoch in *. lia. }
      rewrite (mod_sub _ _ (zlen type + zlen fl + 8)) by (unfold u64; lia). rewrite (mod_sub _ _ (zlen size)) by (unfold u64; lia).
      rewrite E. replace ((zlen type + zlen fl + 8 + zlen rest - (zlen type + zlen fl + 8)) mod u64) with (zlen rest) by (rewrite Z.mod_small; unfold u64; lia).
      destruct (skip_any _ _ (x - zlen size - zlen type - zlen fl - 4 - 4) _ _ _ _ (fun _ : list Z => bind (read5_extra fuel (zlen (flat_map write_extra xs)) (time / 10000000 - epoch)) k) A eq_refl) as [g G]; [lia|].
      match goal with |- context [read5_extra fuel ?m] => replace m with (zlen (flat_map write_extra xs)) by (symmetry; rewrite Z.mod_small; unfold u64; lia) end.
      etransitivity; [exact G|]. apply at_app in A. erewrite IH; [|exact F|cbn [length] in Hf; lia|exact A|exact C]. cbn [time_of].
      match goal with |- k _ c (?u, ?v) = k _ c (?u', ?v') => replace u with u' by lia; replace v with v' by (f_equal; lia); reflexivity end.
    + destruct K as (V1 & V2 & E & T3). rewrite <- !app_assoc in A. rewrite !zlen_app in *.
      pose proof (zlen_pos data). apply vint_len in V1 as W1. apply vint_len in V2 as W2.
      rewrite (v_at _ _ _ _ _ _ _ V1 A). apply at_app in A.
      rewrite bind_bind, get_at, bind_bind. rewrite (v_at _ _ _ _ _ _ _ V2 A). apply at_app in A. replace (vval type =? 3) with false by lia.
      rewrite bind_bind, bind_ret, bind_bind, get_at, bind_bind.
      rewrite (mod_sub _ _ (zlen type)) by (unfold u64; lia). rewrite (mod_sub _ _ (zlen size)) by (unfold u64; lia).
      rewrite E. replace ((zlen type + zlen data - zlen type) mod u64) with (zlen data) by (rewrite Z.mod_small; unfold u64; lia).
      destruct (skip_any _ _ (x - zlen size - zlen type) _ _ _ _ (fun _ : list Z => bind (read5_extra fuel (zlen (flat_map write_extra xs)) t) k) A eq_refl) as [g G]; [lia|].
      match goal with |- context [read5_extra fuel ?m] => replace m with (zlen (flat_map write_extra xs)) by (symmetry; rewrite Z.mod_small; unfold u64; lia) end.
      etransitivity; [exact G|]. apply at_app in A. erewrite IH; [|exact F|cbn [length] in Hf; lia|exact A|exact C]. cbn [time_of].
      match goal with |- k _ c (?u, ?v) = k _ c (?u', ?v') => replace u with u' by lia; replace v with v' by (f_equal; lia); reflexivity end.
Qed.

Lemma extra_len xs : Forall extra_ok xs -> Z.of_nat (length xs) <= zlen (flat_map write_extra xs).
Proof.
  induction 1 as [|e xs K F IH]; [cbn; lia|]. cbn [flat_map length]. rewrite zlen_app.
  assert (L1 : 1 <= zlen (write_extra e)).
  { destruct e; cbn [write_extra extra_ok] in *; destruct K as (V & _); apply vint_len in V; rewrite !zlen_app;
    repeat match goal with |- context [zlen ?l] => lazymatch goal with H : 0 <= zlen l |- _ => fail | _ => pose proof (zlen_pos l) end end; lia. }
  lia.
Qed.

Lemma file5_at c p h f xs data r B (k : rfile -> rdr B) add rr :
  at_ c p (body5 f ++ flat_map write_extra xs ++ data ++ r) -> zlen c < 2 ^ 62 -> block5_ok (DFile h f xs data) -> says_file5 h f xs rr ->
  (bit (vval (h5_flags h)) 0 = true -> add = zlen (flat_map write_extra xs)) ->
  exists q, bind (read5_file (Blk 2 (vval (h5_flags h)) add)) k c (p, (zlen (body5 f ++ flat_map write_extra xs ++ data)) mod u64) =
    k rr c (q, (zlen data) mod u64) /\ at_ c q (data ++ r).
Proof.
  intros A C (HH & FX & V1 & V2 & V3 & V4 & V5 & V6 & Ht & Hc & Hl & Hn & Hsz & Hat) (T & E1 & E2 & E3 & E4 & E5) Add.
  remember (zlen (body5 f ++ flat_map write_extra xs ++ data)) as x eqn:Ex. unfold body5 in A, Ex. rewrite <- !app_assoc in A.
  rewrite !zlen_app in Ex. pose proof (zlen_pos (f5_name f)) as Pn.
  unfold read5_file. cbn [b_flags b_add].
  change (has (vval (h5_flags h)) 1) with (has (vval (h5_flags h)) (2 ^ 0)). change (has (vval (h5_flags h)) 8) with (has (vval (h5_flags h)) (2 ^ 3)). change (has (vval (h5_flags h)) 16) with (has (vval (h5_flags h)) (2 ^ 4)). rewrite !has_pow by lia.
  rewrite bind_bind. rewrite (v_at _ _ _ _ _ _ _ V1 A). apply at_app in A.
  change (has (vval (f5_flags f)) 2) with (has (vval (f5_flags f)) (2 ^ 1)). change (has (vval (f5_flags f)) 4) with (has (vval (f5_flags f)) (2 ^ 2)). rewrite !has_pow by lia.
  rewrite bind_bind. rewrite (v_at _ _ _ _ _ _ _ V2 A). apply at_app in A.
  rewrite bind_bind. rewrite (v_at _ _ _ _ _ _ _ V3 A). apply at_app in A.
  pose proof (vval_pos (f5_size f)) as Q1. pose proof (vval_pos (f5_attr f)) as Q2. 
  rewrite (Z.mod_small (vval (f5_attr f))) by lia. unfold s64. replace (vval (f5_size f) <? 2 ^ 63) with true by lia.
  destruct rr as [rn rt ra rs rb raf]. cbn [rf_name rf_time rf_attr rf_size rf_before rf_after] in *. subst rt ra rs rb raf. apply upto0_text in T.
  set (xx := x - zlen (f5_flags f) - zlen (f5_size f) - zlen (f5_attr f)).
  set (pp := p + zlen (f5_flags f) + zlen (f5_size f) + zlen (f5_attr f)) in *.
  set (tl := if bit (vval (f5_flags f)) 1 then bytes_of 4 (f5_time f) else []) in *.
  set (cl := if bit (vval (f5_flags f)) 2 then f5_crc f else []) in *.
  rewrite bind_bind.
  match goal with |- exists q, bind (if ?b then read_num 4 else ret 0) ?kk c (pp, xx mod u64) = _ /\ _ =>
    assert (G : bind (if b then read_num 4 else ret 0) kk c (pp, xx mod u64) = kk (if b then f5_time f else 0) c (pp + zlen tl, (xx - zlen tl) mod u64)) end.
  { unfold tl in A |- *. destruct (bit (vval (f5_flags f)) 1) eqn:B1.
    - rewrite (num4_at _ _ _ _ _ _ _ A) by (specialize (Ht eq_refl); lia). rewrite Z.mod_small by (apply Ht; reflexivity). rewrite bytes_len. reflexivity.
    - change (zlen (@nil Z)) with 0. rewrite Z.add_0_r, Z.sub_0_r. reflexivity. }
  rewrite G. clear G. apply at_app in A. rewrite bind_bind.
  match goal with |- exists q, bind (if ?b then skip 4 else ret []) ?kk c (?p0, ?x0 mod u64) = _ /\ _ =>
    assert (G : exists g, bind (if b then skip 4 else ret []) kk c (p0, x0 mod u64) = kk g c (p0 + zlen cl, (x0 - zlen cl) mod u64)) end.
  { unfold cl in A |- *. destruct (bit (vval (f5_flags f)) 2) eqn:B1.
    - exists (f5_crc f). etransitivity; [exact (skip_at _ _ _ 4 _ _ _ _ A (Hc eq_refl) ltac:(lia))|]. rewrite Hc by reflexivity. reflexivity.
    - exists (@nil Z). change (zlen (@nil Z)) with 0. rewrite Z.add_0_r, Z.sub_0_r. reflexivity. }
  destruct G as [g G]. rewrite G. clear G g. apply at_app in A.
  rewrite bind_bind. rewrite (v_at _ _ _ _ _ _ _ V4 A). apply at_app in A.
  rewrite bind_bind. rewrite (v_at _ _ _ _ _ _ _ V5 A). apply at_app in A.
  rewrite bind_bind. rewrite (v_at _ _ _ _ _ _ _ V6 A). apply at_app in A.
  rewrite Hl. replace (8192 <? zlen (f5_name f)) with false by lia.
  rewrite bind_bind. rewrite (read_at _ _ _ _ _ _ _ _ A eq_refl). apply at_app in A. rewrite T. rewrite bind_bind.
  destruct (bit (vval (h5_flags h)) 0) eqn:B0.
  - rewrite (Add eq_refl).
    pose proof (extra_len xs FX) as Lx. pose proof (at_len _ _ _ A) as La. rewrite !zlen_app in La. pose proof (zlen_pos data). pose proof (zlen_pos r).
    match goal with |- exists q, bind _ ?kk c (?p0, ?x0 mod u64) = _ /\ _ => assert (G := extra_at xs (S (length c)) c p0 x0 (if bit (vval (f5_flags f)) 1 then f5_time f else 0) (data ++ r) _ kk FX) end.
    specialize (G ltac:(clear -Lx La H H0 A; destruct A as [A _]; unfold zlen in *; lia) A C).
    eexists. split; [|apply at_app in A; exact A]. etransitivity; [exact G|]. rewrite bind_ret.
    match goal with |- k _ c (_, ?a mod u64) = k _ c (_, ?b mod u64) => replace a with b; [reflexivity|] end. unfold xx. lia.
  - destruct HH as (_ & _ & _ & _ & _ & _ & _ & _ & _ & X0 & _). rewrite B0 in X0. specialize (X0 eq_refl). rewrite X0 in *.
    assert (xs = []) as ->. { pose proof (extra_len xs FX) as Lx. rewrite X0 in Lx. change (zlen []) with 0 in Lx. destruct xs; [reflexivity|cbn [length] in Lx; lia]. }
    rewrite !bind_ret. cbn [app time_of] in *. eexists. split; [|exact A].
    match goal with |- k _ c (_, ?a mod u64) = k _ c (_, ?b mod u64) => replace a with b; [reflexivity|] end. unfold xx. change (zlen []) with 0 in Ex. lia.
Qed.

Lemma other5_step f v c p h body extra data r : at_ c p (put5 h body extra data ++ r) -> zlen c < 2 ^ 62 ->
  head5_ok h 3 body extra data -> exists q, blocks step5 (S f) v c p = blocks step5 f v c q /\ at_ c q r.
Proof.
  intros A C K. unfold step5.
  match goal with |- context [blocks ?st] => pose (s5 := st) end.
  assert (G : exists q l, step5 v c (p, 0 mod u64) = Ok ((v, false), (q, zlen l mod u64)) /\ at_ c q (l ++ r)).
  { unfold step5.
    match goal with |- exists q l, bind read5_block ?kk c _ = _ /\ _ => destruct (block5_at c p 0 h 3 body extra data r _ kk A K) as (q & add & E & _ & A2); [lia|] end.
    exists q, (body ++ extra ++ data). split; [rewrite E; reflexivity|]. rewrite <- !app_assoc. exact A2. }
  destruct G as (q & l & E & A2). exact (go_on step5 f v v c p q _ l r E A2 eq_refl C).
Qed.

Lemma main5_step f v c p h a n rest extra data r : at_ c p (put5 h (main5 a n rest) extra data ++ r) -> zlen c < 2 ^ 62 ->
  block5_ok (DMain h a n rest extra data) ->
  exists q, blocks step5 (S f) v c p =
    blocks step5 f (VInfo (if bit (vval a) 1 then vval n else vi_no v) true (vi_has v) (bit (vval a) 0) (vi_files v)) c q /\ at_ c q r.
Proof.
  intros A C (K & Va & Vn). set (v' := VInfo _ _ _ _ _).
  assert (G : exists q l, step5 v c (p, 0 mod u64) = Ok ((v', false), (q, zlen l mod u64)) /\ at_ c q (l ++ r)).
  { unfold step5.
    match goal with |- exists q l, bind read5_block ?kk c _ = _ /\ _ => destruct (block5_at c p 0 h 1 (main5 a n rest) extra data r _ kk A K) as (q & add & E & _ & A2); [lia|] end.
    rewrite E. cbn [b_type Z.eqb Pos.eqb]. clear E. unfold main5 in A2. rewrite <- !app_assoc in A2.
    rewrite (v_at _ _ _ _ _ _ _ Va A2). apply at_app in A2.
    change (has (vval a) 2) with (has (vval a) (2 ^ 1)). change (has (vval a) 1) with (has (vval a) (2 ^ 0)). rewrite !has_pow by lia. unfold main5. unfold v'.
    destruct (bit (vval a) 1) eqn:B1.
    - destruct (Vn eq_refl) as [V Hn]. rewrite bind_bind. rewrite (v_at _ _ _ _ _ _ _ V A2). apply at_app in A2. rewrite bind_ret. unfold ret.
      pose proof (vval_pos n). rewrite (Z.mod_small (vval n)) by lia.
      eexists _, (rest ++ extra ++ data). split; [|rewrite <- !app_assoc; exact A2]. rewrite <- !app_assoc, !zlen_app. match goal with |- Ok (_, (_, ?a mod u64)) = Ok (_, (_, ?b mod u64)) => replace a with b by lia; reflexivity end.
    - rewrite bind_ret. unfold ret. eexists _, (rest ++ extra ++ data). split; [|rewrite <- !app_assoc; exact A2]. rewrite <- !app_assoc, !zlen_app. change (zlen (@nil Z)) with 0. match goal with |- Ok (_, (_, ?a mod u64)) = Ok (_, (_, ?b mod u64)) => replace a with b by lia; reflexivity end. }
  destruct G as (q & l & E & A2). exact (go_on step5 f v v' c p q _ l r E A2 eq_refl C).
Qed.

Lemma file5_step f v c p h g xs data r rr : at_ c p (put5 h (body5 g) (flat_map write_extra xs) data ++ r) -> zlen c < 2 ^ 62 ->
  block5_ok (DFile h g xs data) -> says_file5 h g xs rr ->
  exists q, blocks step5 (S f) v c p = blocks step5 f (VInfo (vi_no v) (vi_new v) (vi_has v) (vi_multi v) (vi_files v ++ [rr])) c q /\ at_ c q r.
Proof.
  intros A C K Hs. pose proof K as (K0 & _). set (v' := VInfo _ _ _ _ _).
  assert (G : exists q l, step5 v c (p, 0 mod u64) = Ok ((v', false), (q, zlen l mod u64)) /\ at_ c q (l ++ r)).
  { unfold step5.
    match goal with |- exists q l, bind read5_block ?kk c _ = _ /\ _ => destruct (block5_at c p 0 h 2 (body5 g) (flat_map write_extra xs) data r _ kk A K0) as (q & add & E & Ad & A2); [lia|] end.
    rewrite E. cbn [b_type Z.eqb Pos.eqb]. clear E.
    match goal with |- exists q l, bind (read5_file ?b) ?kk c _ = _ /\ _ => destruct (file5_at c q h g xs data r _ kk add rr A2 C K Hs Ad) as (q2 & E & A3) end.
    exists q2, data. split; [exact E|exact A3]. }
  destruct G as (q & l & E & A2). exact (go_on step5 f v v' c p q _ l r E A2 eq_refl C).
Qed.

Lemma end5_step f v c p h e rest extra r : at_ c p (end5 h e rest extra ++ r) -> end5_ok h e rest extra ->
  blocks step5 (S f) v c p = Ok (VInfo (vi_no v) (vi_new v) (bit (vval e) 0) (vi_multi v) (vi_files v)).
Proof.
  intros A (K & V). cbn [blocks]. change (p, 0) with (p, 0 mod u64).
  assert (G : exists s, step5 v c (p, 0 mod u64) = Ok ((VInfo (vi_no v) (vi_new v) (bit (vval e) 0) (vi_multi v) (vi_files v), true), s)).
  { unfold step5. match goal with |- exists q, bind read5_block ?kk c _ = _ => destruct (block5_at c p 0 h 5 (e ++ rest) extra [] r _ kk A K) as (q & add & E & _ & A2); [lia|] end.
    rewrite E. cbn [b_type Z.eqb Pos.eqb]. clear E. rewrite <- !app_assoc in A2. rewrite (v_at _ _ _ _ _ _ _ V A2). change (has (vval e) 1) with (has (vval e) (2 ^ 0)). rewrite has_pow by lia.
    eexists. reflexivity. }
  destruct G as [s G]. rewrite G. reflexivity.
Qed.

Lemma says5_blocks l no nw m fs : says5 l no nw m fs -> Forall block5_ok l -> forall f c p r, zlen c < 2 ^ 62 -> at_ c p (flat_map write5 l ++ r) ->
  exists q, blocks step5 (length l + f) v_empty c p = blocks step5 f (VInfo no nw false m fs) c q /\ at_ c q r.
Proof.
  induction 1 as [|h a n rest extra data l no nw m fs H IH|h g xs data rr l no nw m fs H IH Hf|h body extra data l no nw m fs H IH]; intros F f c p r C A.
  - exists p. split; [reflexivity|exact A].
  - apply Forall_app in F as [F F1]. apply Forall_cons_iff in F1 as [K _]. rewrite flat_map_app in A. cbn [flat_map] in A. rewrite app_nil_r, <- app_assoc in A.
    destruct (IH F (S f) c p _ C A) as (q & E & A2). rewrite app_length, <- Nat.add_assoc. cbn [length Nat.add]. rewrite E.
    cbn [write5] in A2. destruct (main5_step f (VInfo no nw false m fs) c q h a n rest extra data r A2 C K) as (q2 & E2 & A3). rewrite E2. exists q2. split; [reflexivity|exact A3].
  - apply Forall_app in F as [F F1]. apply Forall_cons_iff in F1 as [K _]. rewrite flat_map_app in A. cbn [flat_map] in A. rewrite app_nil_r, <- app_assoc in A.
    destruct (IH F (S f) c p _ C A) as (q & E & A2). rewrite app_length, <- Nat.add_assoc. cbn [length Nat.add]. rewrite E.
    cbn [write5] in A2. destruct (file5_step f (VInfo no nw false m fs) c q h g xs data r rr A2 C K Hf) as (q2 & E2 & A3). rewrite E2. exists q2. split; [reflexivity|exact A3].
  - apply Forall_app in F as [F F1]. apply Forall_cons_iff in F1 as [K _]. rewrite flat_map_app in A. cbn [flat_map] in A. rewrite app_nil_r, <- app_assoc in A.
    destruct (IH F (S f) c p _ C A) as (q & E & A2). rewrite app_length, <- Nat.add_assoc. cbn [length Nat.add]. rewrite E.
    cbn [write5] in A2. destruct (other5_step f (VInfo no nw false m fs) c q h body extra data r A2 C K) as (q2 & E2 & A3). rewrite E2. exists q2. split; [reflexivity|exact A3].
Qed.

Lemma read5 l no nw m fs h e rest extra junk f :
  says5 l no nw m fs -> Forall block5_ok l -> end5_ok h e rest extra -> zlen (flat_map write5 l) + zlen junk < 2 ^ 61 -> (length l + 1 <= f)%nat ->
  read_volume f (sig5 ++ flat_map write5 l ++ end5 h e rest extra ++ junk) = Ok (5, VInfo no nw (bit (vval e) 0) m fs).
Proof.
  intros H F K C Hf. set (c := sig5 ++ _).
  assert (C2 : zlen c < 2 ^ 62).
  { unfold c. rewrite !zlen_app. change (zlen sig5) with 8. unfold end5, put5. rewrite !zlen_app. destruct K as ((Q1 & Q2 & _ & _ & _ & _ & Q3 & Q4 & _) & _).
    apply vint_len in Q2. change (zlen (@nil Z)) with 0. lia. }
  assert (A : at_ c 8 (flat_map write5 l ++ end5 h e rest extra ++ junk)).
  { change 8 with (0 + zlen sig5). apply (at_app c 0 sig5). split; [pose proof (zlen_pos c); lia|reflexivity]. }
  assert (D : detect c = 5) by reflexivity.
  unfold read_volume. rewrite D. change (5 =? 3) with false. change (5 =? 5) with true. cbn iota.
  replace f with (length l + S (f - 1 - length l))%nat by lia.
  destruct (says5_blocks l no nw m fs H F (S (f - 1 - length l)) c 8 _ C2 A) as (q2 & E' & A2). rewrite E'.
  rewrite (end5_step _ _ _ _ _ _ _ _ _ A2 K). reflexivity.
Qed.
