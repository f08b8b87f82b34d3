(** Proofs about the reading of rar-volumes of version 3. *)
From Coq Require Import String.
From Verif Require Import Base RarModel RarSpec RarProofs.
Open Scope list_scope. Open Scope Z_scope.

Definition pre3 (flags : Z) : Z := if bit flags 15 then 11 else 7.
Definition low3 (flags : Z) (data : list Z) : Z := if bit flags 15 then zlen data mod 2 ^ 32 else 0.

Lemma block3_at c p x crc type flags body data r B (k : blk -> rdr B) :
  at_ c p (head3 crc type flags body data ++ r) -> size_ok flags body data ->
  bind read3_block k c (p, x mod u64) = k (Blk type flags (low3 flags data)) c (p + pre3 flags, (zlen body + low3 flags data) mod u64) /\
  at_ c (p + pre3 flags) (body ++ r).
Proof.
  intros A (F & S1 & S2 & S3 & D). unfold pre3, low3, head3 in *. pose proof (zlen_pos body) as Pb. pose proof (zlen_pos data) as Pd.
  destruct (bit flags 15) eqn:B15.
  - replace ((bytes_of 2 crc ++ [type] ++ bytes_of 2 flags ++ (bytes_of 2 (11 + zlen body) ++ bytes_of 4 (zlen data)) ++ body) ++ r)
      with ((bytes_of 2 crc ++ [type] ++ bytes_of 2 flags ++ bytes_of 2 (11 + zlen body)) ++ (bytes_of 4 (zlen data) ++ (body ++ r))) in A
      by (rewrite <- !app_assoc; reflexivity).
    assert (A2 : at_ c (p + 7) (bytes_of 4 (zlen data) ++ (body ++ r))) by exact (at_app _ _ _ _ A).
    assert (A3 : at_ c (p + 7 + 4) (body ++ r)) by exact (at_app _ _ _ _ A2).
    split; [|replace (p + 11) with (p + 7 + 4) by lia; exact A3].
    unfold read3_block. rewrite bind_bind. rewrite (read_at _ _ _ _ _ 7 _ _ A eq_refl).
    change (nth 2 (bytes_of 2 crc ++ [type] ++ bytes_of 2 flags ++ bytes_of 2 (11 + zlen body)) 0) with type.
    change (firstn 2 (skipn 3 (bytes_of 2 crc ++ [type] ++ bytes_of 2 flags ++ bytes_of 2 (11 + zlen body)))) with (bytes_of 2 flags).
    change (skipn 5 (bytes_of 2 crc ++ [type] ++ bytes_of 2 flags ++ bytes_of 2 (11 + zlen body))) with (bytes_of 2 (11 + zlen body)).
    rewrite !le_bytes by lia. change (256 ^ Z.of_nat 2) with (2 ^ 16). rewrite !Z.mod_small by lia.
    change 32768 with (2 ^ 15). rewrite has_pow by lia. rewrite B15. rewrite bind_bind.
    change 4 with (Z.of_nat 4). rewrite (num_at _ _ _ _ _ _ _ _ A2) by lia. rewrite bind_bind, set_at, bind_ret.
    change (256 ^ Z.of_nat 4) with (2 ^ 32). change (Z.of_nat 4) with 4.
    rewrite (Z.mod_small (11 + zlen body + zlen data mod 2 ^ 32)) by (pose proof (Z.mod_pos_bound (zlen data) (2 ^ 32)); lia).
    replace (11 + zlen body + zlen data mod 2 ^ 32 - 7 - 4) with (zlen body + zlen data mod 2 ^ 32) by lia.
    replace (p + 7 + 4) with (p + 11) by lia. reflexivity.
  - replace ((bytes_of 2 crc ++ [type] ++ bytes_of 2 flags ++ bytes_of 2 (7 + zlen body) ++ body) ++ r)
      with ((bytes_of 2 crc ++ [type] ++ bytes_of 2 flags ++ bytes_of 2 (7 + zlen body)) ++ (body ++ r)) in A
      by (rewrite <- !app_assoc; reflexivity).
    assert (A2 : at_ c (p + 7) (body ++ r)) by exact (at_app _ _ _ _ A).
    split; [|exact A2].
    unfold read3_block. rewrite bind_bind. rewrite (read_at _ _ _ _ _ 7 _ _ A eq_refl).
    change (nth 2 (bytes_of 2 crc ++ [type] ++ bytes_of 2 flags ++ bytes_of 2 (7 + zlen body)) 0) with type.
    change (firstn 2 (skipn 3 (bytes_of 2 crc ++ [type] ++ bytes_of 2 flags ++ bytes_of 2 (7 + zlen body)))) with (bytes_of 2 flags).
    change (skipn 5 (bytes_of 2 crc ++ [type] ++ bytes_of 2 flags ++ bytes_of 2 (7 + zlen body))) with (bytes_of 2 (7 + zlen body)).
    rewrite !le_bytes by lia. change (256 ^ Z.of_nat 2) with (2 ^ 16). rewrite !Z.mod_small by lia.
    change 32768 with (2 ^ 15). rewrite has_pow by lia. rewrite B15. rewrite bind_bind, set_at, bind_ret.
    replace (7 + zlen body - 7) with (zlen body) by lia. rewrite Z.add_0_r. reflexivity.
Qed.

Lemma num4_at c p x v r B (k : Z -> rdr B) : at_ c p (bytes_of 4 v ++ r) -> 0 <= v ->
  bind (read_num 4) k c (p, x mod u64) = k (v mod 2 ^ 32) c (p + 4, (x - 4) mod u64).
Proof. exact (num_at c p x 4 v r B k). Qed.
Lemma num2_at c p x v r B (k : Z -> rdr B) : at_ c p (bytes_of 2 v ++ r) -> 0 <= v ->
  bind (read_num 2) k c (p, x mod u64) = k (v mod 2 ^ 16) c (p + 2, (x - 2) mod u64).
Proof. exact (num_at c p x 2 v r B k). Qed.

Lemma file3_at c p flags f data r B (k : rfile -> rdr B) add rr :
  at_ c p (body3 flags f data ++ r) -> block3_ok (BFile 0 flags f data) -> says_file3 flags f rr ->
  exists q rest, bind (read3_file (Blk 116 flags add)) k c (p, (zlen (body3 flags f data) + (zlen data mod 2 ^ 32)) mod u64) =
    k rr c (q, (zlen rest + zlen data) mod u64) /\ at_ c q (rest ++ r).
Proof.
  intros A (SO & Hs & Ht & Ha & Hc & Hm & Hn & H8) (T & E1 & E2 & E3 & E4 & E5).
  destruct SO as (_ & So & _ & Sd & _). pose proof (zlen_pos (f3_name f)) as Pn. pose proof (zlen_pos data) as Pd.
  assert (Hl : zlen (f3_name f) < 2 ^ 16) by lia. clear So.
  unfold body3 in A. rewrite <- !app_assoc in A. remember (zlen (body3 flags f data) + zlen data mod 2 ^ 32) as x eqn:Ex.
  assert (Eb : zlen (body3 flags f data) = 21 + (if bit flags 8 then 8 else 0) + zlen (f3_name f) + zlen (f3_rest f)).
  { unfold body3. rewrite !zlen_app, !bytes_len, Hc, Hm. change (zlen [f3_os f]) with 1. destruct (bit flags 8); rewrite ?zlen_app, ?bytes_len, ?zlen_nil; lia. }
  unfold read3_file. rewrite bind_bind. rewrite (num4_at _ _ _ _ _ _ _ A) by lia. apply at_app in A. rewrite bytes_len in A. change (Z.of_nat 4) with 4 in A.
  rewrite bind_bind. rewrite (skip_at _ _ _ 1 _ _ _ _ A) by (reflexivity || lia). apply at_app in A. change (zlen [f3_os f]) with 1 in A.
  rewrite bind_bind. rewrite (skip_at _ _ _ 4 _ _ _ _ A) by (assumption || lia). apply at_app in A. rewrite Hc in A.
  rewrite bind_bind. rewrite (num4_at _ _ _ _ _ _ _ A) by lia. apply at_app in A. rewrite bytes_len in A. change (Z.of_nat 4) with 4 in A.
  rewrite bind_bind. rewrite (skip_at _ _ _ 2 _ _ _ _ A) by (assumption || lia). apply at_app in A. rewrite Hm in A.
  rewrite bind_bind. rewrite (num2_at _ _ _ _ _ _ _ A) by lia. apply at_app in A. rewrite bytes_len in A. change (Z.of_nat 2) with 2 in A.
  rewrite bind_bind. rewrite (num4_at _ _ _ _ _ _ _ A) by lia. apply at_app in A. rewrite bytes_len in A. change (Z.of_nat 4) with 4 in A.
  rewrite bind_bind. cbn [b_flags]. change (has flags 256) with (has flags (2 ^ 8)). change (has flags 1) with (has flags (2 ^ 0)). change (has flags 2) with (has flags (2 ^ 1)). rewrite !has_pow by lia.
  rewrite !(Z.mod_small (f3_time f)), !(Z.mod_small (f3_attr f)), !(Z.mod_small (zlen (f3_name f))) by lia.
  destruct rr as [rn rt ra rs rb raf]. cbn [rf_name rf_time rf_attr rf_size rf_before rf_after] in *. subst rt ra rs rb raf. apply upto0_text in T.
  destruct (bit flags 8) eqn:B8.
  - rewrite <- !app_assoc in A. rewrite bind_bind. rewrite (num4_at _ _ _ _ _ _ _ A) by (apply Z.div_pos; lia). apply at_app in A. rewrite bytes_len in A. change (Z.of_nat 4) with 4 in A.
    rewrite bind_bind, get_at, bind_bind, set_at, bind_bind. rewrite Zplus_mod_idemp_l.
    rewrite (num4_at _ _ _ _ _ _ _ A) by (apply Z.div_pos; lia). apply at_app in A. rewrite bytes_len in A. change (Z.of_nat 4) with 4 in A.
    rewrite bind_ret. replace (8192 <? zlen (f3_name f)) with false by lia. rewrite bind_bind. rewrite (read_at _ _ _ _ _ _ _ _ A eq_refl). apply at_app in A. rewrite bind_ret, T.
    eexists _, (f3_rest f). split; [|exact A].
    rewrite !Z.shiftl_mul_pow2 by lia.
    replace (s64 (f3_size f mod 2 ^ 32 + f3_size f / 2 ^ 32 mod 2 ^ 32 * 2 ^ 32)) with (f3_size f).
    2:{ rewrite (Z.mod_small (f3_size f / 2 ^ 32)) by (clear -Hs; lia). replace (f3_size f mod 2 ^ 32 + f3_size f / 2 ^ 32 * 2 ^ 32) with (f3_size f) by (clear; lia).
        unfold s64. replace (f3_size f <? 2 ^ 63) with true by lia. reflexivity. }
    match goal with |- k _ c (_, ?a mod u64) = k _ c (_, ?b mod u64) => replace a with b; [reflexivity|] end.
    rewrite Ex, Eb. clear -Sd Pd. rewrite (Z.mod_small (zlen data / 2 ^ 32)) by lia. lia.
  - rewrite bind_ret. cbn [app] in A. replace (8192 <? zlen (f3_name f)) with false by lia. rewrite bind_bind. rewrite (read_at _ _ _ _ _ _ _ _ A eq_refl). apply at_app in A. rewrite bind_ret, T.
    eexists _, (f3_rest f). split; [|exact A]. destruct (H8 eq_refl) as [Q1 Q2].
    rewrite (Z.mod_small (f3_size f)) by lia. unfold s64. replace (f3_size f <? 2 ^ 63) with true by lia.
    match goal with |- k _ c (_, ?a mod u64) = k _ c (_, ?b mod u64) => replace a with b; [reflexivity|] end.
    rewrite Ex, Eb, Z.mod_small by lia. lia.
Qed.

Lemma go_on step f v v' c p q t l r : step v c (p, 0 mod u64) = Ok ((v', false), (q, t mod u64)) -> at_ c q (l ++ r) -> zlen l = t -> zlen c < 2 ^ 62 ->
  exists q', blocks step (S f) v c p = blocks step f v' c q' /\ at_ c q' r.
Proof.
  intros E A L C. destruct (seek_at _ _ _ _ _ A L C) as [K A']. exists (q + t). split; [|exact A'].
  cbn [blocks]. change (p, 0) with (p, 0 mod u64). rewrite E, K. reflexivity.
Qed.

Lemma other3_step f v c p crc type flags body data r : at_ c p (head3 crc type flags body data ++ data ++ r) -> zlen c < 2 ^ 62 ->
  size_ok flags body data -> 114 <= type < 123 -> type <> 115 -> type <> 116 -> (bit flags 15 = true -> zlen data < 2 ^ 32) ->
  exists q, blocks step3 (S f) v c p = blocks step3 f v c q /\ at_ c q r.
Proof.
  intros A C S0 T1 T2 T3 D. destruct (block3_at c p 0 crc type flags body data (data ++ r) _ 
    (fun b => let t := b_type b in ret (v, false)) A S0) as [_ A2].
  eapply go_on; [|rewrite app_assoc in A2; exact A2|reflexivity|exact C].
  unfold step3. pose proof S0 as (F & S1 & S2 & S3 & S4). pose proof (zlen_pos data).
  erewrite (proj1 (block3_at c p 0 crc type flags body data (data ++ r) _ _ A S0)). cbn [b_type].
  replace (type =? 0) with false by lia. replace (type =? 115) with false by lia. replace (type =? 116) with false by lia.
  replace (type =? 123) with false by lia. replace ((type <? 114) || (123 <? type)) with false by lia. unfold ret. rewrite zlen_app. unfold low3.
  destruct (bit flags 15) eqn:B; [rewrite (Z.mod_small (zlen data)) by (specialize (D eq_refl); lia); reflexivity|].
  rewrite (S4 eq_refl). reflexivity.
Qed.

Lemma main3_step f v c p crc flags body r : at_ c p (head3 crc 115 flags body [] ++ r) -> zlen c < 2 ^ 62 ->
  block3_ok (BMain crc flags body) ->
  exists q, blocks step3 (S f) v c p = blocks step3 f (VInfo (vi_no v) (bit flags 4) (vi_has v) (bit flags 0) (vi_files v)) c q /\ at_ c q r.
Proof.
  intros A C (S0 & B7 & B15). destruct (block3_at c p 0 crc 115 flags body [] r _ 
    (fun b => let t := b_type b in ret (v, false)) A S0) as [_ A2].
  eapply go_on; [|exact A2|reflexivity|exact C].
  unfold step3. erewrite (proj1 (block3_at c p 0 crc 115 flags body [] r _ _ A S0)). cbn [b_type b_flags].
  change (has flags 128) with (has flags (2 ^ 7)). change (has flags 16) with (has flags (2 ^ 4)). change (has flags 1) with (has flags (2 ^ 0)). rewrite !has_pow by lia.
  rewrite B7. cbn [Z.eqb Pos.eqb]. unfold ret, low3. rewrite B15, Z.add_0_r. reflexivity.
Qed.

Lemma file3_step f v c p crc flags g data r rr : at_ c p (head3 crc 116 flags (body3 flags g data) data ++ data ++ r) -> zlen c < 2 ^ 62 ->
  block3_ok (BFile crc flags g data) -> says_file3 flags g rr ->
  exists q, blocks step3 (S f) v c p = blocks step3 f (VInfo (vi_no v) (vi_new v) (vi_has v) (vi_multi v) (vi_files v ++ [rr])) c q /\ at_ c q r.
Proof.
  intros A C K Hs. pose proof K as (S0 & _).
  destruct (block3_at c p 0 crc 116 flags (body3 flags g data) data (data ++ r) _ (fun b => let t := b_type b in ret (v, false)) A S0) as [_ A2].
  set (kk := fun f0 : rfile => ret (VInfo (vi_no v) (vi_new v) (vi_has v) (vi_multi v) (vi_files v ++ [f0]), false)).
  destruct (file3_at c _ flags g data (data ++ r) _ kk (low3 flags data) rr A2 K Hs) as (q & rest & E & A3).
  eapply go_on; [|rewrite app_assoc in A3; exact A3|reflexivity|exact C].
  unfold step3. erewrite (proj1 (block3_at c p 0 crc 116 flags (body3 flags g data) data (data ++ r) _ _ A S0)). cbn [b_type b_flags]. cbn [Z.eqb Pos.eqb].
  fold kk. replace (low3 flags data) with (zlen data mod 2 ^ 32) at 2.
  - rewrite E, zlen_app. reflexivity.
  - unfold low3. destruct (bit flags 15) eqn:B; [reflexivity|]. destruct S0 as (_ & _ & _ & _ & D). rewrite (D B). reflexivity.
Qed.

Lemma says3_blocks l n m fs : says3 l n m fs -> Forall block3_ok l -> forall f c p r, zlen c < 2 ^ 62 -> at_ c p (flat_map write3 l ++ r) ->
  exists q, blocks step3 (length l + f) v_empty c p = blocks step3 f (VInfo 0 n false m fs) c q /\ at_ c q r.
Proof.
  induction 1 as [|crc flags body l n m fs H IH|crc flags g data rr l n m fs H IH Hf|crc type flags body data l n m fs H IH]; intros F f c p r C A.
  - exists p. split; [reflexivity|exact A].
  - apply Forall_app in F as [F F1]. inversion F1 as [|? ? K _]; subst. rewrite flat_map_app in A. cbn [flat_map] in A. rewrite app_nil_r, <- app_assoc in A.
    destruct (IH F (S f) c p _ C A) as (q & E & A2). rewrite app_length, <- Nat.add_assoc. cbn [length Nat.add]. rewrite E.
    cbn [write3] in A2. destruct (main3_step f (VInfo 0 n false m fs) c q crc flags body r A2 C K) as (q2 & E2 & A3). rewrite E2. exists q2. split; [reflexivity|exact A3].
  - apply Forall_app in F as [F F1]. inversion F1 as [|? ? K _]; subst. rewrite flat_map_app in A. cbn [flat_map] in A. rewrite app_nil_r, <- app_assoc in A.
    destruct (IH F (S f) c p _ C A) as (q & E & A2). rewrite app_length, <- Nat.add_assoc. cbn [length Nat.add]. rewrite E.
    cbn [write3] in A2. rewrite <- app_assoc in A2. destruct (file3_step f (VInfo 0 n false m fs) c q crc flags g data r rr A2 C K Hf) as (q2 & E2 & A3). rewrite E2. exists q2. split; [reflexivity|exact A3].
  - apply Forall_app in F as [F F1]. inversion F1 as [|? ? K _]; subst. rewrite flat_map_app in A. cbn [flat_map] in A. rewrite app_nil_r, <- app_assoc in A.
    destruct (IH F (S f) c p _ C A) as (q & E & A2). rewrite app_length, <- Nat.add_assoc. cbn [length Nat.add]. rewrite E.
    cbn [write3] in A2. rewrite <- app_assoc in A2. destruct K as (K1 & K2 & K3 & K4 & K5).
    destruct (other3_step f (VInfo 0 n false m fs) c q crc type flags body data r A2 C K1 K2 K3 K4 K5) as (q2 & E2 & A3). rewrite E2. exists q2. split; [reflexivity|exact A3].
Qed.

Lemma end3_step f v c p crc flags sum no rest r : at_ c p (end3 crc flags sum no rest ++ r) ->
  size_ok flags ((if bit flags 1 then sum else []) ++ (if bit flags 3 then bytes_of 4 no else []) ++ rest) [] ->
  (bit flags 1 = true -> zlen sum = 4) -> 0 <= no < 2 ^ 32 ->
  blocks step3 (S f) v c p = Ok (if bit flags 3 then VInfo no (vi_new v) (bit flags 0) (vi_multi v) (vi_files v) else v).
Proof.
  intros A S0 Hs Hn. unfold end3 in A. cbn [blocks]. change (p, 0) with (p, 0 mod u64). unfold step3.
  destruct (block3_at c p 0 crc 123 flags _ [] r _ (fun b => let t := b_type b in ret (v, false)) A S0) as [_ A2].
  erewrite (proj1 (block3_at c p 0 crc 123 flags _ [] r _ _ A S0)). cbn [b_type b_flags]. cbn [Z.eqb Pos.eqb].
  change (has flags 2) with (has flags (2 ^ 1)). change (has flags 8) with (has flags (2 ^ 3)). change (has flags 1) with (has flags (2 ^ 0)). rewrite !has_pow by lia.
  rewrite <- !app_assoc in A2. destruct (bit flags 1) eqn:B1.
  - rewrite (skip_at _ _ _ 4 _ _ _ _ A2) by (auto; lia). apply at_app in A2. rewrite Hs in A2 by reflexivity.
    destruct (bit flags 3) eqn:B3; [|reflexivity]. rewrite (num4_at _ _ _ _ _ _ _ A2) by lia. rewrite Z.mod_small by lia. reflexivity.
  - rewrite bind_ret. destruct (bit flags 3) eqn:B3; [|reflexivity]. rewrite (num4_at _ _ _ _ _ _ _ A2) by lia. rewrite Z.mod_small by lia. reflexivity.
Qed.

Lemma read3 l n m fs crc flags sum no rest junk f :
  says3 l n m fs -> Forall block3_ok l -> end3_ok flags sum rest no -> zlen (flat_map write3 l) + zlen junk < 2 ^ 61 -> (length l + 2 <= f)%nat ->
  read_volume f (sig3 ++ flat_map write3 l ++ end3 crc flags sum no rest ++ junk) =
  Ok (3, if bit flags 3 then VInfo no n (bit flags 0) m fs else VInfo 0 n false m fs).
Proof.
  intros H F (E1 & E2 & E3) C Hf. set (c := sig3 ++ _).
  assert (El : zlen (end3 crc flags sum no rest) < 2 ^ 32).
  { destruct E1 as (_ & E1 & _). unfold end3, head3. rewrite !zlen_app, !bytes_len. rewrite !zlen_app in E1. destruct (bit flags 15); rewrite ?zlen_app, ?bytes_len; change (zlen [123]) with 1; lia. }
  assert (C2 : zlen c < 2 ^ 62). { unfold c. rewrite !zlen_app. change (zlen sig3) with 7. lia. }
  assert (A : at_ c 0 c). { split; [pose proof (zlen_pos c); lia|reflexivity]. }
  assert (D : detect c = 3).
  { unfold detect. assert (L : 7 < zlen c). { unfold c. rewrite !zlen_app. change (zlen sig3) with 7. assert (7 <= zlen (end3 crc flags sum no rest)). { unfold end3, head3. rewrite !zlen_app, !bytes_len. destruct (bit flags 15); rewrite ?zlen_app, ?bytes_len; pose proof (zlen_pos (if bit flags 1 then sum else [])); pose proof (zlen_pos (if bit flags 3 then bytes_of 4 no else [])); pose proof (zlen_pos rest); change (zlen [123]) with 1; lia. }
      pose proof (zlen_pos (flat_map write3 l)). pose proof (zlen_pos junk). lia. }
    destruct c as [|x0 [|x1 [|x2 [|x3 [|x4 [|x5 [|x6 [|x7 c']]]]]]]] eqn:Ec; cbn in L; try lia.
    unfold c, sig3 in Ec. cbn [app] in Ec. injection Ec as <- <- <- <- <- <- <- Ec.
    cbn [firstn]. change (zlen [82; 97; 114; 33; 26; 7; 0; x7]) with 8. cbn [Z.eqb Pos.eqb negb beqb andb]. reflexivity. }
  unfold read_volume. rewrite D. change (3 =? 3) with true. cbn iota.
  replace f with (S (length l + S (f - 2 - length l)))%nat by lia.
  assert (A0 : at_ c 0 (head3 24914 114 6689 [] [] ++ [] ++ (flat_map write3 l ++ end3 crc flags sum no rest ++ junk))) by exact A.
  assert (Z0 : size_ok 6689 [] []).
  { split; [lia|]. split; [cbn; lia|]. split; [cbn; lia|]. split; [cbn; lia|reflexivity]. }
  destruct (other3_step (length l + S (f - 2 - length l)) v_empty c 0 24914 114 6689 [] [] (flat_map write3 l ++ end3 crc flags sum no rest ++ junk) A0 C2 Z0) as (q & E & A1); try lia.
  { intros B. vm_compute in B. discriminate. }
  rewrite E. destruct (says3_blocks l n m fs H F (S (f - 2 - length l)) c q _ C2 A1) as (q2 & E' & A2). rewrite E'.
  rewrite (end3_step _ _ _ _ _ _ _ _ _ _ A2 E1 E2 E3). destruct (bit flags 3); reflexivity.
Qed.
