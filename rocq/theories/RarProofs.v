(** Proofs about the reading of rar-volumes: readers on given bytes. *)
From Coq Require Import String.
From Verif Require Import Base RarModel RarSpec.
Open Scope list_scope. Open Scope Z_scope.

Lemma zlen_app {A} (a b : list A) : zlen (a ++ b) = zlen a + zlen b.
Proof. unfold zlen. rewrite app_length. lia. Qed.
Lemma zlen_cons {A} (x : A) (b : list A) : zlen (x :: b) = 1 + zlen b.
Proof. unfold zlen. cbn [length]. lia. Qed.
Lemma zlen_nil {A} : zlen (@nil A) = 0.
Proof. reflexivity. Qed.
Lemma zlen_pos {A} (a : list A) : 0 <= zlen a.
Proof. unfold zlen. lia. Qed.

Definition at_ (c : list Z) (p : Z) (r : list Z) : Prop := 0 <= p <= zlen c /\ skipn (Z.to_nat p) c = r.

Lemma at_len c p r : at_ c p r -> zlen r = zlen c - p.
Proof. intros [H <-]. unfold zlen in *. rewrite skipn_length. lia. Qed.
Lemma at_app c p f r : at_ c p (f ++ r) -> at_ c (p + zlen f) r.
Proof.
  intros A. pose proof (at_len _ _ _ A) as L. rewrite zlen_app in L. destruct A as [H E]. pose proof (zlen_pos f). pose proof (zlen_pos r). split; [lia|].
  replace (Z.to_nat (p + zlen f)) with (length f + Z.to_nat p)%nat by (unfold zlen in *; lia).
  replace (skipn (length f + Z.to_nat p) c) with (skipn (length f) (skipn (Z.to_nat p) c)).
  - rewrite E. rewrite skipn_app, skipn_all, Nat.sub_diag. reflexivity.
  - clear. revert c. induction (Z.to_nat p) as [|n IH]; intros c; [rewrite Nat.add_0_r; reflexivity|].
    destruct c as [|x c]; [destruct (length f); cbn [skipn]; destruct (length f + S n)%nat; reflexivity|].
    rewrite Nat.add_succ_r. cbn [skipn]. apply IH.
Qed.

Lemma sub_mod x n : (x mod u64 - n) mod u64 = (x - n) mod u64.
Proof. rewrite Zminus_mod_idemp_l. reflexivity. Qed.

Lemma read_at c p x f r n B (k : list Z -> rdr B) : at_ c p (f ++ r) -> zlen f = n ->
  bind (read n) k c (p, x mod u64) = k f c (p + n, (x - n) mod u64).
Proof.
  intros A <-. pose proof (at_len _ _ _ A) as L. rewrite zlen_app in L. pose proof (zlen_pos r). unfold bind, read.
  replace (p + zlen f <=? zlen c) with true by lia. destruct A as [_ E]. rewrite E, sub_mod.
  replace (Z.to_nat (zlen f)) with (length f) by (unfold zlen; lia). rewrite firstn_app, firstn_all, Nat.sub_diag. cbn [firstn]. rewrite app_nil_r. reflexivity.
Qed.

Lemma le_bytes n x : 0 <= x -> le (bytes_of n x) = x mod 256 ^ Z.of_nat n.
Proof.
  revert x. induction n as [|n IH]; intros x H; [rewrite Z.mod_1_r; reflexivity|].
  cbn [bytes_of le]. rewrite IH by (apply Z.div_pos; lia).
  replace (256 ^ Z.of_nat (S n)) with (256 * 256 ^ Z.of_nat n) by (rewrite Nat2Z.inj_succ, Z.pow_succ_r; lia).
  rewrite Z.rem_mul_r; [lia|lia|]. apply Z.pow_pos_nonneg; lia.
Qed.
Lemma bytes_len n x : zlen (bytes_of n x) = Z.of_nat n.
Proof. revert x. induction n as [|n IH]; intros x; [reflexivity|]. cbn [bytes_of]. rewrite zlen_cons, IH. lia. Qed.

Lemma num_at c p x n v r B (k : Z -> rdr B) : at_ c p (bytes_of n v ++ r) -> 0 <= v ->
  bind (read_num (Z.of_nat n)) k c (p, x mod u64) = k (v mod 256 ^ Z.of_nat n) c (p + Z.of_nat n, (x - Z.of_nat n) mod u64).
Proof.
  intros A H. unfold bind at 1. unfold read_num. rewrite (read_at c p x (bytes_of n v) r) by (auto using bytes_len).
  unfold ret. rewrite le_bytes by exact H. reflexivity.
Qed.

Lemma skip_at c p x n f r B (k : list Z -> rdr B) : at_ c p (f ++ r) -> zlen f = n -> 0 < n < 2 ^ 63 ->
  bind (skip n) k c (p, x mod u64) = k f c (p + n, (x - n) mod u64).
Proof.
  intros A L H. unfold skip, s64. replace (n <? 2 ^ 63) with true by lia. replace (0 <? n) with true by lia. apply (read_at _ _ _ _ r); assumption.
Qed.

Lemma has_pow x n : 0 <= n -> has x (2 ^ n) = bit x n.
Proof.
  intros H. unfold has, bit. destruct (Z.testbit x n) eqn:E.
  - apply negb_true_iff, Z.eqb_neq. intros F. assert (G : Z.testbit (Z.land x (2 ^ n)) n = false) by (rewrite F; apply Z.bits_0).
    rewrite Z.land_spec, E, Z.pow2_bits_true in G by lia. discriminate.
  - apply negb_false_iff, Z.eqb_eq. apply Z.bits_inj'. intros m Hm. rewrite Z.land_spec, Z.bits_0.
    destruct (Z.eq_dec n m) as [<-|D]; [rewrite E; reflexivity|]. rewrite Z.pow2_bits_false by lia. apply andb_false_r.
Qed.

Lemma land127 b : Z.land b 127 = b mod 128.
Proof. change 127 with (Z.ones 7). rewrite Z.land_ones by lia. reflexivity. Qed.
Lemma has128 b : 0 <= b < 256 -> has b 128 = (128 <=? b).
Proof.
  intros H. apply eq_true_iff_eq. 
  assert (X : forallb (fun b => Bool.eqb (has b 128) (128 <=? b)) all_bytes = true) by (vm_compute; reflexivity).
  pose proof (byte_sweep _ X b H) as E. apply Bool.eqb_prop in E. rewrite E. tauto.
Qed.

Lemma vval_pos l : 0 <= vval l.
Proof. induction l as [|b l IH]; [cbn [vval]; lia|]. cbn [vval]. pose proof (Z.mod_pos_bound b 128). lia. Qed.

Lemma vgo_at i : forall fuel z c p x r bits acc B (k : Z -> rdr B),
  Forall (fun b => 128 <= b < 256) i -> 0 <= z < 128 -> (length i < fuel)%nat -> at_ c p ((i ++ [z]) ++ r) -> 0 <= bits ->
  bind (read_v_go fuel bits acc) k c (p, x mod u64) =
  k ((acc + vval (i ++ [z]) * 2 ^ bits) mod u64) c (p + zlen (i ++ [z]), (x - zlen (i ++ [z])) mod u64).
Proof.
  induction i as [|b i IH]; intros fuel z c p x r bits acc B k F Hz Hf A Hb; (destruct fuel as [|fuel]; [cbn [length] in Hf; lia|]).
  - unfold bind at 1. cbn [read_v_go]. rewrite (read_at c p x [z] r) by (auto; reflexivity). cbn [nth]. rewrite has128 by lia.
    replace (128 <=? z) with false by lia. unfold ret. rewrite land127, Z.shiftl_mul_pow2 by lia. cbn [app vval]. change (zlen [z]) with 1.
    replace (z mod 128 + 128 * 0) with (z mod 128) by lia. reflexivity.
  - inversion F as [|b' l' Fb F']; subst. unfold bind at 1. cbn [read_v_go]. rewrite (read_at c p x [b] ((i ++ [z]) ++ r)) by (auto; reflexivity). cbn [nth]. rewrite has128 by lia.
    replace (128 <=? b) with true by lia.
    match goal with |- context [match ?m ?c0 ?s0 with _ => _ end] => change (bind m k c0 s0 = k ((acc + vval ((b :: i) ++ [z]) * 2 ^ bits) mod u64) c (p + zlen ((b :: i) ++ [z]), (x - zlen ((b :: i) ++ [z])) mod u64)) end.
    rewrite (IH fuel z c (p + 1) (x - 1) r); auto; [|cbn [length] in Hf; lia| |lia].
    2:{ change (([b]) ++ ((i ++ [z]) ++ r)) with ((b :: i ++ [z]) ++ r) in *. exact (at_app c p [b] _ A). }
    cbn [app]. rewrite zlen_cons. cbn [vval]. rewrite land127, Z.shiftl_mul_pow2 by lia.
    rewrite Zplus_mod_idemp_l. rewrite Z.pow_add_r by lia.
    replace (acc + b mod 128 * 2 ^ bits + vval (i ++ [z]) * (2 ^ bits * 2 ^ 7)) with (acc + (b mod 128 + 128 * vval (i ++ [z])) * 2 ^ bits) by ring.
    replace (p + (1 + zlen (i ++ [z]))) with (p + 1 + zlen (i ++ [z])) by lia. replace (x - (1 + zlen (i ++ [z]))) with (x - 1 - zlen (i ++ [z])) by lia. reflexivity.
Qed.

Lemma v_at l c p x r B (k : Z -> rdr B) : is_vint l -> at_ c p (l ++ r) ->
  bind read_v k c (p, x mod u64) = k (vval l) c (p + zlen l, (x - zlen l) mod u64).
Proof.
  intros (i & z & -> & F & Hz & L & V) A. unfold read_v. rewrite (vgo_at i 10 z c p x r); auto; try lia.
  - rewrite Z.pow_0_r, Z.mul_1_r, Z.add_0_l, Z.mod_small; [reflexivity|]. pose proof (vval_pos (i ++ [z])). unfold u64. lia.
  - rewrite zlen_app in L. cbn in L. unfold zlen in L. lia.
Qed.

Lemma upto0_text n t : text_of n t -> upto0 n = t.
Proof.
  intros [N H]. revert n H. induction t as [|c t IH]; intros n H.
  - destruct H as [->|[r ->]]; reflexivity.
  - assert (c <> 0) by (intros ->; apply N; left; reflexivity).
    destruct H as [->|[r ->]]; cbn [upto0 app]; replace (c =? 0) with false by lia; f_equal; apply IH; eauto; intros I; apply N; right; exact I.
Qed.

Lemma set_at {B} t (k : unit -> rdr B) c p x : bind (set_trail t) k c (p, x) = k tt c (p, t mod u64).
Proof. reflexivity. Qed.
Lemma get_at {B} (k : Z -> rdr B) c p x : bind get_trail k c (p, x) = k x c (p, x).
Proof. reflexivity. Qed.
Lemma bind_ret {A B} (a : A) (k : A -> rdr B) c s : bind (ret a) k c s = k a c s.
Proof. reflexivity. Qed.
Lemma bind_bind {A B C} (m : rdr A) (f : A -> rdr B) (g : B -> rdr C) c s : bind (bind m f) g c s = bind m (fun a => bind (f a) g) c s.
Proof. unfold bind. destruct (m c s) as [[a s']| | |]; reflexivity. Qed.

Lemma seek_at c p l r x : at_ c p (l ++ r) -> zlen l = x -> zlen c < 2 ^ 62 -> seek p (x mod u64) = Some (p + x) /\ at_ c (p + x) r.
Proof.
  intros A <- H. pose proof (at_len _ _ _ A) as L. rewrite zlen_app in L. pose proof (zlen_pos l). pose proof (zlen_pos r). destruct A as [P E]. split.
  - unfold seek, s64. rewrite Z.mod_small by (unfold u64; lia). replace (zlen l <? 2 ^ 63) with true by lia.
    replace ((0 <=? p + zlen l) && (p + zlen l <? 2 ^ 63)) with true by lia. reflexivity.
  - apply at_app. split; assumption.
Qed.
