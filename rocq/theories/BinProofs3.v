(** The binary remote protocol: answers are as long as announced and are read as they were written. *)
From Coq Require Import String.
From Verif Require Import Base WildModel BinModel BinSpec BinProofs BinProofs2.
Open Scope list_scope. Open Scope Z_scope.

Lemma pad4_shift a y : a mod 4 = 0 -> pad4 (a + y) = pad4 y.
Proof. intros H. unfold pad4. replace ((a + y) mod 4) with (y mod 4) by lia. reflexivity. Qed.
Lemma pad4_ok y : (y + pad4 y) mod 4 = 0.
Proof. unfold pad4. destruct (0 <? y mod 4) eqn:E1; lia. Qed.
Lemma fixed_mod e : fixed e mod 4 = 0.
Proof. unfold fixed. lia. Qed.
Lemma fixed_nonneg e : 0 <= fixed e.
Proof. unfold fixed. lia. Qed.
Definition wt (ts : list (list Z)) : Z := zlen (nul ts) + pad4 (zlen (nul ts)).
Definition W (e : entry) : Z := fixed e + wt (e_texts e).
Lemma wt_mod ts : wt ts mod 4 = 0. Proof. apply pad4_ok. Qed.
Lemma wt_nonneg ts : 0 <= wt ts.
Proof. unfold wt. pose proof (zlen_bound (nul ts)). pose proof (pad4_range (zlen (nul ts))). lia. Qed.
Lemma W_mod e : W e mod 4 = 0.
Proof. unfold W. pose proof (fixed_mod e). pose proof (wt_mod (e_texts e)). lia. Qed.
Lemma W_nonneg e : 0 <= W e.
Proof. unfold W. pose proof (fixed_nonneg e). pose proof (wt_nonneg (e_texts e)). lia. Qed.
Lemma lens_len ts pad : length (lens ts pad) = length ts.
Proof. induction ts as [|t ts IH]; [reflexivity|]. destruct ts as [|u ts]; [reflexivity|]. cbn [lens length] in *. rewrite <- IH. reflexivity. Qed.
Lemma put_0 p e : p mod 4 = 0 -> put p e = put 0 e.
Proof. intros H. unfold put. cbv zeta. replace (pad4 (p + fixed e + zlen (nul (e_texts e)))) with (pad4 (0 + fixed e + zlen (nul (e_texts e)))); [reflexivity|]. rewrite <- (pad4_shift p (0 + fixed e + _) H). f_equal. lia. Qed.
Lemma put_len e : zlen (put 0 e) = W e.
Proof.
  unfold put. cbv zeta. rewrite Z.add_0_l, (pad4_shift _ _ (fixed_mod e)). pose proof (pad4_range (zlen (nul (e_texts e)))) as P. rewrite !zlen_app, zlen_words, !app_length, lens_len.
  unfold W, wt, fixed. unfold zlen at 2. rewrite repeat_length. lia.
Qed.
Lemma put_all_flat es : forall p, p mod 4 = 0 -> put_all p es = flat_map (put 0) es.
Proof.
  induction es as [|e es IH]; intros p H; [reflexivity|]. cbn [put_all flat_map]. rewrite (put_0 p e H), put_len, IH; [reflexivity|]. pose proof (W_mod e). lia.
Qed.
Fixpoint sumW (es : list entry) : Z := match es with [] => 0 | e :: r => W e + sumW r end.
Lemma sumW_app a b : sumW (a ++ b) = sumW a + sumW b.
Proof. induction a as [|e a IH]; [reflexivity|]. cbn [sumW app]. rewrite IH. lia. Qed.
Lemma sumW_mod es : sumW es mod 4 = 0.
Proof. induction es as [|e es IH]; [reflexivity|]. cbn [sumW]. pose proof (W_mod e). lia. Qed.
Lemma sumW_nonneg es : 0 <= sumW es.
Proof. induction es as [|e es IH]; [cbn; lia|]. cbn [sumW]. pose proof (W_nonneg e). lia. Qed.
Lemma flat_len es : zlen (flat_map (put 0) es) = sumW es.
Proof. induction es as [|e es IH]; [reflexivity|]. cbn [flat_map sumW]. rewrite zlen_app, put_len, IH. reflexivity. Qed.
Lemma add_texts_ok n ts : n mod 4 = 0 -> add_texts n ts = n + wt ts.
Proof. intros H. unfold add_texts, wt. cbv zeta. rewrite (pad4_shift n _ H). lia. Qed.

Theorem size_of_ok es : zlen (put_all 0 es) = size_of es.
Proof.
  rewrite put_all_flat by reflexivity. rewrite flat_len. unfold size_of.
  assert (A : forall l n, fold_left (fun n e => n + fixed e) l n = n + fold_right (fun e x => fixed e + x) 0 l).
  { induction l as [|e l IH]; intros n; [cbn; lia|]. cbn [fold_left fold_right]. rewrite IH. lia. }
  assert (B : forall l n, n mod 4 = 0 -> fold_left (fun n e => add_texts n (e_texts e)) l n = n + fold_right (fun e x => wt (e_texts e) + x) 0 l).
  { induction l as [|e l IH]; intros n H; [cbn; lia|]. cbn [fold_left fold_right]. rewrite add_texts_ok by exact H. rewrite IH; [lia|]. pose proof (wt_mod (e_texts e)). lia. }
  assert (C1 : forall l, fold_right (fun e x => fixed e + x) 0 l mod 4 = 0). { induction l as [|e l IH]; [reflexivity|]. cbn [fold_right]. pose proof (fixed_mod e). lia. }
  rewrite A, Z.add_0_l, B by apply C1. clear A B. induction es as [|e es IH]; [reflexivity|]. cbn [sumW fold_right]. rewrite IH. unfold W. lia.
Qed.
Lemma each_ok (h : entry -> entry) l : (forall e, e_texts (h e) = e_texts e) -> forall n, n mod 4 = 0 -> fold_left (fun m e => add_texts (m + fixed (h e)) (e_texts e)) l n = n + sumW (map h l).
Proof.
  intros T. induction l as [|e l IH]; intros n H; [cbn; lia|]. cbn [fold_left map sumW]. pose proof (fixed_mod (h e)) as F. pose proof (wt_mod (e_texts e)) as G.
  rewrite add_texts_ok by lia. rewrite IH by lia. unfold W. rewrite T. lia.
Qed.
Theorem size_each_ok es : zlen (put_all 0 es) = size_each es.
Proof. rewrite put_all_flat by reflexivity. rewrite flat_len. unfold size_each. rewrite (each_ok (fun e => e) es (fun e => eq_refl) 0 eq_refl), map_id. reflexivity. Qed.
Lemma W_index k v e : W (with_index k v e) = W (with_index k 0 e).
Proof. unfold W, fixed, with_index. cbn [e_before e_texts e_after]. rewrite !app_length. reflexivity. Qed.
Lemma sumW_index k v l : sumW (map (with_index k v) l) = sumW (map (with_index k 0) l).
Proof. induction l as [|e l IH]; [reflexivity|]. cbn [map sumW]. rewrite IH, W_index. reflexivity. Qed.
Lemma sumW_indexed k f q : forall v, sumW (indexed k f v q) = fold_right (fun i x => sumW (map (with_index k 0) (f i)) + x) 0 q.
Proof. induction q as [|i q IH]; intros v; [reflexivity|]. cbn [indexed fold_right]. rewrite sumW_app, sumW_index, IH. reflexivity. Qed.
Theorem size_list_ok q : zlen (put_list q) = size_list q.
Proof.
  unfold put_list. rewrite put_all_flat by reflexivity. rewrite flat_len, !sumW_app, !sumW_indexed. unfold size_list. cbv zeta.
  assert (A : forall l n, fold_left (fun n i => n + fixed (i_entry i)) l n = n + fold_right (fun i x => fixed (i_entry i) + x) 0 l).
  { induction l as [|i l IH]; intros n; [cbn; lia|]. cbn [fold_left fold_right]. rewrite IH. lia. }
  assert (A4 : forall l, fold_right (fun i x => fixed (i_entry i) + x) 0 l mod 4 = 0). { induction l as [|i l IH]; [reflexivity|]. cbn [fold_right]. pose proof (fixed_mod (i_entry i)). lia. }
  assert (B : forall l n, n mod 4 = 0 -> fold_left (fun n i => fold_left (fun m p => add_texts (m + fixed (with_index 0 0 p)) (e_texts p)) (i_params i) (add_texts n (e_texts (i_entry i)))) l n =
    n + fold_right (fun i x => wt (e_texts (i_entry i)) + sumW (map (with_index 0 0) (i_params i)) + x) 0 l).
  { induction l as [|i l IH]; intros n H; [cbn; lia|]. cbn [fold_left fold_right]. pose proof (wt_mod (e_texts (i_entry i))) as G. pose proof (sumW_mod (map (with_index 0 0) (i_params i))) as K.
    rewrite add_texts_ok by exact H. rewrite (each_ok (with_index 0 0) (i_params i) (fun e => eq_refl)) by lia. rewrite IH by lia. lia. }
  assert (B4 : forall l, fold_right (fun i x => wt (e_texts (i_entry i)) + sumW (map (with_index 0 0) (i_params i)) + x) 0 l mod 4 = 0).
  { induction l as [|i l IH]; [reflexivity|]. cbn [fold_right]. pose proof (wt_mod (e_texts (i_entry i))). pose proof (sumW_mod (map (with_index 0 0) (i_params i))). lia. }
  assert (C1 : forall l n, n mod 4 = 0 -> fold_left (fun n i => fold_left (fun m f => add_texts (m + fixed (with_index 1 0 f)) (e_texts f)) (i_files i) n) l n =
    n + fold_right (fun i x => sumW (map (with_index 1 0) (i_files i)) + x) 0 l).
  { induction l as [|i l IH]; intros n H; [cbn; lia|]. cbn [fold_left fold_right]. pose proof (sumW_mod (map (with_index 1 0) (i_files i))) as K.
    rewrite (each_ok (with_index 1 0) (i_files i) (fun e => eq_refl)) by lia. rewrite IH by lia. lia. }
  rewrite A, Z.add_0_l, B by apply A4. rewrite C1 by (pose proof (A4 q); pose proof (B4 q); lia). clear.
  assert (Q : sumW (map i_entry q) + fold_right (fun i x => sumW (map (with_index 0 0) (i_params i)) + x) 0 q =
    fold_right (fun i x => fixed (i_entry i) + x) 0 q + fold_right (fun i x => wt (e_texts (i_entry i)) + sumW (map (with_index 0 0) (i_params i)) + x) 0 q).
  { induction q as [|i q IH]; [reflexivity|]. cbn [map sumW fold_right]. unfold W at 1. lia. }
  lia.
Qed.

(** ** Reading *)
Lemma words_ok l r : Forall is_uint l -> words (length l) (flat_map w32 l ++ r) = Some (l, r).
Proof. induction 1 as [|v l Hv _ IH]; [reflexivity|]. cbn [flat_map length words]. rewrite <- app_assoc, recv_app by reflexivity. rewrite IH, w32_uint0 by exact Hv. reflexivity. Qed.
Lemma nul_cons t ts : nul (t :: ts) = t ++ [0] ++ nul ts.
Proof. unfold nul. cbn [map concat]. rewrite <- app_assoc. reflexivity. Qed.
Lemma texts_ok ts pad r : ts <> [] -> 0 <= pad -> Forall no_nul ts -> texts (lens ts pad) (nul ts ++ repeat 0 (Z.to_nat pad) ++ r) = Some (ts, r).
Proof.
  intros N P F. induction F as [|t ts Ht F IH]; [congruence|]. rewrite nul_cons, <- !app_assoc. destruct ts as [|u ts].
  - cbn [lens texts app nul map concat]. rewrite ctext_app by exact Ht. replace (t ++ 0 :: repeat 0 (Z.to_nat pad) ++ r) with ((t ++ 0 :: repeat 0 (Z.to_nat pad)) ++ r) by (rewrite <- app_assoc; reflexivity).
    rewrite recv_app; [reflexivity|]. unfold zlen. rewrite app_length. cbn [length]. rewrite repeat_length. lia.
  - change (lens (t :: u :: ts) pad) with ((zlen t + 1) :: lens (u :: ts) pad). cbn [texts app]. rewrite ctext_app by exact Ht.
    replace (t ++ 0 :: nul (u :: ts) ++ repeat 0 (Z.to_nat pad) ++ r) with ((t ++ [0]) ++ nul (u :: ts) ++ repeat 0 (Z.to_nat pad) ++ r) by (rewrite <- app_assoc; reflexivity).
    rewrite recv_app by (rewrite zlen_app; reflexivity). rewrite IH by discriminate. reflexivity.
Qed.
Lemma lens_range ts pad : 0 <= pad -> Forall (fun l => 0 <= l <= zlen (nul ts) + pad) (lens ts pad).
Proof.
  intros P. induction ts as [|t ts IH]; [constructor|]. rewrite nul_cons. pose proof (zlen_bound t) as Q. destruct ts as [|u ts].
  - cbn [lens]. constructor; [|constructor]. rewrite !zlen_app. change (zlen [0]) with 1. change (zlen (nul [])) with 0. lia.
  - change (lens (t :: u :: ts) pad) with ((zlen t + 1) :: lens (u :: ts) pad). rewrite !zlen_app. change (zlen [0]) with 1. pose proof (zlen_bound (nul (u :: ts))) as Q2.
    constructor; [lia|]. eapply Forall_impl; [|exact IH]. cbn beta. intros l. lia.
Qed.
Lemma get_ok nb nt na e r : (1 <= nt)%nat -> entry_ok nb nt na e -> W e < 2 ^ 32 -> get nb nt na (put 0 e ++ r) = Some (e, r).
Proof.
  intros N (Lb & Lt & La & Fb & Fa & Ft) B. unfold put. cbv zeta. rewrite Z.add_0_l, (pad4_shift _ _ (fixed_mod e)). set (pad := pad4 (zlen (nul (e_texts e)))).
  assert (P : 0 <= pad) by (unfold pad; pose proof (pad4_range (zlen (nul (e_texts e)))); lia). rewrite !flat_map_app, <- !app_assoc. unfold get. subst nb nt na. rewrite words_ok by exact Fb.
  assert (Fl : Forall is_uint (lens (e_texts e) pad)).
  { eapply Forall_impl; [|apply (lens_range (e_texts e) pad P)]. cbn beta. intros l H. unfold is_uint. unfold W, wt in B. fold pad in B. pose proof (fixed_nonneg e). lia. }
  rewrite <- (lens_len (e_texts e) pad), words_ok by exact Fl. rewrite words_ok by exact Fa.
  rewrite texts_ok; [destruct e; reflexivity| |exact P|exact Ft]. intros Q. rewrite Q in N. cbn in N. lia.
Qed.
Lemma sumW_in e es : In e es -> W e <= sumW es.
Proof. induction es as [|x es IH]; [intros []|]. intros [->|H]; cbn [sumW]; [pose proof (sumW_nonneg es)|pose proof (W_nonneg x); specialize (IH H)]; lia. Qed.
Lemma get_all_flat nb nt na es r : (1 <= nt)%nat -> Forall (entry_ok nb nt na) es -> sumW es < 2 ^ 32 -> get_all (length es) nb nt na (flat_map (put 0) es ++ r) = Some (es, r).
Proof.
  intros N F B. induction F as [|e es He F IH]; [reflexivity|]. cbn [length get_all flat_map]. cbn [sumW] in B. pose proof (sumW_nonneg es). pose proof (W_nonneg e).
  rewrite <- app_assoc, (get_ok nb nt na) by (try assumption; lia). rewrite IH by lia. reflexivity.
Qed.
Theorem get_all_ok nb nt na es : (1 <= nt)%nat -> Forall (entry_ok nb nt na) es -> zlen (put_all 0 es) < 2 ^ 32 -> get_all (length es) nb nt na (put_all 0 es) = Some (es, []).
Proof. intros N F B. rewrite put_all_flat in * by reflexivity. rewrite flat_len in B. rewrite <- (app_nil_r (flat_map (put 0) es)). apply get_all_flat; assumption. Qed.

(** ** The queue *)
Lemma give_one add k d x r e : (k <= length (e_before e))%nat -> give add k (d ++ x :: r) (with_index k (Z.of_nat (length d) + 1) e) = Some (d ++ add x e :: r).
Proof.
  intros K. unfold give. cbv zeta. unfold with_index. cbn [e_before e_texts e_after]. set (v := Z.of_nat (length d) + 1).
  assert (L : length (firstn k (e_before e)) = k) by (rewrite firstn_length; lia).
  assert (N : nth k (firstn k (e_before e) ++ v :: skipn k (e_before e)) 0 = v). { rewrite app_nth2 by lia. rewrite L, Nat.sub_diag. reflexivity. } rewrite N.
  assert (R1 : firstn k (firstn k (e_before e) ++ v :: skipn k (e_before e)) = firstn k (e_before e)).
  { rewrite firstn_app, L, Nat.sub_diag, app_nil_r. apply firstn_all2. lia. }
  assert (R2 : skipn (S k) (firstn k (e_before e) ++ v :: skipn k (e_before e)) = skipn k (e_before e)).
  { rewrite skipn_app, L. rewrite (skipn_all2 (firstn k (e_before e))) by lia. replace (S k - k)%nat with 1%nat by lia. reflexivity. }
  rewrite R1, R2, firstn_skipn. replace (Z.to_nat (v - 1)) with (length d) by (unfold v; lia). rewrite nth_error_app2, Nat.sub_diag by lia. cbn [nth_error].
  assert (G : (1 <=? v) = true) by (unfold v; lia). rewrite G. rewrite firstn_app, firstn_all, Nat.sub_diag, app_nil_r. replace (Z.to_nat v) with (S (length d)) by (unfold v; lia).
  rewrite skipn_app, skipn_all2 by lia. replace (S (length d) - length d)%nat with 1%nat by lia. destruct e; reflexivity.
Qed.
Lemma give_some add k d r es : forall x, Forall (fun e => (k <= length (e_before e))%nat) es ->
  give_all add k (map (with_index k (Z.of_nat (length d) + 1)) es) (Some (d ++ x :: r)) = Some (d ++ fold_left add es x :: r).
Proof.
  unfold give_all. induction es as [|e es IH]; intros x F; [reflexivity|]. inversion_clear F as [|? ? He F']. cbn [map fold_left]. rewrite give_one by exact He. apply IH, F'.
Qed.
Lemma give_every add k f st fin : (forall i, fold_left add (f i) (st i) = fin i) -> forall q d, Forall (fun i => Forall (fun e => (k <= length (e_before e))%nat) (f i)) q ->
  give_all add k (indexed k f (Z.of_nat (length d) + 1) q) (Some (d ++ map st q)) = Some (d ++ map fin q).
Proof.
  intros Hf. induction q as [|i q IH]; intros d F; [reflexivity|]. inversion_clear F as [|? ? Hi F']. cbn [indexed map]. unfold give_all. rewrite fold_left_app. fold (give_all add k (map (with_index k (Z.of_nat (length d) + 1)) (f i)) (Some (d ++ st i :: map st q))).
  rewrite give_some by exact Hi. rewrite Hf. specialize (IH (d ++ [fin i]) F'). rewrite app_length in IH. cbn [length] in IH. rewrite <- !app_assoc in IH. cbn [app] in IH.
  replace (Z.of_nat (length d + 1) + 1) with (Z.of_nat (length d) + 1 + 1) in IH by lia. exact IH.
Qed.
Lemma with_index_ok k v nb nt na e : is_uint v -> (k <= nb)%nat -> entry_ok nb nt na e -> entry_ok (S nb) nt na (with_index k v e).
Proof.
  intros U K (Lb & Lt & La & Fb & Fa & Ft). unfold entry_ok, with_index. cbn [e_before e_texts e_after]. repeat split; try assumption.
  - rewrite app_length, firstn_length. cbn [length]. rewrite skipn_length. lia.
  - apply Forall_app. split; [apply Forall_forall; intros x Hx|constructor; [exact U|apply Forall_forall; intros x Hx]]; rewrite Forall_forall in Fb; apply Fb.
    + rewrite <- (firstn_skipn k (e_before e)). apply in_or_app. left. exact Hx.
    + rewrite <- (firstn_skipn k (e_before e)). apply in_or_app. right. exact Hx.
Qed.
Lemma indexed_ok k f nb nt na q : (k <= nb)%nat -> Forall (fun i => Forall (entry_ok nb nt na) (f i)) q -> forall v, 0 <= v -> v + Z.of_nat (length q) < 2 ^ 32 -> Forall (entry_ok (S nb) nt na) (indexed k f v q).
Proof.
  intros K F. induction F as [|i q Hi F IH]; intros v V B; [constructor|]. cbn [indexed]. cbn [length] in B. apply Forall_app. split; [|apply IH; lia].
  apply Forall_forall. intros e He. apply in_map_iff in He. destruct He as (x & <- & Hx). rewrite Forall_forall in Hi. apply with_index_ok; [unfold is_uint; lia|exact K|apply Hi, Hx].
Qed.
Lemma indexed_len k f q : forall v, length (indexed k f v q) = length (flat_map f q).
Proof. induction q as [|i q IH]; intros v; [reflexivity|]. cbn [indexed flat_map]. rewrite !app_length, map_length, IH. reflexivity. Qed.
Lemma sumW_count q : Forall item_ok q -> 68 * Z.of_nat (length q) <= sumW (map i_entry q).
Proof.
  induction 1 as [|i q ((Lb & Lt & La & _) & _) _ IH]; [cbn; lia|]. cbn [length map sumW]. unfold W, fixed. rewrite Lb, Lt, La. pose proof (wt_nonneg (e_texts (i_entry i))). lia.
Qed.
Theorem get_list_ok q : Forall item_ok q -> zlen (put_list q) < 2 ^ 32 -> get_list (length q) (length (flat_map i_params q)) (length (flat_map i_files q)) (put_list q) = Some q.
Proof.
  intros F B. unfold put_list in *. rewrite put_all_flat in * by reflexivity. rewrite flat_len, !sumW_app in B. pose proof (sumW_count q F) as Cq.
  pose proof (sumW_nonneg (indexed 0 i_params 1 q)) as Q1. pose proof (sumW_nonneg (indexed 1 i_files 1 q)) as Q2. pose proof (sumW_nonneg (map i_entry q)) as Q3.
  assert (Fe : Forall (entry_ok 12 5 0) (map i_entry q)). { apply Forall_forall. intros e He. apply in_map_iff in He. destruct He as (i & <- & Hi). rewrite Forall_forall in F. apply F, Hi. }
  assert (Fp : Forall (entry_ok 1 2 0) (indexed 0 i_params 1 q)). { apply indexed_ok; try lia. eapply Forall_impl; [|exact F]. intros i H. apply H. }
  assert (Ff : Forall (entry_ok 10 2 0) (indexed 1 i_files 1 q)). { apply indexed_ok; try lia. eapply Forall_impl; [|exact F]. intros i H. apply H. }
  rewrite !flat_map_app. unfold get_list. rewrite <- (map_length i_entry q), get_all_flat by (try assumption; lia). rewrite <- (indexed_len 0 i_params q 1), get_all_flat by (try assumption; lia).
  rewrite <- (indexed_len 1 i_files q 1). rewrite <- (app_nil_r (flat_map (put 0) (indexed 1 i_files 1 q))), get_all_flat by (try assumption; lia).
  rewrite map_map.
  set (addp := fun (i : item) (e : entry) => I (i_entry i) (i_params i ++ [e]) (i_files i)). set (addf := fun (i : item) (e : entry) => I (i_entry i) (i_params i) (i_files i ++ [e])).
  assert (P1 : forall i, fold_left addp (i_params i) (I (i_entry i) [] []) = I (i_entry i) (i_params i) []).
  { intros i. assert (G : forall l a, fold_left addp l (I (i_entry i) a []) = I (i_entry i) (a ++ l) []). { induction l as [|x l IH]; intros a; [rewrite app_nil_r; reflexivity|]. cbn [fold_left]. unfold addp at 2. cbn [i_entry i_params i_files]. rewrite IH, <- app_assoc. reflexivity. } apply G. }
  assert (P2 : forall i, fold_left addf (i_files i) (I (i_entry i) (i_params i) []) = i).
  { intros i. assert (G : forall l a, fold_left addf l (I (i_entry i) (i_params i) a) = I (i_entry i) (i_params i) (a ++ l)). { induction l as [|x l IH]; intros a; [rewrite app_nil_r; reflexivity|]. cbn [fold_left]. unfold addf at 2. cbn [i_entry i_params i_files]. rewrite IH, <- app_assoc. reflexivity. } rewrite G. destruct i; reflexivity. }
  pose proof (give_every addp 0 i_params (fun i => I (i_entry i) [] []) (fun i => I (i_entry i) (i_params i) []) P1 q []) as G1. cbn [length app Z.of_nat] in G1. rewrite Z.add_0_l in G1.
  rewrite G1 by (apply Forall_forall; intros i _; apply Forall_forall; intros e _; lia).
  pose proof (give_every addf 1 i_files (fun i => I (i_entry i) (i_params i) []) (fun i => i) P2 q []) as G2. cbn [length app Z.of_nat] in G2. rewrite Z.add_0_l in G2.
  rewrite G2; [rewrite map_id; reflexivity|]. apply Forall_forall. intros i Hi. apply Forall_forall. intros e He. rewrite Forall_forall in F. destruct (F i Hi) as (_ & _ & Fx). rewrite Forall_forall in Fx. destruct (Fx e He) as (L & _). lia.
Qed.
