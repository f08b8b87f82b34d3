(** Proofs about the binary remote protocol: words, fields, requests. *)
From Coq Require Import String.
From Verif Require Import Base WildModel BinModel BinSpec.
Open Scope list_scope. Open Scope Z_scope.

(** ** Words, fields, memory *)

Lemma w32_word v r : word (w32 v ++ r) = v mod 2 ^ 32.
Proof.
  unfold w32, word. cbn [app]. change (2 ^ 24) with 16777216. change (2 ^ 16) with 65536. change (2 ^ 8) with 256. change (2 ^ 32) with 4294967296. lia.
Qed.
Lemma w32_uint v r : is_uint v -> word (w32 v ++ r) = v.
Proof. intros H. rewrite w32_word. apply Z.mod_small. exact H. Qed.
Lemma w32_int v r : is_int v -> int (w32 v ++ r) = v.
Proof.
  unfold is_int, int, s32. rewrite w32_word. change (2 ^ 31) with 2147483648. change (2 ^ 32) with 4294967296. intros H.
  destruct (v mod 4294967296 <? 2147483648) eqn:E; lia.
Qed.
Lemma w32_len v : length (w32 v) = 4%nat.
Proof. reflexivity. Qed.
Lemma drop_app n a r : zlen a = n -> drop n (a ++ r) = r.
Proof. unfold drop, zlen. intros <-. rewrite Nat2Z.id, skipn_app, skipn_all, Nat.sub_diag. reflexivity. Qed.
Lemma drop_w32 v r : drop 4 (w32 v ++ r) = r.
Proof. reflexivity. Qed.
Lemma zlen_app a b : zlen (a ++ b) = zlen a + zlen b.
Proof. unfold zlen. rewrite app_length. lia. Qed.
Lemma zlen_nonneg a : 0 <= zlen a.
Proof. unfold zlen. lia. Qed.
Lemma recv_app n a r : zlen a = n -> recv n (a ++ r) = Some (a, r).
Proof.
  intros H. unfold recv. assert (L : n <=? zlen (a ++ r) = true) by (rewrite zlen_app; pose proof (zlen_nonneg r); lia). rewrite L, (drop_app n a r H).
  unfold zlen in H. rewrite <- H, Nat2Z.id, firstn_app, firstn_all, Nat.sub_diag, firstn_O, app_nil_r. reflexivity.
Qed.
Lemma recv_all n a : zlen a = n -> recv n a = Some (a, []).
Proof. intros H. pose proof (recv_app n a [] H) as R. rewrite app_nil_r in R. exact R. Qed.
Lemma recv_some n l a r : 0 <= n -> recv n l = Some (a, r) -> l = a ++ r /\ zlen a = n.
Proof.
  unfold recv. destruct (n <=? zlen l) eqn:E; [|discriminate]. intros N H. injection H as <- <-. unfold drop. rewrite firstn_skipn. split; [reflexivity|].
  unfold zlen in *. rewrite firstn_length. lia.
Qed.
Lemma ctext_app s r : no_nul s -> ctext (s ++ 0 :: r) = Some s.
Proof.
  unfold no_nul. induction s as [|b s IH]; intros N; [reflexivity|]. cbn [ctext app]. destruct (b =? 0) eqn:E; [apply Z.eqb_eq in E; subst b; exfalso; apply N; left; reflexivity|].
  rewrite IH; [reflexivity|]. intros I1. apply N. right. exact I1.
Qed.
Lemma field_len n s : 1 <= n -> zlen (field n s) = n.
Proof. intros N. unfold zlen, field. rewrite app_length, repeat_length, firstn_length. lia. Qed.
Lemma field_text n s r : 1 <= n -> no_nul s -> (length s <= Z.to_nat (n - 1))%nat -> exists y, field n s ++ r = s ++ 0 :: y /\ length (s ++ 0 :: y) = length (field n s ++ r).
Proof.
  intros N H L. unfold field. rewrite firstn_all2 by exact L. destruct (Z.to_nat n - length s)%nat as [|k] eqn:E; [lia|]. cbn [repeat]. exists (repeat 0 k ++ r). rewrite <- app_assoc. auto.
Qed.
Lemma field_ctext n s r : 1 <= n -> no_nul s -> (length s <= Z.to_nat (n - 1))%nat -> ctext (field n s ++ r) = Some s.
Proof. intros N H L. destruct (field_text n s r N H L) as (y & -> & _). apply ctext_app, H. Qed.
Lemma garbage_len g n : length (garbage g n) = n.
Proof. unfold garbage. rewrite map_length, seq_length. reflexivity. Qed.
Lemma field_or_len g s : zlen (field_or g s) = 512.
Proof.
  unfold field_or. destruct s; [|apply field_len; lia]. unfold zlen. cbn [length]. rewrite app_length, garbage_len. cbn [length]. lia.
Qed.
Lemma field_or_ctext g s r : in_field s -> ctext (field_or g s ++ r) = Some s.
Proof. intros (N & L). unfold field_or. destruct s; [reflexivity|]. apply field_ctext; [lia|exact N|exact L]. Qed.

(** ** Login *)

Lemma cmp_true mem s : cmp mem s = Some true -> exists x, mem = s ++ 0 :: x.
Proof.
  revert mem. induction s as [|c s IH]; intros [|b m] H; cbn in H; try discriminate.
  - injection H as H. apply Z.eqb_eq in H. subst b. exists m. reflexivity.
  - destruct (b =? c) eqn:E; [|discriminate]. apply Z.eqb_eq in E. subst b. destruct (IH m H) as (x & ->). exists x. reflexivity.
Qed.
Lemma cmp_app s x : cmp (s ++ 0 :: x) s = Some true.
Proof. induction s as [|c s IH]; [reflexivity|]. cbn [cmp app]. rewrite Z.eqb_refl. exact IH. Qed.
Lemma cmp_wrong a x s : no_nul s -> no_nul a -> a <> s -> cmp (a ++ 0 :: x) s = Some false.
Proof.
  unfold no_nul. revert s. induction a as [|b a IH]; intros s N M D; destruct s as [|c s]; try congruence; cbn [cmp app].
  - destruct (0 =? c) eqn:E; [|reflexivity]. apply Z.eqb_eq in E. subst c. exfalso. apply N. left. reflexivity.
  - destruct (b =? 0) eqn:E; [|reflexivity]. apply Z.eqb_eq in E. subst b. exfalso. apply M. left. reflexivity.
  - destruct (b =? c) eqn:E; [|reflexivity]. apply Z.eqb_eq in E. subst b. apply IH; [intros I1; apply N; right; exact I1|intros I1; apply M; right; exact I1|congruence].
Qed.
Lemma parts n (l : list Z) : (n <= length l)%nat -> exists a r, l = a ++ r /\ length a = n.
Proof. intros H. exists (firstn n l), (skipn n l). rewrite firstn_skipn, firstn_length. split; [reflexivity|lia]. Qed.
Lemma zl n (a : list Z) : length a = n -> zlen a = Z.of_nat n.
Proof. intros <-. reflexivity. Qed.
Lemma request_of h : zlen h = 76 -> exists sg sz t u p, h = sg ++ sz ++ t ++ u ++ p /\ length sg = 4%nat /\ length sz = 4%nat /\ length t = 4%nat /\ length u = 32%nat /\ length p = 32%nat.
Proof.
  unfold zlen. intros H. destruct (parts 4 h ltac:(lia)) as (sg & r1 & E1 & L1). subst h. rewrite app_length in H. destruct (parts 4 r1 ltac:(lia)) as (sz & r2 & -> & L2). rewrite app_length in H.
  destruct (parts 4 r2 ltac:(lia)) as (t & r3 & -> & L3). rewrite app_length in H. destruct (parts 32 r3 ltac:(lia)) as (u & p & -> & L4). rewrite app_length in H.
  exists sg, sz, t, u, p. split; [reflexivity|]. lia.
Qed.
Lemma authorized_true user pass u p : length u = 32%nat -> authorized user pass (u ++ p) = Some true -> right_login user pass u p.
Proof.
  intros L. unfold authorized. rewrite (drop_app 32 u p (zl 32 u L)). intros H. destruct user as [|c user].
  - split; [congruence|]. apply cmp_true, H.
  - destruct (cmp (u ++ p) (c :: user)) as [[|]|] eqn:E; try discriminate. split; [intros _; apply cmp_true, E|apply cmp_true, H].
Qed.
Lemma word_app4 a r : length a = 4%nat -> word (a ++ r) = word a.
Proof. destruct a as [|a1 [|a2 [|a3 [|a4 [|a5 a]]]]]; try discriminate. reflexivity. Qed.
Lemma serve_header user pass sg sz t u p rest : length sg = 4%nat -> length sz = 4%nat -> length t = 4%nat -> length u = 32%nat -> length p = 32%nat ->
  serve user pass (sg ++ sz ++ t ++ u ++ p ++ rest) =
  if word sg =? signature then
    match authorized user pass (u ++ p) with
    | None => Undefined
    | Some false => Refused
    | Some true =>
      if (1 <=? word t) && (word t <=? 14) then
        if nth (Z.to_nat (word t)) sizes 0 =? word sz then match recv (word sz - 76) rest with None => Refused | Some (b, r2) => execute (word t) b r2 end else Refused
      else Refused
    end
  else Refused.
Proof.
  intros L1 L2 L3 L4 L5. unfold serve.
  replace (sg ++ sz ++ t ++ u ++ p ++ rest) with ((sg ++ sz ++ t ++ u ++ p) ++ rest) by (rewrite <- !app_assoc; reflexivity).
  rewrite (recv_app 76 (sg ++ sz ++ t ++ u ++ p) rest) by (unfold zlen; rewrite !app_length; lia). rewrite (word_app4 sg _ L1). destruct (word sg =? signature); [|reflexivity].
  replace (drop 12 (sg ++ sz ++ t ++ u ++ p)) with (u ++ p).
  2:{ replace (sg ++ sz ++ t ++ u ++ p) with ((sg ++ sz ++ t) ++ u ++ p) by (rewrite <- !app_assoc; reflexivity). symmetry. apply drop_app. unfold zlen. rewrite !app_length. lia. }
  destruct (authorized user pass (u ++ p)) as [[|]|]; [|reflexivity|reflexivity]. rewrite (drop_app 4 sg _ (zl 4 sg L1)), (word_app4 sz _ L2).
  replace (drop 8 (sg ++ sz ++ t ++ u ++ p)) with (t ++ u ++ p).
  2:{ replace (sg ++ sz ++ t ++ u ++ p) with ((sg ++ sz) ++ t ++ u ++ p) by (rewrite <- !app_assoc; reflexivity). symmetry. apply drop_app. unfold zlen. rewrite !app_length. lia. }
  rewrite (word_app4 t _ L3). reflexivity.
Qed.
Lemma serve_exec user pass inp o : serve user pass inp = o -> (exists c, o = Exec c) \/ o = Negative ->
  exists sg sz t u p rest, request inp sg sz t u p rest /\ word sg = signature /\ right_login user pass u p /\ 1 <= word t <= 14 /\ word sz = nth (Z.to_nat (word t)) sizes 0.
Proof.
  intros S1 Q. assert (H : exists h r, inp = h ++ r /\ zlen h = 76).
  { unfold serve in S1. destruct (recv 76 inp) as [(h, r)|] eqn:E; [|destruct Q as [(c & Q)|Q]; congruence]. exists h, r. apply recv_some in E; [exact E|lia]. }
  destruct H as (h & rest & -> & L). destruct (request_of h L) as (sg & sz & t & u & p & -> & L1 & L2 & L3 & L4 & L5).
  replace ((sg ++ sz ++ t ++ u ++ p) ++ rest) with (sg ++ sz ++ t ++ u ++ p ++ rest) in * by (rewrite <- !app_assoc; reflexivity).
  rewrite (serve_header user pass sg sz t u p rest L1 L2 L3 L4 L5) in S1. assert (Nr : Refused <> o) by (destruct Q as [(c & ->)| ->]; discriminate). assert (Nu : Undefined <> o) by (destruct Q as [(c & ->)| ->]; discriminate).
  exists sg, sz, t, u, p, rest. split; [unfold request; auto 6|]. destruct (word sg =? signature) eqn:E1; [|congruence]. apply Z.eqb_eq in E1. split; [exact E1|].
  destruct (authorized user pass (u ++ p)) as [[|]|] eqn:E2; try congruence. split; [apply authorized_true; assumption|]. destruct ((1 <=? word t) && (word t <=? 14)) eqn:E3; [|congruence].
  split; [lia|]. destruct (nth (Z.to_nat (word t)) sizes 0 =? word sz) eqn:E4; [|congruence]. lia.
Qed.
Lemma serve_wrong user pass inp sg sz t u p rest a x : request inp sg sz t u p rest -> no_nul user -> no_nul pass -> no_nul a ->
  (exists b y, u = b ++ 0 :: y /\ no_nul b) -> p = a ++ 0 :: x -> a <> pass \/ (exists b y, user <> [] /\ u = b ++ 0 :: y /\ no_nul b /\ b <> user) -> serve user pass inp = Refused.
Proof.
  intros (-> & L1 & L2 & L3 & L4 & L5) Nu Np Na (b & y & Eu & Nb) Ep D. rewrite (serve_header user pass sg sz t u p rest L1 L2 L3 L4 L5). destruct (word sg =? signature); [|reflexivity].
  assert (A : authorized user pass (u ++ p) = Some false).
  { unfold authorized. rewrite (drop_app 32 u p (zl 32 u L4)).
    assert (P : a <> pass -> cmp p pass = Some false) by (intros Q; rewrite Ep; apply cmp_wrong; assumption).
    assert (C1 : cmp p pass = Some false \/ (a = pass /\ cmp p pass = Some true)).
    { destruct (list_eq_dec Z.eq_dec a pass) as [->|Q]; [right|left; apply P, Q]. split; [reflexivity|]. rewrite Ep. apply cmp_app. }
    destruct user as [|c user]; [destruct D as [D|(b1 & y1 & Q & _)]; [apply P, D|congruence]|].
    assert (U : cmp (u ++ p) (c :: user) = Some false \/ (cmp (u ++ p) (c :: user) = Some true /\ b = c :: user)).
    { rewrite Eu, <- app_assoc. cbn [app]. destruct (list_eq_dec Z.eq_dec b (c :: user)) as [->|Q]; [right; split; [apply (cmp_app (c :: user))|reflexivity]|left; apply cmp_wrong; assumption]. }
    destruct U as [-> |(-> & Eb)]; [reflexivity|]. destruct D as [D|(b1 & y1 & _ & E1 & N1 & D)]; [apply P, D|]. exfalso. apply D. rewrite Eu in E1.
    assert (X : ctext (b ++ 0 :: y) = Some b1) by (rewrite E1; apply ctext_app, N1). rewrite ctext_app in X by exact Nb. congruence. }
  rewrite A. reflexivity.
Qed.
Lemma authorized_client user pass : in_login user -> in_login pass -> authorized user pass (field 32 user ++ field 32 pass) = Some true.
Proof.
  intros (Nu & Lu) (Np & Lp). unfold authorized. rewrite (drop_app 32 (field 32 user)) by (apply field_len; lia).
  destruct (field_text 32 user (field 32 pass) ltac:(lia) Nu Lu) as (x & -> & _). destruct (field_text 32 pass [] ltac:(lia) Np Lp) as (y & Ep & _). rewrite app_nil_r in Ep. rewrite Ep.
  assert (P : cmp (pass ++ 0 :: y) pass = Some true) by apply cmp_app. destruct user as [|c user]; [exact P|]. rewrite (cmp_app (c :: user)). exact P.
Qed.
Lemma len_of n (a : list Z) : zlen a = Z.of_nat n -> length a = n.
Proof. unfold zlen. lia. Qed.
Lemma serve_base user pass t b r : in_login user -> in_login pass -> 1 <= t <= 14 -> zlen b = nth (Z.to_nat t) sizes 0 - 76 -> serve user pass (base user pass t ++ b ++ r) = execute t b r.
Proof.
  intros Lu Lp T L. unfold base. rewrite <- !app_assoc. rewrite serve_header; try reflexivity; try (apply len_of; rewrite field_len by lia; reflexivity).
  assert (Sz : forall k, 1 <= k <= 14 -> is_uint (nth (Z.to_nat k) sizes 0)).
  { intros k K. assert (D : k = 1 \/ k = 2 \/ k = 3 \/ k = 4 \/ k = 5 \/ k = 6 \/ k = 7 \/ k = 8 \/ k = 9 \/ k = 10 \/ k = 11 \/ k = 12 \/ k = 13 \/ k = 14) by lia.
    unfold is_uint. repeat (destruct D as [->|D]; [vm_compute; split; [discriminate|reflexivity]|]). subst k. vm_compute. split; [discriminate|reflexivity]. }
  rewrite <- (app_nil_r (w32 signature)), w32_uint by (vm_compute; split; [discriminate|reflexivity]). rewrite Z.eqb_refl. rewrite authorized_client by assumption.
  rewrite <- (app_nil_r (w32 t)), w32_uint by (unfold is_uint; lia). rewrite <- (app_nil_r (w32 (nth (Z.to_nat t) sizes 0))), w32_uint by (apply Sz, T).
  assert (G : (1 <=? t) && (t <=? 14) = true) by lia. rewrite G, Z.eqb_refl, (recv_app _ b r L). reflexivity.
Qed.
