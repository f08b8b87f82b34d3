(** Proofs about the renaming by par2-files: recognising and renaming par2-files. *)
From Coq Require Import String Permutation.
From Verif Require Import Base NumFmt NameModel NameProofs WildModel WebModel InfoModel RarModel RarSetModel RarSetSpec RarSetProofs RarSetProofs2 RarSetProofs3 ParModel ParRenModel ParRenSpec ParRenProofs.
Open Scope list_scope. Open Scope Z_scope.

Lemma le_num_nonneg l : Forall (fun b => 0 <= b < 256) l -> 0 <= le_num l.
Proof. induction 1 as [|b l B L IH]; cbn [le_num fold_right]; [lia|]. fold (le_num l). lia. Qed.
Lemma to_i32_le x : 0 <= x -> to_i32 x <= x.
Proof. intros H. unfold to_i32. destruct (Z.lt_ge_cases x (2 ^ 31)); [rewrite Z.mod_small by lia; lia|]. assert ((x + 2 ^ 31) mod 2 ^ 32 < 2 ^ 32) by (apply Z.mod_pos_bound; lia). lia. Qed.
Lemma app_len_eq {A} (a b x y : list A) : length a = length x -> a ++ b = x ++ y -> a = x /\ b = y.
Proof.
  revert x. induction a as [|u a IH]; intros [|v x] L E; try discriminate; [auto|]. cbn in E. injection E as -> E. injection L as L. destruct (IH x L E) as [-> ->]. auto.
Qed.
Lemma par_set_packet junk c set : par2_packet c set -> par_set junk c = Some (hex_low set).
Proof.
  intros (len & (l & m & t & E & L1 & L2 & L3 & L4 & -> & G & M4) & Le). unfold par_set.
  do 8 (destruct l as [|? l]; [discriminate|]). destruct l; [|discriminate].
  do 16 (destruct m as [|? m]; [discriminate|]). destruct m; [|discriminate].
  do 16 (destruct set as [|? set]; [discriminate|]). destruct set; [|discriminate].
  do 16 (destruct t as [|? t]; [cbn in L4; lia|]).
  assert (Ef : firstn 64 (c ++ junk) = firstn 64 c) by (rewrite E; reflexivity). rewrite Ef.
  match type of G with 64 <= le_num ?x => set (ll := x) in * end.
  assert (E1 : firstn 8 (firstn 64 c) = packet_magic) by (rewrite E; reflexivity).
  assert (E2 : firstn 8 (skipn 8 (firstn 64 c)) = ll) by (rewrite E; reflexivity).
  rewrite E1, E2, beqb_refl. cbn [negb].
  destruct (Z.ltb_spec (le_num ll) 64); [lia|]. rewrite M4. cbn [Z.eqb negb].
  pose proof (to_i32_le (le_num ll) ltac:(lia)). destruct (Z.ltb_spec (zlen c) (to_i32 (le_num ll))); [lia|]. rewrite E. reflexivity.
Qed.
Lemma par_set_some junk c i : (64 <= length c)%nat -> par_set junk c = Some i -> exists len set, par2_begin c len set /\ i = hex_low set /\ (len <= zlen c \/ 2 ^ 31 <= len).
Proof.
  intros L H. unfold par_set in H. cbv zeta in H. rewrite firstn_app in H. replace (64 - length c)%nat with 0%nat in H by lia. rewrite firstn_O, app_nil_r in H.
  destruct (beqb (firstn 8 (firstn 64 c)) packet_magic) eqn:E1; [|discriminate]. cbn [negb] in H. apply beqb_eq in E1.
  destruct (Z.ltb_spec (le_num (firstn 8 (skipn 8 (firstn 64 c)))) 64) as [X|E2]; [discriminate H|].
  destruct (Z.eqb_spec (le_num (firstn 8 (skipn 8 (firstn 64 c))) mod 4) 0) as [E3|]; [|discriminate H]. cbn [negb] in H.
  destruct (Z.ltb_spec (zlen c) (to_i32 (le_num (firstn 8 (skipn 8 (firstn 64 c)))))) as [X|E4]; [discriminate H|]. injection H as <-.
  set (len := le_num _) in *. exists len, (firstn 16 (skipn 32 (firstn 64 c))). split; [|split; [reflexivity|]].
  - exists (firstn 8 (skipn 8 (firstn 64 c))), (firstn 16 (skipn 16 (firstn 64 c))), (skipn 48 (firstn 64 c) ++ skipn 64 c).
    do 64 (destruct c as [|? c]; [cbn in L; lia|]). cbn [firstn skipn app] in *. unfold packet_magic in E1. injection E1 as -> -> -> -> -> -> -> ->.
    repeat split; try reflexivity; try assumption. cbn [length]. lia.
  - destruct (Z.lt_ge_cases len (2 ^ 31)); [left|right; lia]. unfold to_i32 in E4. rewrite Z.mod_small in E4 by lia. lia.
Qed.

(** ** A free name *)

Lemma pad_inj w a b : 0 <= a -> 0 <= b -> pad w a = pad w b -> a = b.
Proof. intros A B E. apply (f_equal (pdigits 0)) in E. rewrite !pdigits_pad in E by assumption. exact E. Qed.
Lemma pad_len_digits w n : 0 <= n -> Forall (fun c => 48 <= c <= 57) (pad w n).
Proof. intros N. apply pad_digits, N. Qed.
Lemma digits_cut (d d' r r' : list Z) (x : Z) : Forall (fun c => 48 <= c <= 57) d -> Forall (fun c => 48 <= c <= 57) d' -> ~ 48 <= x <= 57 -> d ++ x :: r = d' ++ x :: r' -> d = d'.
Proof.
  intros D. revert d'. induction D as [|c d C D IH]; intros [|c' d'] D' X E.
  - reflexivity.
  - injection E as -> _. inversion D'; subst. contradiction.
  - injection E as -> _. contradiction.
  - injection E as -> E. inversion D'; subst. f_equal. apply IH; assumption.
Qed.
Lemma vol_name_inj set a b : 0 <= a -> 0 <= b -> vol_name set a = vol_name set b -> a = b.
Proof.
  intros A B E. unfold vol_name in E. apply app_inv_head in E. apply app_inv_head in E. change (str "+01.PAR2") with (43 :: str "01.PAR2") in E. apply (pad_inj 3); [assumption..|]. eapply digits_cut; [| | |exact E]; [apply pad_len_digits, A|apply pad_len_digits, B|lia].
Qed.
Lemma free_vol_some f fs dir set : forall k p, free_vol f fs dir set k = Some p ->
  exists j, k <= j /\ p = at_dir dir (vol_name set j) /\ ~ In p (paths fs) /\ forall i, k <= i < j -> In (at_dir dir (vol_name set i)) (paths fs).
Proof.
  induction f as [|f IH]; intros k p H; [discriminate|]. cbn [free_vol] in H. destruct (is_there fs (at_dir dir (vol_name set k))) eqn:E.
  - destruct (IH _ _ H) as (j & J & Ep & F & A). exists j. split; [lia|]. split; [exact Ep|]. split; [exact F|]. intros i I. destruct (Z.eq_dec i k) as [-> |]; [apply is_there_iff, E|]. apply A. lia.
  - injection H as <-. exists k. split; [lia|]. split; [reflexivity|]. split; [intros I; apply is_there_iff in I; congruence|]. intros i I. lia.
Qed.
Lemma free_vol_none f fs dir set : forall k, free_vol f fs dir set k = None -> forall i, k <= i < k + Z.of_nat f -> In (at_dir dir (vol_name set i)) (paths fs).
Proof.
  induction f as [|f IH]; intros k H i I; [lia|]. cbn [free_vol] in H. destruct (is_there fs (at_dir dir (vol_name set k))) eqn:E; [|discriminate].
  destruct (Z.eq_dec i k) as [-> |]; [apply is_there_iff, E|]. apply (IH _ H). lia.
Qed.
Lemma free_vol_ends fs dir set : free_vol (S (length fs)) fs dir set 1 <> None.
Proof.
  intros H. pose proof (free_vol_none _ _ _ _ _ H) as B.
  assert (K : (S (length fs) <= length (paths fs))%nat).
  { apply (pigeon (paths fs) (fun j p => p = at_dir dir (vol_name set j))).
    - intros i j p Hi Hj -> E. apply at_dir_inj in E. apply vol_name_inj in E; lia.
    - intros j J. exists (at_dir dir (vol_name set j)). split; [apply B; lia|reflexivity]. }
  unfold paths in K. rewrite map_length in K. lia.
Qed.
Lemma three_pad k : 0 <= k -> three k (pad 3 k).
Proof. intros K. unfold three, pad. exists (3 - length (udec k))%nat. split; [reflexivity|]. rewrite app_length, repeat_length. lia. Qed.
Lemma vol_par_path dir set k : 0 <= k -> par_path dir set k (at_dir dir (vol_name set k)).
Proof. intros K. exists (pad 3 k). split; [apply three_pad, K|reflexivity]. Qed.

(** ** Renaming all of them *)

Lemma rename_pars_ok can dir : forall l s, NoDup (paths (r_fs s)) -> exists s', rename_pars can dir l s = Some s' /\
  NoDup (paths (r_fs s')) /\ Permutation (contents (r_fs s)) (contents (r_fs s')) /\ r_damaged s' = r_damaged s /\ r_missed s' = r_missed s /\
  (forall p, In p (paths (r_fs s')) -> In p (paths (r_fs s)) \/ exists n i k, In (n, i) l /\ 1 <= k /\ p = at_dir dir (vol_name i k)) /\
  (forall p, In p (paths (r_fs s)) -> ~ In p (map (fun e => at_dir dir (fst e)) l) -> look (r_fs s') p = look (r_fs s) p) /\
  exists d, r_done s' = r_done s ++ d /\ forall e, In e d -> exists n i k, In (n, i) l /\ 1 <= k /\ e = (at_dir dir n, at_dir dir (vol_name i k)).
Proof.
  induction l as [|[n i] l IH]; intros s N.
  { exists s. split; [reflexivity|]. split; [exact N|]. repeat (split; [first [reflexivity|auto]|]). exists []. rewrite app_nil_r. split; [reflexivity|intros e []]. }
  cbn [rename_pars]. destruct (free_vol (S (length (r_fs s))) (r_fs s) dir i 1) as [q|] eqn:F; [|exfalso; exact (free_vol_ends _ _ _ F)].
  apply free_vol_some in F as (k & K & Eq & Free & _).
  destruct (rename_facts can (r_fs s) (at_dir dir n) q N Free) as (R1 & R2 & R3 & R4 & R5). set (s1 := do_rename can s (at_dir dir n) q) in *.
  pose proof (do_rename_fs can s (at_dir dir n) q) as E1. fold s1 in E1. rewrite <- E1 in R1, R2, R3, R4, R5.
  destruct (do_rename_flags can s (at_dir dir n) q) as [D1 D2]. fold s1 in D1, D2.
  destruct (IH s1 R1) as (s' & E & A1 & A2 & A3 & A4 & A5 & A6 & d & A7 & A8). exists s'. split; [exact E|]. split; [exact A1|]. split; [etransitivity; eassumption|].
  split; [congruence|]. split; [congruence|]. split.
  { intros p P. destruct (A5 p P) as [Q|(x & y & z & X & Zk & ->)]; [|right; exists x, y, z; repeat split; auto; right; exact X].
    destruct (R3 p Q) as [Q2|[-> _]]; [auto|]. right. exists n, i, k. repeat split; auto. left. reflexivity. }
  split.
  { intros p P Nl. cbn [map fst] in Nl. assert (Dp : p <> at_dir dir n) by (intros ->; apply Nl; left; reflexivity). assert (Dq : p <> q) by (intros ->; contradiction).
    rewrite A6; [apply R4; assumption| |intros Q; apply Nl; right; exact Q]. apply is_there_iff. apply is_there_iff in P. unfold is_there in *. rewrite R4; assumption. }
  destruct (do_rename_done can s (at_dir dir n) q) as [Q|Q]; fold s1 in Q.
  - exists d. split; [congruence|]. intros e I. destruct (A8 e I) as (x & y & z & X & Y). exists x, y, z. split; [right; exact X|exact Y].
  - exists ((at_dir dir n, q) :: d). split; [rewrite A7, Q, <- app_assoc; reflexivity|]. intros e [<- |I].
    + exists n, i, k. rewrite Eq. repeat split; auto. left. reflexivity.
    + destruct (A8 e I) as (x & y & z & X & Y). exists x, y, z. split; [right; exact X|exact Y].
Qed.
Lemma rename_pars_place dir : forall l s, NoDup (paths (r_fs s)) -> NoDup (map fst l) -> (forall e, In e l -> In (at_dir dir (fst e)) (paths (r_fs s))) ->
  forall s', rename_pars (fun _ _ => true) dir l s = Some s' ->
  forall n i, In (n, i) l -> exists k, 1 <= k /\ look (r_fs s') (at_dir dir (vol_name i k)) = look (r_fs s) (at_dir dir n).
Proof.
  induction l as [|[n i] l IH]; intros s N Nl H s' E m j I; [destruct I|].
  cbn [rename_pars] in E. destruct (free_vol (S (length (r_fs s))) (r_fs s) dir i 1) as [q|] eqn:F; [|discriminate].
  apply free_vol_some in F as (k & K & Eq & Free & _). cbn [map fst] in Nl. apply NoDup_cons_iff in Nl as [Nl1 Nl2].
  destruct (rename_facts (fun _ _ => true) (r_fs s) (at_dir dir n) q N Free) as (R1 & R2 & R3 & R4 & R5). set (s1 := do_rename _ s (at_dir dir n) q) in *.
  pose proof (do_rename_fs (fun _ _ => true) s (at_dir dir n) q) as E1. fold s1 in E1. rewrite <- E1 in R1, R2, R3, R4, R5.
  assert (H1 : forall e, In e l -> look (r_fs s1) (at_dir dir (fst e)) = look (r_fs s) (at_dir dir (fst e))).
  { intros e Ie. apply R4; [intros Q; apply at_dir_inj in Q; apply Nl1; rewrite <- Q; apply in_map, Ie|]. intros Q. apply Free. rewrite <- Q. apply (H e). right. exact Ie. }
  assert (H2 : forall e, In e l -> In (at_dir dir (fst e)) (paths (r_fs s1))).
  { intros e Ie. pose proof (H e (or_intror Ie)) as P. apply is_there_iff. apply is_there_iff in P. unfold is_there in *. rewrite (H1 e Ie). exact P. }
  destruct I as [I|I].
  - injection I as -> ->. exists k. split; [exact K|]. rewrite <- Eq. 
    destruct (rename_pars_ok (fun _ _ => true) dir l s1 R1) as (s2 & E2 & _ & _ & _ & _ & _ & A6 & _). rewrite E in E2. injection E2 as <-.
    assert (Lm : look (r_fs s) (at_dir dir m) <> None). { pose proof (H (m, j) (or_introl eq_refl)) as P. cbn [fst] in P. apply is_there_iff in P. unfold is_there in P. destruct (look (r_fs s) (at_dir dir m)); [discriminate|discriminate P]. }
    rewrite A6; [apply R5; [reflexivity|exact Lm]| |].
    + apply is_there_iff. unfold is_there. rewrite R5 by (auto; exact Lm). destruct (look (r_fs s) (at_dir dir m)); [reflexivity|congruence].
    + rewrite in_map_iff. intros (e & Ee & Ie). apply Free. rewrite <- Ee. apply H. right. exact Ie.
  - destruct (IH s1 R1 Nl2 H2 s' E m j I) as (k2 & K2 & L2). exists k2. split; [exact K2|]. rewrite L2. exact (H1 _ I).
Qed.

Lemma par_infos_in junk fs dir n i : In (n, i) (par_infos junk fs dir) <-> ~ In 47 n /\ exists c, look fs (at_dir dir n) = Some c /\ par_set junk c = Some i.
Proof.
  unfold par_infos. rewrite in_flat_map. split.
  - intros (x & X & I). apply in_listing in X as [X Nx]. destruct (look fs (at_dir dir x)) as [c|] eqn:L; [|destruct I]. destruct (par_set junk c) as [y|] eqn:Pc; [|destruct I]. destruct I as [I|[]]. injection I as -> ->. split; [exact Nx|]. exists c. auto.
  - intros (Nn & c & L & Pc). exists n. split; [apply in_listing; split; [apply is_there_iff; unfold is_there; rewrite L; reflexivity|exact Nn]|]. rewrite L, Pc. left. reflexivity.
Qed.
Lemma par_infos_nodup junk fs dir : NoDup (paths fs) -> NoDup (map fst (par_infos junk fs dir)).
Proof.
  intros N. unfold par_infos. pose proof (listing_nodup fs dir N) as L. induction L as [|x l X L IH]; [constructor|]. cbn [flat_map]. rewrite map_app.
  assert (Q : forall y, In y (map fst (flat_map (fun n => match look fs (at_dir dir n) with Some c => match par_set junk c with Some i => [(n, i)] | None => [] end | None => [] end) l)) -> In y l).
  { intros y Y. apply in_map_iff in Y as ([a b] & <- & Y). apply in_flat_map in Y as (z & Zl & Y). destruct (look fs (at_dir dir z)); [|destruct Y]. destruct (par_set junk l0); [|destruct Y]. destruct Y as [Y|[]]. injection Y as -> ->. exact Zl. }
  destruct (look fs (at_dir dir x)) as [c|]; [|exact IH]. destruct (par_set junk c) as [i|]; [|exact IH]. cbn [map fst app]. constructor; [intros Y; apply X, Q, Y|exact IH].
Qed.
