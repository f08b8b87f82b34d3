(** The binary remote protocol: requests of the client arrive as they were meant. *)
From Coq Require Import String.
From Verif Require Import Base WildModel BinModel BinSpec BinProofs.
Open Scope list_scope. Open Scope Z_scope.

Lemma w32_int0 v : is_int v -> int (w32 v) = v.
Proof. intros H. rewrite <- (app_nil_r (w32 v)). apply w32_int, H. Qed.
Lemma w32_uint0 v : is_uint v -> word (w32 v) = v.
Proof. intros H. rewrite <- (app_nil_r (w32 v)). apply w32_uint, H. Qed.
Lemma bool_word p r : negb (word (w32 (b2z p) ++ r) =? 0) = p.
Proof. rewrite w32_uint by (unfold is_uint; destruct p; cbn [b2z]; lia). destruct p; reflexivity. Qed.
Lemma bool_word0 p : negb (word (w32 (b2z p)) =? 0) = p.
Proof. rewrite <- (app_nil_r (w32 (b2z p))). apply bool_word. Qed.
Lemma drop_or g s r : drop 512 (field_or g s ++ r) = r.
Proof. apply drop_app, field_or_len. Qed.
Lemma zlen_w32 v : zlen (w32 v) = 4.
Proof. reflexivity. Qed.
Lemma begins_ncase w s x : begins_ci w s -> ncase (s ++ x) w = Some true.
Proof.
  intros (a & r & -> & M). rewrite <- app_assoc. revert w M. induction a as [|b a IH]; intros w M; destruct w as [|c w]; try discriminate M; [reflexivity|].
  cbn [map] in M. injection M as M1 M2. cbn [ncase app]. rewrite M1, Z.eqb_refl. apply IH, M2.
Qed.
Lemma differs_ncase w s x : differs w s -> ncase (s ++ x) w = Some false.
Proof.
  intros (a & b & r & a1 & c & w1 & -> & -> & M & D). rewrite <- app_assoc. revert a1 M. induction a as [|y a IH]; intros a1 M; destruct a1 as [|z a1]; try discriminate M.
  - cbn [ncase app]. destruct (lower b =? lower c) eqn:E1; [apply Z.eqb_eq in E1; contradiction|reflexivity].
  - cbn [map] in M. injection M as M1 M2. cbn [ncase app]. rewrite M1, Z.eqb_refl. apply IH, M2.
Qed.
Lemma differs_ncase0 w s : differs w s -> ncase s w = Some false.
Proof. intros H. rewrite <- (app_nil_r s). apply differs_ncase, H. Qed.

Lemma serve_plain user pass t : in_login user -> in_login pass -> 1 <= t <= 14 -> nth (Z.to_nat t) sizes 0 = 76 -> serve user pass (base user pass t) = execute t [] [].
Proof. intros Lu Lp T N. rewrite <- (app_nil_r (base user pass t)). change ([] : list Z) with ([] ++ [] : list Z) at 1. apply serve_base; try assumption. rewrite N. reflexivity. Qed.
Lemma serve_only user pass t b : in_login user -> in_login pass -> 1 <= t <= 14 -> zlen b = nth (Z.to_nat t) sizes 0 - 76 -> serve user pass (base user pass t ++ b) = execute t b [].
Proof. intros Lu Lp T N. rewrite <- (app_nil_r b) at 1. apply serve_base; assumption. Qed.
Lemma zlen_bound s : 0 <= zlen s. Proof. apply zlen_nonneg. Qed.

Lemma download_ok g user pass u n cat key content first paused prio score mode :
  in_login user -> in_login pass -> sane (CDownload u n cat key content first paused prio score mode) ->
  serve user pass (client g user pass (CDownload u n cat key content first paused prio score mode)) = Exec (CDownload u n cat key content first paused prio score mode).
Proof.
  intros Lu Lp (Fn & Fc & Fk & Ip & Is & Im & Lc & U). cbn [client]. cbv zeta. set (data := if u then content ++ [0] else content).
  assert (Ld : is_int (zlen data)). { pose proof (zlen_bound content) as P. unfold data, is_int. destruct u; [rewrite zlen_app; change (zlen [0]) with 1; lia|lia]. }
  assert (D0 : 0 <= zlen data) by apply zlen_bound.
  set (b := field_or g n ++ field_or g cat ++ w32 (b2z first) ++ w32 (b2z paused) ++ w32 prio ++ w32 score ++ w32 mode ++ field_or g key ++ w32 (zlen data)).
  replace (field_or g n ++ field_or g cat ++ w32 (b2z first) ++ w32 (b2z paused) ++ w32 prio ++ w32 score ++ w32 mode ++ field_or g key ++ w32 (zlen data) ++ data) with (b ++ data)
    by (unfold b; rewrite <- !app_assoc; reflexivity).
  rewrite (serve_base user pass 1 b data Lu Lp ltac:(lia)). 2:{ unfold b. rewrite !zlen_app, !field_or_len, !zlen_w32. reflexivity. }
  change (execute 1 b data) with (do_download b data). unfold do_download. cbv zeta. unfold b. rewrite !drop_or, !drop_w32, !drop_or. rewrite !field_or_ctext by assumption.
  rewrite !bool_word, !w32_int, w32_int0 by assumption. assert (Q : (zlen data <? 0) = false) by lia. rewrite Q, recv_all by reflexivity.
  unfold is_url, data. destruct u.
  - destruct U as (Nc & [B|(D & B)]).
    + rewrite begins_ncase by exact B. rewrite ctext_app by exact Nc. reflexivity.
    + rewrite differs_ncase by exact D. rewrite begins_ncase by exact B. rewrite ctext_app by exact Nc. reflexivity.
  - destruct U as (D1 & D2). rewrite (differs_ncase0 _ _ D1), (differs_ncase0 _ _ D2). reflexivity.
Qed.

Lemma read_ids_ok ids r : Forall is_int ids -> read_ids (length ids) (flat_map w32 ids ++ r) = ids.
Proof. induction 1 as [|v ids Hv _ IH]; [reflexivity|]. cbn [flat_map length read_ids]. rewrite <- app_assoc, w32_int, drop_w32, IH by exact Hv. reflexivity. Qed.
Lemma read_names_ok names r : Forall no_nul names -> read_names (length names) (concat (map (fun n => n ++ [0]) names) ++ r) = Some names.
Proof.
  induction 1 as [|v ns Hv _ IH]; [reflexivity|]. cbn [map concat length read_names]. rewrite <- !app_assoc. cbn [app]. rewrite ctext_app by exact Hv.
  replace (v ++ 0 :: concat (map (fun n => n ++ [0]) ns) ++ r) with ((v ++ [0]) ++ concat (map (fun n => n ++ [0]) ns) ++ r) by (rewrite <- app_assoc; reflexivity).
  rewrite (drop_app (zlen v + 1)) by (rewrite zlen_app; reflexivity). rewrite IH. reflexivity.
Qed.
Lemma zlen_words ids : zlen (flat_map w32 ids) = 4 * Z.of_nat (length ids).
Proof. induction ids as [|v ids IH]; [reflexivity|]. cbn [flat_map length]. rewrite zlen_app, zlen_w32, IH. lia. Qed.
Lemma pad4_range n : 0 <= pad4 n <= 3.
Proof. unfold pad4. destruct (0 <? n mod 4) eqn:E1; lia. Qed.
Lemma edit_names_len g ns : zlen (edit_names g ns) <= zlen (concat (map (fun n => n ++ [0]) ns)) + 3.
Proof. unfold edit_names. rewrite zlen_app. set (L := zlen (concat _)). pose proof (pad4_range L). unfold zlen. rewrite garbage_len. lia. Qed.

Lemma edit_ok g user pass a m o t ids names : in_login user -> in_login pass -> sane (CEdit a m o t ids names) ->
  serve user pass (client g user pass (CEdit a m o t ids names)) = Exec (CEdit a m o t ids names).
Proof.
  intros Lu Lp (Ia & Im & Io & Fi & Fn & Ne & Ft & Lt). cbn [client]. cbv zeta. set (tx := edit_text t) in *. set (ix := flat_map w32 ids). set (nx := edit_names g names).
  pose proof (zlen_words ids) as Lx. fold ix in Lx. pose proof (edit_names_len g names) as Ln. fold nx in Ln. pose proof (zlen_bound tx) as P1. pose proof (zlen_bound nx) as P2.
  pose proof (zlen_bound (concat (map (fun n => n ++ [0]) names))) as P3.
  assert (Nn : Z.of_nat (length names) <= zlen (concat (map (fun n => n ++ [0]) names))).
  { clear. induction names as [|v ns IH]; [cbn; lia|]. cbn [map concat length]. rewrite !zlen_app. change (zlen [0]) with 1. pose proof (zlen_bound v). lia. }
  set (len := zlen tx + zlen ix + zlen nx). set (nids := Z.of_nat (length ids)) in *. set (nn := Z.of_nat (length names)) in *.
  assert (N0 : 0 <= nids) by (unfold nids; lia). assert (N1 : 0 <= nn) by (unfold nn; lia).
  set (b := w32 a ++ w32 o ++ w32 m ++ w32 nids ++ w32 nn ++ w32 (zlen nx) ++ w32 (zlen tx) ++ w32 len).
  replace (w32 a ++ w32 o ++ w32 m ++ w32 nids ++ w32 nn ++ w32 (zlen nx) ++ w32 (zlen tx) ++ w32 len ++ tx ++ ix ++ nx) with (b ++ tx ++ ix ++ nx) by (unfold b; rewrite <- !app_assoc; reflexivity).
  rewrite (serve_base user pass 6 b _ Lu Lp ltac:(lia)). 2:{ unfold b. rewrite !zlen_app, !zlen_w32. reflexivity. }
  change (execute 6 b (tx ++ ix ++ nx)) with (do_edit b (tx ++ ix ++ nx)). unfold do_edit. cbv zeta. unfold b. rewrite !drop_w32.
  rewrite !w32_int by (try assumption; unfold is_int; lia). rewrite w32_uint0 by (unfold is_uint, len; lia).
  assert (Q1 : (nids * 4 + zlen tx + zlen nx) mod 2 ^ 64 = len) by (unfold len; rewrite Z.mod_small; lia). rewrite Q1, Z.eqb_refl.
  assert (Q2 : (2 ^ 31 <=? len) = false) by (unfold len; lia). rewrite Q2. rewrite recv_all by (rewrite !zlen_app; unfold len; lia).
  assert (Q3 : (nids <=? 0) && (nn <=? 0) = false). { unfold nids, nn. destruct Ne as [Ne|Ne]; [destruct ids; [congruence|]|destruct names; [congruence|]]; cbn [length]; lia. } rewrite Q3.
  assert (T : (if (0 <? zlen tx) && negb ((a =? 1) || (a =? 11)) then option_map Some (ctext (tx ++ ix ++ nx)) else Some None) = Some t).
  { unfold tx, edit_text in *. destruct t as [s|]; [|reflexivity]. destruct Ft as (Ns & A1 & A2). rewrite <- app_assoc. cbn [app]. rewrite ctext_app by exact Ns.
    assert (X : (0 <? zlen (s ++ 0 :: repeat 0 (Z.to_nat (pad4 (zlen s + 1))))) && negb ((a =? 1) || (a =? 11)) = true).
    { unfold zlen. rewrite app_length. cbn [length]. lia. } rewrite X. reflexivity. }
  rewrite T.
  assert (D : (if 0 <? nids then if (0 <=? zlen tx) && (zlen tx + 4 * nids <=? len) then Some (read_ids (Z.to_nat nids) (drop (zlen tx) (tx ++ ix ++ nx))) else None else Some []) = Some ids).
  { assert (X : (0 <=? zlen tx) && (zlen tx + 4 * nids <=? len) = true) by (unfold len; lia). rewrite X. rewrite (drop_app (zlen tx) tx) by reflexivity. unfold nids, ix. rewrite Nat2Z.id, read_ids_ok by exact Fi.
    destruct (0 <? Z.of_nat (length ids)) eqn:G; [reflexivity|]. destruct ids; [reflexivity|]. cbn [length] in G. lia. }
  rewrite D.
  assert (M : (if 0 <? nn then if (0 <=? zlen tx + nids * 4) && (zlen tx + nids * 4 <=? len) then read_names (Z.to_nat nn) (drop (zlen tx + nids * 4) (tx ++ ix ++ nx)) else None else Some []) = Some names).
  { assert (X : (0 <=? zlen tx + nids * 4) && (zlen tx + nids * 4 <=? len) = true) by (unfold len; lia). rewrite X.
    replace (tx ++ ix ++ nx) with ((tx ++ ix) ++ nx) by (rewrite <- app_assoc; reflexivity). rewrite (drop_app (zlen tx + nids * 4) (tx ++ ix)) by (rewrite zlen_app; lia).
    unfold nn, nx, edit_names. cbv zeta. rewrite Nat2Z.id, read_names_ok by exact Fn. destruct (0 <? Z.of_nat (length names)) eqn:G; [reflexivity|]. destruct names; [reflexivity|]. cbn [length] in G. lia. }
  rewrite M. reflexivity.
Qed.

Lemma write_log_ok user pass g k t : in_login user -> in_login pass -> sane (CWriteLog k t) -> serve user pass (client g user pass (CWriteLog k t)) = Exec (CWriteLog k t).
Proof.
  intros Lu Lp (K & N & L). cbn [client]. pose proof (zlen_bound t) as P.
  replace (w32 k ++ w32 (zlen t + 1) ++ t ++ [0]) with ((w32 k ++ w32 (zlen t + 1)) ++ t ++ [0]) by (rewrite <- !app_assoc; reflexivity).
  rewrite (serve_base user pass 12 (w32 k ++ w32 (zlen t + 1)) (t ++ [0]) Lu Lp ltac:(lia) eq_refl). change (execute 12 ?b ?r) with (do_write_log b r).
  unfold do_write_log. cbv zeta. rewrite drop_w32, w32_int0 by (unfold is_int; lia). rewrite w32_uint by (unfold is_uint; lia). assert (Q1 : (zlen t + 1 <? 0) = false) by lia. rewrite Q1.
  rewrite recv_all by (rewrite zlen_app; reflexivity). assert (Q2 : (k <? 5) = true) by lia. rewrite Q2, ctext_app by exact N. reflexivity.
Qed.
Lemma list_ok user pass g f s m gr p : in_login user -> in_login pass -> sane (CList f s m gr p) -> serve user pass (client g user pass (CList f s m gr p)) = Exec (CList f s m gr p).
Proof.
  intros Lu Lp (U & Hp). cbn [client]. set (pt := match p with Some x => field 512 x | None => garbage g (Z.to_nat 512) end).
  assert (Lpt : zlen pt = 512). { unfold pt. destruct p; [apply field_len; lia|]. unfold zlen. rewrite garbage_len. reflexivity. }
  rewrite serve_only; try assumption; [|lia|rewrite !zlen_app, !zlen_w32, Lpt; reflexivity]. change (execute 3 ?b ?r) with (do_list b). unfold do_list. cbv zeta. rewrite !drop_w32, !bool_word, !w32_uint by exact U.
  rewrite <- (bool_word f []) in Hp. rewrite app_nil_r in Hp. rewrite bool_word0 in Hp.
  destruct p as [x|].
  - destruct Hp as ((Nx & Lx) & -> & ->). cbn [Z.eqb Pos.eqb andb]. unfold pt. rewrite <- (app_nil_r (field 512 x)), field_ctext by (try assumption; lia). reflexivity.
  - assert (Q : (m =? 3) && f = false) by (destruct Hp as [Hp | ->]; [lia|apply andb_false_r]). rewrite Q. reflexivity.
Qed.

Theorem round_trip g user pass c : in_login user -> in_login pass -> sane c -> serve user pass (client g user pass c) = Exec c.
Proof.
  intros Lu Lp Sc. destruct c.
  - apply download_ok; assumption.
  - cbn [client]. rewrite serve_only; try assumption; [|lia|reflexivity]. unfold execute. change (Exec (CPause (negb (word (w32 (b2z pause) ++ w32 action) =? 0)) (word (drop 4 (w32 (b2z pause) ++ w32 action)))) = Exec (CPause pause action)).
    rewrite bool_word, drop_w32, w32_uint0 by exact Sc. reflexivity.
  - apply list_ok; assumption.
  - cbn [client]. rewrite serve_only; try assumption; [|lia|reflexivity]. change (Exec (CRate (int (w32 rate))) = Exec (CRate rate)). rewrite w32_int0 by exact Sc. reflexivity.
  - cbn [client]. rewrite serve_plain; try assumption; try reflexivity; lia.
  - apply edit_ok; assumption.
  - destruct Sc as (U & N). cbn [client]. rewrite serve_only; try assumption; [|lia|reflexivity]. change (Exec (CLog (word (w32 from ++ w32 lines)) (int (drop 4 (w32 from ++ w32 lines)))) = Exec (CLog from lines)).
    rewrite drop_w32, w32_uint, w32_int0 by assumption. reflexivity.
  - cbn [client]. rewrite serve_plain; try assumption; try reflexivity; lia.
  - cbn [client]. rewrite serve_plain; try assumption; try reflexivity; lia.
  - cbn [client]. rewrite serve_plain; try assumption; try reflexivity; lia.
  - cbn [client]. rewrite serve_plain; try assumption; try reflexivity; lia.
  - apply write_log_ok; assumption.
  - cbn [client]. rewrite serve_only; try assumption; [|lia|reflexivity]. change (Exec (CScan (negb (word (w32 (b2z sync)) =? 0))) = Exec (CScan sync)). rewrite bool_word0. reflexivity.
  - cbn [client]. rewrite serve_only; try assumption; [|lia|reflexivity]. change (Exec (CHistory (negb (word (w32 (b2z hidden)) =? 0))) = Exec (CHistory hidden)). rewrite bool_word0. reflexivity.
Qed.
