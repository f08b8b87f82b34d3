(** The comparison with duplicates. *)
From Coq Require Import String.
From Verif Require Import Base WildModel NumFmt DmModel DmSpec.
From Verif Require NzbModel WebModel.
Open Scope list_scope. Open Scope Z_scope.

Lemma size_diff_iff s1 s2 limit : 0 < s1 -> 0 < s2 -> (size_diff_ok s1 s2 limit = true <-> near s1 s2 limit).
Proof.
  intros A B. unfold size_diff_ok, near. assert (Q : (s1 =? 0) || (s2 =? 0) = false) by lia. rewrite Q. cbv zeta.
  replace (if 0 <? s1 - s2 then s1 - s2 else - (s1 - s2)) with (Z.abs (s1 - s2)) by (destruct (0 <? s1 - s2) eqn:E; lia).
  replace (if s2 <? s1 then s1 else s2) with (Z.max s1 s2) by (destruct (s2 <? s1) eqn:E; lia).
  set (d := Z.abs (s1 - s2)). set (m := Z.max s1 s2). assert (M : 0 < m) by lia. assert (Dn : 0 <= d) by lia. clearbody d m. rewrite Z.quot_div_nonneg by lia. rewrite Z.ltb_lt.
  split; intros H.
  - pose proof (Z.mul_succ_div_gt (d * 100) m M) as G. nia.
  - apply Z.div_lt_upper_bound; nia.
Qed.
Lemma size_diff_zero s1 s2 limit : s1 = 0 \/ s2 = 0 -> size_diff_ok s1 s2 limit = false.
Proof. intros H. unfold size_diff_ok. assert (Q : (s1 =? 0) || (s2 =? 0) = true) by lia. rewrite Q. reflexivity. Qed.

Lemma prefix_self p s : WebModel.nocase_prefix p (p ++ s) = true.
Proof. unfold WebModel.nocase_prefix. rewrite map_app. apply prefixb_app. Qed.
Lemma quiet_step e s t : quiet t -> add_message e s t = (s, false).
Proof.
  intros (A & B & C). unfold add_message. rewrite A, B, C, andb_false_r. destruct (WebModel.nocase_prefix (str "Archive: ") t); reflexivity.
Qed.
Lemma quiet_list e ts : forall s r, Forall quiet ts -> listing e s (ts ++ r) = listing e s r.
Proof. induction ts as [|t ts IH]; intros s r F; [reflexivity|]. inversion_clear F as [|? ? A B]. cbn [app listing]. rewrite quiet_step by exact A. apply IH, B. Qed.
Lemma name_step e s n : add_message e s (name_line ++ n) = (L (l_max s) (l_comp s) (l_last s) (cut n) (l_best s), false).
Proof.
  unfold add_message. change (WebModel.nocase_prefix (str "Archive: ") (name_line ++ n)) with false. cbv iota. rewrite prefix_self. change (skipn 14 (name_line ++ n)) with n.
  change (WebModel.nocase_prefix comp_line (name_line ++ n)) with false. rewrite andb_false_r. reflexivity.
Qed.
Lemma size_step e s v : add_message e s (size_line ++ zdec v) = (if l_max s <? v then L v (l_comp s) true (l_name s) (Some (l_name s)) else L (l_max s) (l_comp s) false (l_name s) (l_best s), false).
Proof.
  unfold add_message. change (WebModel.nocase_prefix (str "Archive: ") (size_line ++ zdec v)) with false. change (WebModel.nocase_prefix name_line (size_line ++ zdec v)) with false. cbv iota.
  rewrite prefix_self. change (skipn 14 (size_line ++ zdec v)) with (zdec v). rewrite <- (app_nil_r (zdec v)), atoll_zdec by exact Logic.I. reflexivity.
Qed.
Definition compressed (m : list Z) : bool := match strstr (comp_line ++ m) (str " -m0") with Some _ => false | None => true end.
Lemma comp_step e s m : add_message e s (comp_line ++ m) =
  if l_last s then (L (l_max s) (compressed m) true (l_name s) (l_best s), (e <? l_max s) || size_diff_ok (l_max s) e 20) else (s, false).
Proof.
  unfold add_message. change (WebModel.nocase_prefix (str "Archive: ") (comp_line ++ m)) with false. change (WebModel.nocase_prefix name_line (comp_line ++ m)) with false.
  change (WebModel.nocase_prefix size_line (comp_line ++ m)) with false. cbv iota. rewrite prefix_self, andb_true_r. destruct (l_last s) eqn:Q; reflexivity.
Qed.
Lemma entry_step e s p r : packed_ok p -> listing e s (printed p ++ r) =
  if l_max s <? p_size p then
    let s' := L (p_size p) (compressed (p_method p)) true (cut (p_name p)) (Some (cut (p_name p))) in
    if (e <? p_size p) || size_diff_ok (p_size p) e 20 then s' else listing e s' r
  else listing e (L (l_max s) (l_comp s) false (cut (p_name p)) (l_best s)) r.
Proof.
  intros (S0 & B & A). unfold printed. rewrite <- !app_assoc. cbn [app listing]. rewrite name_step. cbn [l_max l_comp l_last l_name l_best]. rewrite size_step. cbn [l_max l_comp l_last l_name l_best].
  destruct (l_max s <? p_size p) eqn:Q; rewrite quiet_list by exact B; cbn [app listing]; rewrite comp_step; cbn [l_max l_comp l_last l_name l_best].
  - destruct ((e <? p_size p) || size_diff_ok (p_size p) e 20); [reflexivity|]. apply quiet_list, A.
  - apply quiet_list, A.
Qed.
Lemma compressed_iff p : compressed (p_method p) = false <-> stored p.
Proof.
  unfold compressed, stored. destruct (strstr (comp_line ++ p_method p) (str " -m0")) as [r|] eqn:Q.
  - split; [intros _|reflexivity]. 
    assert (G : forall s r0, strstr s (str " -m0") = Some r0 -> exists a b, s = a ++ str " -m0" ++ b).
    { clear. induction s as [|c s IH]; intros r0 H; cbn [strstr] in H.
      - destruct (prefixb (str " -m0") []) eqn:X; [|discriminate]. discriminate X.
      - destruct (prefixb (str " -m0") (c :: s)) eqn:X; [apply prefixb_iff in X; destruct X as (b & ->); exists [], b; reflexivity|]. destruct (IH r0 H) as (a & b & ->). exists (c :: a), b. reflexivity. }
    exact (G _ _ Q).
  - split; [discriminate|]. intros (a & b & E1). exfalso. rewrite E1 in Q. clear E1. induction a as [|c a IH]; cbn [app strstr] in Q.
    + change (str " -m0" ++ b) with (32 :: (str "-m0" ++ b)) in Q. cbn [strstr] in Q. assert (X : prefixb (str " -m0") (32 :: (str "-m0" ++ b)) = true) by (apply (prefixb_app (str " -m0") b)). rewrite X in Q. discriminate.
    + destruct (prefixb (str " -m0") (c :: a ++ str " -m0" ++ b)); [discriminate|]. apply IH, Q.
Qed.

Definition about (s : lister) (p : packed) : Prop := l_max s = p_size p /\ l_best s = Some (cut (p_name p)) /\ (l_comp s = false <-> stored p).
(** What is known after the files [pre]. *)
Definition known (s : lister) (pre : list packed) : Prop :=
  (pre = [] /\ l_max s = -1) \/ exists p, largest pre p /\ about s p.
Lemma largest_new pre p q : largest pre p -> p_size p < p_size q -> largest (pre ++ [q]) q.
Proof.
  intros (a & b & -> & A & B) H. exists (a ++ p :: b), []. split; [reflexivity|]. split; [|intros x []]. intros x Hx. apply in_app_or in Hx. destruct Hx as [Hx|[<-|Hx]]; [apply A in Hx; lia|exact H|apply B in Hx; lia].
Qed.
Lemma largest_old pre p q : largest pre p -> p_size q <= p_size p -> largest (pre ++ [q]) p.
Proof.
  intros (a & b & -> & A & B) H. exists a, (b ++ [q]). rewrite <- app_assoc. split; [reflexivity|]. split; [exact A|]. intros x Hx. apply in_app_or in Hx. destruct Hx as [Hx|[<-|[]]]; [apply B, Hx|exact H].
Qed.
Lemma listing_known e ps : forall s pre, Forall packed_ok ps -> Forall packed_ok pre -> known s pre ->
  let s' := listing e s (flat_map printed ps) in
  known s' (pre ++ ps) \/ exists q p post, pre ++ ps = (q ++ [p]) ++ post /\ largest (q ++ [p]) p /\ about s' p /\ ((e <? p_size p) || size_diff_ok (p_size p) e 20 = true).
Proof.
  cbv zeta. induction ps as [|p ps IH]; intros s pre F G K.
  - left. rewrite app_nil_r. exact K.
  - inversion_clear F as [|? ? Hp F']. cbn [flat_map]. rewrite entry_step by exact Hp. cbv zeta.
    assert (Gp : Forall packed_ok (pre ++ [p])) by (apply Forall_app; split; [exact G|constructor; [exact Hp|constructor]]).
    assert (Eq : pre ++ p :: ps = (pre ++ [p]) ++ ps) by (rewrite <- app_assoc; reflexivity). rewrite Eq. destruct (l_max s <? p_size p) eqn:Q.
    + assert (Lg : largest (pre ++ [p]) p).
      { destruct K as [(-> & _)|(p0 & Lp & M & _)]; [exists [], []; split; [reflexivity|split; intros x []]|]. apply (largest_new pre p0 p Lp). lia. }
      assert (Ab : about (L (p_size p) (compressed (p_method p)) true (cut (p_name p)) (Some (cut (p_name p)))) p).
      { unfold about. cbn [l_max l_best l_comp]. split; [reflexivity|]. split; [reflexivity|apply compressed_iff]. }
      destruct ((e <? p_size p) || size_diff_ok (p_size p) e 20) eqn:T.
      * right. exists pre, p, ps. auto.
      * apply IH; try assumption. right. exists p. auto.
    + apply IH; [exact F'|exact Gp|]. destruct K as [(-> & M)|(p0 & Lp & M & Bs & C)]; [destruct Hp as (S0 & _); lia|].
      right. exists p0. unfold about. cbn [l_max l_best l_comp]. split; [apply largest_old; [exact Lp|lia]|auto].
Qed.
Theorem rar_ok e best ps m c b : ps <> [] -> Forall packed_ok ps -> rar_largest e best (flat_map printed ps) = (m, c, b) ->
  exists pre post p, ps = pre ++ post /\ largest pre p /\ m = p_size p /\ b = Some (cut (p_name p)) /\ (c = false <-> stored p) /\
  (post = [] \/ (exists q, pre = q ++ [p]) /\ (e < m \/ near m e 20)).
Proof.
  intros N F H. unfold rar_largest in H. cbv zeta in H. pose proof (listing_known e ps (L (-1) false false [] best) [] F (Forall_nil _) (or_introl (conj eq_refl eq_refl))) as T. cbv zeta in T.
  injection H as <- <- <-. destruct T as [[(Q & _)|(p & Lp & M & B & C)]|(q & p & post & E1 & Lp & (M & B & C) & T)].
  - cbn [app] in Q. congruence.
  - cbn [app] in Lp. exists ps, [], p. rewrite app_nil_r. repeat split; try assumption; try (apply C). left. reflexivity.
  - cbn [app] in E1. exists (q ++ [p]), post, p. split; [exact E1|]. split; [exact Lp|]. split; [exact M|]. split; [exact B|]. split; [exact C|]. right. split; [exists q; reflexivity|].
    rewrite M. destruct (e <? p_size p) eqn:Y; [left; lia|]. right. cbn [orb] in T.
    assert (Np : 0 <= p_size p). { subst ps. apply Forall_app in F. destruct F as (F & _). apply Forall_app in F. destruct F as (_ & F). inversion_clear F as [|? ? (Q & _) _]. exact Q. }
    destruct (Z.eq_dec (p_size p) 0) as [Z0|Z0]; [rewrite (size_diff_zero _ _ _ (or_introl Z0)) in T; discriminate|]. apply size_diff_iff in T; [exact T|lia|lia].
Qed.

(** ** Directories *)
Lemma rar_name_no n : ~ rar_name n -> NzbModel.ends_nocase n (str ".rar") = false.
Proof.
  intros H. destruct (NzbModel.ends_nocase n (str ".rar")) eqn:Q; [|reflexivity]. exfalso. apply H. unfold NzbModel.ends_nocase in Q. apply andb_true_iff in Q. destruct Q as (_ & Q). apply beqb_eq in Q.
  exists (firstn (length n - length (str ".rar")) n), (skipn (length n - length (str ".rar")) n). split; [symmetry; apply firstn_skipn|]. rewrite <- Q. reflexivity.
Qed.
Lemma plain_go own unrar lines files : Forall (fun f => ~ rar_name (fst f)) files -> forall mx best m c b, largest_go own unrar lines files mx best = (m, c, b) ->
  c = false /\ mx <= m /\ (forall f, In f files -> snd f <= m) /\ ((m = mx /\ b = best) \/ exists n, In (n, m) files /\ b = Some (cut n)).
Proof.
  intros F. induction F as [|(n, z) files Hn F IH]; intros mx best m c b H.
  - cbn in H. injection H as <- <- <-. split; [reflexivity|]. split; [lia|]. split; [intros f []|left; auto].
  - cbn [largest_go] in H. cbn [fst] in Hn. apply rar_name_no in Hn. destruct (mx <? z) eqn:Q; cbv beta iota zeta in H; rewrite Hn in H; apply IH in H; destruct H as (C & M & A & B).
    + split; [exact C|]. split; [lia|]. split; [intros f [<-|Hf]; [cbn [snd]; lia|apply A, Hf]|]. right. destruct B as [(-> & ->)|(x & Hx & ->)]; [exists n; split; [left|]; reflexivity|exists x; split; [right; exact Hx|reflexivity]].
    + split; [exact C|]. split; [exact M|]. split; [intros f [<-|Hf]; [cbn [snd]; lia|apply A, Hf]|]. destruct B as [B|(x & Hx & ->)]; [left; exact B|right; exists x; split; [right; exact Hx|reflexivity]].
Qed.
Lemma plain_ok own unrar lines files m c b : Forall (fun f => ~ rar_name (fst f)) files -> (exists f, In f files /\ 0 < snd f) -> find_largest own unrar lines files = (m, c, b) ->
  c = false /\ (forall f, In f files -> snd f <= m) /\ exists n, In (n, m) files /\ b = Some (cut n).
Proof.
  intros F (f & Hf & P) H. destruct (plain_go own unrar lines files F 0 None m c b H) as (C & M & A & B). split; [exact C|]. split; [exact A|]. destruct B as [(-> & _)|B]; [apply A in Hf; lia|exact B].
Qed.
Lemma matching_ok unrar mx comp dupes : forall l, matching unrar mx comp dupes = Used l ->
  forall d, In d l <-> In d dupes /\ exists b, find_largest (Some mx) unrar (d_lines d) (d_files d) = (mx, comp, Some b).
Proof.
  induction dupes as [|x dupes IH]; intros l H d; cbn [matching] in H; [injection H as <-; cbn; tauto|].
  destruct (match_dupe unrar mx comp x) as [b|] eqn:M; [|discriminate]. destruct (matching unrar mx comp dupes) as [|r]; [discriminate|]. injection H as <-. specialize (IH r eq_refl d).
  unfold match_dupe in M. destruct (find_largest (Some mx) unrar (d_lines x) (d_files x)) as ((m, c), [n|]) eqn:Q; [|discriminate]. injection M as <-.
  destruct ((m =? mx) && Bool.eqb c comp) eqn:T.
  - apply andb_true_iff in T. destruct T as (T1 & T2). apply Z.eqb_eq in T1. apply eqb_prop in T2. subst m c. cbn [In]. rewrite IH. split; [intros [<-|(A & B)]; [split; [left; reflexivity|exists n; exact Q]|auto]|intros ([A|A] & B); auto].
  - rewrite IH. cbn [In]. split; [intros (A & B); auto|]. intros ([<-|A] & B); [|auto]. destruct B as (b & B). rewrite Q in B. injection B as -> -> _. rewrite Z.eqb_refl, eqb_reflx in T. discriminate.
Qed.
Theorem sources_ok unrar expected own dupes l mx comp b : find_largest None unrar (d_lines own) (d_files own) = (mx, comp, b) -> 0 < mx -> 0 < expected -> near mx expected 20 ->
  sources unrar expected own dupes = Used l -> forall d, In d l <-> In d dupes /\ exists n, find_largest (Some mx) unrar (d_lines d) (d_files d) = (mx, comp, Some n).
Proof.
  intros H P Q Nr S1 d. unfold sources in S1. destruct dupes as [|x dupes]; [injection S1 as <-; cbn; tauto|]. rewrite H in S1. destruct b as [b|]; [|discriminate].
  apply (size_diff_iff mx expected 20 P Q) in Nr. rewrite Nr in S1. apply (matching_ok unrar mx comp (x :: dupes) l S1).
Qed.
