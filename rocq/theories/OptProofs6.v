(** Proofs about old names in definitions, scripts and categories. *)
From Coq Require Import String.
From Verif Require Import Base NumFmt LineModel WildSpec WildModel WildProofs TextProofs WebModel WebSpec WebProofs OptModel OptSpec OptProofs OptProofs2 OptProofs3 OptProofs5 FeedSpec FeedProofs3.
Open Scope list_scope. Open Scope Z_scope.

Lemma lc_46 c : lc c = 46 <-> c = 46.
Proof. unfold lc. destruct ((65 <=? c) && (c <=? 90)) eqn:E; lia. Qed.
Lemma dot_diff n x : In 46 n -> existsb (Z.eqb 46) (str x) = false -> nocase_eq n (str x) = false.
Proof.
  intros H N. apply nocase_diff. intros S1. assert (Q : In 46 (map lc (str x))). { unfold same in S1. rewrite <- S1. change 46 with (lc 46). apply in_map, H. }
  apply in_map_iff in Q as (c & E & Hc). rewrite lc_46 in E. rewrite E in Hc.
  assert (T : existsb (Z.eqb 46) (str x) = true) by (apply existsb_exists; exists 46; split; [exact Hc|reflexivity]). congruence.
Qed.
Ltac dots n v D := repeat first [rewrite (renamed_no _ _ n v) by (apply dot_diff; [exact D|reflexivity]) |
  rewrite (revalued_no _ _ _ n v) by (apply andb_false_iff; left; apply dot_diff; [exact D|reflexivity]) |
  rewrite (buffer_no n v) by (apply dot_diff; [exact D|reflexivity]) | rewrite (decode_no n v) by (apply dot_diff; [exact D|reflexivity])].
Lemma name_dot p ds e : (exists q, str e = 46 :: q) -> In 46 (str p ++ ds ++ str e).
Proof. intros (q & ->). apply in_or_app. right. apply in_or_app. right. left. reflexivity. Qed.

Lemma prefix_lit p s : nocase_prefix p (p ++ s) = true.
Proof. apply prefix_same. exists p, s. split; reflexivity. Qed.
Lemma category_yes ds v e : Forall digit ds -> e = ".DefScript"%string \/ e = ".PostScript"%string ->
  old_category (str "Category" ++ ds ++ str e, v) = (str "Category" ++ ds ++ str ".Extensions", v).
Proof.
  intros Hd He. unfold old_category. cbn [fst snd]. rewrite prefix_lit. cbn [andb].
  assert (Nd : ~ In 46 (str "Category" ++ ds)). { rewrite in_app_iff. intros [X|X]; [vm_compute in X; intuition discriminate|apply (digits_nodot ds Hd X)]. }
  assert (T : nocase_end (str "Category" ++ ds ++ str e) (str ".DefScript") || nocase_end (str "Category" ++ ds ++ str e) (str ".PostScript") = true).
  { rewrite app_assoc. apply orb_true_iff. destruct He as [-> | ->]; [left|right]; apply nocase_end_app; discriminate. }
  rewrite T. f_equal. rewrite !app_assoc. destruct He as [-> | ->].
  - rewrite (replaced_end ".DefScript" ".Extensions") by (auto; eexists; reflexivity). unfold replaced. apply replace_no.
    apply strstr_no; [exact Nd|eexists; reflexivity|reflexivity].
  - replace (replaced ".DefScript" ".Extensions" ((str "Category" ++ ds) ++ str ".PostScript")) with ((str "Category" ++ ds) ++ str ".PostScript").
    + apply replaced_end; [exact Nd|eexists; reflexivity].
    + symmetry. unfold replaced. apply replace_no. apply strstr_no; [exact Nd|eexists; reflexivity|reflexivity].
Qed.
Lemma feed_yes ds v : Forall digit ds -> old_feed (str "Feed" ++ ds ++ str ".FeedScript", v) = (str "Feed" ++ ds ++ str ".Extensions", v).
Proof.
  intros Hd. unfold old_feed. cbn [fst snd]. rewrite prefix_lit. cbn [andb].
  assert (Nd : ~ In 46 (str "Feed" ++ ds)). { rewrite in_app_iff. intros [X|X]; [vm_compute in X; intuition discriminate|apply (digits_nodot ds Hd X)]. }
  rewrite app_assoc. rewrite nocase_end_app by discriminate. f_equal. rewrite app_assoc. apply replaced_end; [exact Nd|eexists; reflexivity].
Qed.
Theorem ends_ok : forall p e w ds v, In (p, e, w) old_ends -> Forall digit ds -> convert_old (str p ++ ds ++ str e, v) = (str p ++ ds ++ str w, v).
Proof.
  intros p e w ds v H Hd. rewrite convert_steps.
  assert (D : In 46 (str p ++ ds ++ str e)) by (apply name_dot; unfold old_ends in H; cbn [In] in H; destruct H as [H|[H|[H|[]]]]; injection H as <- <- <-; eexists; reflexivity).
  assert (D2 : In 46 (str p ++ ds ++ str w)) by (apply name_dot; unfold old_ends in H; cbn [In] in H; destruct H as [H|[H|[H|[]]]]; injection H as <- <- <-; eexists; reflexivity).
  remember (str p ++ ds ++ str e) as n eqn:En. dots n v D.
  unfold old_ends in H. cbn [In] in H. destruct H as [H|[H|[H|[]]]]; injection H as <- <- <-; rewrite En.
  - rewrite category_yes by auto. rewrite feed_no by reflexivity. remember (str "Category" ++ ds ++ str ".Extensions") as m eqn:Em. dots m v D2. reflexivity.
  - rewrite category_yes by auto. rewrite feed_no by reflexivity. remember (str "Category" ++ ds ++ str ".Extensions") as m eqn:Em. dots m v D2. reflexivity.
  - rewrite category_no by reflexivity. rewrite feed_yes by auto. remember (str "Feed" ++ ds ++ str ".Extensions") as m eqn:Em. dots m v D2. reflexivity.
Qed.

(** ** Categories *)

Lemma find_index_some {A} (f : A -> bool) : forall l i, find_index f l = Some i <-> exists x, nth_error l i = Some x /\ f x = true /\ forall j y, (j < i)%nat -> nth_error l j = Some y -> f y = false.
Proof.
  induction l as [|x l IH]; intros i; cbn [find_index].
  - split; [discriminate|]. intros (x & H & _). destruct i; discriminate.
  - destruct (f x) eqn:E.
    + split.
      * intros H. injection H as <-. exists x. repeat split; auto. intros j y H. lia.
      * intros (y & H1 & H2 & H3). destruct i as [|i]; [reflexivity|]. rewrite (H3 O x) in E; [discriminate|lia|reflexivity].
    + destruct (find_index f l) as [k|] eqn:F; cbn [option_map].
      * split.
        -- intros H. injection H as <-. destruct (proj1 (IH k) eq_refl) as (y & H1 & H2 & H3). exists y. split; [exact H1|]. split; [exact H2|].
           intros [|j] z Hj Hz; [cbn in Hz; congruence|]. apply (H3 j z); [lia|exact Hz].
        -- intros (y & H1 & H2 & H3). destruct i as [|i]; [cbn in H1; congruence|].
           assert (Q : Some k = Some i) by (apply IH; exists y; split; [exact H1|]; split; [exact H2|]; intros j z Hj Hz; apply (H3 (S j) z); [lia|exact Hz]). congruence.
      * split; [discriminate|]. intros (y & H1 & H2 & H3). destruct i as [|i]; [cbn in H1; congruence|].
        assert (Q : None = Some i) by (apply IH; exists y; split; [exact H1|]; split; [exact H2|]; intros j z Hj Hz; apply (H3 (S j) z); [lia|exact Hz]). discriminate.
Qed.
Lemma find_index_none {A} (f : A -> bool) l : find_index f l = None <-> forall x, In x l -> f x = false.
Proof.
  induction l as [|x l IH]; cbn [find_index]; [split; [intros _ ? []|reflexivity]|]. destruct (f x) eqn:E.
  - split; [discriminate|]. intros H. rewrite H in E by (left; reflexivity). discriminate.
  - destruct (find_index f l) eqn:F; cbn [option_map].
    + split; [discriminate|]. intros H. assert (Q : Some n = None) by (apply IH; intros y Hy; apply H; right; exact Hy). discriminate.
    + split; [|reflexivity]. intros _ y [<-|Hy]; [exact E|]. apply IH; auto.
Qed.
Lemma wild_ok mask n : ~ In 0 n -> wild mask n = true <-> glob wild_char mask n.
Proof. intros H. unfold wild. destruct (wild_match_ok false mask n H) as (b & g & -> & E). exact E. Qed.
Lemma find_first {A} (f : A -> bool) (P : A -> Prop) l i : (forall x, f x = true <-> P x) -> find_index f l = Some i <-> first_that P l i.
Proof.
  intros H. rewrite find_index_some. unfold first_that. split; intros (x & H1 & H2 & H3); exists x; (split; [exact H1|]); (split; [apply H, H2|]);
    intros j y Hj Hy; specialize (H3 j y Hj Hy).
  - intros X. apply H in X. congruence.
  - destruct (f y) eqn:E; [|reflexivity]. apply H in E. contradiction.
Qed.
Theorem category_ok : forall l n aliases i, ~ In 0 n ->
  find_category l n aliases = Some i <->
  first_that (fun c => same (c_name c) n) l i \/
  (aliases = true /\ (forall c, In c l -> ~ same (c_name c) n) /\ first_that (fun c => exists a, In a (c_aliases c) /\ glob wild_char a n) l i).
Proof.
  intros l n al i Hn. unfold find_category.
  assert (F := fun k => find_first (fun c => nocase_eq (c_name c) n) (fun c => same (c_name c) n) l k (fun c => nocase_same (c_name c) n)).
  assert (G := fun k => find_first (fun c => existsb (fun a => wild a n) (c_aliases c)) (fun c => exists a, In a (c_aliases c) /\ glob wild_char a n) l k).
  assert (W : forall x, existsb (fun a => wild a n) (c_aliases x) = true <-> exists a, In a (c_aliases x) /\ glob wild_char a n).
  { intros x. rewrite existsb_exists. split; intros (a & H1 & H2); exists a; (split; [exact H1|]); apply wild_ok in H2 || apply wild_ok; auto. }
  destruct (find_index (fun c => nocase_eq (c_name c) n) l) as [k|] eqn:E.
  - assert (K := proj1 (F k) eq_refl). rewrite <- F. split; [auto|]. intros [H|(_ & H & _)]; [exact H|].
    destruct K as (x & Hx & Hs & _). exfalso. apply (H x); [eapply nth_error_In, Hx|exact Hs].
  - assert (N := proj1 (find_index_none _ l) E). split.
    + destruct al; [|discriminate]. intros H. right. split; [reflexivity|]. split; [|apply G; auto].
      intros c Hc. apply nocase_diff, (N c Hc).
    + intros [H|(-> & _ & H)]; [|apply G; auto]. apply F in H. discriminate.
Qed.

(** ** Old script options *)

Lemma in_seps c : in_set (str ",;") c = (c =? 44) || (c =? 59).
Proof. unfold in_set. change (str ",;") with [44; 59]. cbn [existsb]. rewrite orb_false_r. reflexivity. Qed.
Definition scripts (v : list Z) : list (list Z) := kept (str ",;") v.
Lemma scripts_ok v s : In s (scripts v) <-> script_in v s.
Proof.
  unfold scripts. rewrite FeedProofs3.kept_words. unfold FeedSpec.word_of, script_in. fold (in_set (str ",;")).
  rewrite (fields_ext _ (fun c => (c =? 44) || (c =? 59))) by apply in_seps. split; intros (f & H); exists f; intuition.
Qed.
Lemma fields_cut sep a c r : sep c = true -> fields sep (a ++ c :: r) = fields sep a ++ fields sep r.
Proof.
  intros Hc. induction a as [|x a IH]; cbn [app fields]; [rewrite Hc; reflexivity|]. rewrite IH. destruct (sep x); [reflexivity|].
  destruct (fields sep a) eqn:E; [|reflexivity]. exfalso. destruct a; cbn [fields] in E; [discriminate|]. destruct (sep z); [discriminate|].
  destruct (fields sep a); discriminate.
Qed.
Lemma scripts_cut a r : scripts (a ++ 44 :: r) = scripts a ++ scripts r.
Proof. unfold scripts, kept. rewrite fields_cut by reflexivity. rewrite map_app, filter_app. reflexivity. Qed.
Definition token (s : list Z) : Prop := scripts s = [s].
Lemma tokens_token v s : In s (scripts v) -> token s.
Proof.
  intros H. unfold token, scripts, kept in *. apply filter_In in H as (H & Hn). apply in_map_iff in H as (f & E & Hf).
  assert (A := fields_no_sep (in_set (str ",;")) v). rewrite Forall_forall in A. specialize (A f Hf).
  assert (T : trimmed f s) by (rewrite <- E; apply trim_ok).
  assert (T2 : trimmed s s). { destruct T as (a & b & _ & _ & _ & H1 & H2). exists [], []. rewrite app_nil_r. repeat split; auto. }
  rewrite fields_one. { cbn [map filter]. rewrite (trimmed_unique s (trim s) s (trim_ok s) T2), Hn. reflexivity. }
  destruct T as (a & b & -> & _). apply Forall_app in A as (_ & A). apply Forall_app in A as (A & _). exact A.
Qed.
Definition known (v s : list Z) : bool := existsb (fun x => nocase_eq x s) (scripts v).
Lemma known_ok v s : known v s = true <-> script_known v s.
Proof.
  unfold known, script_known. rewrite existsb_exists. split; intros (x & H1 & H2); exists x; (split; [apply scripts_ok, H1|apply nocase_same, H2]).
Qed.
Lemma has_ok v s : has_script v s = Some (known v s).
Proof. unfold has_script. rewrite tokens_ok. reflexivity. Qed.
(** The new text of a list of scripts. *)
Definition grown (et : bool) (s v : list Z) : list Z :=
  if known v s then v else match v with [] => if et then s else [] | _ => v ++ 44 :: s end.
Lemma known_cut v w s : known (v ++ 44 :: w) s = known v s || known w s.
Proof. unfold known. rewrite scripts_cut, existsb_app. reflexivity. Qed.
Lemma known_token x s : token x -> known x s = nocase_eq x s.
Proof. unfold token, known. intros ->. cbn [existsb]. apply orb_false_r. Qed.
Lemma known_cong v a b : same a b -> known v a = known v b.
Proof. intros H. unfold known. induction (scripts v) as [|x l IH]; [reflexivity|]. cbn [existsb]. rewrite IH. f_equal. apply nocase_cong; [reflexivity|exact H]. Qed.
Lemma grown_known et x v s : token x -> (et = true \/ v <> []) -> known (grown et x v) s = known v s || nocase_eq x s.
Proof.
  intros T H. unfold grown. destruct (known v x) eqn:E.
  - destruct (nocase_eq x s) eqn:Q; [|rewrite orb_false_r; reflexivity]. apply nocase_same in Q. rewrite (known_cong v x s Q) in E. rewrite E. reflexivity.
  - destruct v as [|c v].
    + destruct et; [|destruct H; [discriminate|contradiction]]. rewrite known_token by exact T. reflexivity.
    + rewrite known_cut, (known_token x) by exact T. reflexivity.
Qed.
Lemma grown_empty x : grown false x [] = [].
Proof. unfold grown. destruct (known [] x); reflexivity. Qed.
Lemma grown_prefix et x v : exists r, grown et x v = v ++ r.
Proof.
  unfold grown. destruct (known v x); [exists []; symmetry; apply app_nil_r|]. destruct v; [destruct et; eexists; reflexivity|eexists; reflexivity].
Qed.
Definition tx (t : list entry) (n : list Z) : list Z := value_of (get t n).
Lemma append_ok et s e : exists e', append_script et s e = Some e' /\ e_name e' = e_name e /\ value_of (e_value e') = grown et s (value_of (e_value e)).
Proof.
  unfold append_script. rewrite has_ok. unfold grown. change (text e) with (value_of (e_value e)).
  destruct (known (value_of (e_value e)) s); [eauto|]. destruct (value_of (e_value e)) as [|c v] eqn:E.
  - destruct et; [exists (with_value e s)|exists e]; auto.
  - exists (with_value e ((c :: v) ++ [44] ++ s)). auto.
Qed.
Lemma first_ok s n t : exists t', on_first (append_script true s) n t = Some t' /\ (forall m, ~ same m n -> find_opt m t' = find_opt m t) /\
  (find_opt n t <> None -> tx t' n = grown true s (tx t n)) /\ (forall m, find_opt m t' = None <-> find_opt m t = None).
Proof.
  induction t as [|e t (t' & E & H1 & H2 & H3)]; cbn [on_first].
  - exists []. split; [reflexivity|]. split; [reflexivity|]. split; [intros X; contradiction|]. reflexivity.
  - destruct (nocase_eq (e_name e) n) eqn:Q.
    + destruct (append_ok true s e) as (e' & -> & N & V). cbn [option_map]. exists (e' :: t). split; [reflexivity|].
      split; [|split].
      * intros m Hm. cbn [find_opt]. rewrite N. destruct (nocase_eq (e_name e) m) eqn:P; [|reflexivity].
        exfalso. apply Hm. apply nocase_same in P, Q. unfold same in *. congruence.
      * intros _. unfold tx, get. cbn [find_opt]. rewrite N, Q. exact V.
      * intros m. cbn [find_opt]. rewrite N. destruct (nocase_eq (e_name e) m); [split; discriminate|reflexivity].
    + rewrite E. cbn [option_map]. exists (e :: t'). split; [reflexivity|]. split; [|split].
      * intros m Hm. cbn [find_opt]. destruct (nocase_eq (e_name e) m); [reflexivity|]. apply H1, Hm.
      * unfold tx, get. cbn [find_opt]. rewrite Q. exact H2.
      * intros m. cbn [find_opt]. destruct (nocase_eq (e_name e) m); [reflexivity|]. apply H3.
Qed.
Lemma category_ext_ok n : is_category_ext n = true <-> category_extensions n.
Proof.
  assert (E : is_category_ext n = numbered (str "Category") (map str [".Extensions"%string]) n).
  { unfold is_category_ext, numbered. cbn [map one_of existsb]. unfold one_of. cbn [existsb]. rewrite orb_false_r. reflexivity. }
  rewrite E, numbered_field by reflexivity. unfold category_extensions. split.
  - intros (a & ds & b & f & [<-|[]] & H). exists a, ds, b. exact H.
  - intros (a & ds & b & H). exists a, ds, b, ".Extensions"%string. split; [left; reflexivity|exact H].
Qed.
Lemma lc_digit c d : digit d -> lc c = lc d -> c = d.
Proof. unfold digit, lc. intros H. destruct ((65 <=? c) && (c <=? 90)) eqn:E1, ((65 <=? d) && (d <=? 90)) eqn:E2; lia. Qed.
Lemma same_digits ds es : Forall digit ds -> same es ds -> es = ds.
Proof.
  intros H. revert es. induction H as [|d ds Hd H IH]; intros [|e es] S1; try discriminate; [reflexivity|]. unfold same in S1. cbn [map] in S1.
  injection S1 as S2 S3. f_equal; [apply lc_digit; assumption|apply IH, S3].
Qed.
Lemma same_app n a b : same n (a ++ b) -> exists a' b', n = a' ++ b' /\ same a' a /\ same b' b.
Proof.
  unfold same. rewrite map_app. intros H. exists (firstn (length a) n), (skipn (length a) n). split; [symmetry; apply firstn_skipn|].
  rewrite <- firstn_map, <- skipn_map, H. rewrite firstn_app, skipn_app, map_length, Nat.sub_diag. cbn [firstn skipn].
  rewrite app_nil_r. rewrite <- (map_length lc a). rewrite firstn_all, skipn_all. split; reflexivity.
Qed.
Lemma category_cong n m : same n m -> category_extensions m -> category_extensions n.
Proof.
  intros H (a & ds & b & -> & Ha & Hd & Hb). apply same_app in H as (a' & r & -> & Ha' & Hr). apply same_app in Hr as (ds' & b' & -> & Hd' & Hb').
  apply same_digits in Hd'; [|exact Hd]. subst ds'. exists a', ds, b'. repeat split; auto; eapply same_trans; eassumption.
Qed.
Lemma category_ext_cong n m : same n m -> is_category_ext n = is_category_ext m.
Proof.
  intros H. destruct (is_category_ext m) eqn:E.
  - apply category_ext_ok in E. apply category_ext_ok. eapply category_cong; eassumption.
  - destruct (is_category_ext n) eqn:F; [|reflexivity]. apply category_ext_ok in F. apply (category_cong m n (same_sym _ _ H)) in F. apply category_ext_ok in F. congruence.
Qed.
Lemma cats_ok s t : exists t', map_opt (fun e => if is_category_ext (e_name e) then append_script false s e else Some e) t = Some t' /\
  (forall m, is_category_ext m = false -> find_opt m t' = find_opt m t) /\ (forall m, is_category_ext m = true -> tx t' m = grown false s (tx t m)) /\
  (forall m, find_opt m t' = None <-> find_opt m t = None).
Proof.
  induction t as [|e t (t' & E & H1 & H2 & H3)]; cbn [map_opt].
  - exists []. split; [reflexivity|]. split; [reflexivity|]. split; [|reflexivity]. intros m _. unfold tx. cbn [get find_opt value_of]. symmetry. apply grown_empty.
  - rewrite E. destruct (is_category_ext (e_name e)) eqn:Q.
    + destruct (append_ok false s e) as (e' & -> & N & V). exists (e' :: t'). split; [reflexivity|]. split; [|split].
      * intros m Hm. cbn [find_opt]. rewrite N. destruct (nocase_eq (e_name e) m) eqn:P; [|apply H1, Hm].
        apply nocase_same in P. rewrite (category_ext_cong _ _ P) in Q. congruence.
      * intros m Hm. unfold tx, get. cbn [find_opt]. rewrite N. destruct (nocase_eq (e_name e) m); [exact V|apply H2, Hm].
      * intros m. cbn [find_opt]. rewrite N. destruct (nocase_eq (e_name e) m); [split; discriminate|apply H3].
    + exists (e :: t'). split; [reflexivity|]. split; [|split].
      * intros m Hm. cbn [find_opt]. destruct (nocase_eq (e_name e) m); [reflexivity|apply H1, Hm].
      * intros m Hm. unfold tx, get. cbn [find_opt]. destruct (nocase_eq (e_name e) m) eqn:P; [|apply H2, Hm].
        apply nocase_same in P. rewrite (category_ext_cong _ _ P) in Q. congruence.
      * intros m. cbn [find_opt]. destruct (nocase_eq (e_name e) m); [reflexivity|apply H3].
Qed.
Lemma ext_not_category : is_category_ext ext_name = false.
Proof. reflexivity. Qed.
Lemma merge_ok cats : forall l t, Forall token l -> find_opt ext_name t <> None -> exists t', merge_scripts cats l t = Some t' /\
  (forall m, ~ same m ext_name -> (cats = false \/ is_category_ext m = false) -> find_opt m t' = find_opt m t) /\
  find_opt ext_name t' <> None /\
  (exists r, tx t' ext_name = tx t ext_name ++ r) /\
  (forall s, known (tx t' ext_name) s = known (tx t ext_name) s || existsb (fun x => nocase_eq x s) l) /\
  (cats = true -> forall m, is_category_ext m = true -> (exists r, tx t' m = tx t m ++ r) /\ (tx t m = [] -> tx t' m = []) /\
     (tx t m <> [] -> forall s, known (tx t' m) s = known (tx t m) s || existsb (fun x => nocase_eq x s) l)).
Proof.
  induction l as [|x l IH]; intros t Hl Ht; cbn [merge_scripts].
  - exists t. split; [reflexivity|]. split; [reflexivity|]. split; [exact Ht|]. split; [exists []; symmetry; apply app_nil_r|].
    split; [intros s; symmetry; apply orb_false_r|]. intros _ m Hm. split; [exists []; symmetry; apply app_nil_r|]. split; [auto|]. intros _ s. symmetry. apply orb_false_r.
  - inversion Hl as [|? ? Hx Hl']; subst. destruct (first_ok x ext_name t) as (t1 & -> & A1 & A2 & A3). specialize (A2 Ht).
    assert (B : exists t2, (if cats then map_opt (fun e => if is_category_ext (e_name e) then append_script false x e else Some e) t1 else Some t1) = Some t2 /\
      (forall m, cats = false \/ is_category_ext m = false -> find_opt m t2 = find_opt m t1) /\
      (forall m, cats = true -> is_category_ext m = true -> tx t2 m = grown false x (tx t1 m))).
    { destruct cats.
      - destruct (cats_ok x t1) as (t2 & E & B1 & B2 & B3). exists t2. split; [exact E|]. split; [intros m [Q|Q]; [discriminate|apply B1, Q]|intros m _; apply B2].
      - exists t1. split; [reflexivity|]. split; [reflexivity|]. intros m Q. discriminate. }
    destruct B as (t2 & -> & B1 & B2). assert (E2 : tx t2 ext_name = tx t1 ext_name) by (unfold tx, get; rewrite B1 by (right; reflexivity); reflexivity).
    destruct (IH t2 Hl') as (t' & -> & C1 & C2 & C3 & C4 & C5). { rewrite B1 by (right; reflexivity). intros Q. apply A3 in Q. contradiction. }
    exists t'. split; [reflexivity|]. split; [|split; [exact C2|split; [|split]]].
    + intros m Hm Hc. rewrite C1, B1, A1 by assumption. reflexivity.
    + destruct C3 as (r & ->). rewrite E2, A2. destruct (grown_prefix true x (tx t ext_name)) as (r' & ->). exists (r' ++ r). symmetry. apply app_assoc.
    + intros s. rewrite C4, E2, A2, grown_known by auto. cbn [existsb]. symmetry. apply orb_assoc.
    + intros Hc m Hm. destruct (C5 Hc m Hm) as ((r & D1) & D2 & D3). rewrite (B2 m Hc Hm) in D1, D2, D3.
      assert (N : ~ same m ext_name). { intros Q. rewrite (category_ext_cong _ _ Q), ext_not_category in Hm. discriminate. }
      assert (G : tx t1 m = tx t m) by (unfold tx, get; rewrite A1 by exact N; reflexivity). rewrite G in D1, D2, D3.
      split; [|split].
      * destruct (grown_prefix false x (tx t m)) as (r' & Er). rewrite Er in D1. exists (r' ++ r). rewrite D1. symmetry. apply app_assoc.
      * intros Z0. apply D2. rewrite Z0. apply grown_empty.
      * intros Nz s. rewrite D3.
        -- rewrite grown_known by auto. cbn [existsb]. symmetry. apply orb_assoc.
        -- destruct (grown_prefix false x (tx t m)) as (r' & ->). destruct (tx t m); [contradiction|discriminate].
Qed.
Lemma find_ext_add t : let t1 := match find_opt ext_name t with Some _ => t | None => t ++ [mkE ext_name (Some []) None] end in
  find_opt ext_name t1 <> None /\ tx t1 ext_name = tx t ext_name /\ forall m, ~ same m ext_name -> find_opt m t1 = find_opt m t.
Proof.
  cbv zeta. destruct (find_opt ext_name t) as [e|] eqn:E.
  - rewrite E. split; [discriminate|]. auto.
  - unfold tx, get. rewrite find_app, E. change (nocase_eq (e_name (mkE ext_name (Some []) None)) ext_name) with true. cbn iota. split; [discriminate|]. split; [reflexivity|].
    intros m Hm. rewrite find_app. destruct (find_opt m t); [reflexivity|]. cbn [e_name]. destruct (nocase_eq ext_name m) eqn:Q; [|reflexivity].
    exfalso. apply Hm. apply same_sym, nocase_same, Q.
Qed.
Lemma merge_old_ok n cats t : exists t', merge_old n cats t = Some t' /\
  (forall m, ~ same m ext_name -> (cats = false \/ is_category_ext m = false) -> get t' m = get t m) /\
  (exists r, tx t' ext_name = tx t ext_name ++ r) /\
  (forall s, known (tx t' ext_name) s = known (tx t ext_name) s || known (tx t n) s) /\
  (cats = true -> forall m, is_category_ext m = true -> (exists r, tx t' m = tx t m ++ r) /\ (tx t m = [] -> tx t' m = []) /\
     (tx t m <> [] -> forall s, known (tx t' m) s = known (tx t m) s || known (tx t n) s)).
Proof.
  unfold merge_old. assert (Same : tx t n = [] -> exists t', Some t = Some t' /\
  (forall m, ~ same m ext_name -> (cats = false \/ is_category_ext m = false) -> get t' m = get t m) /\
  (exists r, tx t' ext_name = tx t ext_name ++ r) /\
  (forall s, known (tx t' ext_name) s = known (tx t ext_name) s || known (tx t n) s) /\
  (cats = true -> forall m, is_category_ext m = true -> (exists r, tx t' m = tx t m ++ r) /\ (tx t m = [] -> tx t' m = []) /\
     (tx t m <> [] -> forall s, known (tx t' m) s = known (tx t m) s || known (tx t n) s))).
  { intros E. exists t. split; [reflexivity|]. split; [reflexivity|]. rewrite E. split; [exists []; symmetry; apply app_nil_r|].
    split; [intros s; symmetry; apply orb_false_r|]. intros _ m _. split; [exists []; symmetry; apply app_nil_r|]. split; [auto|]. intros _ s. symmetry. apply orb_false_r. }
  destruct (get t n) as [[|c v]|] eqn:G; try (apply Same; unfold tx; rewrite G; reflexivity). clear Same.
  cbv zeta. rewrite tokens_ok. destruct (find_ext_add t) as (F1 & F2 & F3).
  remember (match find_opt ext_name t with Some _ => t | None => t ++ [mkE ext_name (Some []) None] end) as t1 eqn:Et. clear Et.
  assert (K : forall s, existsb (fun x => nocase_eq x s) (kept (str ",;") (c :: v)) = known (tx t n) s) by (intros s; unfold tx; rewrite G; reflexivity).
  destruct (merge_ok cats (kept (str ",;") (c :: v)) t1) as (t' & -> & C1 & C2 & C3 & C4 & C5); [|exact F1|].
  { apply Forall_forall. intros x Hx. apply (tokens_token (c :: v)), Hx. }
  exists t'. split; [reflexivity|]. split; [|split; [|split]].
  - intros m Hm Hc. unfold get. rewrite C1, F3 by assumption. reflexivity.
  - rewrite <- F2. exact C3.
  - intros s. rewrite C4, F2, K. reflexivity.
  - intros Hc m Hm. destruct (C5 Hc m Hm) as (D1 & D2 & D3).
    assert (N : ~ same m ext_name). { intros Q. rewrite (category_ext_cong _ _ Q), ext_not_category in Hm. discriminate. }
    assert (E : tx t1 m = tx t m) by (unfold tx, get; rewrite F3 by exact N; reflexivity). rewrite E in D1, D2, D3.
    split; [exact D1|]. split; [exact D2|]. intros Z0 s. rewrite D3, K by exact Z0. reflexivity.
Qed.
Lemma tx_old t t' n : (forall m, ~ same m ext_name -> is_category_ext m = false -> get t' m = get t m) -> In n scripts_before -> tx t' (str n) = tx t (str n).
Proof.
  intros H Hn. unfold tx. rewrite H; [reflexivity| |]; unfold scripts_before in Hn; cbn [In] in Hn; destruct Hn as [<-|[<-|[<-|[]]]]; try reflexivity; intros Q; vm_compute in Q; discriminate.
Qed.
Theorem scripts_merged : forall t, exists t', convert_options t = Some t' /\
  (forall m, ~ same m (str "Extensions") -> ~ category_extensions m -> get t' m = get t m) /\
  (exists r, value_of (get t' (str "Extensions")) = value_of (get t (str "Extensions")) ++ r) /\
  (forall s, script_known (value_of (get t' (str "Extensions"))) s <-> script_known (value_of (get t (str "Extensions"))) s \/
     exists n, In n scripts_before /\ script_known (value_of (get t (str n))) s) /\
  (forall m, category_extensions m -> (exists r, value_of (get t' m) = value_of (get t m) ++ r) /\ (value_of (get t m) = [] -> value_of (get t' m) = []) /\
     (value_of (get t m) <> [] -> forall s, script_known (value_of (get t' m)) s <-> script_known (value_of (get t m)) s \/
       script_known (value_of (get t (str "ScanScript"))) s \/ script_known (value_of (get t (str "QueueScript"))) s)).
Proof.
  intros t. unfold convert_options.
  destruct (merge_old_ok (str "ScanScript") true t) as (t1 & -> & A1 & (r1 & A2) & A3 & A4).
  destruct (merge_old_ok (str "QueueScript") true t1) as (t2 & -> & B1 & (r2 & B2) & B3 & B4).
  destruct (merge_old_ok (str "FeedScript") false t2) as (t3 & -> & C1 & (r3 & C2) & C3 & _).
  exists t3. split; [reflexivity|].
  assert (E1 : forall n, In n scripts_before -> tx t1 (str n) = tx t (str n)) by (intros n Hn; apply tx_old; [intros m X Y; apply A1; auto|exact Hn]).
  assert (E2 : forall n, In n scripts_before -> tx t2 (str n) = tx t1 (str n)) by (intros n Hn; apply tx_old; [intros m X Y; apply B1; auto|exact Hn]).
  rewrite (E1 "QueueScript"%string) in B3, B4 by (right; left; reflexivity).
  rewrite (E2 "FeedScript"%string), (E1 "FeedScript"%string) in C3 by (right; right; left; reflexivity).
  assert (NE : forall m, category_extensions m -> ~ same m ext_name). { intros m Hm Q. apply category_ext_ok in Hm. rewrite (category_ext_cong _ _ Q), ext_not_category in Hm. discriminate. }
  split; [|split; [|split]].
  - intros m Hm Hc. assert (Q : is_category_ext m = false) by (destruct (is_category_ext m) eqn:Q; [exfalso; apply Hc, category_ext_ok, Q|reflexivity]).
    rewrite C1, B1, A1 by auto. reflexivity.
  - change (str "Extensions") with ext_name. change (exists r, tx t3 ext_name = tx t ext_name ++ r). rewrite C2, B2, A2.
    exists (r1 ++ r2 ++ r3). rewrite <- !app_assoc. reflexivity.
  - intros s. change (str "Extensions") with ext_name. change (value_of (get t3 ext_name)) with (tx t3 ext_name). change (value_of (get t ext_name)) with (tx t ext_name).
    rewrite <- !known_ok, C3, B3, A3. rewrite !orb_true_iff. split.
    + intros [[[H|H]|H]|H]; [left; exact H| | |]; right; [exists "ScanScript"%string|exists "QueueScript"%string|exists "FeedScript"%string];
        (split; [unfold scripts_before; cbn [In]; auto|]); apply known_ok, H.
    + intros [H|(n & Hn & H)]; [auto|]. apply known_ok in H. unfold scripts_before in Hn. cbn [In] in Hn. destruct Hn as [<-|[<-|[<-|[]]]]; auto.
  - intros m Hm. assert (Hc := proj2 (category_ext_ok m) Hm). destruct (A4 eq_refl m Hc) as ((s1 & D1) & D2 & D3). destruct (B4 eq_refl m Hc) as ((s2 & F1) & F2 & F3).
    assert (E3 : tx t3 m = tx t2 m) by (unfold tx; rewrite C1 by (auto using NE); reflexivity).
    change (value_of (get t3 m)) with (tx t3 m). change (value_of (get t m)) with (tx t m). rewrite E3. split; [|split].
    + rewrite F1, D1. exists (s1 ++ s2). rewrite <- app_assoc. reflexivity.
    + intros Z0. apply F2, D2, Z0.
    + intros Nz s. rewrite <- !known_ok. rewrite F3, D3 by (assumption || (rewrite D1; destruct (tx t m); [contradiction|discriminate])).
      rewrite !orb_true_iff. unfold tx. tauto.
Qed.
