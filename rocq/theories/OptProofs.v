(** Proofs about the table of options, settings and references. *)
From Coq Require Import String.
From Verif Require Import Base NumFmt LineModel WildSpec WildModel WebModel WebSpec WebProofs OptModel OptSpec.
Open Scope list_scope. Open Scope Z_scope.

Lemma nocase_same a b : nocase_eq a b = true <-> same a b.
Proof. unfold nocase_eq, same. apply beqb_eq. Qed.
Lemma nocase_diff a b : nocase_eq a b = false <-> ~ same a b.
Proof. rewrite <- nocase_same. destruct (nocase_eq a b); intuition congruence. Qed.
Lemma nocase_cong a b c d : same a b -> same c d -> nocase_eq a c = nocase_eq b d.
Proof. unfold nocase_eq, same. change lower with lc. intros -> ->. reflexivity. Qed.
Lemma nocase_sym a b : nocase_eq a b = nocase_eq b a.
Proof. unfold nocase_eq. destruct (beqb _ _) eqn:E; symmetry; [apply beqb_eq in E; apply beqb_eq; congruence|].
  apply beqb_neq in E. apply beqb_neq. congruence. Qed.
Lemma same_refl a : same a a.
Proof. reflexivity. Qed.
Lemma same_sym a b : same a b -> same b a.
Proof. unfold same. congruence. Qed.
Lemma same_trans a b c : same a b -> same b c -> same a c.
Proof. unfold same. congruence. Qed.

Lemma find_cong a b t : same a b -> find_opt a t = find_opt b t.
Proof. intros H. induction t as [|e t IH]; cbn [find_opt]; [reflexivity|].
  rewrite (nocase_cong (e_name e) (e_name e) a b) by (auto using same_refl). rewrite IH. reflexivity. Qed.
Lemma get_cong a b t : same a b -> get t a = get t b.
Proof. unfold get. intros H. rewrite (find_cong a b) by exact H. reflexivity. Qed.
Lemma find_name n t e : find_opt n t = Some e -> same (e_name e) n.
Proof. induction t as [|x t IH]; cbn [find_opt]; [discriminate|]. destruct (nocase_eq (e_name x) n) eqn:E; [|exact IH].
  intros H. injection H as ->. apply nocase_same, E. Qed.

Lemma find_app n t e : find_opt n (t ++ [e]) = match find_opt n t with Some x => Some x | None => if nocase_eq (e_name e) n then Some e else None end.
Proof. induction t as [|x t IH]; cbn [find_opt app]; [reflexivity|]. destruct (nocase_eq (e_name x) n); [reflexivity|exact IH]. Qed.
Lemma get_add t n m : get (add_entry t n) m = get t m.
Proof. unfold add_entry. destruct (find_opt n t) eqn:E; [reflexivity|]. unfold get. rewrite find_app.
  destruct (find_opt m t); [reflexivity|]. cbn [e_name]. destruct (nocase_eq n m); reflexivity. Qed.
Lemma find_add t n : exists e, find_opt n (add_entry t n) = Some e.
Proof. unfold add_entry. destruct (find_opt n t) as [e|] eqn:E; [exists e; exact E|]. rewrite find_app, E. cbn [e_name].
  rewrite (proj2 (nocase_same n n) (same_refl n)). eauto. Qed.

Lemma find_put t n v m : find_opt m (put t n v) = match find_opt m t with
   | Some e => if nocase_eq n m then Some (set_value v e) else Some e | None => None end.
Proof.
  induction t as [|x t IH]; cbn [put find_opt]; [reflexivity|].
  destruct (nocase_eq (e_name x) n) eqn:E1; cbn [find_opt set_value e_name].
  - destruct (nocase_eq (e_name x) m) eqn:E2.
    + apply nocase_same in E1, E2. rewrite (proj2 (nocase_same n m)); [reflexivity|]. eapply same_trans; [apply same_sym|]; eassumption.
    + destruct (find_opt m t) as [e|] eqn:F; [|reflexivity]. destruct (nocase_eq n m) eqn:E3; [|reflexivity].
      exfalso. apply nocase_same in E1, E3. apply nocase_diff in E2. apply E2. eapply same_trans; eassumption.
  - destruct (nocase_eq (e_name x) m) eqn:E2; [|exact IH].
    destruct (nocase_eq n m) eqn:E3; [|reflexivity]. exfalso. apply nocase_same in E2, E3. apply nocase_diff in E1. apply E1.
    eapply same_trans; [|apply same_sym]; eassumption.
Qed.
Lemma get_put t n v m : find_opt n t <> None -> get (put t n v) m = if nocase_eq n m then Some v else get t m.
Proof.
  intros H. unfold get. rewrite find_put. destruct (nocase_eq n m) eqn:E.
  - apply nocase_same in E. rewrite <- (find_cong n m) by exact E. destruct (find_opt n t); [reflexivity|contradiction].
  - destruct (find_opt m t); reflexivity.
Qed.

Lemma expand_ext f t t' : (forall m, get t m = get t' m) -> forall s, expand f t s = expand f t' s.
Proof. intros H. induction f as [|f IH]; intros s; cbn [expand]; [reflexivity|]. destruct (strstr s _); [|reflexivity]. cbv zeta.
  destruct (index _ _); [|reflexivity]. rewrite H. destruct (get t' _); [apply IH|reflexivity]. Qed.

Lemma set_option_ok home f t n v t' : set_option home f t n v = Some t' ->
  exists x, expand f t (home_path home v) = Some x /\ forall m, get t' m = if nocase_eq n m then Some x else get t m.
Proof.
  unfold set_option. cbv zeta. rewrite (expand_ext f (add_entry t n) t) by (intros m; apply get_add).
  destruct (expand f t (home_path home v)) as [x|]; [|discriminate]. intros H. injection H as <-. exists x. split; [reflexivity|].
  intros m. rewrite get_put. { destruct (nocase_eq n m); [reflexivity|apply get_add]. }
  destruct (find_add t n) as (e & ->). discriminate.
Qed.

(** ** Plain values *)

Lemma strstr_plain s : ~ In 36 s -> strstr s (str "${") = None.
Proof.
  induction s as [|c s IH]; intros H; [reflexivity|]. cbn [strstr].
  replace (prefixb (str "${") (c :: s)) with false. { apply IH. intros X. apply H. right. exact X. }
  change (str "${") with [36; 123]. cbn [prefixb]. destruct (Z.eqb_spec 36 c) as [<-|]; [exfalso; apply H; left; reflexivity|reflexivity].
Qed.
Lemma home_plain home v : (forall r, v <> str "~/" ++ r) -> home_path home v = v.
Proof.
  intros H. unfold home_path. destruct v as [|a [|b r]]; try reflexivity. destruct (Z.eqb_spec a 126) as [->|]; [|reflexivity].
  destruct (Z.eqb_spec b 47) as [->|]; [|reflexivity]. exfalso. apply (H r). reflexivity.
Qed.
Lemma expand_plain f t v : ~ In 36 v -> expand (S f) t v = Some v.
Proof. intros H. cbn [expand]. rewrite strstr_plain by exact H. reflexivity. Qed.

(** ** Settings *)

Lemma index_sets s n v : sets s n v -> split_option s = Some (convert_old (n, v)).
Proof.
  intros (-> & Hn & H). unfold split_option. change (n ++ [61] ++ v) with (n ++ 61 :: v). rewrite index_app by exact H.
  destruct n as [|c n]; [contradiction|]. remember (c :: n) as m eqn:Em.
  replace (length m) with (S (length n)) by (subst m; reflexivity). replace (S (length n)) with (length m) by (subst m; reflexivity).
  rewrite firstn_app, Nat.sub_diag, firstn_all, app_nil_r.
  rewrite skipn_app, skipn_all2 by lia. replace (S (length m) - length m)%nat with 1%nat by lia. reflexivity.
Qed.
Lemma split_sets s o : split_option s = Some o -> exists n v, sets s n v /\ o = convert_old (n, v).
Proof.
  unfold split_option. destruct (index 61 s) as [[|i]|] eqn:E; try discriminate. intros H. injection H as <-.
  apply index_some in E as (E & Hn). exists (firstn (S i) s), (skipn (S (S i)) s). split; [|reflexivity].
  repeat split; [exact E| |exact Hn]. intros X. rewrite X in E. destruct s; [discriminate|]. discriminate.
Qed.

Lemma one_of_listed l n : one_of (map str l) n = true <-> listed l n.
Proof.
  unfold one_of, listed. rewrite existsb_exists. split.
  - intros (x & Hx & E). apply in_map_iff in Hx as (y & <- & Hy). exists y. split; [exact Hy|]. apply nocase_same, E.
  - intros (x & Hx & E). exists (str x). split; [apply in_map, Hx|]. apply nocase_same, E.
Qed.
Lemma one_of_lc l l' n : map (map lc) l = map (map lc) l' -> one_of l n = one_of l' n.
Proof.
  revert l'. induction l as [|x l IH]; intros [|y l'] H; try discriminate; [reflexivity|]. cbn [map] in H. unfold one_of in *. cbn [existsb].
  injection H as H1 H2. rewrite (IH l') by exact H2. f_equal. apply nocase_cong; [reflexivity|exact H1].
Qed.
Lemma listed_cong l a b : same a b -> listed l a <-> listed l b.
Proof. intros H. unfold listed. split; intros (x & Hx & E); exists x; (split; [exact Hx|]); unfold same in *; congruence. Qed.

Lemma drop_digits_ok s : exists ds, Forall digit ds /\ s = ds ++ drop_digits s.
Proof.
  induction s as [|c s (ds & H & E)]; [exists []; auto|]. cbn [drop_digits]. destruct (is_digit c) eqn:Ec; [|exists []; auto].
  exists (c :: ds). split; [constructor; [unfold is_digit in Ec; unfold digit; lia|exact H]|]. cbn [app]. f_equal. exact E.
Qed.
Lemma drop_digits_app ds r : Forall digit ds -> (forall c x, r = c :: x -> ~ digit c) -> drop_digits (ds ++ r) = r.
Proof.
  intros H Hr. induction H as [|c ds Hc H IH]; cbn [app drop_digits].
  - destruct r as [|c r]; [reflexivity|]. cbn [drop_digits]. destruct (is_digit c) eqn:E; [|reflexivity].
    exfalso. apply (Hr c r eq_refl). unfold is_digit in E. unfold digit. lia.
  - destruct (is_digit c) eqn:E; [exact IH|]. unfold is_digit, digit in *. lia.
Qed.
Lemma prefix_same p s : nocase_prefix p s = true <-> exists a r, s = a ++ r /\ same a p.
Proof.
  unfold nocase_prefix. rewrite prefixb_iff. change lower with lc. split.
  - intros (t & E). exists (firstn (length p) s), (skipn (length p) s). split; [symmetry; apply firstn_skipn|]. unfold same.
    rewrite <- firstn_map, E, firstn_app, map_length, Nat.sub_diag. cbn [firstn]. rewrite app_nil_r.
    rewrite <- (map_length lc p). apply firstn_all.
  - intros (a & r & -> & E). exists (map lc r). rewrite map_app, E. reflexivity.
Qed.
Lemma same_length a b : same a b -> length a = length b.
Proof. unfold same. intros H. rewrite <- (map_length lc a), H, map_length. reflexivity. Qed.

Lemma numbered_ok prefix l n : Forall (fun f => exists r, f = 46 :: r) l ->
  numbered prefix l n = true <-> exists a ds b f, n = a ++ ds ++ b /\ same a prefix /\ Forall digit ds /\ In f l /\ same b f.
Proof.
  intros Hl. unfold numbered. rewrite andb_true_iff, prefix_same. split.
  - intros ((a & r & -> & Ha) & H). rewrite <- (same_length _ _ Ha), skipn_app, skipn_all, Nat.sub_diag in H. cbn [skipn app] in H.
    unfold one_of in H. apply existsb_exists in H as (f & Hf & E). destruct (drop_digits_ok r) as (ds & Hd & Er).
    exists a, ds, (drop_digits r), f. repeat split; auto; [f_equal; exact Er|]. apply nocase_same, E.
  - intros (a & ds & b & f & -> & Ha & Hd & Hf & Hb). split; [exists a, (ds ++ b); auto|].
    rewrite <- (same_length _ _ Ha), skipn_app, skipn_all, Nat.sub_diag. cbn [skipn app].
    rewrite drop_digits_app; [| exact Hd |].
    { unfold one_of. apply existsb_exists. exists f. split; [exact Hf|]. apply nocase_same, Hb. }
    intros c x -> Hc. rewrite Forall_forall in Hl. destruct (Hl f Hf) as (r & ->). unfold same in Hb. cbn [map] in Hb.
    injection Hb as Hb _. unfold digit in Hc. unfold lc in Hb at 1. change (lc 46) with 46 in Hb. destruct ((65 <=? c) && (c <=? 90)) eqn:Q; lia.
Qed.

Lemma numbered_lc p p' l l' n : map lc p = map lc p' -> map (map lc) l = map (map lc) l' -> numbered p l n = numbered p' l' n.
Proof.
  intros H1 H2. unfold numbered, nocase_prefix. change lower with lc. rewrite H1. rewrite (one_of_lc l l') by exact H2.
  rewrite (same_length p p' H1). reflexivity.
Qed.
Definition dotted (l : list string) : bool := forallb (fun f => prefixb [46] (str f)) l.
Lemma dotted_ok l : dotted l = true -> Forall (fun f => exists r, f = 46 :: r) (map str l).
Proof.
  unfold dotted. rewrite forallb_forall. intros H. apply Forall_map, Forall_forall. intros x Hx. specialize (H x Hx).
  apply prefixb_iff in H as (t & ->). exists t. reflexivity.
Qed.
Lemma numbered_field kind fs n : dotted fs = true -> numbered (str kind) (map str fs) n = true <->
  exists a ds b f, In f fs /\ n = a ++ ds ++ b /\ same a (str kind) /\ Forall digit ds /\ same b (str f).
Proof.
  intros D. rewrite numbered_ok by (apply dotted_ok, D). split.
  - intros (a & ds & b & f & -> & Ha & Hd & Hf & Hb). apply in_map_iff in Hf as (x & <- & Hx). exists a, ds, b, x. auto.
  - intros (a & ds & b & f & Hf & -> & Ha & Hd & Hb). exists a, ds, b, (str f). repeat split; auto using in_map.
Qed.
Definition is_field (n : list Z) : bool := existsb (fun p => numbered (str (fst p)) (map str (snd p)) n) fields_of.
Lemma is_field_ok n : is_field n = true <-> field_name n.
Proof.
  assert (D : forall p, In p fields_of -> dotted (snd p) = true).
  { apply Forall_forall. unfold fields_of. repeat constructor. }
  unfold is_field, field_name. rewrite existsb_exists. split.
  - intros ((k & fs) & Hp & H). cbn [fst snd] in H. apply numbered_field in H; [|apply (D _ Hp)].
    destruct H as (a & ds & b & f & Hf & E & Ha & Hd & Hb). exists k, fs, a, ds, b, f. auto 10.
  - intros (k & fs & a & ds & b & f & Hp & Hf & E & Ha & Hd & Hb). exists (k, fs). split; [exact Hp|]. cbn [fst snd].
    apply numbered_field; [apply (D _ Hp)|]. exists a, ds, b, f. auto.
Qed.
Lemma fields_model n : numbered (str "server") server_names n || numbered (str "task") task_names n ||
    numbered (str "category") category_names n || numbered (str "feed") feed_names n = is_field n.
Proof.
  unfold is_field, fields_of. cbn [existsb fst snd]. rewrite orb_false_r, !orb_assoc.
  repeat (apply f_equal2; [|apply numbered_lc; reflexivity]). apply numbered_lc; reflexivity.
Qed.

Lemma index_in c s : match index c s with Some _ => true | None => false end = true <-> In c s.
Proof.
  destruct (index c s) eqn:E; split; intros H; try reflexivity; try discriminate.
  - apply index_some in E as (-> & _). apply in_or_app. right. left. reflexivity.
  - apply index_none in E. contradiction.
Qed.

Theorem validate_ok : forall t n v, exists ok errs, validate true t n v = Some (ok, errs) /\ (ok = true <-> valid_name (get t) n) /\
  (errs <> [] -> listed retired_scripts n).
Proof.
  intros t n v. unfold validate, valid_name.
  change read_only with (map str fixed_names). change obsolete with (map str retired). change obsolete_scripts with (map str retired_scripts).
  change merged_scripts with (map str scripts_before). rewrite fields_model.
  destruct (one_of (map str fixed_names) n) eqn:E0.
  { exists false, []. repeat split; try discriminate; [|congruence]. intros (H & _). exfalso. apply H. apply one_of_listed, E0. }
  assert (N0 : ~ listed fixed_names n). { rewrite <- one_of_listed. congruence. }
  destruct (get t n) as [w|] eqn:E1.
  { exists true, []. repeat split; auto; try congruence. left. congruence. }
  destruct (is_field n) eqn:E2; cbn [orb].
  { exists true, []. repeat split; auto; try congruence. right. left. apply is_field_ok, E2. }
  destruct (match index 58 n with Some _ => true | None => false end) eqn:E3.
  { exists true, []. repeat split; auto; try congruence. right. right. left. apply index_in, E3. }
  destruct (one_of (map str retired) n) eqn:E4.
  { exists true, []. repeat split; auto; try congruence. do 3 right. left. apply one_of_listed, E4. }
  destruct (one_of (map str retired_scripts) n) eqn:E5.
  { exists true, (match v with [] => [] | _ => [n] end). repeat split; auto; [do 4 right; left; apply one_of_listed, E5|].
    intros _. apply one_of_listed, E5. }
  destruct (one_of (map str scripts_before) n) eqn:E6.
  { exists true, []. repeat split; auto; try congruence. do 5 right. apply one_of_listed, E6. }
  exists false, []. repeat split; try discriminate; [|congruence]. intros (_ & [H|[H|[H|[H|[H|H]]]]]).
  - congruence. - apply is_field_ok in H. congruence. - apply index_in in H. congruence.
  - apply one_of_listed in H. congruence. - apply one_of_listed in H. congruence. - apply one_of_listed in H. congruence.
Qed.
Lemma validate_none hf t n v : validate hf t n v = None -> hf = false /\ listed retired n.
Proof.
  destruct hf. { destruct (validate_ok t n v) as (? & ? & -> & _). discriminate. }
  unfold validate. destruct (one_of read_only n); [discriminate|]. destruct (match get t n with Some _ => true | None => false end); [discriminate|].
  match goal with |- (if ?b then _ else _) = _ -> _ => destruct b end; [discriminate|].
  change obsolete with (map str retired). destruct (one_of (map str retired) n) eqn:E; [intros _; split; [reflexivity|]; apply one_of_listed, E|].
  destruct (one_of obsolete_scripts n); [discriminate|]. destruct (one_of merged_scripts n); discriminate.
Qed.
Lemma validate_same hf t n v r : validate hf t n v = Some r -> validate true t n v = Some r.
Proof.
  destruct hf; [auto|]. unfold validate. repeat match goal with |- context [if ?b then _ else _] => destruct b end; auto; discriminate.
Qed.

(** ** One setting, many settings *)

Lemma set_string_ok home f hf t s t' errs : set_string home f hf t s = Some (t', errs) ->
  (exists n v x, split_option s = Some (n, v) /\ valid_name (get t) n /\ expand f t (home_path home v) = Some x /\
     (forall m, get t' m = if nocase_eq n m then Some x else get t m) /\ (errs <> [] -> listed retired_scripts n)) \/
  ((forall n v, split_option s = Some (n, v) -> ~ valid_name (get t) n) /\ t' = t /\ errs <> []).
Proof.
  unfold set_string. destruct (split_option s) as [(n & v)|] eqn:E.
  2: { intros H. injection H as <- <-. right. repeat split; discriminate. }
  destruct (validate hf t n v) as [(ok0 & e)|] eqn:V; [|discriminate]; destruct ok0.
  - apply validate_same in V. destruct (validate_ok t n v) as (ok & e' & V' & Hv & He). assert (ok = true /\ e' = e) as (-> & ->) by (split; congruence).
    destruct (set_option home f t n v) as [t1|] eqn:W; [|discriminate]. cbn [option_map]. intros H. injection H as <- <-.
    apply set_option_ok in W as (x & Hx & Hg). left. exists n, v, x. repeat split; auto; apply Hv; reflexivity.
  - intros H. injection H as <- <-. right. apply validate_same in V. destruct (validate_ok t n v) as (ok & e' & V' & Hv & He).
    assert (ok = false) as -> by congruence. repeat split.
    + intros n0 v0 X. injection X as <- <-. rewrite <- Hv. discriminate.
    + destruct e; discriminate.
Qed.

Lemma set_strings_app home f hf : forall a t b t' e, set_strings home f hf t (a ++ b) = Some (t', e) ->
  exists t1 e1 e2, set_strings home f hf t a = Some (t1, e1) /\ set_strings home f hf t1 b = Some (t', e2) /\ e = e1 ++ e2.
Proof.
  induction a as [|s a IH]; intros t b t' e H; cbn [app set_strings] in *.
  - exists t, [], e. auto.
  - destruct (set_string home f hf t s) as [(t1 & e1)|]; [|discriminate].
    destruct (set_strings home f hf t1 (a ++ b)) as [(t2 & e2)|] eqn:E; [|discriminate]. cbn [option_map] in H. injection H as <- <-.
    apply IH in E as (t3 & e3 & e4 & E3 & E4 & ->). exists t3, (e1 ++ e3), e4. rewrite E3. cbn [option_map]. rewrite app_assoc. auto.
Qed.

Lemma kept_ok home f hf n : forall l t t' e, set_strings home f hf t l = Some (t', e) ->
  (forall s m v, In s l -> split_option s = Some (m, v) -> ~ same m n) -> get t' n = get t n.
Proof.
  induction l as [|s l IH]; intros t t' e H N; cbn [set_strings] in H; [injection H as <- <-; reflexivity|].
  destruct (set_string home f hf t s) as [(t1 & e1)|] eqn:E; [|discriminate].
  destruct (set_strings home f hf t1 l) as [(t2 & e2)|] eqn:E2; [|discriminate]. cbn [option_map] in H. injection H as <- <-.
  rewrite (IH t1 t2 e2 E2) by (intros s0 m v Hs; apply N; right; exact Hs).
  apply set_string_ok in E as [(m & v & x & Es & _ & _ & G & _)|(_ & -> & _)]; [|reflexivity].
  rewrite G. destruct (nocase_eq m n) eqn:Q; [|reflexivity]. apply nocase_same in Q. exfalso. apply (N s m v); auto. left. reflexivity.
Qed.
Lemma fixed_ok home f hf n : listed fixed_names n -> forall l t t' e, set_strings home f hf t l = Some (t', e) -> get t' n = get t n.
Proof.
  intros Hn. induction l as [|s l IH]; intros t t' e H; cbn [set_strings] in H; [injection H as <- <-; reflexivity|].
  destruct (set_string home f hf t s) as [(t1 & e1)|] eqn:E; [|discriminate].
  destruct (set_strings home f hf t1 l) as [(t2 & e2)|] eqn:E2; [|discriminate]. cbn [option_map] in H. injection H as <- <-.
  rewrite (IH t1 t2 e2 E2). apply set_string_ok in E as [(m & v & x & Es & (V & _) & _ & G & _)|(_ & -> & _)]; [|reflexivity].
  rewrite G. destruct (nocase_eq m n) eqn:Q; [|reflexivity]. apply nocase_same in Q. exfalso. apply V. apply (listed_cong _ m n Q). exact Hn.
Qed.
(** What has a value keeps having one. *)
Lemma stays home f hf n : forall l t t' e, set_strings home f hf t l = Some (t', e) -> get t n <> None -> get t' n <> None.
Proof.
  induction l as [|s l IH]; intros t t' e H N; cbn [set_strings] in H; [injection H as <- <-; exact N|].
  destruct (set_string home f hf t s) as [(t1 & e1)|] eqn:E; [|discriminate].
  destruct (set_strings home f hf t1 l) as [(t2 & e2)|] eqn:E2; [|discriminate]. cbn [option_map] in H. injection H as <- <-.
  apply (IH t1 t2 e2 E2). apply set_string_ok in E as [(m & v & x & Es & _ & _ & G & _)|(_ & -> & _)]; [|exact N].
  rewrite G. destruct (nocase_eq m n); [discriminate|exact N].
Qed.
Lemma valid_stays home f hf n l t t' e : set_strings home f hf t l = Some (t', e) -> valid_name (get t) n -> valid_name (get t') n.
Proof.
  intros H (N & V). split; [exact N|]. destruct V as [V|V]; [left|right; exact V]. eapply stays; eassumption.
Qed.

(** ** Load *)
Lemma cmdline_after home f bin dir ver name file cmd t e : load home f bin dir ver (Some (name, file)) cmd = Some (t, e) ->
  exists t1 e1 e2, load home f bin dir ver (Some (name, file)) [] = Some (t1, e1) /\ set_strings home f true t1 cmd = Some (t, e2) /\ e = e1 ++ e2.
Proof.
  unfold load. destruct (set_options _ _ _ _) as [t0|]; [|discriminate]. destruct (set_option home f t0 _ _) as [t1|]; [|discriminate].
  destruct (set_option home f t1 _ _) as [t2|]; [|discriminate]. destruct (load_config_file home f t2 file) as [(t3 & e3)|]; [|discriminate].
  destruct (set_strings home f true t3 cmd) as [(t4 & e4)|] eqn:E; [|discriminate]. cbn [option_map]. intros H. injection H as <- <-.
  exists t3, (e3 ++ []), e4. rewrite app_nil_r. repeat split; auto. cbn [set_strings option_map]. rewrite app_nil_r. reflexivity.
Qed.

(** ** References *)

Lemma strstr_ref a n r : ~ In 36 a -> strstr (a ++ str "${" ++ n ++ [125] ++ r) (str "${") = Some (str "${" ++ n ++ [125] ++ r).
Proof.
  intros H. induction a as [|c a IH]; cbn [app].
  - change (str "${") with [36; 123]. reflexivity.
  - cbn [strstr]. match goal with |- (if ?b then _ else _) = _ => replace b with false end.
    { apply IH. intros X. apply H. right. exact X. }
    change (str "${") with [36; 123]. cbn [prefixb]. destruct (Z.eqb_spec 36 c) as [<-|]; [exfalso; apply H; left; reflexivity|reflexivity].
Qed.
Lemma expand_ref f t a n r : ~ In 36 a -> ~ In 125 n -> n <> [] -> Z.of_nat (length n) <= 99 ->
  expand (S f) t (a ++ str "${" ++ n ++ [125] ++ r) =
  match get t n with Some v => expand f t (a ++ v ++ r) | None => Some (a ++ str "${" ++ n ++ [125] ++ r) end.
Proof.
  intros Ha Hn N0 Hl. cbn [expand]. rewrite strstr_ref by exact Ha. cbv zeta.
  replace (length (a ++ str "${" ++ n ++ [125%Z] ++ r) - length (str "${" ++ n ++ [125%Z] ++ r))%nat with (length a) by (rewrite app_length; lia).
  rewrite firstn_app, Nat.sub_diag, firstn_all. cbn [firstn]. rewrite app_nil_r.
  change (skipn 2 (str "${" ++ n ++ [125] ++ r)) with (n ++ 125 :: r). rewrite index_app by exact Hn.
  assert (V : var_name (n ++ 125 :: r) (length n) = n).
  { unfold var_name. destruct (length n) eqn:E; [destruct n; [contradiction|discriminate]|]. rewrite <- E. rewrite Nat.min_r by lia.
    rewrite firstn_app, Nat.sub_diag, firstn_all. cbn [firstn]. apply app_nil_r. }
  rewrite V. replace (skipn (S (length n)) (n ++ 125 :: r)) with r; [reflexivity|].
  rewrite skipn_app, skipn_all2 by lia. replace (S (length n) - length n)%nat with 1%nat by lia. reflexivity.
Qed.
Theorem refs_ok : forall t ps f a, ~ In 36 a -> Forall (piece_ok (get t)) ps -> (length ps < f)%nat ->
  expand f t (a ++ flat_map piece_text ps) = Some (a ++ flat_map (piece_value (get t)) ps).
Proof.
  intros t. induction ps as [|p ps IH]; intros f a Ha H Hf; cbn [flat_map].
  - destruct f; [lia|]. rewrite app_nil_r. apply expand_plain, Ha.
  - inversion H as [|p' ps' Hp Hps]; subst. destruct p as [s|n]; cbn [piece_text piece_value piece_ok] in *.
    + rewrite !app_assoc. apply IH; [|exact Hps|cbn [length] in Hf; lia]. rewrite in_app_iff. tauto.
    + destruct Hp as (N0 & N1 & N2 & v & Ev & Nv). destruct f as [|f]; [lia|].
      rewrite <- !app_assoc. rewrite expand_ref by assumption. rewrite Ev. rewrite !app_assoc. apply IH; [|exact Hps|cbn [length] in Hf; lia].
      rewrite in_app_iff. tauto.
Qed.

Theorem done_ok : forall f t s r, expand f t s = Some r -> forall a n b, r = a ++ str "${" ++ n ++ [125] ++ b ->
  ~ In 36 a -> ~ In 125 n -> n <> [] -> Z.of_nat (length n) <= 99 -> get t n = None.
Proof.
  induction f as [|f IH]; intros t s r H a n b -> Ha Hn N0 Hl; [discriminate|].
  destruct (get t n) as [v|] eqn:E; [exfalso|reflexivity].
  assert (Hs : expand (S f) t s = Some s \/ exists s', expand f t s' = expand (S f) t s).
  { cbn [expand]. destruct (strstr s _); [|left; reflexivity]. cbv zeta. destruct (index _ _); [|left; reflexivity].
    match goal with |- context [get t ?x] => destruct (get t x) end; [right; eexists; reflexivity|left; reflexivity]. }
  destruct Hs as [Hs|(s' & Hs)]; [|rewrite <- Hs in H; specialize (IH t s' _ H a n b eq_refl Ha Hn N0 Hl); congruence].
  assert (Es : s = a ++ str "${" ++ n ++ [125] ++ b) by congruence. rewrite Es in Hs. clear H Es s. rewrite expand_ref in Hs by assumption. rewrite E in Hs.
  specialize (IH t _ _ Hs a n b eq_refl Ha Hn N0 Hl). congruence.
Qed.
