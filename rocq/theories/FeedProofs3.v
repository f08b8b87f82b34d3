(** Rule lists, text and number terms, feed history. *)
From Coq Require Import String.
From Verif Require Import Base NumFmt WildSpec WildModel WildProofs TextProofs InfoModel FeedModel FeedSpec FeedProofs FeedProofs2.

(** ** The deciding rule *)
Lemma outcome_skip_invalid e i l idx o res : outcome e i l (idx + 1) o res -> outcome e i (None :: l) idx o res.
Proof.
  intros [(pre & u & post & o1 & b & opts & st & -> & P & M & D & ->)|(o1 & P & ->)].
  - left. exists (None :: pre), u, post, o1, b, opts, st. split; [reflexivity|]. split; [constructor; exact P|].
    split; [exact M|]. split; [exact D|]. f_equal. cbn [length]. lia.
  - right. exists o1. split; [constructor; exact P|reflexivity].
Qed.
Lemma outcome_skip_rule e i u l idx o b opts res : rule_match e u i o = Some (b, opts) -> decides (u_cmd u) b = None ->
  outcome e i l (idx + 1) (if b then match u_cmd u with frOptions => apply_options opts i o | _ => o end else o) res ->
  outcome e i (Some u :: l) idx o res.
Proof.
  intros M0 D0 [(pre & u' & post & o1 & b' & opts' & st & -> & P & M & D & ->)|(o1 & P & ->)].
  - left. exists (Some u :: pre), u', post, o1, b', opts', st. split; [reflexivity|].
    split; [eapply pa_rule; eassumption|].
    split; [exact M|]. split; [exact D|]. f_equal. cbn [length]. lia.
  - right. exists o1. split; [eapply pa_rule; eassumption|reflexivity].
Qed.

Lemma filter_outcome e i : forall l idx o res, filter_match e l idx i o = Some res -> outcome e i l idx o res.
Proof.
  induction l as [|[u|] l IH]; intros idx o res H; cbn [filter_match] in H.
  - inversion H; subst. right. exists o. split; [constructor|reflexivity].
  - destruct (rule_match e u i o) as [[b opts]|] eqn:M; [|discriminate]. cbn [obind] in H.
    destruct (decides (u_cmd u) b) as [st|] eqn:D.
    + left. exists [], u, l, o, b, opts, st. split; [reflexivity|]. split; [constructor|]. split; [exact M|].
      split; [exact D|]. cbn [length]. replace (idx + Z.of_nat 0 + 1) with (idx + 1) by lia.
      destruct (u_cmd u), b; cbn [decides] in D; inversion D; subst; inversion H; reflexivity.
    + eapply outcome_skip_rule; [exact M|exact D|]. apply IH.
      destruct (u_cmd u), b; cbn [decides] in D; try discriminate D; exact H.
  - apply outcome_skip_invalid, IH, H.
Qed.

Lemma passed_filter e i pre o o1 : passed e i pre o o1 -> forall l idx,
  filter_match e (pre ++ l) idx i o = filter_match e l (idx + Z.of_nat (length pre)) i o1.
Proof.
  intros P. induction P as [o|l0 o o' P IH|u b opts l0 o o' M D P IH]; intros l idx.
  - cbn [app length]. f_equal. lia.
  - cbn [app filter_match length]. rewrite IH. f_equal. lia.
  - cbn [app filter_match length]. rewrite M. cbn [obind].
    replace (idx + Z.of_nat (S (length l0))) with (idx + 1 + Z.of_nat (length l0)) by lia.
    rewrite <- IH. destruct (u_cmd u), b; cbn [decides] in D; try discriminate D; reflexivity.
Qed.
Lemma outcome_filter e i l idx o res : outcome e i l idx o res -> filter_match e l idx i o = Some res.
Proof.
  intros [(pre & u & post & o1 & b & opts & st & -> & P & M & D & ->)|(o1 & P & ->)].
  - rewrite (passed_filter _ _ _ _ _ P). cbn [filter_match]. rewrite M. cbn [obind].
    destruct (u_cmd u), b; cbn [decides] in D; inversion D; subst; reflexivity.
  - rewrite <- (app_nil_r l), (passed_filter _ _ _ _ _ P). reflexivity.
Qed.

(** ** Text terms *)
Lemma seps_punct c : In c word_seps <-> punctuation c.
Proof.
  unfold punctuation. split.
  - intros H. vm_compute in H. repeat (destruct H as [<-|H]; [lia|]). contradiction.
  - intros H. assert (B : is_byte c) by (unfold is_byte; lia).
    assert (S1 : existsb (Z.eqb c) word_seps = true); [|apply existsb_exists in S1 as (x & Hx & E); apply Z.eqb_eq in E; subst; exact Hx].
    revert c B H. assert (K := byte_sweep (fun c => implb (((32 <=? c) && (c <=? 47)) || ((58 <=? c) && (c <=? 64)) ||
      ((91 <=? c) && (c <=? 96)) || ((123 <=? c) && (c <=? 126))) (existsb (Z.eqb c) word_seps)) ltac:(vm_compute; reflexivity)).
    cbn beta in K. intros c B H. specialize (K c B).
    replace (((32 <=? c) && (c <=? 47)) || ((58 <=? c) && (c <=? 64)) ||
      ((91 <=? c) && (c <=? 96)) || ((123 <=? c) && (c <=? 126))) with true in K by lia. exact K.
Qed.

Lemma starred_iff p : starred p = true <-> exists m, p = 42 :: m ++ [42].
Proof.
  unfold starred. split.
  - rewrite !andb_true_iff. intros [[H1 H2] H3]. destruct p as [|c p]; [discriminate|].
    cbn [hd] in H2. assert (c = 42) by lia. subst c.
    destruct (exists_last (l := p)) as (m & x & ->); [intros ->; cbn in H1; lia|].
    exists m. change (42 :: m ++ [x]) with ((42 :: m) ++ [x]) in H3. rewrite last_last in H3.
    assert (x = 42) by lia. subst. reflexivity.
  - intros [m ->]. cbn [hd length]. change (42 :: m ++ [42]) with ((42 :: m) ++ [42]). rewrite last_last.
    rewrite app_length. cbn [length]. lia.
Qed.

Lemma substr_iff p : is_substr p = true <-> anywhere word_seps p.
Proof.
  unfold is_substr, anywhere. rewrite orb_true_iff, starred_iff, existsb_exists.
  split; (intros [H|H]; [left; exact H|right]).
  - destruct H as (c & Hc & H). rewrite !andb_true_iff, !negb_true_iff in H. destruct H as [[[H1 H2] H3] H4].
    exists c. split; [exact Hc|]. split; [|lia].
    unfold in_set in H1. apply existsb_exists in H1 as (x & Hx & E). apply Z.eqb_eq in E; subst; exact Hx.
  - destruct H as (c & Hc & Hs & H1 & H2 & H3). exists c. split; [exact Hc|].
    rewrite !andb_true_iff, !negb_true_iff. repeat split; try lia.
    unfold in_set. apply existsb_exists. exists c. split; [exact Hs|apply Z.eqb_refl].
Qed.

Lemma kept_words seps s w : In w (kept seps s) <-> word_of seps s w.
Proof.
  unfold kept, word_of. rewrite filter_In, in_map_iff. fold (in_set seps). split.
  - intros [(f & <- & Hf) N]. exists f. split; [exact Hf|]. split; [apply trim_ok|]. destruct (trim f); [discriminate|discriminate].
  - intros (f & Hf & T & N). split.
    + exists f. split; [|exact Hf]. eapply trimmed_unique; [apply trim_ok|exact T].
    + destruct w; [congruence|reflexivity].
Qed.

Notation G := (glob wild_char).

Lemma fields_parts sep s f c : In f (fields sep s) -> In c f -> In c s.
Proof.
  revert f. induction s as [|x s IH]; intros f Hf Hc; cbn [fields] in Hf.
  - destruct Hf as [<-|[]]. destruct Hc.
  - destruct (sep x).
    + destruct Hf as [<-|Hf]; [destruct Hc|]. right. eapply IH; eassumption.
    + destruct (fields sep s) as [|g l] eqn:E.
      * destruct Hf as [<-|[]]. destruct Hc as [<-|[]]. left. reflexivity.
      * destruct Hf as [<-|Hf].
        -- destruct Hc as [<-|Hc]; [left; reflexivity|]. right. eapply IH; [left; reflexivity|exact Hc].
        -- right. eapply IH; [right; exact Hf|exact Hc].
Qed.
Lemma word_no_nul seps s w : ~ In 0 s -> word_of seps s w -> ~ In 0 w.
Proof.
  intros N (f & Hf & (a & b & E & _) & _) H. apply N. eapply fields_parts; [exact Hf|].
  rewrite E. apply in_or_app. right. apply in_or_app. left. exact H.
Qed.

Lemma word_search_ok want param : forall ws, (forall w, In w ws -> ~ In 0 w) ->
  exists b refs, word_search want param ws = Some (b, refs) /\ (b = true <-> exists w, In w ws /\ G param w).
Proof.
  induction ws as [|w ws IH]; intros N; cbn [word_search].
  - exists false, []. split; [reflexivity|]. split; [discriminate|]. intros (w & [] & _).
  - destruct (wild_match_ok want param w (N w (or_introl eq_refl))) as (b & g & E & Hb). rewrite E. cbn [obind].
    destruct b.
    + eexists; eexists; split; [reflexivity|]. split; [|reflexivity]. intros _. exists w. split; [left; reflexivity|]. apply Hb. reflexivity.
    + destruct (IH (fun x H => N x (or_intror H))) as (b' & refs & E' & Hb'). exists b', refs. split; [exact E'|].
      rewrite Hb'. split.
      * intros (x & Hx & Gx). exists x. split; [right; exact Hx|exact Gx].
      * intros (x & [->|Hx] & Gx); [exfalso; apply Hb in Gx; discriminate|]. exists x. auto.
Qed.

Lemma glob_all p s : G p s -> forall q t, G q t -> G (p ++ q) (s ++ t).
Proof.
  intros H. induction H as [|p t H IH|p c t H IH|m p c t Hm Hc H IH]; intros q u Hq; cbn [app].
  - exact Hq.
  - apply g_skip. apply IH, Hq.
  - apply g_star. apply (IH q u Hq).
  - apply g_char; auto.
Qed.
Lemma glob_star_all s : G [42] s.
Proof. induction s; [apply g_skip; constructor|apply g_star; assumption]. Qed.
Lemma glob_split p q s : G (p ++ q) s -> exists a b, s = a ++ b /\ G p a /\ G q b.
Proof.
  revert s. induction p as [|m p IH]; intros s H; cbn [app] in H.
  - exists [], s. split; [reflexivity|]. split; [constructor|exact H].
  - destruct (Z.eq_dec m 42) as [->|Hm].
    + apply glob_star in H as (a & b & -> & H). destruct (IH _ H) as (a' & b' & -> & Ha & Hb).
      exists (a ++ a'), b'. rewrite app_assoc. split; [reflexivity|]. split; [|exact Hb].
      apply glob_star. exists a, a'. auto.
    + apply glob_inv in H as (c & r & -> & Hc & H); [|exact Hm]. destruct (IH _ H) as (a & b & -> & Ha & Hb).
      exists (c :: a), b. split; [reflexivity|]. split; [|exact Hb]. apply g_char; assumption.
Qed.

Lemma inside_both p s : G (42 :: p ++ [42]) s <-> inside p s.
Proof.
  unfold inside. rewrite glob_star. split.
  - intros (a & b & -> & H). apply glob_split in H as (m & c & -> & Hm & _). exists a, m, c. auto.
  - intros (a & m & b & -> & Hm). exists a, (m ++ b). split; [reflexivity|].
    apply glob_all; [exact Hm|apply glob_star_all].
Qed.
Lemma inside_star_l p s : inside (42 :: p) s <-> inside p s.
Proof.
  unfold inside. split.
  - intros (a & m & b & -> & H). apply glob_star in H as (x & y & -> & H).
    exists (a ++ x), y, b. rewrite <- !app_assoc. auto.
  - intros (a & m & b & -> & H). exists a, m, b. split; [reflexivity|]. apply g_skip, H.
Qed.
Lemma inside_star_r p s : inside (p ++ [42]) s <-> inside p s.
Proof.
  unfold inside. split.
  - intros (a & m & b & -> & H). apply glob_split in H as (x & y & -> & H & _).
    exists a, x, (y ++ b). rewrite <- !app_assoc. auto.
  - intros (a & m & b & -> & H). exists a, m, b. split; [reflexivity|].
    rewrite <- (app_nil_r m). apply glob_all; [exact H|apply glob_star_all].
Qed.

Lemma substr_mask_ok param s : G (fst (substr_mask param)) s <-> inside param s.
Proof.
  unfold substr_mask. destruct (starred param) eqn:S.
  - apply starred_iff in S as [m ->]. cbn [fst]. rewrite inside_both.
    rewrite inside_star_l, inside_star_r. reflexivity.
  - destruct ((1 <=? Z.of_nat (length param)) && (hd 0 param =? 42)) eqn:A.
    + cbn [fst]. destruct param as [|c p]; [discriminate|]. cbn [hd] in A. assert (c = 42) by lia. subst c.
      cbn [app]. rewrite inside_both, inside_star_l. reflexivity.
    + destruct ((1 <=? Z.of_nat (length param)) && (last param 0 =? 42)) eqn:B.
      * cbn [fst]. destruct param as [|c p]; [discriminate|].
        destruct (exists_last (l := c :: p)) as (m & x & E); [discriminate|]. rewrite E in *.
        rewrite last_last in B. assert (x = 42) by lia. subst x. rewrite inside_both, inside_star_r. reflexivity.
      * cbn [fst]. apply inside_both.
Qed.

Lemma match_text_ok want param s : ~ In 0 s ->
  exists b refs, match_text want param s = Some (b, refs) /\
    (anywhere word_seps param -> (b = true <-> inside param s)) /\
    (~ anywhere word_seps param -> (b = true <-> exists w, word_of word_seps s w /\ G param w)).
Proof.
  intros N. unfold match_text. destruct (is_substr param) eqn:S.
  - assert (M := substr_mask_ok param s). destruct (substr_mask param) as [mask off]. cbn [fst] in M.
    destruct (wild_match_ok want mask s N) as (b & g & E & Hb). rewrite E. cbn [obind].
    eexists; eexists; split; [reflexivity|]. apply substr_iff in S. split; [|contradiction].
    intros _. rewrite Hb. exact M.
  - rewrite tokens_ok. cbn [obind].
    destruct (word_search_ok want param (kept word_seps s)) as (b & refs & E & Hb).
    { intros w Hw. apply kept_words in Hw. eapply word_no_nul; eassumption. }
    exists b, refs. split; [exact E|].
    assert (NS : ~ anywhere word_seps param) by (intros H; apply substr_iff in H; congruence).
    split; [contradiction|]. intros _. rewrite Hb. split; intros (w & H1 & H2); exists w; (split; [apply kept_words, H1|exact H2]).
Qed.

(** ** Number terms *)
Lemma num_prefix_digits ds u : Forall (fun c => is_digit c = true) ds ->
  (match u with [] => True | c :: _ => is_numch c = false end) -> num_prefix (ds ++ u) = (ds, u).
Proof.
  induction ds as [|d ds IH]; intros F U; cbn [app num_prefix].
  - destruct u as [|c u]; [reflexivity|]. cbn [num_prefix]. rewrite U. reflexivity.
  - inversion F; subst. unfold is_numch. replace (is_digit d) with true by auto. cbn [orb]. rewrite IH by assumption. reflexivity.
Qed.
Lemma digits_no_dot ds : Forall (fun c => is_digit c = true) ds -> existsb (Z.eqb 46) ds = false.
Proof.
  induction 1 as [|d ds H F IH]; [reflexivity|]. cbn [existsb]. rewrite IH. unfold is_digit in H.
  replace (46 =? d) with false by lia. reflexivity.
Qed.
Lemma int_param_udec e n mult : 0 <= n -> n * mult < 2 ^ 53 -> int_param e (udec n) mult = n * mult.
Proof.
  intros H B. unfold int_param. rewrite digits_no_dot by (apply udec_digits, H).
  rewrite <- (app_nil_r (udec n)), pdigits_udec by (try exact H; exact I). cbn [orb].
  destruct (2 ^ 53 <=? n * mult) eqn:E; [apply Z.leb_le in E; lia|reflexivity].
Qed.

Lemma parse_size_ok e n u mult : 0 <= n -> n * mult < 2 ^ 53 -> unit_text u mult -> parse_size e (udec n ++ u) = Some (n * mult).
Proof.
  intros Hn Bd U. unfold parse_size. rewrite num_prefix_digits; [|apply udec_digits, Hn|].
  - destruct U as [|x Hx|x Hx|x Hx].
    + rewrite int_param_udec by assumption. reflexivity.
    + cbn [In] in Hx. repeat (destruct Hx as [<-|Hx]; [transitivity (Some (int_param e (udec n) (1024))); [reflexivity|rewrite int_param_udec by assumption; reflexivity]|]). contradiction.
    + cbn [In] in Hx. repeat (destruct Hx as [<-|Hx]; [transitivity (Some (int_param e (udec n) (1024 * 1024))); [reflexivity|rewrite int_param_udec by assumption; reflexivity]|]). contradiction.
    + cbn [In] in Hx. repeat (destruct Hx as [<-|Hx]; [transitivity (Some (int_param e (udec n) (1024 * 1024 * 1024))); [reflexivity|rewrite int_param_udec by assumption; reflexivity]|]). contradiction.
  - destruct U as [|x Hx|x Hx|x Hx]; [exact I| | |]; cbn [In] in Hx;
      repeat (destruct Hx as [<-|Hx]; [reflexivity|]); contradiction.
Qed.
Lemma parse_age_ok e n u mult : 0 <= n -> n * mult < 2 ^ 53 -> age_text u mult -> parse_age e (udec n ++ u) = Some (n * mult).
Proof.
  intros Hn Bd U. unfold parse_age. rewrite num_prefix_digits; [|apply udec_digits, Hn|].
  - destruct U as [|x Hx|x Hx|x Hx].
    + rewrite int_param_udec by assumption. reflexivity.
    + cbn [In] in Hx. repeat (destruct Hx as [<-|Hx]; [transitivity (Some (int_param e (udec n) (60))); [reflexivity|rewrite int_param_udec by assumption; reflexivity]|]). contradiction.
    + cbn [In] in Hx. repeat (destruct Hx as [<-|Hx]; [transitivity (Some (int_param e (udec n) (60 * 60))); [reflexivity|rewrite int_param_udec by assumption; reflexivity]|]). contradiction.
    + cbn [In] in Hx. repeat (destruct Hx as [<-|Hx]; [transitivity (Some (int_param e (udec n) (60 * 60 * 24))); [reflexivity|rewrite int_param_udec by assumption; reflexivity]|]). contradiction.
  - destruct U as [|x Hx|x Hx|x Hx]; [exact I| | |]; cbn [In] in Hx;
      repeat (destruct Hx as [<-|Hx]; [reflexivity|]); contradiction.
Qed.

Lemma sign_cmd sg R : sign sg R -> forall n u, 0 <= n ->
  exists c, term_cmd (sg ++ udec n ++ u) = (c, udec n ++ u) /\ numeric c = true /\
    (forall a b, num_cmp c a b = true <-> R a b) /\ brace_cmd c = false.
Proof.
  intros S n u Hn. destruct (udec_cons n Hn) as (d & ds & E & D). unfold is_digit in D.
  assert (H1 : d <> 61) by lia.
  destruct S; unfold term_cmd; cbn [str app hd tl].
  - exists fcEqual. cbn. split; [reflexivity|]. split; [reflexivity|]. split; [intros; cbn; lia|reflexivity].
  - exists fcLess. rewrite E. cbn [app hd tl]. replace (d =? 61) with false by lia. cbn.
    split; [reflexivity|]. split; [reflexivity|]. split; [intros; cbn; lia|reflexivity].
  - exists fcLessEqual. cbn. split; [reflexivity|]. split; [reflexivity|]. split; [intros; cbn; lia|reflexivity].
  - exists fcGreater. rewrite E. cbn [app hd tl]. replace (d =? 61) with false by lia. cbn.
    split; [reflexivity|]. split; [reflexivity|]. split; [intros; cbn; lia|reflexivity].
  - exists fcGreaterEqual. cbn. split; [reflexivity|]. split; [reflexivity|]. split; [intros; cbn; lia|reflexivity].
Qed.
