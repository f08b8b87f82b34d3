(** Proofs about references and options of feed rules. *)
From Coq Require Import String.
From Verif Require Import Base NumFmt InfoModel ArticleProofs LineProofs WildSpec WildModel WildProofs WildPosProofs TextProofs FeedModel FeedSpec FeedProofs FeedProofs2 FeedProofs3 FeedProofs4.

Lemma division_app is1 : forall pos is2 t gs, division pos (is1 ++ is2) t gs ->
  exists t1 t2 g1 g2, t = t1 ++ t2 /\ gs = g1 ++ g2 /\ division pos is1 t1 g1 /\
    division (pos + Z.of_nat (length t1)) is2 t2 g2.
Proof.
  induction is1 as [|x is1 IH]; intros pos is2 t gs D; cbn [app] in D.
  - exists [], t, [], gs. split; [reflexivity|]. split; [reflexivity|]. split; [constructor|].
    cbn [length]. rewrite Z.add_0_r. exact D.
  - inversion D; subst.
    + match goal with H : division _ (is1 ++ is2) _ _ |- _ => apply IH in H as (t1 & t2 & g1 & g2 & -> & -> & D1 & D2) end.
      exists (c :: t1), t2, g1, g2. split; [reflexivity|]. split; [reflexivity|]. split; [constructor; assumption|].
      cbn [length]. rewrite Nat2Z.inj_succ. replace (pos + Z.succ (Z.of_nat (length t1))) with (pos + 1 + Z.of_nat (length t1)) by lia. exact D2.
    + match goal with H : division _ (is1 ++ is2) _ _ |- _ => apply IH in H as (t1 & t2 & g1 & g2 & -> & -> & D1 & D2) end.
      exists (u ++ t1), t2, ((pos, Z.of_nat (length u)) :: g1), g2. rewrite <- app_assoc.
      split; [reflexivity|]. split; [reflexivity|]. split; [constructor; assumption|].
      rewrite app_length, Nat2Z.inj_add, Z.add_assoc. exact D2.
    + match goal with H : division _ (is1 ++ is2) _ _ |- _ => apply IH in H as (t1 & t2 & g1 & g2 & -> & -> & D1 & D2) end.
      exists (u ++ t1), t2, ((pos, Z.of_nat (length u)) :: g1), g2. rewrite <- app_assoc.
      split; [reflexivity|]. split; [reflexivity|]. split; [constructor; assumption|].
      rewrite app_length, Nat2Z.inj_add, Z.add_assoc. exact D2.
Qed.
Lemma division_star pos is t gs : division pos (IStar :: is) t gs ->
  exists u t' gs', t = u ++ t' /\ gs = (pos, Z.of_nat (length u)) :: gs' /\ division (pos + Z.of_nat (length u)) is t' gs'.
Proof. intros D. inversion D; subst. exists u, t0, gs0. auto. Qed.

Lemma items_nonempty m : m <> [] -> items m <> [].
Proof.
  destruct m as [|c r]; [congruence|]. intros _. cbn [items].
  destruct (c =? 42); [destruct (items r) as [|[] ?]; discriminate|].
  destruct ((c =? 63) || (c =? 35)); [destruct (items r) as [|[] ?]; discriminate|discriminate].
Qed.
Lemma items_star p : hd 0 p <> 42 -> items (42 :: p) = IStar :: items p.
Proof.
  intros H. destruct p as [|c r]; [reflexivity|]. cbn [hd] in H. cbn [items].
  replace (42 =? 42) with true by reflexivity. replace (c =? 42) with false by lia.
  destruct ((c =? 63) || (c =? 35)); [destruct (items r) as [|[] ?]; reflexivity|reflexivity].
Qed.
Lemma items_snoc p : p <> [] -> last p 0 <> 42 -> items (p ++ [42]) = items p ++ [IStar].
Proof.
  induction p as [|c r IH]; [congruence|]. intros _ H. destruct r as [|d r].
  - cbn [last] in H. cbn [app items]. replace (c =? 42) with false by lia. replace (42 =? 42) with true by reflexivity.
    destruct ((c =? 63) || (c =? 35)); reflexivity.
  - assert (E := IH ltac:(discriminate) H). assert (N := items_nonempty (d :: r) ltac:(discriminate)).
    change ((c :: d :: r) ++ [42]) with (c :: (d :: r) ++ [42]).
    remember ((d :: r) ++ [42]) as x. remember (d :: r) as y.
    cbn [items]. rewrite E. destruct (items y) as [|i0 l]; [congruence|]. cbn [app].
    destruct (c =? 42); [destruct i0; reflexivity|].
    destruct ((c =? 63) || (c =? 35)); [destruct i0; reflexivity|reflexivity].
Qed.

Lemma refs_firstn s off g g1 g2 : skipn off g = g1 ++ g2 -> Forall (fun p => 0 < snd p) g1 ->
  firstn (length g1) (ref_values true s off g) = map (group_text s) g1.
Proof.
  intros E F. unfold ref_values. rewrite E, map_app, firstn_app, map_length, Nat.sub_diag.
  rewrite firstn_all2 by (rewrite map_length; lia). cbn [firstn]. rewrite app_nil_r.
  apply map_ext_in. intros p Hp. rewrite Forall_forall in F. specialize (F _ Hp). unfold cstring_set, group_text.
  replace (snd p =? 0) with false by lia. reflexivity.
Qed.

Lemma no_q_before_star m : no_q m -> q_before_star m.
Proof.
  intros N a b ->. unfold no_q in *. apply Forall_app in N as [_ N]. exact (Forall_inv_tail N).
Qed.

Lemma inside_refs param s refs : ~ In 0 s -> anywhere word_seps param -> no_q param ->
  match_text true param s = Some (true, refs) ->
  exists a m b g, s = a ++ m ++ b /\ division (Z.of_nat (length a)) (items param) m g /\
    (Forall (fun p => 0 < snd p) g -> firstn (length g) refs = map (group_text s) g).
Proof.
  intros N A Q. unfold match_text. assert (P0 : param <> []).
  { intros ->. destruct A as [[m A]|(c & [] & _)]. discriminate. }
  assert (S := proj2 (substr_iff _) A). rewrite S. unfold substr_mask.
  destruct (starred param) eqn:ST.
  - destruct (wild_match true param s) as [[b g]|] eqn:E; [|discriminate]. cbn [obind].
    intros H. injection H as -> <-. apply wild_positions in E; [|exact N|apply no_q_before_star, Q].
    exists [], s, [], g. rewrite app_nil_r. split; [reflexivity|]. split; [exact E|].
    intros F. apply (refs_firstn s 0 g g []); [rewrite app_nil_r; reflexivity|exact F].
  - destruct ((1 <=? Z.of_nat (length param)) && (hd 0 param =? 42)) eqn:HA.
    + destruct (wild_match true (param ++ [42]) s) as [[b g]|] eqn:E; [|discriminate]. cbn [obind].
      intros H. injection H as -> <-. apply wild_positions in E; [|exact N|].
      2:{ apply no_q_before_star. apply Forall_app. split; [exact Q|repeat constructor; lia]. }
      assert (L : last param 0 <> 42).
      { intros L. destruct param as [|c p]; [congruence|]. cbn [hd] in HA. assert (c = 42) by lia. subst c.
        destruct p as [|d p].
        - destruct A as [[m A]|(c & [<-|[]] & _ & H & _)]; [destruct m; discriminate|congruence].
        - unfold starred in ST. cbn [hd] in ST. rewrite L in ST. cbn [length] in ST. lia. }
      rewrite items_snoc in E by assumption. apply division_app in E as (m & b & g1 & g2 & -> & -> & D & _).
      exists [], m, b, g1. split; [reflexivity|]. split; [exact D|].
      intros F. apply (refs_firstn _ 0 _ g1 g2); [reflexivity|exact F].
    + assert (HD : hd 0 param <> 42) by (destruct param; [congruence|]; cbn [hd length] in *; lia).
      destruct ((1 <=? Z.of_nat (length param)) && (last param 0 =? 42)) eqn:HL.
      * destruct (wild_match true (42 :: param) s) as [[b g]|] eqn:E; [|discriminate]. cbn [obind].
        intros H. injection H as -> <-. apply wild_positions in E; [|exact N|].
        2:{ apply no_q_before_star. constructor; [lia|exact Q]. }
        rewrite items_star in E by exact HD. apply division_star in E as (a & m & g' & -> & -> & D).
        exists a, m, [], g'. rewrite app_nil_r. split; [reflexivity|]. split; [exact D|].
        intros F. refine (refs_firstn _ 1 ((0, 0) :: g') g' [] _ F). rewrite app_nil_r. reflexivity.
      * destruct (wild_match true (42 :: param ++ [42]) s) as [[b g]|] eqn:E; [|discriminate]. cbn [obind].
        intros H. injection H as -> <-. apply wild_positions in E; [|exact N|].
        2:{ apply no_q_before_star. constructor; [lia|]. apply Forall_app. split; [exact Q|repeat constructor; lia]. }
        assert (L : last param 0 <> 42) by (destruct param; [congruence|]; cbn [length] in HL; lia).
        rewrite items_star in E by (destruct param; [congruence|exact HD]).
        rewrite items_snoc in E by assumption.
        apply division_star in E as (a & mb & g' & -> & -> & D).
        apply division_app in D as (m & b & g1 & g2 & -> & -> & D & _).
        exists a, m, b, g1. split; [reflexivity|]. split; [exact D|].
        intros F. exact (refs_firstn _ 1 ((0, 0) :: g1 ++ g2) g1 g2 eq_refl F).
Qed.

Lemma word_search_refs param : forall ws refs, (forall w, In w ws -> ~ In 0 w) -> q_before_star param ->
  word_search true param ws = Some (true, refs) ->
  exists w g, In w ws /\ division 0 (items param) w g /\
    (Forall (fun p => 0 < snd p) g -> refs = map (group_text w) g).
Proof.
  induction ws as [|w ws IH]; intros refs N Q H; cbn [word_search] in H; [discriminate|].
  destruct (wild_match true param w) as [[b g]|] eqn:E; [|discriminate]. cbn [obind] in H. destruct b.
  - injection H as <-. exists w, g. split; [left; reflexivity|].
    split; [apply wild_positions; [apply N; left; reflexivity|exact Q|exact E]|].
    intros F. exact (refs_ok w g 0 F).
  - destruct (IH refs) as (w' & g' & I & R); [intros x Hx; apply N; right; exact Hx|exact Q|exact H|].
    exists w', g'. split; [right; exact I|exact R].
Qed.
Lemma word_refs param s refs : ~ In 0 s -> ~ anywhere word_seps param -> q_before_star param ->
  match_text true param s = Some (true, refs) ->
  exists w g, word_of word_seps s w /\ division 0 (items param) w g /\
    (Forall (fun p => 0 < snd p) g -> refs = map (group_text w) g).
Proof.
  intros N A Q. unfold match_text. destruct (is_substr param) eqn:S; [apply substr_iff in S; contradiction|].
  rewrite tokens_ok. cbn [obind]. intros H.
  apply word_search_refs in H as (w & g & I & R); [|intros w Hw; apply kept_words in Hw; eapply word_no_nul; eassumption|exact Q].
  exists w, g. split; [apply kept_words, I|exact R].
Qed.

(** ** Expansion *)
Lemma find_ref_none t : ~ In 36 t -> find_sub (str "${") t = None.
Proof.
  induction t as [|c t IH]; intros H; [reflexivity|]. cbn [find_sub].
  change (str "${") with [36; 123] in *. cbn [prefixb]. replace (36 =? c) with false by (cbn [In] in H; lia). cbn [andb].
  rewrite IH by (intros X; apply H; right; exact X). reflexivity.
Qed.
Lemma find_ref_some t r : ~ In 36 t -> find_sub (str "${") (t ++ str "${" ++ r) = Some (t, r).
Proof.
  change (str "${") with [36; 123]. induction t as [|c t IH]; intros H; [reflexivity|]. change ((c :: t) ++ [36; 123] ++ r) with (c :: t ++ [36; 123] ++ r). cbn [find_sub prefixb].
  replace (36 =? c) with false by (cbn [In] in H; lia). cbn [andb].
  rewrite IH by (intros X; apply H; right; exact X). reflexivity.
Qed.
Lemma split_brace_app var rest : ~ In 125 var -> split_brace (var ++ str "}" ++ rest) = Some (var, rest).
Proof.
  change (str "}") with [125]. induction var as [|c t IH]; intros H; [reflexivity|]. change ((c :: t) ++ [125] ++ rest) with (c :: t ++ [125] ++ rest). cbn [split_brace].
  replace (c =? 125) with false by (cbn [In] in H; lia).
  rewrite IH by (intros X; apply H; right; exact X). reflexivity.
Qed.
Lemma lower_lc c : lower c = lc c.
Proof. reflexivity. Qed.
Lemma map_lc_in x var : In x var -> In (lc x) (map lc var).
Proof. apply in_map. Qed.
Lemma ref_means_value i refs var v : ref_means i refs var v ->
  ref_value i refs var = Some v /\ ~ In 125 var /\ (0 < length var <= 99)%nat.
Proof.
  intros [[E ->]|[[E ->]|(n & R & -> & E)]].
  - unfold ref_value, same_nocase. rewrite (map_ext _ _ lower_lc var), E. split; [reflexivity|]. split.
    + intros H. apply map_lc_in in H. rewrite E in H. cbn in H. intuition discriminate.
    + assert (L := f_equal (@length Z) E). rewrite map_length in L. rewrite L. vm_compute. split; repeat constructor.
  - unfold ref_value, same_nocase. rewrite (map_ext _ _ lower_lc var), E. split; [reflexivity|]. split.
    + intros H. apply map_lc_in in H. rewrite E in H. cbn in H. intuition discriminate.
    + assert (L := f_equal (@length Z) E). rewrite map_length in L. rewrite L. vm_compute. split; repeat constructor.
  - destruct (zdec_pos (Z.of_nat n + 1) ltac:(lia)) as (c & t & Ez & Hc).
    assert (Hc' : 48 <= c <= 57) by (unfold is_digit in Hc; lia).
    split; [|split].
    + unfold ref_value, same_nocase.
      assert (X : forall k w, map lower (str k) = w -> hd 0 w <> c -> 97 <= hd 0 w -> beqb (map lower (zdec (Z.of_nat n + 1))) w = false).
      { intros k w _ W1 W2. rewrite Ez. destruct w as [|y w]; [reflexivity|]. cbn [map beqb hd] in *.
        replace (lower c =? y) with false; [reflexivity|]. symmetry. apply Z.eqb_neq. unfold lower.
        destruct ((65 <=? c) && (c <=? 90)) eqn:B; lia. }
      rewrite (X "season"%string _ eq_refl) by (vm_compute hd; lia). rewrite (X "episode"%string _ eq_refl) by (vm_compute hd; lia).
      assert (AZ : atoll (zdec (Z.of_nat n + 1)) = Z.of_nat n + 1).
      { rewrite <- (app_nil_r (zdec _)). apply atoll_zdec. exact I. }
      rewrite AZ. replace (Z.of_nat n + 1 - 1) with (Z.of_nat n) by lia.
      assert (LT : (n < length refs)%nat) by (apply nth_error_Some; congruence).
      replace (0 <=? Z.of_nat n) with true by lia. replace (Z.of_nat n <? Z.of_nat (length refs)) with true by lia. cbn [andb].
      rewrite Nat2Z.id. exact E.
    + intros H. assert (F := zdec_no (Z.of_nat n + 1) 125 ltac:(lia) eq_refl). rewrite Forall_forall in F. exact (F _ H eq_refl).
    + assert (L := zdec_len (Z.of_nat n + 1) ltac:(lia)). rewrite Ez in *. cbn [length] in *. lia.
Qed.

Lemma expand_ok i refs n src out : expands i refs n src out -> forall pre k, ~ In 36 pre -> (n <= k)%nat ->
  expand_refs k i refs (pre ++ src) = pre ++ out.
Proof.
  intros X. induction X as [t T|n t var v rest out T M V X IH]; intros pre k P L.
  - destruct k; [reflexivity|]. cbn [expand_refs]. rewrite find_ref_none; [reflexivity|].
    rewrite in_app_iff. tauto.
  - destruct k as [|k]; [lia|]. cbn [expand_refs].
    rewrite app_assoc. rewrite find_ref_some by (rewrite in_app_iff; tauto).
    destruct (ref_means_value _ _ _ _ M) as (RV & NB & LV). rewrite split_brace_app by exact NB.
    unfold bstring_set. replace (0 <? Z.of_nat (length var)) with true by lia.
    replace (Z.to_nat (Z.min 99 (Z.of_nat (length var)))) with (length var) by lia.
    rewrite firstn_app, Nat.sub_diag, firstn_all. cbn [firstn]. rewrite app_nil_r, RV.
    rewrite app_assoc. rewrite IH; [|rewrite !in_app_iff; tauto|lia].
    rewrite <- !app_assoc. reflexivity.
Qed.
Lemma expand_ok100 i refs n src out : expands i refs n src out -> (n <= 100)%nat -> expand_refs 100 i refs src = out.
Proof. intros X L. exact (expand_ok i refs n src out X [] 100 (fun H => H) L). Qed.

(** ** Options *)
Lemma default_kept {A} (old : A) g : kept_or old g (default old g).
Proof. destruct g; split; intros; cbn [default]; congruence. Qed.
Lemma apply_options_ok r i o : options_set r i o (apply_options r i o).
Proof.
  unfold options_set, apply_options. cbn [p_category p_pause p_dupemode p_priority p_dupescore p_dupekey].
  split; [apply default_kept|]. split; [apply default_kept|]. split; [apply default_kept|].
  split; [eexists; eexists; split; [apply default_kept|]; split; [apply default_kept|reflexivity]|].
  split; [eexists; eexists; split; [apply default_kept|]; split; [apply default_kept|reflexivity]|].
  intros -> -> -> ->. eexists. split; [apply default_kept|].
  set (key := default (p_dupekey o) (r_key r)). clearbody key.
  split; [intros ->; reflexivity|]. split.
  - intros x -> H. unfold append_dupekey, nonempty. destruct H as [-> | ->]; [reflexivity|]. rewrite andb_false_r. reflexivity.
  - intros x -> K X. unfold append_dupekey, nonempty. destruct key; [congruence|]. destruct x; [congruence|]. reflexivity.
Qed.
