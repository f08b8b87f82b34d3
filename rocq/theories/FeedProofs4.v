(** Terms as written, feed history, retry intervals, reads inside the filter text. *)
From Coq Require Import String.
From Verif Require Import Base NumFmt WildSpec WildModel WildProofs TextProofs InfoModel FeedModel FeedSpec FeedProofs FeedProofs2 FeedProofs3.

(** ** Terms *)
Lemma compile_field e room name field t c param n fl rest :
  name = field ++ 58 :: rest -> t = mkTerm true (Some field) c param n fl ->
  (match field with [] => False | ch :: r => existsb (Z.eqb ch) [45; 43; 40; 41; 124; 64; 36; 60; 62; 61] = false end) ->
  ~ In 58 field -> rest <> [] -> term_cmd rest = (c, param) -> field_known (Some field) = true ->
  parse_param e field c param = Some (n, fl) -> compile_term e room name = COk t.
Proof.
  intros -> -> H N R C K P. destruct field as [|ch f]; [contradiction|].
  cbn [existsb] in H. rewrite !orb_false_iff in H. destruct H as (H1 & H2 & H3 & H4 & H5 & H6 & H7 & H8 & H9 & H10 & _).
  unfold compile_term. cbn [app hd tl].
  replace (ch =? 45) with false by lia. replace (ch =? 43) with false by lia. cbn [orb negb].
  replace (ch =? 40) with false by lia. replace (ch =? 41) with false by lia. replace (ch =? 124) with false by lia.
  rewrite !andb_false_r.
  replace (ch =? 64) with false by lia. replace (ch =? 36) with false by lia. replace (ch =? 60) with false by lia.
  replace (ch =? 62) with false by lia. replace (ch =? 61) with false by lia. cbn [orb].
  assert (S1 : split_colon (ch :: f ++ 58 :: rest) = Some (ch :: f, rest)).
  { clear - N. change (ch :: f ++ 58 :: rest) with ((ch :: f) ++ 58 :: rest). revert N. generalize (ch :: f). clear ch f.
    induction l as [|x l IH]; intros N; cbn [app split_colon].
    - change (58 =? 58) with true. reflexivity.
    - cbn [In] in N. replace (x =? 58) with false by lia. rewrite IH by tauto. reflexivity. }
  rewrite S1. destruct rest as [|r0 rest]; [congruence|]. rewrite C, K. cbn [negb]. rewrite P. reflexivity.
Qed.

Lemma size_term e want i o n u mult sg R : sign sg R -> unit_text u mult -> 0 <= n -> n * mult < 2 ^ 53 ->
  exists b, word_means e want i o (str "size:" ++ sg ++ udec n ++ u) b /\ (b = true <-> R (i_size i) (n * mult)).
Proof.
  intros S U Hn Bd. destruct (sign_cmd sg R S n u Hn) as (c & C & Nc & HR & B).
  exists (num_cmp c (i_size i) (n * mult)). split; [|apply HR].
  exists (mkTerm true (Some (str "size")) c (udec n ++ u) (n * mult) false), [].
  split.
  { eapply (compile_field e 1 _ (str "size")) with (rest := sg ++ udec n ++ u); try reflexivity.
    - vm_compute. intuition discriminate.
    - destruct S; discriminate.
    - exact C.
    - unfold parse_param. change (same_nocase (str "size") (str "size")) with true.
      rewrite (parse_size_ok e n u mult Hn Bd U). reflexivity. }
  split; [exact B|]. unfold term_match. cbn [t_field].
  change (field_data e (Some (str "size")) i o) with (Some (@None (list Z), i_size i)).
  unfold match_value. cbn [t_cmd t_float t_int t_pos].
  destruct c; try discriminate Nc; try discriminate B; cbn [obind]; destruct (num_cmp _ _ _); reflexivity.
Qed.
Lemma age_term e want i o n u mult sg R : sign sg R -> age_text u mult -> 0 <= n -> n * mult < 2 ^ 53 ->
  exists b, word_means e want i o (str "age:" ++ sg ++ udec n ++ u) b /\ (b = true <-> R (e_now e - i_time i) (n * mult)).
Proof.
  intros S U Hn Bd. destruct (sign_cmd sg R S n u Hn) as (c & C & Nc & HR & B).
  exists (num_cmp c (e_now e - i_time i) (n * mult)). split; [|apply HR].
  exists (mkTerm true (Some (str "age")) c (udec n ++ u) (n * mult) false), [].
  split.
  { eapply (compile_field e 1 _ (str "age")) with (rest := sg ++ udec n ++ u); try reflexivity.
    - vm_compute. intuition discriminate.
    - destruct S; discriminate.
    - exact C.
    - unfold parse_param. change (same_nocase (str "age") (str "size")) with false.
      change (same_nocase (str "age") (str "age")) with true.
      rewrite (parse_age_ok e n u mult Hn Bd U). reflexivity. }
  split; [exact B|]. unfold term_match. cbn [t_field].
  change (field_data e (Some (str "age")) i o) with (Some (@None (list Z), e_now e - i_time i)).
  unfold match_value. cbn [t_cmd t_float t_int t_pos].
  destruct c; try discriminate Nc; try discriminate B; cbn [obind]; destruct (num_cmp _ _ _); reflexivity.
Qed.

Lemma compile_simple e room w : simple_text w -> compile_term e room w = COk (mkTerm true None fcText w 0 false).
Proof.
  intros ((P1 & P2 & P3) & (V1 & V2) & C & H). destruct w as [|ch rest]; [congruence|]. cbn [hd In] in H.
  unfold compile_term. cbn [hd tl].
  replace (ch =? 45) with false by lia. replace (ch =? 43) with false by lia. cbn [orb negb].
  assert (B : forall x, (ch :: rest) <> [x] -> (match rest with [] => true | c :: _ => c =? 32 end) && (ch =? x) = false).
  { intros x Hx. destruct rest as [|d rest].
    - cbn [andb]. destruct (ch =? x) eqn:E; [|reflexivity]. exfalso. apply Hx. f_equal. lia.
    - cbn [In] in V2. replace (d =? 32) with false by lia. reflexivity. }
  change (str "(") with [40] in P1. change (str ")") with [41] in P2. change (str "|") with [124] in P3.
  rewrite (B _ P1), (B _ P2), (B _ P3).
  replace (ch =? 64) with false by lia. replace (ch =? 36) with false by lia. replace (ch =? 60) with false by lia.
  replace (ch =? 62) with false by lia. replace (ch =? 61) with false by lia. cbn [orb].
  assert (S1 : split_colon (ch :: rest) = None).
  { clear - C. revert C. generalize (ch :: rest). induction l as [|x l IH]; intros N; cbn [split_colon]; [reflexivity|].
    cbn [In] in N. replace (x =? 58) with false by lia. rewrite IH by tauto. reflexivity. }
  rewrite S1. unfold term_cmd. cbn [hd tl].
  replace (ch =? 64) with false by lia. replace (ch =? 36) with false by lia. replace (ch =? 60) with false by lia.
  replace (ch =? 62) with false by lia. replace (ch =? 61) with false by lia. reflexivity.
Qed.

Lemma text_term e want i o w : simple_text w -> ~ In 0 (i_title i) ->
  exists b, word_means e want i o w b /\
    (anywhere word_seps w -> (b = true <-> inside w (i_title i))) /\
    (~ anywhere word_seps w -> (b = true <-> exists x, word_of word_seps (i_title i) x /\ glob wild_char w x)).
Proof.
  intros S N. destruct (match_text_ok want w (i_title i) N) as (b & refs & E & H1 & H2).
  exists b. split; [|split; assumption].
  exists (mkTerm true None fcText w 0 false), refs. split; [apply compile_simple, S|]. split; [reflexivity|].
  unfold term_match. cbn [t_field field_data]. unfold match_value. cbn [t_cmd t_param t_pos]. rewrite E. cbn [obind].
  destruct b; reflexivity.
Qed.

(** ** References *)
Lemma refs_ok s g off : Forall (fun p => 0 < snd p) g ->
  ref_values true s off g = map (fun p => firstn (Z.to_nat (snd p)) (skipn (Z.to_nat (fst p)) s)) (skipn off g).
Proof.
  intros F. unfold ref_values.
  assert (F2 : Forall (fun p => 0 < snd p) (skipn off g)).
  { rewrite Forall_forall in *. intros p Hp. apply F. rewrite <- (firstn_skipn off g). apply in_or_app. right. exact Hp. }
  induction F2 as [|p l H F2 IH]; [reflexivity|]. cbn [map]. rewrite IH. unfold cstring_set.
  replace (snd p =? 0) with false by lia. reflexivity.
Qed.

(** ** Feed history *)
Lemma hist_find_iff l u : hist_find l u = true <-> In u (map h_url l).
Proof.
  induction l as [|h l IH]; cbn [hist_find map In]; [split; [discriminate|intros []]|].
  destruct (beqb (h_url h) u) eqn:E.
  - apply beqb_eq in E. tauto.
  - apply beqb_neq in E. rewrite IH. tauto.
Qed.
Lemma hist_update_urls f l u : (forall h, h_url (f h) = h_url h) -> map h_url (hist_update f l u) = map h_url l.
Proof.
  intros H. induction l as [|h l IH]; cbn [hist_update map]; [reflexivity|].
  destruct (beqb (h_url h) u); cbn [map]; [rewrite H; reflexivity|rewrite IH; reflexivity].
Qed.

Lemma process_urls_ok now backlog : forall urls hist h2 added, process_urls now backlog urls hist = (h2, added) ->
  (forall u, In u (map h_url h2) <-> In u (map h_url hist) \/ In u urls) /\
  NoDup added /\
  (forall u, In u added <-> backlog = false /\ In u urls /\ ~ In u (map h_url hist)).
Proof.
  induction urls as [|u urls IH]; intros hist h2 added H; cbn [process_urls] in H.
  - inversion H; subst. split; [cbn; tauto|]. split; [constructor|]. cbn. tauto.
  - set (known := hist_find hist u) in *.
    set (hist1 := if known then hist_update (set_seen now) hist u
                  else hist ++ [mkHist u (if backlog then hsBacklog else if known then hsUnknown else hsFetched) now]) in *.
    destruct (process_urls now backlog urls hist1) as [h3 added3] eqn:E. inversion H; subst h3 added; clear H.
    destruct (IH _ _ _ E) as (A & B & C).
    assert (K : forall x, In x (map h_url hist1) <-> In x (map h_url hist) \/ x = u).
    { intros x. unfold hist1. destruct known eqn:Ek.
      - rewrite hist_update_urls by reflexivity. split; [auto|]. intros [Hx| ->]; [exact Hx|]. apply hist_find_iff. exact Ek.
      - rewrite map_app, in_app_iff. cbn [map In h_url]. intuition congruence. }
    assert (Ku : known = true <-> In u (map h_url hist)) by apply hist_find_iff.
    split.
    { intros x. rewrite A, K. cbn [In]. intuition congruence. }
    destruct backlog; cbn [negb andb app].
    + split; [exact B|]. intros x. rewrite C. split; intros [F _]; discriminate F.
    + destruct known; cbn [negb andb app].
      * split; [exact B|]. intros x. rewrite C, K. cbn [In]. split.
        -- intros (_ & H1 & H2). tauto.
        -- intros (_ & [<-|H1] & H2); [exfalso; apply H2, Ku; reflexivity|]. split; [reflexivity|]. split; [exact H1|].
           intros [H3| ->]; [tauto|]. apply H2, Ku. reflexivity.
      * assert (Nu : ~ In u (map h_url hist)) by (intros Hx; apply Ku in Hx; discriminate).
        split.
        -- constructor; [|exact B]. rewrite C, K. tauto.
        -- intros x. cbn [In]. rewrite C, K. split.
           ++ intros [<-|(_ & H1 & H2)]; [tauto|]. tauto.
           ++ intros (_ & [<-|H1] & H2); [left; reflexivity|].
              destruct (list_eq_dec Z.eq_dec u x) as [->|Hn]; [left; reflexivity|]. right. split; [reflexivity|].
              split; [exact H1|]. intros [H3|H3]; congruence.
Qed.

Lemma completed_urls now url hist u : In u (map h_url (url_completed now url hist)) <-> In u (map h_url hist) \/ u = url.
Proof.
  unfold url_completed. destruct (hist_find hist url) eqn:E.
  - rewrite hist_update_urls by reflexivity. split; [auto|]. intros [H| ->]; [exact H|apply hist_find_iff, E].
  - rewrite map_app, in_app_iff. cbn [map In h_url]. intuition congruence.
Qed.

Lemma feed_run_ok : forall ops hist h2 added, feed_run ops hist = (h2, added) ->
  NoDup added /\ (forall u, In u added -> ~ In u (map h_url hist)) /\
  (forall u, In u (map h_url hist) -> In u (map h_url h2)) /\ (forall u, In u added -> In u (map h_url h2)).
Proof.
  induction ops as [|[now fin f urls|now url] ops IH]; intros hist h2 added H; cbn [feed_run] in H.
  - inversion H; subst. split; [constructor|]. split; [intros u []|]. split; [auto|intros u []].
  - unfold process_feed in H. destruct (process_urls _ _ urls hist) as [h1 a1] eqn:E.
    destruct (feed_run ops h1) as [h3 a3] eqn:E3. inversion H; subst h3 added; clear H.
    destruct (process_urls_ok _ _ _ _ _ _ E) as (A & B & C). destruct (IH _ _ _ E3) as (D1 & D2 & D3 & D4).
    split.
    { assert (X : forall u, In u a1 -> ~ In u a3).
      { intros u Hu H3. apply (D2 u H3), A. right. apply C in Hu. tauto. }
      clear - B D1 X. induction B as [|x l Hx B IHB]; [exact D1|]. cbn [app]. constructor.
      - rewrite in_app_iff. intros [H|H]; [tauto|]. apply (X x); [left; reflexivity|exact H].
      - apply IHB. intros u Hu. apply X. right. exact Hu. }
    split.
    { intros u Hu. apply in_app_or in Hu as [Hu|Hu]; [apply C in Hu; tauto|]. intros Hh. apply (D2 u Hu), A. left. exact Hh. }
    split.
    { intros u Hu. apply D3, A. left. exact Hu. }
    intros u Hu. apply in_app_or in Hu as [Hu|Hu]; [|apply D4, Hu]. apply D3, A. right. apply C in Hu. tauto.
  - destruct (IH _ _ _ H) as (D1 & D2 & D3 & D4). split; [exact D1|]. split.
    { intros u Hu Hh. apply (D2 u Hu), completed_urls. left. exact Hh. }
    split; [|exact D4]. intros u Hu. apply D3, completed_urls. left. exact Hu.
Qed.

Lemma oldest_le now feeds : oldest_update now feeds <= now /\ (forall f, In f feeds -> oldest_update now feeds <= f_last f).
Proof.
  unfold oldest_update. revert now. induction feeds as [|f fs IH]; intros now; cbn [fold_left].
  - split; [lia|intros f []].
  - destruct (IH (if f_last f <? now then f_last f else now)) as [A B]. split.
    + destruct (f_last f <? now) eqn:E; lia.
    + intros g [<-|Hg]; [|apply B, Hg]. destruct (f_last f <? now) eqn:E; lia.
Qed.
Lemma cleanup_keeps now days feeds hist h : In h hist ->
  (exists f, In f feeds /\ f_last f - days * 86400 <= h_seen h) \/ now - days * 86400 <= h_seen h ->
  In h (cleanup_history now days feeds hist).
Proof.
  intros Hh H. unfold cleanup_history. apply filter_In. split; [exact Hh|].
  destruct (oldest_le now feeds) as [A B]. apply negb_true_iff.
  destruct H as [(f & Hf & H)|H]; [specialize (B f Hf)|]; lia.
Qed.
Lemma cleanup_drops now days feeds hist h : In h (cleanup_history now days feeds hist) ->
  In h hist /\ oldest_update now feeds - days * 86400 <= h_seen h.
Proof.
  unfold cleanup_history. rewrite filter_In. intros [H1 H2]. apply negb_true_iff in H2. split; [exact H1|]. lia.
Qed.

Lemma find_update f l u : hist_find l u = true -> (forall h, h_url (f h) = h_url h) ->
  exists h, In (f h) (hist_update f l u) /\ h_url h = u.
Proof.
  induction l as [|h l IH]; cbn [hist_find hist_update]; [discriminate|]. destruct (beqb (h_url h) u) eqn:E.
  - intros _ _. exists h. split; [left; reflexivity|apply beqb_eq, E].
  - intros H Hf. destruct (IH H Hf) as (x & Hx & Ex). exists x. split; [right; exact Hx|exact Ex].
Qed.
Lemma update_other f l u h : In h l -> h_url h <> u -> In h (hist_update f l u).
Proof.
  induction l as [|x l IH]; [intros []|]. cbn [hist_update]. intros [<-|H] N.
  - replace (beqb (h_url x) u) with false by (symmetry; apply beqb_neq, N). left. reflexivity.
  - destruct (beqb (h_url x) u); [right; exact H|right; apply IH; assumption].
Qed.
Lemma process_seen now backlog : forall urls hist h2 added, process_urls now backlog urls hist = (h2, added) ->
  forall u, (In u urls \/ exists h, In h hist /\ h_url h = u /\ h_seen h = now) ->
  exists h, In h h2 /\ h_url h = u /\ h_seen h = now.
Proof.
  induction urls as [|u urls IH]; intros hist h2 added H v Hv; cbn [process_urls] in H.
  - inversion H; subst. destruct Hv as [[]|Hv]. exact Hv.
  - set (hist1 := if hist_find hist u then hist_update (set_seen now) hist u
                  else hist ++ [mkHist u (if backlog then hsBacklog else if hist_find hist u then hsUnknown else hsFetched) now]) in *.
    destruct (process_urls now backlog urls hist1) as [h3 added3] eqn:E. inversion H; subst h3 added; clear H.
    assert (U : exists h, In h hist1 /\ h_url h = u /\ h_seen h = now).
    { unfold hist1. destruct (hist_find hist u) eqn:F.
      - destruct (find_update (set_seen now) hist u F ltac:(reflexivity)) as (h & Hh & Eh).
        exists (set_seen now h). split; [exact Hh|]. split; [exact Eh|reflexivity].
      - eexists. split; [apply in_or_app; right; left; reflexivity|]. split; reflexivity. }
    apply (IH _ _ _ E). destruct (list_eq_dec Z.eq_dec v u) as [->|N]; [right; exact U|].
    destruct Hv as [[->|Hv]|(h & Hh & Eh & Sh)]; [congruence|left; exact Hv|]. right. exists h. split; [|auto].
    unfold hist1. destruct (hist_find hist u); [apply update_other; congruence|apply in_or_app; left; exact Hh].
Qed.

Lemma listed_kept now fin f urls hist f' h2 added now2 days feeds u :
  process_feed now fin f urls hist = (f', h2, added) -> In f' feeds -> In u urls -> fin - days * 86400 <= now ->
  hist_find (cleanup_history now2 days feeds h2) u = true.
Proof.
  intros P F U D. unfold process_feed in P.
  destruct (process_urls now _ urls hist) as [h3 a3] eqn:E. inversion P; subst; clear P.
  destruct (process_seen _ _ _ _ _ _ E u (or_introl U)) as (h & Hh & Eh & Sh).
  apply hist_find_iff. apply in_map_iff. exists h. split; [exact Eh|].
  apply cleanup_keeps; [exact Hh|]. left. eexists. split; [exact F|]. cbn [f_last]. lia.
Qed.

(** ** Retry intervals *)
Lemma fail_const times f : f_interval (fail_times times f) = f_interval f.
Proof. revert f. induction times as [|t r IH]; intros f; cbn [fail_times]; [reflexivity|]. rewrite IH. reflexivity. Qed.
Lemma fail_app a b f : fail_times (a ++ b) f = fail_times b (fail_times a f).
Proof. revert f. induction a as [|t a IH]; intros f; cbn [app fail_times]; [reflexivity|]. apply IH. Qed.
Lemma backoff times : forall t f, 0 < f_interval f -> f_lastint f = 0 ->
  let f' := fail_times (times ++ [t]) f in
  f_lastint f' = Z.min (60 * 2 ^ Z.of_nat (length times)) (60 * f_interval f) /\ f_next f' = t + f_lastint f'.
Proof.
  induction times as [|x times IH] using rev_ind; intros t f Hi Hl; cbn zeta.
  - cbn [app fail_times length next_update f_lastint f_next]. rewrite Hl. cbn [Z.of_nat]. change (60 * 2 ^ 0) with 60. lia.
  - rewrite fail_app. cbn [fail_times].
    destruct (IH x f Hi Hl) as [A B]. rewrite app_length. cbn [length].
    assert (I2 : f_interval (fail_times (times ++ [x]) f) = f_interval f) by apply fail_const.
    unfold next_update. cbn [f_lastint f_next]. rewrite A, I2.
    replace (Z.of_nat (length times + 1)) with (Z.of_nat (length times) + 1) by lia.
    rewrite Z.pow_add_r by lia. change (2 ^ 1) with 2.
    assert (0 < 2 ^ Z.of_nat (length times)) by (apply Z.pow_pos_nonneg; lia). lia.
Qed.

(** ** Reads inside the filter text *)
Lemma compile_term_safe e room t : compile_term e room t = CUB -> room <= 0 /\ (t = [] \/ t = [45] \/ t = [43]).
Proof.
  unfold compile_term. destruct (if _ || _ then tl t else t) as [|ch rest] eqn:E.
  - destruct (room <=? 0) eqn:R; [|discriminate]. intros _. split; [lia|].
    destruct t as [|c t]; [left; reflexivity|]. right. cbn [hd tl] in E.
    destruct (c =? 45) eqn:E1; cbn [orb] in E.
    + subst t. left. f_equal. lia.
    + destruct (c =? 43) eqn:E2; [|discriminate E]. subst t. right. f_equal. lia.
  - intros H. exfalso. revert H.
    set (brace := match rest with [] => true | c :: _ => c =? 32 end).
    destruct (brace && (ch =? 40)); [discriminate|]. destruct (brace && (ch =? 41)); [discriminate|].
    destruct (brace && (ch =? 124)); [discriminate|].
    destruct (match (if (ch =? 64) || (ch =? 36) || (ch =? 60) || (ch =? 62) || (ch =? 61) then None else split_colon (ch :: rest)) with Some (f, p) => (Some f, p) | None => (None, ch :: rest) end) as [field tok1].
    destruct tok1; [discriminate|]. destruct (term_cmd _) as [c param].
    destruct (negb (field_known field)); [discriminate|].
    destruct field as [f|]; [|discriminate]. destruct (parse_param e f c param) as [[n fl]|]; discriminate.
Qed.
Lemma compile_terms_safe e room l : compile_terms e room l = CUB ->
  room <= 0 /\ exists a t, l = a ++ [t] /\ (t = [] \/ t = [45] \/ t = [43]).
Proof.
  induction l as [|t l IH]; cbn [compile_terms]; [discriminate|].
  destruct (compile_term e _ t) eqn:E.
  - intros _. apply compile_term_safe in E as [R T]. destruct l; [|lia]. split; [exact R|]. exists [], t. auto.
  - discriminate.
  - destruct (compile_terms e room l); try discriminate. intros _. destruct (IH eq_refl) as (R & x & y & -> & T).
    split; [exact R|]. exists (t :: x), y. auto.
Qed.

Lemma skipn_last {A} n (l : list A) c : (n <= length l)%nat -> exists r, skipn n (l ++ [c]) = r ++ [c].
Proof.
  intros H. rewrite skipn_app. replace (n - length l)%nat with 0%nat by lia. cbn [skipn]. eexists. reflexivity.
Qed.
Lemma split_blank_end s c : c <> 32 -> exists l w, split_blank (s ++ [c]) = l ++ [w ++ [c]].
Proof.
  intros Hc. induction s as [|x s IH]; cbn [app split_blank].
  - replace (c =? 32) with false by lia. exists [], []. reflexivity.
  - destruct IH as (l & w & ->). destruct (x =? 32).
    + exists ([] :: l), w. reflexivity.
    + destruct l as [|y l]; cbn [app].
      * exists [], (x :: w). reflexivity.
      * exists ((x :: y) :: l), w. reflexivity.
Qed.
Lemma term_texts_end s c : c <> 32 -> exists l w, term_texts (s ++ [c]) = l ++ [w ++ [c]].
Proof.
  intros Hc. destruct (split_blank_end s c Hc) as (l & w & E). unfold term_texts. rewrite E, filter_app.
  assert (F : filter (fun t => match t with [] => false | _ => true end) [w ++ [c]] = [w ++ [c]]).
  { cbn [filter]. destruct w; reflexivity. }
  rewrite F. exists (filter (fun t => match t with [] => false | _ => true end) l), w.
  destruct (filter _ l); reflexivity.
Qed.

Lemma drop_blank_end s c : is_blank c = false -> exists s', drop_blank (s ++ [c]) = s' ++ [c].
Proof.
  intros H. induction s as [|x s IH]; cbn [app drop_blank].
  - rewrite H. exists []. reflexivity.
  - destruct (is_blank x); [exact IH|]. exists (x :: s). reflexivity.
Qed.
Lemma trim_end s c : is_blank c = false -> exists s', trim (s ++ [c]) = s' ++ [c].
Proof.
  intros H. unfold trim. rewrite rev_app_distr. cbn [rev app drop_blank]. rewrite H.
  cbn [rev]. rewrite rev_involutive. apply drop_blank_end, H.
Qed.

Lemma prefix_short p s c : prefixb p (s ++ [c]) = true -> last p 0 <> c -> p <> [] -> (length p <= length s)%nat.
Proof.
  intros H L N. apply prefixb_iff in H as [t E]. destruct t as [|x t].
  - rewrite app_nil_r in E. exfalso. apply L. rewrite <- E. apply last_last.
  - destruct (exists_last (l := x :: t)) as (t' & y & E'); [discriminate|]. rewrite E' in E.
    rewrite app_assoc in E. apply app_inj_tail in E as [-> _]. rewrite app_length. lia.
Qed.
Lemma starts_short x s c : starts_nocase (str x) (s ++ [c]) = true -> last (map lower (str x)) 0 <> lower c -> str x <> [] ->
  (length (str x) <= length s)%nat.
Proof.
  unfold starts_nocase. rewrite map_app. intros H L N.
  rewrite <- (map_length lower (str x)), <- (map_length lower s). eapply prefix_short; [exact H|exact L|].
  destruct (str x); [congruence|discriminate].
Qed.

Lemma split_paren_end s c a b : c <> 41 -> split_paren (s ++ [c]) = Some (a, b) -> exists b', b = b' ++ [c].
Proof.
  intros Hc. revert a b. induction s as [|x s IH]; intros a b; cbn [app split_paren].
  - replace (c =? 41) with false by lia. discriminate.
  - destruct (x =? 41).
    + intros H; inversion H; subst. exists s. reflexivity.
    + destruct (split_paren (s ++ [c])) as [[a' b']|] eqn:E; [|discriminate]. intros H; inversion H; subst.
      eapply IH; reflexivity.
Qed.
Lemma compile_options_end s c r rest : c <> 41 -> c <> 58 -> compile_options (s ++ [c]) = Some (r, rest) ->
  exists rest', rest = rest' ++ [c].
Proof.
  intros H1 H2. unfold compile_options. destruct (split_paren (s ++ [c])) as [[a b]|] eqn:E; [|discriminate]. cbn [obind].
  destruct (split_paren_end _ _ _ _ H1 E) as [b' ->].
  destruct (tokens [44] a) as [l|]; [|discriminate]. cbn [obind].
  destruct (compile_option_list no_opts l) as [r0|]; [|discriminate]. cbn [obind]. intros H; inversion H; subst.
  destruct b' as [|x b']; cbn [app].
  - replace (c =? 58) with false by lia. exists []. reflexivity.
  - destruct (x =? 58); [exists b'|exists (x :: b')]; reflexivity.
Qed.

Lemma opts_end (cmd : rcmd) s n c (last : Z) (cm : rcmd) (r : ropts) rest : (n <= length s)%nat -> c <> 41 -> c <> 58 ->
  (if last =? 40 then obind (compile_options (skipn n (s ++ [c]))) (fun '(r, t) => Some (cmd, r, t))
   else Some (cmd, no_opts, skipn n (s ++ [c]))) = Some (cm, r, rest) ->
  exists rest', rest = rest' ++ [c].
Proof.
  intros L H1 H2. destruct (skipn_last n s c L) as [q Eq]. rewrite Eq. destruct (last =? 40).
  - destruct (compile_options (q ++ [c])) as [[r0 t]|] eqn:E; [|discriminate]. cbn [obind].
    intros H; inversion H; subst. eapply compile_options_end; eassumption.
  - intros H; inversion H; subst. eexists; reflexivity.
Qed.

Lemma short_len s c : c <> 58 -> c <> 40 -> (hd 0 (tl (s ++ [c])) =? 58) || (hd 0 (tl (s ++ [c])) =? 40) = true -> (2 <= length s)%nat.
Proof.
  intros H1 H2 H. destruct s as [|x [|y s]]; cbn [app tl hd length] in *; lia.
Qed.
Lemma compile_command_end s c cm r rest : c <> 41 -> c <> 58 -> c <> 40 ->
  compile_command (s ++ [c]) = Some (cm, r, rest) -> exists rest', rest = rest' ++ [c].
Proof.
  intros H1 H2 H3 H.
  assert (LC : lower c <> 58 /\ lower c <> 40).
  { unfold lower. destruct ((65 <=? c) && (c <=? 90)) eqn:E; lia. } destruct LC as [L1 L2].
  unfold compile_command in H.
  set (short := (hd 0 (tl (s ++ [c])) =? 58) || (hd 0 (tl (s ++ [c])) =? 40)) in H.
  assert (Sh : short = true -> (2 <= length s)%nat) by (apply short_len; assumption).
  destruct (starts_nocase (str "A:") (s ++ [c]) || starts_nocase (str "Accept:") (s ++ [c]) ||
            starts_nocase (str "A(") (s ++ [c]) || starts_nocase (str "Accept(") (s ++ [c])) eqn:EA.
  { assert (L : ((if short then 2 else 7) <= length s)%nat).
    { destruct short eqn:Es; [auto|]. 
      assert (NS : forall y, y = 58 \/ y = 40 -> starts_nocase [65; y] (s ++ [c]) = false).
      { intros y Hy. destruct (starts_nocase [65; y] (s ++ [c])) eqn:F; [|reflexivity]. exfalso.
        unfold starts_nocase in F. apply prefixb_iff in F as [t F].
        unfold short in Es. destruct s as [|x [|z s]]; cbn [app tl hd map] in *.
        - inversion F.
        - injection F as F1 F2 F3. destruct Hy; subst y; cbn in F2; lia.
        - injection F as F1 F2 F3.
          assert (z <> 58 /\ z <> 40) by lia. unfold lower in F2 at 1.
          destruct Hy; subst y; destruct ((65 <=? z) && (z <=? 90)) eqn:Ez; cbn in F2; lia. }
      change (str "A:") with [65; 58] in EA. change (str "A(") with [65; 40] in EA.
      rewrite (NS 58), (NS 40) in EA by auto. rewrite orb_false_r in EA. cbn [orb] in EA.
      apply orb_true_iff in EA as [EA|EA].
      - apply (starts_short "Accept:") in EA; [exact EA| |discriminate]. change (last (map lower (str "Accept:")) 0) with 58; lia.
      - apply (starts_short "Accept(") in EA; [exact EA| |discriminate]. change (last (map lower (str "Accept(")) 0) with 40; lia. }
    eapply opts_end; [exact L|exact H1|exact H2|exact H]. }
  clear EA. destruct (starts_nocase (str "O(") (s ++ [c]) || starts_nocase (str "Options(") (s ++ [c])) eqn:EO.
  { assert (L : ((if short then 2 else 8) <= length s)%nat).
    { destruct short eqn:Es; [auto|].
      assert (NS : starts_nocase [79; 40] (s ++ [c]) = false).
      { destruct (starts_nocase [79; 40] (s ++ [c])) eqn:F; [|reflexivity]. exfalso.
        unfold starts_nocase in F. apply prefixb_iff in F as [t F].
        unfold short in Es. destruct s as [|x [|z s]]; cbn [app tl hd map] in *.
        - inversion F.
        - injection F as F1 F2 F3. cbn in F2; lia.
        - injection F as F1 F2 F3. assert (z <> 58 /\ z <> 40) by lia. unfold lower in F2 at 1.
          destruct ((65 <=? z) && (z <=? 90)) eqn:Ez; cbn in F2; lia. }
      change (str "O(") with [79; 40] in EO. rewrite NS in EO. cbn [orb] in EO.
      apply (starts_short "Options(") in EO; [exact EO| |discriminate]. change (last (map lower (str "Options(")) 0) with 40; lia. }
    eapply opts_end; [exact L|exact H1|exact H2|exact H]. }
  clear EO. destruct (starts_nocase (str "R:") (s ++ [c]) || starts_nocase (str "Reject:") (s ++ [c])) eqn:ER.
  { assert (L : ((if short then 2 else 7) <= length s)%nat).
    { destruct short eqn:Es; [auto|].
      assert (NS : starts_nocase [82; 58] (s ++ [c]) = false).
      { destruct (starts_nocase [82; 58] (s ++ [c])) eqn:F; [|reflexivity]. exfalso.
        unfold starts_nocase in F. apply prefixb_iff in F as [t F].
        unfold short in Es. destruct s as [|x [|z s]]; cbn [app tl hd map] in *.
        - inversion F.
        - injection F as F1 F2 F3. cbn in F2; lia.
        - injection F as F1 F2 F3. assert (z <> 58 /\ z <> 40) by lia. unfold lower in F2 at 1.
          destruct ((65 <=? z) && (z <=? 90)) eqn:Ez; cbn in F2; lia. }
      change (str "R:") with [82; 58] in ER. rewrite NS in ER. cbn [orb] in ER.
      apply (starts_short "Reject:") in ER; [exact ER| |discriminate]. change (last (map lower (str "Reject:")) 0) with 58; lia. }
    inversion H; subst. destruct (skipn_last _ s c L) as [q Eq]. rewrite Eq. eexists; reflexivity. }
  clear ER. destruct (starts_nocase (str "Q:") (s ++ [c]) || starts_nocase (str "Require:") (s ++ [c])) eqn:EQ.
  { assert (L : ((if short then 2 else 8) <= length s)%nat).
    { destruct short eqn:Es; [auto|].
      assert (NS : starts_nocase [81; 58] (s ++ [c]) = false).
      { destruct (starts_nocase [81; 58] (s ++ [c])) eqn:F; [|reflexivity]. exfalso.
        unfold starts_nocase in F. apply prefixb_iff in F as [t F].
        unfold short in Es. destruct s as [|x [|z s]]; cbn [app tl hd map] in *.
        - inversion F.
        - injection F as F1 F2 F3. cbn in F2; lia.
        - injection F as F1 F2 F3. assert (z <> 58 /\ z <> 40) by lia. unfold lower in F2 at 1.
          destruct ((65 <=? z) && (z <=? 90)) eqn:Ez; cbn in F2; lia. }
      change (str "Q:") with [81; 58] in EQ. rewrite NS in EQ. cbn [orb] in EQ.
      apply (starts_short "Require:") in EQ; [exact EQ| |discriminate]. change (last (map lower (str "Require:")) 0) with 58; lia. }
    inversion H; subst. destruct (skipn_last _ s c L) as [q Eq]. rewrite Eq. eexists; reflexivity. }
  destruct (hd 0 (s ++ [c]) =? 35); inversion H; subst; eexists; reflexivity.
Qed.

Lemma trailing_blank s c : is_blank c = true -> 1 <= trailing (s ++ [c]).
Proof.
  intros H. unfold trailing. rewrite rev_app_distr. cbn [rev app drop_blank]. rewrite H.
  assert (A : forall l, (length (drop_blank l) <= length l)%nat).
  { induction l as [|x l IH]; cbn [drop_blank]; [lia|]. destruct (is_blank x); cbn [length]; lia. }
  specialize (A (rev s)). rewrite rev_length in A. rewrite app_length. cbn [length]. lia.
Qed.
Lemma trailing_nonneg s : 0 <= trailing s.
Proof.
  unfold trailing. assert (A : forall l, (length (drop_blank l) <= length l)%nat).
  { induction l as [|x l IH]; cbn [drop_blank]; [lia|]. destruct (is_blank x); cbn [length]; lia. }
  specialize (A (rev s)). rewrite rev_length in A. lia.
Qed.

Lemma compile_rule_safe e room s : 0 <= room -> compile_rule e room s = CUB ->
  room <= 0 /\ (s = [] \/ exists s' c, s = s' ++ [c] /\ In c [41; 58; 40; 45; 43]).
Proof.
  intros R0 H. unfold compile_rule in H.
  destruct (compile_command (trim s)) as [[[c r] rest]|] eqn:E; [|discriminate].
  assert (U : compile_terms e (room + trailing s) (term_texts (trim rest)) = CUB).
  { destruct c; try discriminate H; destruct (compile_terms e (room + trailing s) (term_texts (trim rest))); congruence. }
  destruct (compile_terms_safe _ _ _ U) as (R & a & t & T & Ht).
  assert (N := trailing_nonneg s). split; [lia|].
  destruct s as [|s0 s1]; [left; reflexivity|right].
  destruct (exists_last (l := s0 :: s1)) as (s' & x & Es); [discriminate|]. rewrite Es in *. exists s', x. split; [reflexivity|].
  destruct (is_blank x) eqn:B; [assert (K := trailing_blank s' x B); lia|].
  destruct (in_dec Z.eq_dec x [41; 58; 40; 45; 43]) as [I|I]; [exact I|exfalso]. cbn [In] in I.
  destruct (trim_end s' x B) as [s2 E2]. rewrite E2 in E.
  destruct (compile_command_end s2 x c r rest) as [rest' Er]; try lia; [exact E|]. subst rest.
  destruct (trim_end rest' x B) as [r2 E3]. rewrite E3 in T.
  assert (Nb : x <> 32) by (unfold is_blank in B; lia).
  destruct (term_texts_end r2 x Nb) as (l & w & E4). rewrite E4 in T. apply app_inj_tail in T as [_ T].
  destruct Ht as [->|[->| ->]].
  - destruct w; discriminate T.
  - destruct w as [|? [|? ?]]; inversion T. lia.
  - destruct w as [|? [|? ?]]; inversion T. lia.
Qed.

Lemma split_rules_end s c : c <> 37 -> exists l w, split_rules (s ++ [c]) = l ++ [w ++ [c]].
Proof.
  intros Hc. induction s as [|x s IH]; cbn [app split_rules].
  - replace (c =? 37) with false by lia. exists [], []. reflexivity.
  - destruct IH as (l & w & ->). destruct (x =? 37).
    + exists ([] :: l), w. reflexivity.
    + destruct l as [|y l]; cbn [app].
      * exists [], (x :: w). reflexivity.
      * exists ((x :: y) :: l), w. reflexivity.
Qed.
Lemma compile_rules_safe e l : compile_rules e l = None -> exists a t, l = a ++ [t] /\ compile_rule e 0 t = CUB.
Proof.
  induction l as [|t l IH]; cbn [compile_rules]; [discriminate|].
  destruct (compile_rule e _ t) eqn:E.
  - intros _. destruct l as [|y l].
    + exists [], t. auto.
    + apply compile_rule_safe in E as [R _]; lia.
  - destruct (compile_rules e l); [discriminate|]. intros _. destruct (IH eq_refl) as (a & x & -> & H). exists (t :: a), x. auto.
  - destruct (compile_rules e l); [discriminate|]. intros _. destruct (IH eq_refl) as (a0 & x & -> & H). exists (t :: a0), x. auto.
Qed.
Lemma compile_filter_safe e s c : ~ In c [41; 58; 40; 45; 43; 37] -> compile_filter e (s ++ [c]) <> None.
Proof.
  intros N H. unfold compile_filter in H. apply compile_rules_safe in H as (a & t & E & U).
  destruct (split_rules_end s c) as (l & w & E2); [cbn [In] in N; lia|]. rewrite E2 in E.
  apply app_inj_tail in E as [_ <-]. apply compile_rule_safe in U as [_ [K|(s' & x & K & I)]]; [| |lia].
  - destruct w; discriminate K.
  - apply app_inj_tail in K as [_ <-]. cbn [In] in *. tauto.
Qed.

(** ** One whole filter *)
Lemma clean_signs : clean (str "(") /\ clean (str ")") /\ clean (str "|").
Proof. repeat split; repeat constructor; cbn; intuition discriminate. Qed.
Lemma spaced_ends l : l <> [] -> Forall (fun w => w <> [] /\ clean w) l ->
  (exists c r, spaced l = c :: r /\ is_blank c = false) /\ (exists r c, spaced l = r ++ [c] /\ is_blank c = false) /\
  ~ In 37 (spaced l).
Proof.
  assert (B : forall c, ~ In c [9; 10; 13; 32; 37] -> is_blank c = false /\ c <> 37) by (intros c H; unfold is_blank; cbn [In] in H; lia).
  intros N F. induction F as [|w l [Hw Cw] F IH]; [congruence|].
  assert (Nw : ~ In 37 w). { intros H. unfold clean in Cw. rewrite Forall_forall in Cw. apply (proj2 (B _ (Cw _ H))). reflexivity. }
  assert (E : exists c r, w = c :: r /\ is_blank c = false).
  { destruct w as [|c r]; [congruence|]. inversion Cw; subst. exists c, r. split; [reflexivity|apply B; assumption]. }
  assert (E2 : exists r c, w = r ++ [c] /\ is_blank c = false).
  { destruct (exists_last Hw) as (r & c & ->). exists r, c. split; [reflexivity|]. unfold clean in Cw. rewrite Forall_forall in Cw.
    apply B, Cw, in_or_app. right. left. reflexivity. }
  destruct E as (c & r & Ew & Bc). destruct l as [|w2 l].
  - cbn [spaced]. split; [exists c, r; auto|]. split; [exact E2|exact Nw].
  - destruct (IH ltac:(discriminate)) as (_ & (r2 & c2 & E3 & B2) & N2).
    change (spaced (w :: w2 :: l)) with (w ++ 32 :: spaced (w2 :: l)). split.
    { rewrite Ew. cbn [app]. exists c. eexists. split; [reflexivity|exact Bc]. }
    split.
    { rewrite E3. exists (w ++ 32 :: r2), c2. split; [rewrite <- app_assoc; reflexivity|exact B2]. }
    rewrite in_app_iff. cbn [In]. intros [H|[H|H]]; [exact (Nw H)|discriminate H|exact (N2 H)].
Qed.
Lemma trim_id s c d r r2 : s = c :: r -> is_blank c = false -> s = r2 ++ [d] -> is_blank d = false -> trim s = s.
Proof.
  intros E1 B1 E2 B2. unfold trim. rewrite E2 at 1. rewrite rev_app_distr. cbn [rev app drop_blank]. rewrite B2.
  cbn [rev]. rewrite rev_involutive, <- E2, E1. cbn [drop_blank]. rewrite B1. reflexivity.
Qed.
Lemma split_rules_one s : ~ In 37 s -> split_rules s = [s].
Proof.
  induction s as [|c s IH]; [reflexivity|]. intros N. cbn [split_rules]. cbn [In] in N.
  replace (c =? 37) with false by lia. rewrite IH by tauto. reflexivity.
Qed.
Definition ftext_clean f : fwell f -> Forall (fun w => visible w /\ clean w) (fwords f) ->
  Forall (fun w => w <> [] /\ clean w) (ftexts f).
Proof.
  intros W F. apply Forall_forall. intros t Ht. destruct (ftexts_in f t Ht) as [K|[->|[->| ->]]].
  - rewrite Forall_forall in F. destruct (F _ K) as [[V _] C]. auto.
  - split; [discriminate|apply clean_signs].
  - split; [discriminate|apply clean_signs].
  - split; [discriminate|apply clean_signs].
Qed.

Lemma accept_filter e f i v category pause priority : fwell f ->
  (forall o, Forall (fun w => visible w /\ plain_word w /\ clean w /\ word_means e false i o w (v w)) (fwords f)) ->
  exists r, filter_item e (str "A: " ++ ftext f) category pause priority i = Some r /\
    m_status r = if feval v f then msAccepted else msIgnored.
Proof.
  intros W F. set (o := mkOpts category pause priority (build_dupekey i None None None None) 0 0).
  assert (FC : Forall (fun w => w <> [] /\ clean w) (ftexts f)).
  { apply ftext_clean; [exact W|]. eapply Forall_impl; [|exact (F o)]. cbn. tauto. }
  destruct (spaced_ends (ftexts f) (ftexts_nonempty f W) FC) as ((c & r & E1 & B1) & (r2 & d & E2 & B2) & N).
  assert (Ef : forall x, 65 :: 58 :: 32 :: x <> [] :> list Z) by discriminate.
  set (text := 65 :: 58 :: 32 :: ftext f).
  assert (T : trim text = text).
  { apply (trim_id text 65 d (58 :: 32 :: ftext f) (65 :: 58 :: 32 :: r2)); try reflexivity; [|exact B2].
    unfold text. unfold ftext. rewrite E2. reflexivity. }
  assert (CC : compile_command (trim text) = Some (frAccept, no_opts, 32 :: ftext f)).
  { rewrite T. reflexivity. }
  assert (TR : trim (32 :: ftext f) = ftext f).
  { transitivity (trim (ftext f)).
    - unfold trim. cbn [rev]. unfold ftext. rewrite E2, rev_app_distr. cbn [rev app drop_blank]. rewrite B2.
      cbn [rev app]. rewrite !rev_app_distr. cbn [rev app]. rewrite !rev_involutive. reflexivity.
    - unfold ftext. eapply trim_id; eassumption. }
  destruct (rule_formula e 0 text frAccept no_opts (32 :: ftext f) f i o v CC ltac:(discriminate) TR W) as (u & r' & C1 & C2 & C3).
  { eapply Forall_impl; [|exact (F o)]. cbn. tauto. }
  assert (S1 : split_rules text = [text]).
  { apply split_rules_one. unfold text. cbn [In]. intros [H|[H|[H|H]]]; try discriminate H. exact (N H). }
  change (str "A: " ++ ftext f) with text. unfold filter_item. fold o. unfold text at 1. cbn iota. fold text.
  unfold compile_filter. rewrite S1. cbn [compile_rules]. rewrite C1. cbn [obind filter_match]. rewrite C3. cbn [obind]. rewrite C2.
  destruct (feval v f); eexists; split; reflexivity.
Qed.

Lemma later_rules e i pre u post post' o res :
  filter_match e (pre ++ Some u :: post) 0 i o = Some res -> m_rule res = Z.of_nat (length pre) + 1 ->
  filter_match e (pre ++ Some u :: post') 0 i o = Some res.
Proof.
  intros H R. apply filter_outcome in H as [(p & u' & q & o1 & b & opts & st & E & P & M & D & ->)|(o1 & P & ->)].
  - cbn [m_rule] in R. assert (L : length p = length pre) by lia.
    assert (A : pre = p /\ Some u :: post = Some u' :: q).
    { clear - E L. revert p E L. induction pre as [|x pre IH]; intros [|y p] E L; try discriminate L; [split; [reflexivity|exact E]|].
      cbn [app] in E. injection E as <- E. injection L as L. destruct (IH p E L) as [-> K]. split; [reflexivity|exact K]. }
    destruct A as [-> A]. injection A as <- <-.
    apply outcome_filter. left. exists p, u, post', o1, b, opts, st. repeat split; auto.
  - cbn [m_rule] in R. lia.
Qed.
