(** Proofs about credentials and requests of the web server. *)
From Coq Require Import String.
From Verif Require Import Base NumFmt WildModel WildSpec WildProofs TextProofs CodecModel NameModel NameSpec NameProofs WebModel WebSpec.
Open Scope list_scope. Open Scope Z_scope.

(** ** Credentials *)

Lemma sep_same c : in_set (str ",;") c = list_sep c.
Proof.
  unfold in_set. change (str ",;") with [44; 59]. cbn [existsb]. rewrite orb_false_r. reflexivity.
Qed.

Lemma fields_ext f g s : (forall c, f c = g c) -> fields f s = fields g s.
Proof. intros E. induction s as [|c t IH]; [reflexivity|]. cbn [fields]. rewrite E, IH. reflexivity. Qed.

Lemma any_mask_ok ip : ~ In 0 ip -> forall ms, exists b, any_mask ms ip = Some b /\
  (b = true <-> exists m, In m ms /\ glob wild_char m ip).
Proof.
  intros N. induction ms as [|m r IH]; cbn [any_mask].
  - exists false. split; [reflexivity|]. split; [discriminate|]. intros (m & [] & _).
  - destruct (wild_match_ok false m ip N) as (b & g & E & H). rewrite E. destruct b.
    + exists true. split; [reflexivity|]. split; [|reflexivity]. intros _. exists m. split; [left; reflexivity|]. apply H. reflexivity.
    + destruct IH as (b & E2 & H2). rewrite E2. exists b. split; [reflexivity|]. rewrite H2. split.
      * intros (x & I & G). exists x. split; [right; exact I|exact G].
      * intros (x & [<- | I] & G); [|exists x; auto]. apply H in G. discriminate.
Qed.

Lemma authorized_ip_ok ips ip : ~ In 0 ip -> exists b, authorized_ip ips ip = Some b /\ (b = true <-> ip_allowed ips ip).
Proof.
  intros N. unfold authorized_ip. rewrite tokens_ok.
  destruct (any_mask_ok ip N (kept (str ",;") ips)) as (b & E & H). exists b. split; [exact E|]. rewrite H.
  unfold ip_allowed. split.
  - intros (m & I & G). unfold kept in I. apply filter_In in I as [I Ne]. apply in_map_iff in I as (f & <- & I).
    rewrite (fields_ext _ list_sep) in I by apply sep_same. exists f, (WildModel.trim f). split; [exact I|]. split; [apply trim_ok|].
    split; [|exact G]. intros X. rewrite X in Ne. discriminate.
  - intros (f & m & I & T & Ne & G). exists m. split; [|exact G]. unfold kept. apply filter_In. split.
    + apply in_map_iff. exists f. split; [apply (trimmed_unique f); [apply trim_ok|exact T]|].
      rewrite (fields_ext _ list_sep) by apply sep_same. exact I.
    + destruct m; [congruence|reflexivity].
Qed.

Lemma ip_allowed_nil ip : ~ ip_allowed [] ip.
Proof.
  intros (f & m & [<- | []] & (a & b & E & _) & Ne & _). destruct a; [|discriminate]. destruct m; [congruence|discriminate].
Qed.

Lemma index_some c s i : index c s = Some i -> s = firstn i s ++ c :: skipn (S i) s /\ ~ In c (firstn i s).
Proof.
  revert i. induction s as [|x r IH]; intros i; [discriminate|]. cbn [index]. destruct (x =? c) eqn:E.
  - intros H. injection H as <-. apply Z.eqb_eq in E. subst. split; [reflexivity|intros []].
  - destruct (index c r) as [j|]; [|discriminate]. intros H. injection H as <-. destruct (IH j eq_refl) as [A B].
    split; [cbn [firstn skipn app]; f_equal; exact A|]. cbn [firstn]. intros [X | X]; [lia|exact (B X)].
Qed.
Lemma index_none c s : index c s = None -> ~ In c s.
Proof.
  induction s as [|x r IH]; [intros _ []|]. cbn [index]. destruct (x =? c) eqn:E; [discriminate|].
  destruct (index c r); [discriminate|]. intros _ [X | X]; [lia|exact (IH eq_refl X)].
Qed.
Lemma index_app c a r : ~ In c a -> index c (a ++ c :: r) = Some (length a).
Proof.
  induction a as [|x a IH]; intros H; cbn [app index length].
  - rewrite Z.eqb_refl. reflexivity.
  - destruct (x =? c) eqn:E; [exfalso; apply H; left; lia|]. rewrite IH; [reflexivity|]. intros X. apply H. right. exact X.
Qed.

Lemma split_unique (c : Z) (a r a' r' : list Z) : ~ In c a -> ~ In c a' -> a ++ c :: r = a' ++ c :: r' -> a = a' /\ r = r'.
Proof.
  intros N N' E. assert (L := index_app c a r N). rewrite E, (index_app c a' r' N') in L. injection L as L.
  revert a' N' E L. induction a as [|x a IH]; intros [|y a'] N' E L; try discriminate.
  - injection E as ->. split; reflexivity.
  - injection E as -> E. destruct (IH (fun X => N (or_intror X)) a' (fun X => N' (or_intror X)) E) as [-> ->]; [cbn [length] in L; lia|].
    split; reflexivity.
Qed.

Lemma by_password_ok cfg toks auth token : auth <> [] -> forall a,
  by_password cfg auth = Some a <-> vouches cfg toks auth token a /\ forall b, vouches cfg toks auth token b -> rank a <= rank b.
Proof.
  intros Ne a. unfold by_password. destruct (index 58 auth) as [i|] eqn:E.
  - destruct (index_some _ _ _ E) as [S1 S2].
    set (user := firstn i auth) in *. set (pw := skipn (S i) auth) in *.
    assert (V : forall b, vouches cfg toks auth token b <-> login cfg user pw b).
    { intros b. unfold vouches. split.
      - intros [[X _] | (_ & u & p & X & N & L)]; [congruence|].
        rewrite S1 in X. apply split_unique in X; [|assumption|assumption]. destruct X as [-> ->]. exact L.
      - intros L. right. split; [exact Ne|]. exists user, pw. auto. }
    rewrite V. assert (V2 : (forall b, vouches cfg toks auth token b -> rank a <= rank b) <-> (forall b, login cfg user pw b -> rank a <= rank b)).
    { split; intros H b L; apply H; apply V; exact L. }
    rewrite V2. clearbody user pw. clear.
    assert (C : (beqb (w_cuser cfg) [] || beqb user (w_cuser cfg)) && beqb pw (w_cpass cfg) = true <-> login cfg user pw UControl).
    { cbn [login]. rewrite andb_true_iff, orb_true_iff, !beqb_eq. reflexivity. }
    assert (R : negb (beqb (w_ruser cfg) []) && beqb user (w_ruser cfg) && beqb pw (w_rpass cfg) = true <-> login cfg user pw URestricted).
    { cbn [login]. rewrite !andb_true_iff, negb_true_iff, beqb_neq, !beqb_eq. tauto. }
    assert (A : negb (beqb (w_auser cfg) []) && beqb user (w_auser cfg) && beqb pw (w_apass cfg) = true <-> login cfg user pw UAdd).
    { cbn [login]. rewrite !andb_true_iff, negb_true_iff, beqb_neq, !beqb_eq. tauto. }
    destruct ((beqb (w_cuser cfg) [] || beqb user (w_cuser cfg)) && beqb pw (w_cpass cfg)).
    { assert (L := proj1 C eq_refl). split.
      - intros X. injection X as <-. split; [exact L|]. intros b _. destruct b; cbn; lia.
      - intros [_ H]. specialize (H _ L). destruct a; cbn in H; [reflexivity|lia|lia]. }
    assert (NC : ~ login cfg user pw UControl) by (intros X; apply C in X; discriminate).
    destruct (negb (beqb (w_ruser cfg) []) && beqb user (w_ruser cfg) && beqb pw (w_rpass cfg)).
    { assert (L := proj1 R eq_refl). split.
      - intros X. injection X as <-. split; [exact L|]. intros b Lb. destruct b; [contradiction|cbn; lia|cbn; lia].
      - intros [La H]. specialize (H _ L). destruct a; cbn in H; [contradiction|reflexivity|lia]. }
    assert (NR : ~ login cfg user pw URestricted) by (intros X; apply R in X; discriminate).
    destruct (negb (beqb (w_auser cfg) []) && beqb user (w_auser cfg) && beqb pw (w_apass cfg)).
    { assert (L := proj1 A eq_refl). split.
      - intros X. injection X as <-. split; [exact L|]. intros b Lb. destruct b; [contradiction|contradiction|cbn; lia].
      - intros [La H]. destruct a; [contradiction|contradiction|reflexivity]. }
    split; [discriminate|]. intros [La _]. destruct a; [contradiction|contradiction|apply A in La; discriminate].
  - split; [discriminate|]. intros [[[X _] | (_ & u & p & X & _)] _]; [congruence|].
    exfalso. apply (index_none _ _ E). rewrite X. apply in_or_app. right. left. reflexivity.
Qed.

Lemma by_token_ok cfg toks token a :
  by_token toks token = Some a <-> vouches cfg toks [] token a /\ forall b, vouches cfg toks [] token b -> rank a <= rank b.
Proof.
  assert (V : forall b, vouches cfg toks [] token b <-> token = token_of toks b).
  { intros b. unfold vouches. split; [intros [[_ X] | [X _]]; [exact X|congruence]|intros X; left; auto]. }
  rewrite V. assert (V2 : (forall b, vouches cfg toks [] token b -> rank a <= rank b) <-> (forall b, token = token_of toks b -> rank a <= rank b)).
  { split; intros H b L; apply H; apply V; exact L. }
  rewrite V2. clear V V2. destruct toks as [[t0 t1] t2]. unfold by_token. cbn [token_of].
  destruct (beqb token t0) eqn:E0; [apply beqb_eq in E0|apply beqb_neq in E0].
  { subst. split.
    - intros X. injection X as <-. split; [reflexivity|]. intros b _. destruct b; cbn; lia.
    - intros [_ H]. specialize (H UControl eq_refl). destruct a; cbn in H; [reflexivity|lia|lia]. }
  destruct (beqb token t1) eqn:E1; [apply beqb_eq in E1|apply beqb_neq in E1].
  { subst. split.
    - intros X. injection X as <-. split; [reflexivity|]. intros b Hb. destruct b; [congruence|cbn; lia|cbn; lia].
    - intros [Ha H]. specialize (H URestricted eq_refl). destruct a; cbn in H; [congruence|reflexivity|lia]. }
  destruct (beqb token t2) eqn:E2; [apply beqb_eq in E2|apply beqb_neq in E2].
  { subst. split.
    - intros X. injection X as <-. split; [reflexivity|]. intros b Hb. destruct b; [congruence|congruence|cbn; lia].
    - intros [Ha H]. destruct a; [congruence|congruence|reflexivity]. }
  split; [discriminate|]. intros [Ha _]. destruct a; congruence.
Qed.

Theorem check_ok : forall cfg toks ip auth token, ~ In 0 ip ->
  exists r, check_credentials cfg toks ip auth token = Some r /\ forall a, r = Some a <-> granted cfg toks ip auth token a.
Proof.
  intros cfg toks ip auth token N. unfold check_credentials, granted.
  destruct (beqb (w_cpass cfg) []) eqn:P; [apply beqb_eq in P|apply beqb_neq in P].
  { exists (Some UControl). split; [reflexivity|]. intros a. assert (O : open_to cfg ip) by (left; exact P). split.
    - intros X. injection X as <-. left. auto.
    - intros [[_ ->] | [X _]]; [reflexivity|contradiction]. }
  assert (X : exists b, (if beqb (w_ips cfg) [] then Some false else authorized_ip (w_ips cfg) ip) = Some b /\ (b = true <-> ip_allowed (w_ips cfg) ip)).
  { destruct (beqb (w_ips cfg) []) eqn:I; [|apply authorized_ip_ok, N]. apply beqb_eq in I. rewrite I.
    exists false. split; [reflexivity|]. split; [discriminate|]. intros Y. exfalso. exact (ip_allowed_nil _ Y). }
  destruct X as (b & E & H). rewrite E. destruct b.
  { exists (Some UControl). split; [reflexivity|]. intros a. assert (O : open_to cfg ip) by (right; apply H; reflexivity). split.
    - intros X. injection X as <-. left. auto.
    - intros [[_ ->] | [X _]]; [reflexivity|contradiction]. }
  eexists. split; [reflexivity|]. intros a.
  assert (O : ~ open_to cfg ip) by (intros [X | X]; [congruence|apply H in X; discriminate]).
  assert (Y : (if beqb auth [] then by_token toks token else by_password cfg auth) = Some a <->
    vouches cfg toks auth token a /\ forall b, vouches cfg toks auth token b -> rank a <= rank b).
  { destruct (beqb auth []) eqn:A; [apply beqb_eq in A; subst; apply by_token_ok|apply beqb_neq in A; apply by_password_ok, A]. }
  rewrite Y. tauto.
Qed.

(** ** Where credentials come from *)

Lemma within_l s t p : within s p -> within (s ++ t) p.
Proof. intros (u & v & ->). exists u, (v ++ t). rewrite <- !app_assoc. reflexivity. Qed.
Lemma within_r s t p : within s p -> within (t ++ s) p.
Proof. intros (u & v & ->). exists (t ++ u), v. rewrite <- !app_assoc. reflexivity. Qed.
Lemma within_trans a b c : within a b -> within b c -> within a c.
Proof. intros (u & v & ->) (u' & v' & ->). exists (u ++ u'), (v' ++ v). rewrite <- !app_assoc. reflexivity. Qed.
Lemma within_suffix a b : within (a ++ b) b.
Proof. exists a, []. rewrite app_nil_r. reflexivity. Qed.

Lemma take_line_prefix n : forall s, s = take_line n s ++ skipn (length (take_line n s)) s.
Proof.
  induction n as [|n IH]; intros s; [reflexivity|]. destruct s as [|c r]; [reflexivity|]. cbn [take_line].
  destruct (c =? 10); [reflexivity|]. cbn [length app skipn]. rewrite <- IH. reflexivity.
Qed.

Lemma c_string_prefix l : exists v, l = c_string l ++ v.
Proof.
  induction l as [|c r [v IH]]; [exists []; reflexivity|]. cbn [c_string]. destruct (c =? 0); [exists (c :: r); reflexivity|].
  exists v. cbn [app]. rewrite <- IH. reflexivity.
Qed.
Lemma cut_cr_prefix p : exists v, p = cut_cr p ++ v.
Proof.
  unfold cut_cr. destruct (strrchr 13 p) as [[a b]|] eqn:E; [|exists []; rewrite app_nil_r; reflexivity].
  apply strrchr_some in E as [-> _]. exists b. reflexivity.
Qed.
Lemma line_within l : within l (cut_cr (c_string l)).
Proof.
  destruct (c_string_prefix l) as [v E]. destruct (cut_cr_prefix (c_string l)) as [w F].
  exists [], (w ++ v). cbn [app]. rewrite app_assoc, <- F. exact E.
Qed.

Lemma nocase_prefix_field p s : nocase_prefix p s = true <-> field p s (skipn (length p) s).
Proof.
  unfold nocase_prefix, field. split.
  - intros H. apply prefixb_iff in H as [t H]. exists (firstn (length p) s). split; [symmetry; apply firstn_skipn|].
    unfold lower_text. rewrite <- firstn_map. change (map lc s) with (map lower s). rewrite H, firstn_app, map_length, Nat.sub_diag.
    rewrite firstn_all2 by (rewrite map_length; lia). cbn [firstn]. rewrite app_nil_r. reflexivity.
  - intros (n & E & H). apply prefixb_iff. rewrite E. rewrite map_app. exists (map lower (skipn (length p) s)).
    f_equal. exact H.
Qed.
Lemma field_value p s v : field p s v -> v = skipn (length p) s.
Proof.
  intros (n & -> & H). assert (L : length n = length p).
  { apply (f_equal (@length Z)) in H. unfold lower_text in H. rewrite !map_length in H. exact H. }
  rewrite <- L, skipn_app, skipn_all, Nat.sub_diag. reflexivity.
Qed.

Lemma from_header_mono a b x : (forall p, within a p -> within b p) -> from_header a x -> from_header b x.
Proof. intros H [-> | (n & t & W & R)]; [left; reflexivity|]. right. exists n, t. auto. Qed.
Lemma from_cookie_mono a b x : (forall p, within a p -> within b p) -> from_cookie a x -> from_cookie b x.
Proof. intros H [-> | W]; [left; reflexivity|]. right. auto. Qed.

Lemma basic_from p s n a : basic s = Some a -> within p (n ++ s) -> lower_text n = lower_text (str "Authorization: Basic ") -> from_header p a.
Proof.
  unfold basic. destruct (Z.of_nat (length s) >? 257); [discriminate|]. intros H W L. injection H as <-.
  right. exists n, s. auto.
Qed.

Lemma strstr_within s p t : strstr s p = Some t -> exists u v, s = u ++ t /\ t = p ++ v.
Proof.
  revert t. induction s as [|c r IH]; intros t; cbn [strstr].
  - destruct (prefixb p []) eqn:E; [|discriminate]. intros H. injection H as <-. apply prefixb_iff in E as [v ->].
    exists [], v. split; reflexivity.
  - destruct (prefixb p (c :: r)) eqn:E.
    + intros H. injection H as <-. apply prefixb_iff in E as [v E]. exists [], v. split; [reflexivity|exact E].
    + intros H. destruct (IH _ H) as (u & v & -> & ->). exists (c :: u), v. split; reflexivity.
Qed.

Lemma header_step_from p h : let h' := match header_step p h with HNext x => x | HEnd x => x end in
  (h_auth h' = h_auth h \/ from_header p (h_auth h')) /\ (h_token h' = h_token h \/ from_cookie p (h_token h')).
Proof.
  unfold header_step.
  destruct (nocase_prefix (str "Content-Length: ") p); [cbn; auto|].
  destruct (nocase_prefix (str "Authorization: Basic ") p && beqb (h_auth h) []) eqn:A.
  { apply andb_true_iff in A as [A _]. apply nocase_prefix_field in A as (n & E & L).
    change (length (str "Authorization: Basic ")) with 21%nat in *.
    destruct (basic (skipn 21 p)) as [a|] eqn:B; [|cbn; auto]. cbn [h_auth h_token]. split; [|left; reflexivity]. right.
    apply (basic_from _ _ n _ B); [|exact L]. rewrite E at 1. exists [], []. rewrite app_nil_r. reflexivity. }
  destruct (nocase_prefix (str "X-Authorization: Basic ") p) eqn:X.
  { apply nocase_prefix_field in X as (n & E & L). change (length (str "X-Authorization: Basic ")) with 23%nat in *.
    destruct (basic (skipn 23 p)) as [a|] eqn:B; [|cbn; auto]. cbn [h_auth h_token]. split; [|left; reflexivity]. right.
    destruct n as [|n0 [|n1 n]]; try discriminate.
    apply (basic_from _ _ n _ B); [|].
    - rewrite E at 1. exists [n0; n1], []. rewrite app_nil_r. reflexivity.
    - unfold lower_text in *. cbn [map] in L. change (str "X-Authorization: Basic ") with (88 :: 45 :: str "Authorization: Basic ") in L.
      cbn [map] in L. injection L as _ _ L. exact L. }
  destruct (nocase_prefix (str "Accept-Encoding: ") p); [cbn; auto|].
  destruct (nocase_prefix (str "Origin: ") p); [cbn; auto|].
  destruct (nocase_prefix (str "Cookie: ") p).
  { destruct (strstr p (str "Auth-Token=")) as [t|] eqn:S; [|cbn; auto]. destruct (skipn 11 t) as [|c r] eqn:K; [cbn; auto|].
    destruct (c =? 59); [cbn; auto|]. cbn [h_auth h_token]. split; [left; reflexivity|]. right. right.
    apply strstr_within in S as (u & v & -> & ->).
    assert (V : v = c :: r) by exact K. rewrite <- V. exists u, (skipn 48 v). rewrite <- app_assoc, firstn_skipn. reflexivity. }
  destruct (nocase_prefix (str "X-Forwarded-For: ") p); [cbn; auto|].
  destruct (nocase_prefix (str "If-None-Match: ") p); [cbn; auto|].
  destruct (nocase_prefix (str "Connection: keep-alive") p); [cbn; auto|].
  destruct (beqb p []); cbn; auto.
Qed.

Lemma parse_headers_from : forall fuel s h h' s1 u, parse_headers fuel s h = Some (h', s1) ->
  from_header u (h_auth h) -> from_cookie u (h_token h) ->
  exists head, s = head ++ s1 /\ from_header (u ++ head) (h_auth h') /\ from_cookie (u ++ head) (h_token h').
Proof.
  induction fuel as [|f IH]; intros s h h' s1 u H A T; [discriminate|]. cbn [parse_headers] in H.
  assert (P := take_line_prefix line_room s). set (l := take_line line_room s) in *.
  assert (G : parse_headers (S f) s h = Some (h', s1) -> l <> [] -> exists head, s = head ++ s1 /\ from_header (u ++ head) (h_auth h') /\ from_cookie (u ++ head) (h_token h')).
  { intros _ NE.
    assert (St := header_step_from (cut_cr (c_string l)) h). cbv zeta in St.
    assert (M : forall x, within (cut_cr (c_string l)) x -> within (u ++ l) x).
    { intros x W. apply within_r. eapply within_trans; [apply line_within|exact W]. }
    assert (M2 : forall x, within u x -> within (u ++ l) x) by (intros x W; apply within_l, W).
    destruct (header_step (cut_cr (c_string l)) h) as [h1|h1] eqn:E.
    - assert (A1 : from_header (u ++ l) (h_auth h1)).
      { destruct (proj1 St) as [-> | X]; [eapply from_header_mono; [exact M2|exact A]|eapply from_header_mono; [exact M|exact X]]. }
      assert (T1 : from_cookie (u ++ l) (h_token h1)).
      { destruct (proj2 St) as [-> | X]; [eapply from_cookie_mono; [exact M2|exact T]|eapply from_cookie_mono; [exact M|exact X]]. }
      assert (H' : parse_headers f (skipn (length l) s) h1 = Some (h', s1)) by (destruct l; [congruence|rewrite E in H; exact H]).
      destruct (IH _ _ _ _ _ H' A1 T1) as (head & E1 & R). exists (l ++ head). split; [rewrite P at 1; rewrite E1, app_assoc; reflexivity|].
      rewrite app_assoc. exact R.
    - assert (H' : Some (h1, skipn (length l) s) = Some (h', s1)) by (destruct l; [congruence|rewrite E in H; exact H]).
      injection H' as <- <-. exists l. split; [exact P|]. split.
      + destruct (proj1 St) as [-> | X]; [eapply from_header_mono; [exact M2|exact A]|eapply from_header_mono; [exact M|exact X]].
      + destruct (proj2 St) as [-> | X]; [eapply from_cookie_mono; [exact M2|exact T]|eapply from_cookie_mono; [exact M|exact X]]. }
  destruct l as [|c l0] eqn:EL.
  - injection H as <- <-. exists []. rewrite app_nil_r. auto.
  - apply G; [|discriminate]. cbn [parse_headers]. fold l. rewrite EL. exact H.
Qed.

Lemma folder url : let u := if prefixb (str "/nzbget/") url then skipn 7 url else url in
  exists pre, (pre = [] \/ pre = str "/nzbget") /\ url = pre ++ u.
Proof.
  cbv zeta. destruct (prefixb (str "/nzbget/") url) eqn:E; [|exists []; auto].
  apply prefixb_iff in E as [t ->]. exists (str "/nzbget"). split; [right; reflexivity|reflexivity].
Qed.

Lemma parse_url_ok url auth r a u : parse_url url auth = Some (r, a, u) ->
  (from_url url a u /\ r = false) \/ (a = auth /\ plain_url url u /\ (r = true <-> u = str "/nzbget")).
Proof.
  unfold parse_url. assert (F := folder url). cbv zeta in F |- *.
  set (w := if prefixb (str "/nzbget/") url then skipn 7 url else url) in *. clearbody w.
  destruct F as (pre & Hp & E).
  assert (PL : plain_url url w).
  { destruct Hp as [-> | ->]; [left; exact E|right; exact E]. }
  destruct (beqb w (str "/nzbget")) eqn:B; [apply beqb_eq in B|apply beqb_neq in B].
  { intros H. injection H as <- <- <-. right. split; [reflexivity|]. split; [exact PL|]. split; auto. }
  assert (D : Some (false, auth, w) = Some (r, a, u) -> (from_url url a u /\ r = false) \/ (a = auth /\ plain_url url u /\ (r = true <-> u = str "/nzbget"))).
  { intros H. injection H as <- <- <-. right. split; [reflexivity|]. split; [exact PL|]. split; [discriminate|congruence]. }
  destruct w as [|c t]; [discriminate|]. destruct (index 58 t) as [i|] eqn:I; [|exact D].
  destruct (index 47 t) as [j|] eqn:J; [|exact D]. destruct (i <? j)%nat eqn:L; [|exact D].
  destruct (url_decode (firstn (Nat.min j (Z.to_nat 256)) t)) as [d|] eqn:U; [|discriminate].
  intros H. injection H as <- <- <-. left. split; [|reflexivity].
  destruct (index_some _ _ _ I) as [I1 I2]. destruct (index_some _ _ _ J) as [J1 J2].
  assert (JL : (j < length t)%nat).
  { apply (f_equal (@length Z)) in J1. rewrite app_length in J1. cbn [length] in J1. rewrite firstn_length, skipn_length in J1. lia. }
  assert (K : skipn j t = 47 :: skipn (S j) t).
  { rewrite J1 at 1. rewrite skipn_app. rewrite firstn_length_le by lia. rewrite Nat.sub_diag.
    rewrite skipn_all2 by (rewrite firstn_length; lia). reflexivity. }
  exists pre, c, (firstn j t). split; [exact Hp|]. split; [rewrite firstn_skipn; exact E|]. split.
  - apply Nat.ltb_lt in L. rewrite I1. rewrite firstn_app. apply in_or_app. right.
    rewrite firstn_length_le by lia. destruct (j - i)%nat eqn:X; [lia|]. left. reflexivity.
  - split; [exact J2|]. split; [eexists; exact K|]. rewrite firstn_firstn. rewrite Nat.min_comm. exact U.
Qed.

Lemma dispatch_rpc cfg fs who m u body r a m' u' b' : dispatch cfg fs who m u body = Some r ->
  r = RRpc a m' u' b' -> is_rpc u = true /\ a = (match who with Some a => a | None => UControl end) /\ m' = m /\ u' = u /\ b' = body.
Proof.
  unfold dispatch. destruct u as [|c u0]; [intros H; injection H as <-; discriminate|].
  destruct (negb (c =? 47)); [intros H; injection H as <-; discriminate|].
  destruct (is_rpc (c :: u0)).
  { intros H; injection H as <-. intros E. injection E as <- <- <- <-. auto. }
  destruct (beqb (w_dir cfg) []); [intros H; injection H as <-; discriminate|].
  destruct m; try (intros H; injection H as <-; discriminate).
  destruct (negb (url_ok (c :: u0))); [intros H; injection H as <-; discriminate|].
  destruct (prefixb (str "/combined.") (c :: u0) && has 63 (c :: u0)).
  - destruct (index 63 (c :: u0)); [|discriminate]. destruct (tokens [43] _); [|discriminate].
    destruct (load_all fs _); intros H; injection H as <-; discriminate.
  - destruct (fs _); intros H; injection H as <-; discriminate.
Qed.

Lemma dispatch_file cfg fs who m u body r w paths b : dispatch cfg fs who m u body = Some r ->
  r = RFile w paths b -> is_rpc u = false /\ w = who /\ m = HGet /\ url_ok u = true /\ (exists v, u = 47 :: v) /\ w_dir cfg <> [] /\
    ((paths = [single_path (w_dir cfg) u] /\ fs (single_path (w_dir cfg) u) = Some b) \/
     (exists i, index 63 u = Some i /\ paths = map (multi_path (w_dir cfg)) (kept [43] (skipn (S i) u)) /\ load_all fs paths = Some b)).
Proof.
  unfold dispatch. destruct u as [|c u0]; [intros H; injection H as <-; discriminate|].
  destruct (c =? 47) eqn:C; cbn [negb]; [|intros H; injection H as <-; discriminate]. apply Z.eqb_eq in C. subst c.
  destruct (is_rpc (47 :: u0)) eqn:R; [intros H; injection H as <-; discriminate|].
  destruct (beqb (w_dir cfg) []) eqn:D; [intros H; injection H as <-; discriminate|]. apply beqb_neq in D.
  destruct m; try (intros H; injection H as <-; discriminate).
  destruct (url_ok (47 :: u0)) eqn:O; cbn [negb]; [|intros H; injection H as <-; discriminate].
  destruct (prefixb (str "/combined.") (47 :: u0) && has 63 (47 :: u0)).
  - destruct (index 63 (47 :: u0)) as [i|] eqn:I; [|discriminate]. rewrite tokens_ok.
    destruct (load_all fs _) eqn:L; intros H; injection H as <-; [|discriminate].
    intros E. injection E as <- <- <-. repeat (split; [solve [auto | eexists; reflexivity]|]). right. exists i. auto.
  - destruct (fs _) eqn:F; intros H; injection H as <-; [|discriminate].
    intros E. injection E as <- <- <-. repeat (split; [solve [auto | eexists; reflexivity]|]). left. auto.
Qed.

(** One request: who is served what. *)
Theorem execute_served : forall cfg toks ip fs m url s rs s2 keep, ~ In 0 ip ->
  execute cfg toks ip fs m url s = Some (rs, s2, keep) ->
  exists head s1 auth token, s = head ++ s1 /\
    ((exists u, from_url url auth u) \/ from_header head auth) /\ from_cookie head token /\
    (forall a m' u b, In (RRpc a m' u b) rs -> granted cfg toks ip auth token a) /\
    (forall who paths b, In (RFile who paths b) rs ->
       (forall a, who = Some a <-> granted cfg toks ip auth token a) /\
       (w_form cfg = false -> exists a, granted cfg toks ip auth token a)).
Proof.
  intros cfg toks ip fs m url s rs s2 keep N. unfold execute.
  destruct (parse_headers (S (length s)) s hdrs0) as [[h s1]|] eqn:P; [|discriminate].
  assert (F := parse_headers_from _ _ _ _ _ [] P (or_introl eq_refl) (or_introl eq_refl)). cbn [app] in F.
  destruct F as (head & E & A & T).
  assert (Triv : forall l, (forall x, In x l -> (forall a m' u b, x <> RRpc a m' u b) /\ (forall w p b, x <> RFile w p b)) -> rs = l ->
    exists head s1 auth token, s = head ++ s1 /\ ((exists u, from_url url auth u) \/ from_header head auth) /\ from_cookie head token /\
    (forall a m' u b, In (RRpc a m' u b) rs -> granted cfg toks ip auth token a) /\
    (forall who paths b, In (RFile who paths b) rs -> (forall a, who = Some a <-> granted cfg toks ip auth token a) /\
       (w_form cfg = false -> exists a, granted cfg toks ip auth token a))).
  { intros l Hl ->. exists head, s1, (h_auth h), (h_token h). split; [exact E|]. split; [right; exact A|]. split; [exact T|]. split.
    - intros a m' u b I. exfalso. exact (proj1 (Hl _ I) a m' u b eq_refl).
    - intros w p b I. exfalso. exact (proj2 (Hl _ I) w p b eq_refl). }
  destruct (match m with HPost => h_len h <=? 0 | _ => false end).
  { intros H. injection H as <- <- <-. apply (Triv []); [intros x []|reflexivity]. }
  destruct (match m with HOptions => true | _ => false end).
  { intros H. injection H as <- <- <-. apply (Triv [ROptions (h_origin h)]); [|reflexivity]. intros x [<- | []]. split; discriminate. }
  destruct (parse_url url (h_auth h)) as [[[red auth] u]|] eqn:U; [|discriminate].
  destruct (check_ok cfg toks ip auth (h_token h) N) as (who & C & W). rewrite C.
  set (before := if red then [RRedirect (u ++ [47])] else []).
  assert (Bf : forall x, In x before -> (forall a m' u b, x <> RRpc a m' u b) /\ (forall w p b, x <> RFile w p b)).
  { unfold before. destruct red; [|intros x []]. intros x [<- | []]. split; discriminate. }
  destruct ((negb (w_form cfg) || is_rpc u) && (match who with None => true | _ => false end)) eqn:Deny.
  { intros H. injection H as <- <- <-. apply (Triv (before ++ [RAuth])); [|reflexivity].
    intros x I. apply in_app_or in I as [I | [<- | []]]; [apply Bf, I|split; discriminate]. }
  set (n := match m with HPost => Z.to_nat (h_len h) | _ => O end).
  destruct (length s1 <? n)%nat.
  { intros H. injection H as <- <- <-. apply (Triv before); [exact Bf|reflexivity]. }
  destruct (dispatch cfg fs who m u (c_string (firstn n s1))) as [r|] eqn:D; [|discriminate].
  intros H. injection H as <- <- <-. exists head, s1, auth, (h_token h). split; [exact E|]. split.
  { destruct (parse_url_ok _ _ _ _ _ U) as [[X _] | (-> & _ & _)]; [left; exists u; exact X|right; exact A]. }
  split; [exact T|]. split.
  - intros a m' u' b I. apply in_app_or in I as [I | [I | []]]; [exfalso; exact (proj1 (Bf _ I) _ _ _ _ eq_refl)|].
    destruct (dispatch_rpc _ _ _ _ _ _ _ _ _ _ _ D I) as (R & -> & _). rewrite R, orb_true_r in Deny. cbn [andb] in Deny.
    destruct who as [a|]; [|discriminate]. apply W. reflexivity.
  - intros w paths b I. apply in_app_or in I as [I | [I | []]]; [exfalso; exact (proj2 (Bf _ I) _ _ _ eq_refl)|].
    destruct (dispatch_file _ _ _ _ _ _ _ _ _ _ D I) as (R & -> & _). split; [exact W|]. intros Fm.
    rewrite Fm in Deny. cbn [negb orb andb] in Deny. destruct who as [a|]; [|discriminate]. exists a. apply W. reflexivity.
Qed.

(** ** Files *)

Lemma url_ok_app a b : url_ok (a ++ b) = true -> url_ok b = true.
Proof. induction a as [|c a IH]; [auto|]. cbn [app url_ok]. rewrite !andb_true_iff. intros [_ H]. auto. Qed.

Lemma url_ok_no_dots u : url_ok u = true -> ~ within u (str "..").
Proof.
  intros H (a & v & ->). apply url_ok_app in H. change (str ".." ++ v) with (46 :: 46 :: v) in H. discriminate.
Qed.

Lemma comps_within c s : In c (comps s) -> within s c.
Proof.
  intros H. apply in_comps in H as (a & s' & -> & _ & St). destruct St as [v St].
  exists a. destruct St as [-> _]. exists v. reflexivity.
Qed.

Lemma url_ok_join x d : url_ok (x ++ [47]) = true -> url_ok (47 :: d) = true -> url_ok (x ++ 47 :: d) = true.
Proof.
  intros X D. revert X. induction x as [|c x IH]; [intros _; exact D|]. cbn [app]. cbn [url_ok]. rewrite !andb_true_iff. intros [[A B] C].
  split; [split; [exact A|]|exact (IH C)]. destruct x; [exact B|exact B].
Qed.

Lemma no_dots_firstn k w : ~ within w (str "..") -> ~ In (str "..") (comps (firstn k w)).
Proof.
  intros H I. apply H. rewrite <- (firstn_skipn k w). apply within_l, comps_within, I.
Qed.

Lemma below_dir dir w k : Z.of_nat (length dir) <= 1023 -> ~ within w (str "..") -> k = Z.to_nat 1023 ->
  below dir (firstn k (dir ++ 47 :: w)).
Proof.
  intros L N ->. rewrite firstn_app. rewrite firstn_all2 by lia.
  destruct (Z.to_nat 1023 - length dir)%nat as [|k] eqn:K.
  - cbn [firstn]. rewrite app_nil_r. exists []. rewrite app_nil_r. reflexivity.
  - cbn [firstn]. destruct (place_app dir (firstn k w) (no_dots_firstn k w N)) as [r E]. exists r. exact E.
Qed.

Lemma single_below dir u : Z.of_nat (length dir) <= 1023 -> url_ok u = true -> (exists v, u = 47 :: v) -> below dir (single_path dir u).
Proof.
  intros L H [v ->]. unfold single_path.
  assert (D : exists d, match rev (47 :: v) with c :: _ => if c =? 47 then str "index.html" else [] | [] => [] end = d /\ url_ok ((47 :: v) ++ d) = true).
  { destruct (rev (47 :: v)) as [|c t] eqn:R; [exists []; rewrite app_nil_r; auto|]. destruct (c =? 47) eqn:C.
    - apply Z.eqb_eq in C. subst c. exists (str "index.html"). split; [reflexivity|].
      assert (E : 47 :: v = rev t ++ [47]) by (rewrite <- (rev_involutive (47 :: v)), R; reflexivity).
      rewrite E in H |- *. rewrite <- app_assoc. change ([47] ++ str "index.html") with (47 :: str "index.html"). apply url_ok_join; [exact H|reflexivity].
    - exists []. rewrite app_nil_r. auto. }
  destruct D as (d & -> & O). apply url_ok_no_dots in O.
  change ((47 :: v) ++ d) with (47 :: (v ++ d)) in *. apply below_dir; [exact L| |reflexivity].
  intros W. apply O. change (47 :: v ++ d) with ([47] ++ (v ++ d)). apply within_r, W.
Qed.

Lemma fields_within sep s f : In f (fields sep s) -> within s f.
Proof.
  assert (G : forall s f l, fields sep s = f :: l -> exists v, s = f ++ v).
  { induction s0 as [|c t IH]; intros g l H; cbn [fields] in H; [injection H as <- _; exists []; reflexivity|].
    destruct (sep c); [injection H as <- _; exists (c :: t); reflexivity|].
    destruct (fields sep t) as [|f0 l0]; [injection H as <- _; exists t; reflexivity|].
    injection H as <- _. destruct (IH f0 l0 eq_refl) as [v ->]. exists v. reflexivity. }
  induction s as [|c t IH]; intros H.
  - destruct H as [<- | []]. exists [], []. reflexivity.
  - destruct (fields sep (c :: t)) as [|g l] eqn:E; [destruct H|]. destruct H as [<- | H].
    + destruct (G _ _ _ E) as [v ->]. exists [], v. reflexivity.
    + cbn [fields] in E. change (c :: t) with ([c] ++ t). apply within_r. apply IH. destruct (sep c); [injection E as _ <-; exact H|].
      destruct (fields sep t) as [|f0 l0]; [injection E as _ <-; destruct H|]. injection E as _ <-. right. exact H.
Qed.

Lemma kept_within seps s t : In t (kept seps s) -> within s t.
Proof.
  unfold kept. intros H. apply filter_In in H as [H _]. apply in_map_iff in H as (f & <- & H).
  apply (within_trans _ f); [apply (fields_within _ _ _ H)|]. destruct (trim_ok f) as (a & b & E & _). exists a, b. exact E.
Qed.

Lemma multi_below dir u i names : Z.of_nat (length dir) <= 1023 -> url_ok u = true -> names = kept [43] (skipn (S i) u) ->
  Forall (below dir) (map (multi_path dir) names).
Proof.
  intros L O ->. apply Forall_forall. intros p I. apply in_map_iff in I as (t & <- & I).
  apply below_dir; [exact L| |reflexivity]. intros W. apply (url_ok_no_dots _ O).
  rewrite <- (firstn_skipn (S i) u). apply within_r. eapply within_trans; [apply (kept_within _ _ _ I)|exact W].
Qed.

(** The contents sent are those of the files. *)
Lemma load_all_ok fs paths b : load_all fs paths = Some b ->
  exists bs, Forall2 (fun p c => fs p = Some c) paths bs /\ b = concat (map c_string bs).
Proof.
  revert b. induction paths as [|p r IH]; intros b; cbn [load_all]; [intros H; injection H as <-; exists []; split; [constructor|reflexivity]|].
  destruct (fs p) as [c|] eqn:F; [|discriminate]. destruct (load_all fs r) as [b'|]; [|discriminate]. intros H. injection H as <-.
  destruct (IH _ eq_refl) as (bs & A & ->). exists (c :: bs). split; [constructor; assumption|reflexivity].
Qed.

Theorem execute_files : forall cfg toks ip fs m url s rs s2 keep who paths b,
  execute cfg toks ip fs m url s = Some (rs, s2, keep) -> In (RFile who paths b) rs ->
  Z.of_nat (length (w_dir cfg)) <= 1023 ->
  m = HGet /\ Forall (below (w_dir cfg)) paths /\
  ((exists p, paths = [p] /\ fs p = Some b) \/
   (exists bs, Forall2 (fun p c => fs p = Some c) paths bs /\ b = concat (map c_string bs))).
Proof.
  intros cfg toks ip fs m url s rs s2 keep who paths b H I L. unfold execute in H.
  destruct (parse_headers (S (length s)) s hdrs0) as [[h s1]|]; [|discriminate].
  destruct (match m with HPost => h_len h <=? 0 | _ => false end); [injection H as <- <- <-; destruct I|].
  destruct (match m with HOptions => true | _ => false end).
  { injection H as <- <- <-. destruct I as [I | []]; discriminate. }
  destruct (parse_url url (h_auth h)) as [[[red auth] u]|]; [|discriminate].
  destruct (check_credentials cfg toks ip auth (h_token h)) as [w|]; [|discriminate].
  assert (Bf : forall x y z, ~ In (RFile x y z) (if red then [RRedirect (u ++ [47])] else [])).
  { intros x y z. destruct red; [|intros []]. intros [X | []]; discriminate. }
  destruct ((negb (w_form cfg) || is_rpc u) && (match w with None => true | _ => false end)).
  { injection H as <- <- <-. apply in_app_or in I as [I | [I | []]]; [exfalso; exact (Bf _ _ _ I)|discriminate]. }
  destruct (length s1 <? _)%nat; [injection H as <- <- <-; exfalso; exact (Bf _ _ _ I)|].
  destruct (dispatch cfg fs w m u _) as [r|] eqn:D; [|discriminate].
  injection H as <- <- <-. apply in_app_or in I as [I | [I | []]]; [exfalso; exact (Bf _ _ _ I)|].
  destruct (dispatch_file _ _ _ _ _ _ _ _ _ _ D I) as (_ & _ & M & O & V & _ & Q). split; [exact M|].
  destruct Q as [[-> F] | (i & X & Q1 & Q2)].
  - split; [constructor; [apply single_below; assumption|constructor]|]. left. eexists. split; [reflexivity|exact F].
  - split; [rewrite Q1; eapply multi_below; [exact L|exact O|reflexivity]|]. right. apply load_all_ok, Q2.
Qed.
