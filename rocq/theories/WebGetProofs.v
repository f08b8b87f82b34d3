(** Proofs about downloads from web servers: addresses, requests and contents. *)
From Coq Require Import String.
From Verif Require Import Base NumFmt WildModel WildSpec CodecModel CodecProofs2 NameModel NameSpec NameProofs WebModel WebSpec WebProofs WebProofs2 WebProofs3 WebGetModel WebGetSpec.
Open Scope list_scope. Open Scope Z_scope.

(** ** Addresses *)

Lemma free_no cs s c : free_of cs s -> In c cs -> ~ In c s.
Proof. intros F I X. unfold free_of in F. rewrite Forall_forall in F. exact (F c X I). Qed.

Lemma index_skip c a r : ~ In c a -> index c (a ++ r) = match index c r with Some i => Some (length a + i)%nat | None => None end.
Proof.
  induction a as [|x a IH]; intros N; cbn [app length Nat.add]; [destruct (index c r); reflexivity|]. cbn [index].
  destruct (x =? c) eqn:E; [exfalso; apply N; left; lia|]. rewrite IH; [destruct (index c r); reflexivity|].
  intros X. apply N. right. exact X.
Qed.
Lemma index_not c s : ~ In c s -> index c s = None.
Proof. intros N. destruct (index c s) as [i|] eqn:E; [|reflexivity]. destruct (index_some _ _ _ E) as [H _]. exfalso. apply N. rewrite H. apply in_or_app. right. left. reflexivity. Qed.

Lemma scheme_ok p r : ~ In 58 p -> scheme (p ++ str "://" ++ r) = Some (p, r).
Proof.
  induction p as [|c p IH]; intros N; [reflexivity|]. cbn [app scheme].
  assert (C : prefixb (str "://") (c :: p ++ str "://" ++ r) = false).
  { change (str "://") with (58 :: str "//") at 1. cbn [prefixb]. destruct (58 =? c) eqn:E; [exfalso; apply N; left; lia|reflexivity]. }
  rewrite C, IH; [reflexivity|]. intros X. apply N. right. exact X.
Qed.

Lemma firstn_exact {A} (a b : list A) : firstn (length a) (a ++ b) = a.
Proof. rewrite firstn_app, Nat.sub_diag, firstn_all, firstn_O, app_nil_r. reflexivity. Qed.
Lemma skipn_exact {A} (a b : list A) : skipn (length a) (a ++ b) = b.
Proof. rewrite skipn_app, Nat.sub_diag, skipn_all. reflexivity. Qed.
Lemma cset_exact a b : a <> [] -> cset (a ++ b) (length a) = a.
Proof. intros N. unfold cset. destruct a as [|c a]; [congruence|]. exact (firstn_exact (c :: a) b). Qed.

Lemma atoi_port n r : 0 < n < 65536 -> nondigit_head r -> atoi (zdec n ++ r) = n.
Proof. intros H R. unfold atoi. rewrite atoll_zdec by exact R. unfold to_i32. lia. Qed.


Lemma zdec_free n : free_of [58; 47; 64] (zdec n).
Proof.
  apply Forall_forall. intros c I X.
  assert (A : forall h, h <> 45 -> is_digit h = false -> c <> h).
  { intros h H1 H2. assert (F := ArticleProofs.zdec_no n h H1 H2). rewrite Forall_forall in F. exact (F c I). }
  destruct X as [X | [X | [X | []]]]; symmetry in X; revert X; apply A; (lia || reflexivity).
Qed.
Lemma free_port p : free_of [47; 64] (port_text p).
Proof.
  destruct p as [n|]; [|constructor]. cbn [port_text]. constructor; [intros [X | [X | []]]; discriminate|].
  eapply Forall_impl; [|apply (zdec_free n)]. cbv beta. intros c H [X | [X | []]]; apply H; subst; cbn; auto.
Qed.

(** The end of [parse_address], after the user. *)
Definition host_end (protocol user pass h host : list Z) : option url :=
  let slash := index 47 h in
  let len := match index 47 host, slash with Some j, Some _ => j | _, _ => S (length host) end in
  let res := match slash with Some j => skipn j h | None => str "/" end in
  match index 58 host with
  | Some k =>
    if (k <? len - 1)%nat then Some (Url protocol user pass (cset host k) (atoi (skipn (S k) host)) res)
    else Some (Url protocol user pass (cset host len) 0 res)
  | None => Some (Url protocol user pass (cset host len) 0 res)
  end.

Lemma cset_more a n : (length a < n)%nat -> cset a n = a.
Proof. intros H. unfold cset. destruct n; [lia|]. apply firstn_all2. lia. Qed.

Lemma host_end_ok protocol user pass login host port res :
  ~ In 47 login -> host <> [] -> free_of [58; 47; 64] host -> match port with None => True | Some n => 0 < n < 65536 end ->
  (res = [] \/ exists r, res = 47 :: r) ->
  host_end protocol user pass (login ++ host ++ port_text port ++ res) (host ++ port_text port ++ res) =
  Some (Url protocol user pass host (match port with Some n => n | None => 0 end) (match res with [] => [47] | r => r end)).
Proof.
  intros NL NH FH P R. unfold host_end.
  assert (H47 := free_no _ _ 47 FH ltac:(cbn; auto)). assert (H58 := free_no _ _ 58 FH ltac:(cbn; auto)).
  assert (P47 := free_no _ _ 47 (free_port port) ltac:(cbn; auto)).
  rewrite (index_skip 47 login) by exact NL. rewrite (index_skip 47 host) by exact H47. rewrite (index_skip 47 (port_text port)) by exact P47.
  rewrite (index_skip 58 host) by exact H58. destruct R as [-> | [r ->]].
  - cbn [index]. rewrite app_nil_r. destruct port as [n|].
    + cbn [port_text index]. rewrite Z.eqb_refl. rewrite Nat.add_0_r. rewrite app_length. cbn [length].
      assert (K : (length host <? S (length host + S (length (zdec n))) - 1)%nat = true) by (apply Nat.ltb_lt; lia). rewrite K.
      rewrite cset_exact by exact NH. f_equal. f_equal.
      replace (S (length host)) with (length (host ++ [58])) by (rewrite app_length; cbn [length]; lia).
      replace (host ++ 58 :: zdec n) with ((host ++ [58]) ++ zdec n) by (rewrite <- app_assoc; reflexivity).
      rewrite skipn_exact. assert (A := atoi_port n [] P I). rewrite app_nil_r in A. exact A.
    + cbn [port_text index app]. rewrite app_nil_r. rewrite cset_more by lia. reflexivity.
  - cbn [index]. change (47 =? 47) with true. cbv iota. rewrite !Nat.add_0_r.
    assert (RES : skipn (length login + (length host + length (port_text port))) (login ++ host ++ port_text port ++ 47 :: r) = 47 :: r).
    { replace (length login + (length host + length (port_text port)))%nat with (length (login ++ host ++ port_text port)) by (rewrite !app_length; lia).
      replace (login ++ host ++ port_text port ++ 47 :: r) with ((login ++ host ++ port_text port) ++ 47 :: r) by (rewrite <- !app_assoc; reflexivity).
      apply skipn_exact. }
    rewrite RES. destruct port as [n|].
    + cbn [port_text app index]. rewrite Z.eqb_refl, Nat.add_0_r. cbn [length].
      destruct (ArticleProofs.zdec_pos n ltac:(lia)) as (d & t & Ed & _). 
      assert (K : (length host <? length host + S (length (zdec n)) - 1)%nat = true) by (apply Nat.ltb_lt; rewrite Ed; cbn [length]; lia). rewrite K.
      rewrite cset_exact by exact NH. f_equal. f_equal.
      replace (S (length host)) with (length (host ++ [58])) by (rewrite app_length; cbn [length]; lia).
      replace (host ++ 58 :: zdec n ++ 47 :: r) with ((host ++ [58]) ++ zdec n ++ 47 :: r) by (rewrite <- app_assoc; reflexivity).
      rewrite skipn_exact. apply atoi_port; [exact P|]. reflexivity.
    + cbn [port_text app length index]. rewrite Nat.add_0_r. change (47 =? 58) with false. cbv iota.
      destruct (index 58 r) as [k|].
      * assert (K : (length host + S k <? length host - 1)%nat = false) by (apply Nat.ltb_ge; lia). rewrite K.
        rewrite cset_exact by exact NH. reflexivity.
      * rewrite cset_exact by exact NH. reflexivity.
Qed.

Theorem address_ok : forall p, parts_ok p -> parse_address (address p) = Some (meaning p).
Proof.
  intros [prot login host port res] (PN & PF & L & HN & HF & P & R). cbn [p_prot p_login p_host p_port p_res] in *.
  unfold address, meaning. cbn [p_prot p_login p_host p_port p_res].
  assert (S := scheme_ok prot (login_text login ++ host ++ port_text port ++ res) (free_no _ _ 58 PF ltac:(cbn; auto))).
  unfold parse_address. rewrite S. clear S. cbv zeta. rewrite cset_exact by exact PN.
  assert (H47 := free_no _ _ 47 HF ltac:(cbn; auto)). assert (H64 := free_no _ _ 64 HF ltac:(cbn; auto)).
  assert (P47 := free_no _ _ 47 (free_port port) ltac:(cbn; auto)). assert (P64 := free_no _ _ 64 (free_port port) ltac:(cbn; auto)).
  assert (NL : ~ In 47 (login_text login)).
  { destruct login as [[u [pw|]]|]; cbn [login_text].
    - destruct L as [L1 L2]. intros X. apply in_app_or in X as [X | [X | X]]; [exact (free_no _ _ 47 L1 ltac:(cbn; auto) X)|discriminate|].
      apply in_app_or in X as [X | [X | []]]; [exact (free_no _ _ 47 L2 ltac:(cbn; auto) X)|discriminate].
    - intros X. apply in_app_or in X as [X | [X | []]]; [exact (free_no _ _ 47 L ltac:(cbn; auto) X)|discriminate].
    - intros []. }
  assert (SL : index 47 (login_text login ++ host ++ port_text port ++ res) =
     match res with [] => None | _ => Some (length (login_text login) + (length host + length (port_text port)))%nat end).
  { rewrite (index_skip 47 (login_text login)) by exact NL. rewrite (index_skip 47 host) by exact H47. rewrite (index_skip 47 (port_text port)) by exact P47.
    destruct R as [-> | [r ->]]; [reflexivity|]. cbn [index]. change (47 =? 47) with true. cbv iota. rewrite Nat.add_0_r. reflexivity. }
  assert (E := fun user pass => host_end_ok prot user pass (login_text login) host port res NL HN HF P R). unfold host_end in E. cbv zeta in E.
  destruct login as [[u [pw|]]|].
  - destruct L as [L1 L2].
    assert (A : index 64 (login_text (Some (u, Some pw)) ++ host ++ port_text port ++ res) = Some (length u + S (length pw))%nat).
    { cbn [login_text]. replace ((u ++ 58 :: pw ++ [64]) ++ host ++ port_text port ++ res) with ((u ++ 58 :: pw) ++ 64 :: host ++ port_text port ++ res)
        by (rewrite <- !app_assoc; cbn [app]; rewrite <- !app_assoc; reflexivity).
      rewrite index_app; [rewrite app_length; reflexivity|]. intros X. apply in_app_or in X as [X | [X | X]];
        [exact (free_no _ _ 64 L1 ltac:(cbn; auto) X)|discriminate|exact (free_no _ _ 64 L2 ltac:(cbn; auto) X)]. }
    assert (C : index 58 (login_text (Some (u, Some pw)) ++ host ++ port_text port ++ res) = Some (length u)).
    { cbn [login_text]. rewrite <- app_assoc. cbn [app]. apply index_app. exact (free_no _ _ 58 L1 ltac:(cbn; auto)). }
    rewrite A, C.
    assert (AM : match index 47 (login_text (Some (u, Some pw)) ++ host ++ port_text port ++ res) with
                 | Some j => if (length u + S (length pw) <? j)%nat then Some (length u + S (length pw))%nat else None
                 | None => Some (length u + S (length pw))%nat end = Some (length u + S (length pw))%nat).
    { rewrite SL. destruct res; [reflexivity|].
      match goal with |- context [if ?b then _ else _] => assert (K : b = true); [|rewrite K; reflexivity] end.
      apply Nat.ltb_lt. cbn [login_text]. rewrite !app_length. cbn [length]. rewrite app_length. cbn [length]. lia. }
    rewrite AM. assert (K : (length u <? length u + S (length pw))%nat = true) by (apply Nat.ltb_lt; lia). rewrite K.
    assert (Q1 : firstn (length u) (login_text (Some (u, Some pw)) ++ host ++ port_text port ++ res) = u).
    { cbn [login_text]. rewrite <- app_assoc. apply firstn_exact. }
    assert (Q2 : firstn (length u + S (length pw) - length u - 1) (skipn (S (length u)) (login_text (Some (u, Some pw)) ++ host ++ port_text port ++ res)) = pw).
    { cbn [login_text]. replace (length u + S (length pw) - length u - 1)%nat with (length pw) by lia.
      replace (S (length u)) with (length (u ++ [58])) by (rewrite app_length; cbn [length]; lia).
      replace ((u ++ 58 :: pw ++ [64]) ++ host ++ port_text port ++ res) with ((u ++ [58]) ++ pw ++ 64 :: host ++ port_text port ++ res)
        by (rewrite <- !app_assoc; cbn [app]; rewrite <- !app_assoc; reflexivity).
      rewrite skipn_exact. apply firstn_exact. }
    assert (Q3 : skipn (S (length u + S (length pw))) (login_text (Some (u, Some pw)) ++ host ++ port_text port ++ res) = host ++ port_text port ++ res).
    { replace (S (length u + S (length pw))) with (length (login_text (Some (u, Some pw)))); [apply skipn_exact|].
      cbn [login_text]. rewrite app_length. cbn [length]. rewrite app_length. cbn [length]. lia. }
    rewrite Q1, Q2, Q3. etransitivity; [exact (E u pw)|destruct res; reflexivity].
  - assert (A : index 64 (login_text (Some (u, None)) ++ host ++ port_text port ++ res) = Some (length u)).
    { cbn [login_text]. rewrite <- app_assoc. cbn [app]. apply index_app. exact (free_no _ _ 64 L ltac:(cbn; auto)). }
    assert (C : match index 58 (login_text (Some (u, None)) ++ host ++ port_text port ++ res) with
                | Some k => (length u < k)%nat | None => True end).
    { cbn [login_text]. rewrite <- app_assoc. rewrite index_skip by exact (free_no _ _ 58 L ltac:(cbn; auto)). cbn [app index].
      change (64 =? 58) with false. cbv iota. destruct (index 58 (host ++ port_text port ++ res)); [lia|exact I]. }
    rewrite A.
    assert (AM : match index 47 (login_text (Some (u, None)) ++ host ++ port_text port ++ res) with
                 | Some j => if (length u <? j)%nat then Some (length u) else None
                 | None => Some (length u) end = Some (length u)).
    { rewrite SL. destruct res; [reflexivity|].
      match goal with |- context [if ?b then _ else _] => assert (K : b = true); [|rewrite K; reflexivity] end.
      apply Nat.ltb_lt. cbn [login_text]. rewrite !app_length. cbn [length]. lia. }
    rewrite AM.
    assert (Q1 : firstn (length u) (login_text (Some (u, None)) ++ host ++ port_text port ++ res) = u).
    { cbn [login_text]. rewrite <- app_assoc. apply firstn_exact. }
    assert (Q3 : skipn (S (length u)) (login_text (Some (u, None)) ++ host ++ port_text port ++ res) = host ++ port_text port ++ res).
    { replace (S (length u)) with (length (login_text (Some (u, None)))); [apply skipn_exact|].
      cbn [login_text]. rewrite app_length. cbn [length]. lia. }
    rewrite Q1, Q3. specialize (E u []). destruct (index 58 (login_text (Some (u, None)) ++ host ++ port_text port ++ res)) as [k|].
    + assert (K : (k <? length u)%nat = false) by (apply Nat.ltb_ge; lia). rewrite K. etransitivity; [exact E|destruct res; reflexivity].
    + etransitivity; [exact E|destruct res; reflexivity].
  - cbn [login_text app] in *. cbn [length Nat.add] in SL.
    assert (A : match index 64 (host ++ port_text port ++ res), index 47 (host ++ port_text port ++ res) with
                | Some i, Some j => if (i <? j)%nat then Some i else None | Some i, None => Some i | None, _ => None end = None).
    { rewrite SL. rewrite (index_skip 64 host) by exact H64. rewrite (index_skip 64 (port_text port)) by exact P64.
      destruct R as [-> | [r ->]]; [reflexivity|]. destruct (index 64 (47 :: r)) as [k|]; [|reflexivity].
      match goal with |- context [if ?b then _ else _] => assert (K : b = false); [|rewrite K; reflexivity] end. apply Nat.ltb_ge. lia. }
    rewrite A. etransitivity; [exact (E [] [])|destruct res; reflexivity].
Qed.

(** ** Requests *)

Lemma line1k_short s : Z.of_nat (length s) <= 1023 -> line1k s = s.
Proof. intros H. unfold line1k. apply firstn_all2. lia. Qed.

Lemma beqb_http s : nocase_eq s (str "http") = beqb (map lc s) (str "http").
Proof. reflexivity. Qed.
Lemma beqb_https s : nocase_eq s (str "https") = beqb (map lc s) (str "https").
Proof. reflexivity. Qed.

Theorem request_ok : forall version u p, usable_port u = Some p ->
  Z.of_nat (length (u_res u)) <= 1008 -> Z.of_nat (length (host_text u)) <= 1015 -> Z.of_nat (length version) <= 1002 ->
  request_head version u = whole_request version u.
Proof.
  intros version u p U LR LH LV. unfold request_head, whole_request.
  assert (S : (nocase_eq (u_prot u) (str "http") && ((u_port u =? 80) || (u_port u =? 0))
     || nocase_eq (u_prot u) (str "https") && ((u_port u =? 443) || (u_port u =? 0)))%bool = standard u).
  { unfold standard. rewrite <- beqb_http, <- beqb_https. unfold usable_port in U.
    destruct (nocase_eq (u_prot u) (str "http")), (nocase_eq (u_prot u) (str "https")); try discriminate U;
    destruct (u_port u =? 80), (u_port u =? 443), (u_port u =? 0); reflexivity. }
  rewrite S. clear S. unfold host_text in *. cbv zeta.
  rewrite !line1k_short.
  - unfold render, crlf. cbn [flat_map]. rewrite <- !app_assoc. reflexivity.
  - rewrite !app_length in *. cbn [length] in *. change (length (str "Host: ")) with 6%nat. lia.
  - rewrite !app_length. change (length (str "User-Agent: nzbget/")) with 19%nat. cbn [length]. lia.
  - rewrite !app_length. change (length (str "GET ")) with 4%nat. change (length (str " HTTP/1.0")) with 9%nat. cbn [length]. lia.
Qed.

(** ** Heads *)

Lemma drop_blank_app a b : (exists c, In c a /\ is_blank c = false) -> drop_blank (a ++ b) = drop_blank a ++ b.
Proof.
  induction a as [|x a IH]; intros (c & I & B); [destruct I|]. cbn [app drop_blank]. destruct (is_blank x) eqn:E; [|reflexivity].
  apply IH. destruct I as [-> | I]; [congruence|]. exists c. auto.
Qed.
Lemma drop_blank_suffix a : exists b, a = b ++ drop_blank a.
Proof.
  induction a as [|x a [b IH]]; [exists []; reflexivity|]. cbn [drop_blank]. destruct (is_blank x); [|exists []; reflexivity].
  exists (x :: b). cbn [app]. f_equal. exact IH.
Qed.
Lemma trim_right_prefix s : exists v, s = trim_right s ++ v.
Proof.
  unfold trim_right. destruct (drop_blank_suffix (rev s)) as [b E]. exists (rev b). rewrite <- rev_app_distr, <- E, rev_involutive. reflexivity.
Qed.
Lemma trim_right_end s c : is_blank c = false -> trim_right ((s ++ [c]) ++ [13; 10]) = s ++ [c].
Proof.
  intros B. unfold trim_right. rewrite !rev_app_distr. cbn [rev app drop_blank]. change (is_blank 10) with true. change (is_blank 13) with true.
  cbv iota. rewrite B. cbn [rev]. rewrite rev_involutive. reflexivity.
Qed.
Lemma trim_right_crlf s : trim_right (s ++ [13; 10]) = trim_right s.
Proof. unfold trim_right. rewrite rev_app_distr. reflexivity. Qed.

Lemma nocase_prefix_more p s v : nocase_prefix p s = true -> nocase_prefix p (s ++ v) = true.
Proof.
  unfold nocase_prefix. intros H. apply prefixb_iff in H as [r H]. apply prefixb_iff. exists (r ++ map lower v).
  rewrite map_app, H, <- app_assoc. reflexivity.
Qed.
Lemma no_field p t : (forall v, ~ field p t v) -> nocase_prefix p (trim_right t) = false.
Proof.
  intros N. destruct (nocase_prefix p (trim_right t)) eqn:E; [|reflexivity]. exfalso. destruct (trim_right_prefix t) as [v Ev].
  apply (nocase_prefix_more _ _ v) in E. rewrite <- Ev in E. apply nocase_prefix_field in E. exact (N _ E).
Qed.

(** What one header does. *)
Definition heard (h : hline) (g : wget) : wget :=
  match h with
  | HLength n => WGet n true (g_gzip g) (g_redirecting g) (g_redirected g) (g_url g) (g_name g)
  | HGzip => WGet (g_len g) (g_conf g) true (g_redirecting g) (g_redirected g) (g_url g) (g_name g)
  | HName n => WGet (g_len g) (g_conf g) (g_gzip g) (g_redirecting g) (g_redirected g) (g_url g) (Some n)
  | HOther _ => g
  end.

Lemma zdec_end n : exists s c, zdec n = s ++ [c] /\ is_blank c = false.
Proof.
  assert (N : zdec n <> []).
  { unfold zdec. destruct (n <? 0) eqn:E; [discriminate|]. destruct (udec_cons n ltac:(lia)) as (c & t & Ec & _). rewrite Ec. discriminate. }
  destruct (exists_last N) as (s & c & E). exists s, c. split; [exact E|].
  assert (A : forall h, h <> 45 -> is_digit h = false -> c <> h).
  { intros h H1 H2. assert (F := ArticleProofs.zdec_no n h H1 H2). rewrite Forall_forall in F. apply F. rewrite E. apply in_or_app. right. left. reflexivity. }
  unfold is_blank. rewrite !orb_false_iff, !Z.eqb_neq. repeat split; apply A; (lia || reflexivity).
Qed.

Lemma base_plain s : free_of [92; 47] s -> base_name s = s.
Proof.
  intros F. destruct (base_name_ok s) as (d & E & [-> | (d' & c & -> & S)] & _); [symmetry; exact E|]. exfalso.
  unfold free_of in F. rewrite Forall_forall in F. apply (F c); [rewrite E; apply in_or_app; left; apply in_or_app; right; left; reflexivity|].
  destruct S as [-> | ->]; cbn; auto.
Qed.

Lemma parse_filename_ok n : Forall text_char n -> free_of [34; 92; 47] n -> Z.of_nat (length n) <= 1000 ->
  parse_filename (str "Content-Disposition: attachment; filename=" ++ 34 :: n ++ [34]) = Some (Some n).
Proof.
  intros T F L. unfold parse_filename.
  assert (E : strstr (str "Content-Disposition: attachment; filename=" ++ 34 :: n ++ [34]) (str "filename") = Some (str "filename=" ++ 34 :: n ++ [34])) by reflexivity.
  rewrite E. clear E.
  assert (E : index 61 (str "filename=" ++ 34 :: n ++ [34]) = Some 8%nat) by reflexivity. rewrite E. clear E.
  change (skipn 9 (str "filename=" ++ 34 :: n ++ [34])) with (34 :: n ++ [34]).
  assert (E : drop_blanks (34 :: n ++ [34]) = 34 :: n ++ [34]) by reflexivity. rewrite E. clear E.
  rewrite firstn_all2 by (cbn [length]; rewrite app_length; cbn [length]; lia).
  assert (E : rev (cut_end (rev (34 :: n ++ [34]))) = 34 :: n ++ [34]).
  { cbn [rev]. rewrite rev_app_distr. cbn [rev app]. cbn [cut_end]. destruct (rev n ++ [34]) eqn:X; [destruct (rev n); discriminate|].
    change (end_char 34) with false. cbv iota. rewrite <- X. cbn [rev]. rewrite rev_app_distr, rev_involutive. reflexivity. }
  rewrite E. clear E. rewrite unquote_plain.
  - rewrite base_plain; [reflexivity|]. eapply Forall_impl; [|exact F]. cbv beta. intros c H [X | [X | []]]; apply H; subst; cbn; auto.
  - eapply Forall_impl; [|exact F]. cbv beta. intros c H. split; intros X; apply H; subst; cbn; auto.
Qed.

Lemma text_no0 l : Forall text_char l -> ~ In 0 l.
Proof. intros F X. rewrite Forall_forall in F. destruct (F _ X) as [A _]. congruence. Qed.
Lemma text_no10 l : Forall text_char l -> ~ In 10 l.
Proof. intros F X. rewrite Forall_forall in F. destruct (F _ X) as (_ & A & _). congruence. Qed.
Lemma text_lit (l : list Z) : forallb (fun c => negb ((c =? 0) || (c =? 10) || (c =? 13))) l = true -> Forall text_char l.
Proof. intros H. apply Forall_forall. intros c I. rewrite forallb_forall in H. specialize (H c I). unfold text_char. lia. Qed.
Lemma text_zdec n : Forall text_char (zdec n).
Proof.
  apply Forall_forall. intros c I.
  assert (A : forall h, h <> 45 -> is_digit h = false -> c <> h).
  { intros h H1 H2. assert (F := ArticleProofs.zdec_no n h H1 H2). rewrite Forall_forall in F. exact (F c I). }
  unfold text_char. repeat split; apply A; (lia || reflexivity).
Qed.

Lemma read_line l r : Forall text_char l -> Z.of_nat (length l) <= 10236 ->
  take_line head_room (l ++ [13; 10] ++ r) = l ++ [13; 10] /\ c_string (l ++ [13; 10]) = l ++ [13; 10].
Proof.
  intros T L. split.
  - replace (l ++ [13; 10] ++ r) with ((l ++ [13]) ++ 10 :: r) by (rewrite <- app_assoc; reflexivity).
    rewrite take_line_whole; [rewrite <- app_assoc; reflexivity| |unfold head_room; rewrite app_length; cbn [length]; lia].
    intros X. apply in_app_or in X as [X | [X | []]]; [exact (text_no10 _ T X)|discriminate].
  - apply c_string_id. intros X. apply in_app_or in X as [X | [X | [X | []]]]; [exact (text_no0 _ T X)|discriminate|discriminate].
Qed.


Lemma hline_line h : hline_ok h -> Forall text_char (hline_text h) /\ Z.of_nat (length (hline_text h)) <= 10236 /\ hline_text h <> [].
Proof.
  destruct h as [n| |n|t]; cbn [hline_ok hline_text].
  - intros H. repeat split; [apply Forall_app; split; [apply text_lit; reflexivity|apply text_zdec]| |discriminate].
    rewrite app_length. change (length (str "Content-Length: ")) with 16%nat. assert (L := LineProofs.zdec_len n ltac:(lia)). lia.
  - intros _. repeat split; [apply text_lit; reflexivity|cbn; lia|discriminate].
  - intros (T & F & L). repeat split; [|rewrite app_length; cbn [length]; rewrite app_length; change (length (str "Content-Disposition: attachment; filename=")) with 42%nat; cbn [length]; lia|discriminate].
    apply Forall_app. split; [apply text_lit; reflexivity|]. constructor; [unfold text_char; lia|]. apply Forall_app. split; [exact T|].
    constructor; [unfold text_char; lia|constructor].
  - intros (T & N & L & _). repeat split; [exact T|lia|exact N].
Qed.

Lemma header_heard h g : hline_ok h -> g_redirecting g = false \/ not_location h ->
  process_header (trim_right (hline_text h ++ [13; 10])) g = Some (heard h g).
Proof.
  intros H R. destruct h as [n| |n|t]; cbn [hline_ok hline_text heard] in *.
  - destruct (zdec_end n) as (s & c & E & B). rewrite E. rewrite (app_assoc (str "Content-Length: ")). rewrite trim_right_end by exact B.
    rewrite <- app_assoc, <- E. unfold process_header.
    assert (P : nocase_prefix (str "Content-Length: ") (str "Content-Length: " ++ zdec n) = true) by reflexivity. rewrite P.
    change (skipn 16 (str "Content-Length: " ++ zdec n)) with (zdec n).
    assert (A : atoi (zdec n) = n).
    { unfold atoi. assert (A := atoll_zdec n [] I). rewrite app_nil_r in A. rewrite A. unfold to_i32. lia. }
    rewrite A. reflexivity.
  - reflexivity.
  - destruct H as (T & F & L).
    replace (str "Content-Disposition: attachment; filename=" ++ 34 :: n ++ [34]) with ((str "Content-Disposition: attachment; filename=" ++ 34 :: n) ++ [34])
      by (rewrite <- app_assoc; reflexivity).
    rewrite trim_right_end by reflexivity. rewrite <- app_assoc. cbn [app]. unfold process_header.

    set (l := str "Content-Disposition: attachment; filename=" ++ 34 :: n ++ [34]).
    change (process_header l g = Some (WGet (g_len g) (g_conf g) (g_gzip g) (g_redirecting g) (g_redirected g) (g_url g) (Some n))).
    unfold process_header.
    assert (P1 : nocase_prefix (str "Content-Length: ") l = false) by reflexivity.
    assert (P2 : nocase_prefix (str "Content-Encoding: gzip") l = false) by reflexivity.
    assert (P3 : nocase_prefix (str "Content-Disposition: ") l = true) by reflexivity.
    rewrite P1, P2, P3. unfold l. rewrite parse_filename_ok by assumption. reflexivity.
  - destruct H as (T & N & L & N1 & N2 & N3). rewrite trim_right_crlf. unfold process_header.
    rewrite !(no_field _ _ N1), (no_field _ _ N2), (no_field _ _ N3). destruct R as [-> | R]; [reflexivity|]. cbn [not_location] in R.
    rewrite (no_field _ _ R), andb_false_r. reflexivity.
Qed.

Lemma heard_red h g : g_redirecting (heard h g) = g_redirecting g /\ g_redirected (heard h g) = g_redirected g.
Proof. destruct h; split; reflexivity. Qed.

Lemma heads_ok hs : Forall hline_ok hs -> forall f g body, (length hs < f)%nat -> g_redirecting g = false -> g_redirected g = false ->
  head_lines f false (render (map hline_text hs) ++ body) g = Some (WRunning, fold_left (fun g h => heard h g) hs g, body).
Proof.
  induction hs as [|h hs IH]; intros F f g body L R1 R2; (destruct f as [|f]; [lia|]).
  - destruct g as [a b c d e u n]. cbn in *. subst. reflexivity.
  - inversion F as [|? ? F1 F2]; subst. destruct (hline_line h F1) as (T & Le & N).
    unfold render. cbn [map flat_map]. rewrite <- !app_assoc.
    change (flat_map (fun l => l ++ [13; 10]) (map hline_text hs) ++ [13; 10] ++ body) with (flat_map (fun l => l ++ [13; 10]) (map hline_text hs) ++ ([13; 10] ++ body)).
    rewrite (app_assoc (flat_map _ _)). change (flat_map (fun l => l ++ [13; 10]) (map hline_text hs) ++ [13; 10]) with (render (map hline_text hs)).
    cbn [head_lines].
    destruct (read_line (hline_text h) (render (map hline_text hs) ++ body) T Le) as [Q1 Q2]. rewrite Q1, Q2.
    assert (G : WGet (g_len g) (g_conf g) (g_gzip g) (g_redirecting g) (g_redirected g) (g_url g) (g_name g) = g) by (destruct g; reflexivity).
    rewrite G. destruct (hline_text h ++ [13; 10]) as [|c r] eqn:X; [destruct (hline_text h); discriminate|].
    assert (C : (c =? 13) || (c =? 10) = false).
    { destruct (hline_text h) as [|c' r']; [congruence|]. injection X as <- _. inversion T as [|? ? [A [B D]]]; subst. lia. }
    rewrite C. rewrite <- X. rewrite header_heard by auto.
    destruct (heard_red h g) as [H1 H2]. rewrite H2, R2.
    rewrite app_assoc, skipn_exact. cbn [fold_left]. apply IH; [exact F2|cbn [length] in L; lia|congruence|congruence].
Qed.

Lemma fold_said hs : forall g, Forall hline_ok hs ->
  let g' := fold_left (fun g h => heard h g) hs g in
  (forall d, g_len g = (match d with Some n => n | None => -1 end) -> g_len g' = match said_length hs d with Some n => n | None => -1 end) /\
  (said_length hs None = None -> g_conf g' = g_conf g) /\
  g_gzip g' = (g_gzip g || said_gzip hs)%bool /\ g_name g' = said_name hs (g_name g) /\ g_url g' = g_url g.
Proof.
  induction hs as [|h hs IH]; intros g F; cbn [fold_left said_length said_gzip said_name].
  - repeat split; [intros d E; exact E|]. rewrite orb_false_r. reflexivity.
  - inversion F as [|? ? F1 F2]; subst. destruct (IH (heard h g) F2) as (A & B & C & D & E).
    destruct h as [n| |n|t]; cbn [heard g_gzip g_name g_url g_len g_conf] in *.
    + repeat split; try assumption; [intros d _; apply A; reflexivity|].
      intros X. exfalso. clear -X. assert (M : forall hs d, d <> None -> said_length hs d <> None).
      { induction hs0 as [|[m| |m|m] r IHr]; intros d Nd; cbn [said_length]; [exact Nd| | | |]; apply IHr; try exact Nd; discriminate. }
      exact (M hs (Some n) ltac:(discriminate) X).
    + rewrite C. repeat split; try assumption. cbn [orb]. rewrite orb_true_r. reflexivity.
    + repeat split; assumption.
    + repeat split; assumption.
Qed.

(** One line of headers. *)
Lemma head_step h f g r : hline_ok h -> g_redirecting g = false \/ not_location h -> g_redirected g = false ->
  head_lines (S f) false (hline_text h ++ [13; 10] ++ r) g = head_lines f false r (heard h g).
Proof.
  intros H R1 R2. destruct (hline_line h H) as (T & Le & N). cbn [head_lines].
  destruct (read_line (hline_text h) r T Le) as [Q1 Q2]. rewrite Q1, Q2.
  assert (G : WGet (g_len g) (g_conf g) (g_gzip g) (g_redirecting g) (g_redirected g) (g_url g) (g_name g) = g) by (destruct g; reflexivity).
  rewrite G. destruct (hline_text h ++ [13; 10]) as [|c q] eqn:X; [destruct (hline_text h); discriminate|].
  assert (C : (c =? 13) || (c =? 10) = false).
  { destruct (hline_text h) as [|c' r']; [congruence|]. injection X as <- _. inversion T as [|? ? [A [B D]]]; subst. lia. }
  rewrite C. rewrite <- X. rewrite header_heard by assumption.
  destruct (heard_red h g) as [H1 H2]. rewrite H2, R2. rewrite app_assoc, skipn_exact. reflexivity.
Qed.

Lemma status_line version code reason r u name st red : version_ok version reason -> Forall text_char code -> length code = 3%nat ->
  check_response (str "HTTP/" ++ version ++ 32 :: code ++ reason ++ [13; 10]) = (st, red) ->
  forall f, head_lines (S f) true (status_text version code reason ++ [13; 10] ++ r) (WGet (-1) false false false false u name) =
  match st with
  | WRunning => head_lines f false r (WGet (-1) false false red false u name)
  | _ => Some (st, WGet (-1) false false red false u name, status_text version code reason ++ [13; 10] ++ r)
  end.
Proof.
  intros (V1 & V2 & V3 & VL) TC LC CR f. cbn [head_lines].
  set (l := status_text version code reason).
  assert (T : Forall text_char l).
  { unfold l, status_text. rewrite !Forall_app. split; [apply text_lit; reflexivity|]. split; [exact V1|]. constructor; [unfold text_char; lia|].
    rewrite Forall_app. split; assumption. }
  destruct (read_line l r T) as [Q1 Q2].
  { unfold l, status_text. rewrite !app_length. cbn [length]. rewrite !app_length. change (length (str "HTTP/")) with 5%nat. lia. }
  rewrite Q1, Q2.
  assert (CR' : check_response (l ++ [13; 10]) = (st, red)).
  { unfold l, status_text. rewrite <- !app_assoc. cbn [app]. rewrite <- !app_assoc. exact CR. }
  rewrite CR'. cbn [g_len g_conf g_gzip g_redirecting g_redirected g_url g_name]. destruct st; try reflexivity.
  destruct (l ++ [13; 10]) as [|c q] eqn:X; [destruct l; discriminate|].
  assert (C : (c =? 13) || (c =? 10) = false).
  { unfold l, status_text in X. change (str "HTTP/") with (72 :: str "TTP/") in X. cbn [app] in X. injection X as <- _. reflexivity. }
  rewrite C. rewrite <- X.
  assert (PH : process_header (trim_right (l ++ [13; 10])) (WGet (-1) false false red false u name) = Some (WGet (-1) false false red false u name)).
  { rewrite trim_right_crlf. unfold process_header.
    assert (N : forall p, nocase_prefix p l = false -> nocase_prefix p (trim_right l) = false).
    { intros p H. destruct (nocase_prefix p (trim_right l)) eqn:Y; [|reflexivity]. destruct (trim_right_prefix l) as [v Ev].
      apply (nocase_prefix_more _ _ v) in Y. rewrite <- Ev in Y. congruence. }
    rewrite !N by reflexivity. rewrite andb_false_r. reflexivity. }
  rewrite PH. cbn [g_redirected]. rewrite app_assoc, skipn_exact. reflexivity.
Qed.

Lemma response_code version code reason : version_ok version reason -> length code = 3%nat ->
  check_response (str "HTTP/" ++ version ++ 32 :: code ++ reason ++ [13; 10]) =
  if beqb code (str "400") || beqb code (str "499") then (WConnectError, false)
  else if beqb code (str "404") then (WNotFound, false)
  else if beqb code (str "301") || beqb code (str "302") || beqb code (str "303") || beqb code (str "307") || beqb code (str "308") then (WRunning, true)
  else if beqb code (str "200") then (WRunning, false)
  else (WFailed, false).
Proof.
  intros (V1 & V2 & V3 & VL) LC. unfold check_response.
  assert (IX : index 32 (str "HTTP/" ++ version ++ 32 :: code ++ reason ++ [13; 10]) = Some (length (str "HTTP/" ++ version))).
  { rewrite (app_assoc (str "HTTP/")). apply index_app.
    intros X. apply in_app_or in X as [X | X]; [|exact (V2 X)]. revert X. vm_compute. intuition discriminate. }
  rewrite IX. assert (SK : skipn (S (length (str "HTTP/" ++ version))) (str "HTTP/" ++ version ++ 32 :: code ++ reason ++ [13; 10]) = code ++ reason ++ [13; 10]).
  { replace (S (length (str "HTTP/" ++ version))) with (length ((str "HTTP/" ++ version) ++ [32])) by (rewrite app_length; cbn [length]; lia).
    replace (str "HTTP/" ++ version ++ 32 :: code ++ reason ++ [13; 10]) with (((str "HTTP/" ++ version) ++ [32]) ++ code ++ reason ++ [13; 10]).
    - apply skipn_exact.
    - rewrite <- app_assoc. rewrite <- !app_assoc. reflexivity. }
  rewrite SK. assert (B : forall k, length k = 3%nat -> prefixb k (code ++ reason ++ [13; 10]) = beqb code k).
  { intros k Lk. destruct (beqb code k) eqn:E.
    - apply beqb_eq in E. subst. apply prefixb_iff. eexists. reflexivity.
    - apply beqb_neq in E. destruct (prefixb k (code ++ reason ++ [13; 10])) eqn:Y; [|reflexivity]. exfalso. apply E.
      apply prefixb_iff in Y as [r Y]. assert (F := firstn_exact code (reason ++ [13; 10])). rewrite Y, LC, <- Lk, firstn_exact in F. auto. }
  rewrite !B by reflexivity. reflexivity.
Qed.
