(** Proofs about downloads from web servers: ports, answers that are none, blanks in front of names, unusable addresses. *)
From Coq Require Import String.
From Verif Require Import Base NumFmt WildModel WildSpec CodecModel CodecProofs2 NameModel NameSpec NameProofs WebModel WebSpec WebProofs WebProofs2 WebProofs3 WebGetModel WebGetSpec WebGetProofs WebGetProofs2.
Open Scope list_scope. Open Scope Z_scope.

Theorem ports_ok : forall u port, usable_port u = Some port <->
  (map lc (u_prot u) = str "http" /\ port = (if u_port u =? 0 then 80 else u_port u)) \/
  (map lc (u_prot u) = str "https" /\ port = (if u_port u =? 0 then 443 else u_port u)).
Proof.
  intros u port. unfold usable_port. rewrite beqb_http, beqb_https.
  destruct (beqb (map lc (u_prot u)) (str "http")) eqn:E.
  - apply beqb_eq in E. split.
    + intros H. left. split; [exact E|congruence].
    + intros [[_ ->] | [H _]]; [reflexivity|]. rewrite E in H. discriminate H.
  - destruct (beqb (map lc (u_prot u)) (str "https")) eqn:F.
    + apply beqb_eq in F. split.
      * intros H. right. split; [exact F|congruence].
      * intros [[H _] | [_ ->]]; [|reflexivity]. rewrite F in H. discriminate H.
    + apply beqb_neq in E, F. split; [discriminate|]. intros [[H _] | [H _]]; congruence.
Qed.

(** ** Answers that are none *)

Lemma prefix_of_c (p l s : list Z) : prefixb p (c_string l) = true -> (exists r, s = l ++ r) -> exists r, s = p ++ r.
Proof.
  intros H (r & ->). apply prefixb_iff in H as (q & H).
  assert (C : exists z, l = c_string l ++ z).
  { clear. induction l as [|c l IH]; [exists []; reflexivity|]. cbn [c_string]. destruct (c =? 0); [eexists; reflexivity|].
    destruct IH as (z & IH). exists z. cbn [app]. rewrite <- IH. reflexivity. }
  destruct C as (z & C). rewrite C, H, <- !app_assoc. eexists. reflexivity.
Qed.
Lemma take_line_front n : forall s, exists r, s = take_line n s ++ r.
Proof.
  induction n as [|n IH]; intros s; [exists s; reflexivity|]. destruct s as [|c s]; [exists []; reflexivity|]. cbn [take_line].
  destruct (c =? 10); [eexists; reflexivity|]. destruct (IH s) as (r & E). exists r. cbn [app]. rewrite <- E. reflexivity.
Qed.
Theorem not_http : forall unz srv u name st file u' n', download unz srv u name = Some (st, file, u', n') ->
  st = WFinished \/ st = WRedirect ->
  exists a, srv u = Some a /\ exists v code r, a_bytes a = str "HTTP" ++ v ++ 32 :: code ++ r /\ ~ In 32 v /\ In code (str "200" :: redirect_codes).
Proof.
  intros unz srv u name st file u' n' H F. unfold download in H.
  destruct (parse_address u) as [p|]; [|exfalso; injection H as <- _ _ _; destruct F; discriminate].
  destruct (usable_port p); [|exfalso; injection H as <- _ _ _; destruct F; discriminate].
  destruct (srv u) as [a|]; [|exfalso; injection H as <- _ _ _; destruct F; discriminate].
  exists a. split; [reflexivity|].
  assert (X : exists g rest sth, download_headers (a_bytes a) u name = Some (sth, g, rest) /\ (sth = WRunning \/ sth = WRedirect \/ sth = WFinished)).
  { destruct (download_headers (a_bytes a) u name) as [[[sth g] rest]|]; [|discriminate]. exists g, rest, sth. split; [reflexivity|].
    destruct sth; auto; exfalso; injection H as <- _ _ _; destruct F as [F | F]; discriminate F. }
  clear H F st file. destruct X as (g & rest & sth & H & R). unfold download_headers in H. cbn [head_lines] in H.
  destruct (take_line_front head_room (a_bytes a)) as (q & Q).
  remember (take_line head_room (a_bytes a)) as l eqn:El. clear El.
  destruct (check_response (c_string l)) as [st red] eqn:E.
  assert (St : st = WRunning).
  { destruct st; try reflexivity; exfalso; injection H as <- _ _; destruct R as [R | [R | R]]; try discriminate R.
    all: unfold check_response in E; destruct (index 32 (c_string l)); [|discriminate E];
      destruct (negb (prefixb (str "HTTP") (c_string l))); [discriminate E|]; cbv zeta in E;
      repeat match type of E with (if ?b then _ else _) = _ => destruct b; try discriminate E end. }
  subst st. clear H R. unfold check_response in E.
  destruct (index 32 (c_string l)) as [i|] eqn:Ix; [|discriminate].
  destruct (prefixb (str "HTTP") (c_string l)) eqn:Pf; [|discriminate]. cbn [negb] in E. cbv zeta in E.
  assert (C : exists code r, In code (str "200" :: redirect_codes) /\ skipn (S i) (c_string l) = code ++ r).
  { destruct (prefixb (str "400") (skipn (S i) (c_string l)) || prefixb (str "499") (skipn (S i) (c_string l)))%bool; [discriminate E|].
    destruct (prefixb (str "404") (skipn (S i) (c_string l))); [discriminate E|].
    destruct (prefixb (str "301") (skipn (S i) (c_string l)) || prefixb (str "302") (skipn (S i) (c_string l)) ||
              prefixb (str "303") (skipn (S i) (c_string l)) || prefixb (str "307") (skipn (S i) (c_string l)) || prefixb (str "308") (skipn (S i) (c_string l)))%bool eqn:Rd.
    - rewrite !orb_true_iff in Rd. destruct Rd as [[[[Rd | Rd] | Rd] | Rd] | Rd]; apply prefixb_iff in Rd as (r & Rd); eexists _, r; (split; [|exact Rd]); cbn; auto 10.
    - destruct (prefixb (str "200") (skipn (S i) (c_string l))) eqn:Ok; [|discriminate E]. apply prefixb_iff in Ok as (r & Ok).
      eexists _, r. split; [|exact Ok]. left. reflexivity. }
  clear E. destruct C as (code & r & Hc & Er).
  apply index_some in Ix. destruct Ix as (Ia & Ib).
  destruct (prefix_of_c (c_string l) l (a_bytes a)) as (zz & Z0); [apply prefixb_iff; exists []; rewrite app_nil_r; reflexivity|exists q; exact Q|].
  apply prefixb_iff in Pf as (t & Pf).
  rewrite Er in Ia. remember (firstn i (c_string l)) as w eqn:Ew. clear Ew.
  assert (V : exists v, w = str "HTTP" ++ v).
  { rewrite Ia in Pf. cbn [str app] in Pf.
    repeat (destruct w as [|? w]; cbn [app] in Pf; [exfalso; injection Pf; intros; congruence|]; injection Pf as ? Pf; subst).
    exists w. reflexivity. }
  destruct V as (v & V). exists v, code, (r ++ zz). split; [|split; [|exact Hc]].
  - rewrite Z0, Ia, V, <- !app_assoc. cbn [app]. rewrite <- !app_assoc. reflexivity.
  - intros X. apply Ib. rewrite V. apply in_or_app. right. exact X.
Qed.

(** ** Blanks in front of names *)

Lemma drop_blanks_repeat k s : match s with c :: _ => c <> 32 | [] => True end -> drop_blanks (repeat 32 k ++ s) = s.
Proof.
  intros H. induction k as [|k IH]; [|exact IH]. destruct s as [|c s]; [reflexivity|]. cbn [repeat app drop_blanks]. replace (c =? 32) with false by lia. reflexivity.
Qed.
Lemma blanks_gone k s : match s with c :: _ => c <> 32 | [] => True end ->
  parse_filename (str "Content-Disposition: attachment; filename=" ++ repeat 32 k ++ s) = parse_filename (str "Content-Disposition: attachment; filename=" ++ s).
Proof.
  intros H. unfold parse_filename.
  assert (E : forall t, strstr (str "Content-Disposition: attachment; filename=" ++ t) (str "filename") = Some (str "filename=" ++ t)) by reflexivity.
  rewrite !E. clear E. assert (E : forall t, index 61 (str "filename=" ++ t) = Some 8%nat) by reflexivity. rewrite !E. clear E.
  assert (E : forall t, skipn 9 (str "filename=" ++ t) = t) by reflexivity. rewrite !E. clear E.
  rewrite drop_blanks_repeat by exact H. assert (D := drop_blanks_repeat 0 s H). cbn [repeat app] in D. rewrite D. reflexivity.
Qed.
Theorem quoted_ok : forall k n, Forall text_char n -> free_of [34; 92; 47] n -> Z.of_nat (length n) <= 1000 ->
  parse_filename (str "Content-Disposition: attachment; filename=" ++ repeat 32 k ++ 34 :: n ++ [34]) = Some (Some n).
Proof. intros k n T F L. rewrite blanks_gone by discriminate. apply parse_filename_ok; assumption. Qed.
Theorem bare_ok : forall k n, free_of [32; 34; 59; 92; 47; 10; 13] n -> n <> [] -> Z.of_nat (length n) <= 1000 ->
  parse_filename (str "Content-Disposition: attachment; filename=" ++ repeat 32 k ++ n) = Some (Some n) /\
  parse_filename (str "Content-Disposition: attachment; filename=" ++ repeat 32 k ++ n ++ [59]) = Some (Some n).
Proof.
  intros k n F N L.
  assert (H : forall t, match n ++ t with c :: _ => c <> 32 | [] => True end).
  { intros t. destruct n as [|c n]; [congruence|]. cbn [app]. inversion F as [|? ? X _]; subst. intros ->. apply X. cbn. auto. }
  split; [rewrite blanks_gone; [|specialize (H []); rewrite app_nil_r in H; exact H]|rewrite blanks_gone by apply H]; apply name_bare; assumption.
Qed.

(** ** Addresses that cannot be used *)

Theorem unusable_ok : forall retry retries unz srv u,
  (forall p, parse_address (set_url u) = Some p -> map lc (u_prot p) <> str "http" /\ map lc (u_prot p) <> str "https") ->
  run_download retry retries unz srv u = Some (WFailed, [], None, [[set_url u]]).
Proof.
  intros retry retries unz srv u H.
  assert (D : download unz (srv O) (set_url u) None = Some (WFatalError, [], set_url u, None)).
  { unfold download. destruct (parse_address (set_url u)) as [p|]; [|reflexivity]. specialize (H p eq_refl).
    destruct (usable_port p) as [q|] eqn:E; [|reflexivity]. exfalso. apply ports_ok in E. destruct H as [H1 H2]. destruct E as [[E _] | [E _]]; congruence. }
  assert (G : forall fuel dl conn, 0 < dl -> 0 < conn -> run_loop (S fuel) unz srv 0 dl conn (set_url u) None WFailed = Some (WFailed, [], None, [[set_url u]])).
  { intros fuel dl conn L1 L2. cbn [run_loop]. replace (0 <? dl) with true by lia. replace (0 <? conn) with true by lia. cbn [andb with_redirects]. rewrite D. reflexivity. }
  assert (F : forall dl conn, 0 < dl -> 0 < conn -> run_loop (Z.to_nat (dl + conn)) unz srv 0 dl conn (set_url u) None WFailed = Some (WFailed, [], None, [[set_url u]])).
  { intros dl conn L1 L2. replace (Z.to_nat (dl + conn)) with (S (Z.to_nat (dl + conn - 1))) by lia. apply G; assumption. }
  unfold run_download. cbv zeta. destruct retry; apply F; try lia; destruct (0 <? retries) eqn:E; try lia; destruct (10 <? retries) eqn:X; cbn; lia.
Qed.
