(** Proofs about downloads from web servers: contents, redirections and repetitions. *)
From Coq Require Import String.
From Verif Require Import Base NumFmt WildModel WildSpec CodecModel CodecProofs2 NameModel NameSpec NameProofs WebModel WebSpec WebProofs WebProofs2 WebProofs3 WebGetModel WebGetSpec WebGetProofs.
Open Scope list_scope. Open Scope Z_scope.

(** ** Contents *)

Lemma small_app_l a b : small (a ++ b) -> small a.
Proof. unfold small. rewrite app_length. lia. Qed.

Lemma body_fin unz closed ps : forall g inp file st f,
  small (inp ++ concat ps) -> Forall (fun p => p <> []) ps -> (g_len g = -1 -> g_conf g = false) ->
  (inp = [] /\ file = [] \/ inp <> [] /\ made_of unz (g_gzip g) inp file) ->
  body_loop unz g ps closed inp file = Some (st, f) ->
  (st = WFinished \/ f = []) /\
  (st = WFinished -> exists b, (exists rest, inp ++ concat ps = b ++ rest) /\ b <> [] /\ made_of unz (g_gzip g) b f /\
    (g_len g <> -1 -> Z.of_nat (length b) = g_len g) /\
    (g_len g = -1 -> (b = inp ++ concat ps /\ closed = true) \/ (g_gzip g = true /\ unz b = GEnd f))).
Proof.
  induction ps as [|p ps IH]; intros g inp file st f Sm NE C M H.
  - cbn [body_loop] in H. destruct inp as [|c r].
    { rewrite andb_false_r in H. injection H as <- <-. split; [auto|discriminate]. }
    destruct closed; [|injection H as <- <-; split; [auto|discriminate]]. cbn [andb] in H.
    destruct (g_len g =? -1) eqn:E; [|injection H as <- <-; split; [auto|discriminate]]. injection H as <- <-.
    split; [left; reflexivity|]. intros _. exists (c :: r). cbn [concat] in *. rewrite app_nil_r. split; [exists []; rewrite app_nil_r; reflexivity|].
    split; [discriminate|]. split; [destruct M as [[X _] | [_ M]]; [discriminate|exact M]|]. split; [lia|]. intros _. left. auto.
  - inversion NE as [|? ? N1 N2]; subst. cbn [concat] in Sm.
    assert (Sm' : small ((inp ++ p) ++ concat ps)) by (rewrite <- app_assoc; exact Sm).
    assert (S1 := small_app_l _ _ Sm'). unfold small in S1.
    assert (NI : inp ++ p <> []) by (destruct inp; [exact N1|discriminate]).
    assert (Next : forall conf file', made_of unz (g_gzip g) (inp ++ p) file' ->
      (g_len g = -1 -> conf = true -> g_gzip g = true -> unz (inp ++ p) = GEnd file') -> (g_len g = -1 -> g_gzip g = false -> conf = false) ->
      (if 2 ^ 31 <=? Z.of_nat (length (inp ++ p)) then None
       else if ((Z.of_nat (length (inp ++ p)) =? g_len g) || ((g_len g =? -1) && g_gzip g && conf))%bool then Some (WFinished, file')
       else body_loop unz (WGet (g_len g) conf (g_gzip g) (g_redirecting g) (g_redirected g) (g_url g) (g_name g)) ps closed (inp ++ p) file') = Some (st, f) ->
      (st = WFinished \/ f = []) /\
      (st = WFinished -> exists b, (exists rest, inp ++ concat (p :: ps) = b ++ rest) /\ b <> [] /\ made_of unz (g_gzip g) b f /\
        (g_len g <> -1 -> Z.of_nat (length b) = g_len g) /\
        (g_len g = -1 -> (b = inp ++ concat (p :: ps) /\ closed = true) \/ (g_gzip g = true /\ unz b = GEnd f)))).
    { clear H. intros conf file' MF G CF H. replace (2 ^ 31 <=? Z.of_nat (length (inp ++ p))) with false in H by lia.
      destruct ((Z.of_nat (length (inp ++ p)) =? g_len g) || ((g_len g =? -1) && g_gzip g && conf))%bool eqn:E.
      - injection H as <- <-. split; [left; reflexivity|]. intros _. exists (inp ++ p). cbn [concat].
        split; [exists (concat ps); rewrite app_assoc; reflexivity|]. split; [exact NI|]. split; [exact MF|].
        apply orb_true_iff in E as [E | E]; [split; [lia|]; intros L; exfalso; lia|]. rewrite !andb_true_iff in E. destruct E as [[E X1] X2].
        split; [lia|]. intros L. right. auto.
      - apply IH in H; cbn [g_len g_conf g_gzip] in *; [|exact Sm'|exact N2| |right; auto].
        + destruct H as [H1 H2]. split; [exact H1|]. intros F. destruct (H2 F) as (b & (rest & P) & B & Mb & L1 & L2). exists b. cbn [concat].
          rewrite app_assoc. split; [exists rest; exact P|]. auto.
        + intros L. destruct (g_gzip g) eqn:GZ; [|apply CF; auto]. destruct conf; [|reflexivity]. rewrite L in E. cbn in E. rewrite orb_true_r in E. discriminate. }
    cbn [body_loop] in H. destruct (g_gzip g) eqn:Z0.
    + destruct (unz (inp ++ p)) as [out|out|] eqn:U.
      * apply Next in H; [exact H|left; exact U| |discriminate]. intros L X _. rewrite (C L) in X. discriminate.
      * apply Next in H; [exact H|right; exact U|auto|discriminate].
      * injection H as <- <-. split; [auto|discriminate].
    + apply Next in H; [exact H| |discriminate|intros L _; exact (C L)].
      unfold made_of in *. destruct M as [[-> ->] | [_ ->]]; reflexivity.
Qed.

Lemma body_defined unz closed ps : forall g inp file, small (inp ++ concat ps) -> body_loop unz g ps closed inp file <> None.
Proof.
  induction ps as [|p ps IH]; intros g inp file Sm; cbn [body_loop].
  - destruct (_ : bool); discriminate.
  - cbn [concat] in Sm. rewrite app_assoc in Sm. assert (S1 := small_app_l _ _ Sm). unfold small in S1.
    replace (2 ^ 31 <=? Z.of_nat (length (inp ++ p))) with false by lia. cbv zeta.
    destruct (g_gzip g); [destruct (unz (inp ++ p)); [| |discriminate]|]; (destruct (_ || _)%bool; [discriminate|apply IH; exact Sm]).
Qed.

(** All of the declared length arrives: the download finishes. *)
Lemma body_all unz closed ps : forall g inp file,
  small (inp ++ concat ps) -> Forall (fun p => p <> []) ps -> g_gzip g = false ->
  Z.of_nat (length inp) < g_len g -> Z.of_nat (length (inp ++ concat ps)) = g_len g ->
  body_loop unz g ps closed inp file = Some (WFinished, file ++ concat ps).
Proof.
  induction ps as [|p ps IH]; intros g inp file Sm NE G L1 L2.
  - cbn [concat] in L2. rewrite app_nil_r in L2. lia.
  - inversion NE as [|? ? N1 N2]; subst. cbn [concat] in *. rewrite app_assoc in Sm, L2. assert (S1 := small_app_l _ _ Sm). unfold small in S1.
    cbn [body_loop]. rewrite G. cbv zeta. replace (2 ^ 31 <=? Z.of_nat (length (inp ++ p))) with false by lia. cbn [g_gzip]. rewrite andb_false_r. cbn [andb]. rewrite orb_false_r.
    destruct (Z.of_nat (length (inp ++ p)) =? g_len g) eqn:E.
    + assert (X : concat ps = []).
      { rewrite app_length in L2. destruct (concat ps); [reflexivity|cbn [length] in L2; lia]. }
      rewrite X, app_nil_r. reflexivity.
    + rewrite IH; cbn [g_len g_gzip]; [rewrite app_assoc; reflexivity|exact Sm|exact N2|reflexivity| |exact L2].
      rewrite app_length in L2. lia.
Qed.

(** Without a declared length: everything up to the end. *)
Lemma body_open unz closed ps : forall g inp file,
  small (inp ++ concat ps) -> Forall (fun p => p <> []) ps -> g_gzip g = false -> g_len g = -1 ->
  body_loop unz g ps closed inp file =
  (if closed && (match inp ++ concat ps with [] => false | _ => true end) then Some (WFinished, file ++ concat ps) else Some (WFailed, [])).
Proof.
  induction ps as [|p ps IH]; intros g inp file Sm NE G L.
  - cbn [concat body_loop]. rewrite !app_nil_r, L. change (-1 =? -1) with true. rewrite andb_true_r. reflexivity.
  - inversion NE as [|? ? N1 N2]; subst. cbn [concat] in *. rewrite app_assoc in Sm. assert (S1 := small_app_l _ _ Sm). unfold small in S1.
    cbn [body_loop]. rewrite G. cbv zeta. replace (2 ^ 31 <=? Z.of_nat (length (inp ++ p))) with false by lia. cbn [g_gzip]. rewrite andb_false_r. cbn [andb]. rewrite orb_false_r.
    replace (Z.of_nat (length (inp ++ p)) =? g_len g) with false by lia.
    rewrite IH; cbn [g_len g_gzip]; [|exact Sm|exact N2|reflexivity|exact L]. rewrite <- !app_assoc. reflexivity.
Qed.

Lemma pieces_ok fuel : forall sizes s, (length s <= fuel)%nat ->
  concat (pieces fuel sizes s) = s /\ Forall (fun p => p <> []) (pieces fuel sizes s).
Proof.
  induction fuel as [|f IH]; intros sizes s L.
  - destruct s; [split; [reflexivity|constructor]|cbn [length] in L; lia].
  - cbn [pieces]. destruct s as [|c r]; [split; [reflexivity|constructor]|].
    set (n := match sizes with [] => length (c :: r) | k :: _ => Nat.max 1 k end).
    assert (N : (1 <= n)%nat) by (subst n; destruct sizes; cbn [length]; lia).
    destruct (IH (tl sizes) (skipn n (c :: r))) as [A B]; [rewrite skipn_length; cbn [length] in *; lia|].
    split; [cbn [concat]; rewrite A; apply firstn_skipn|]. constructor; [|exact B]. destruct n; [lia|discriminate].
Qed.

Lemma answer_head version reason hs body u name : version_ok version reason -> Forall hline_ok hs ->
  download_headers (answer_text version (str "200") reason hs body) u name =
  Some (WRunning, fold_left (fun g h => heard h g) hs (WGet (-1) false false false false u name), body).
Proof.
  intros V F. unfold download_headers.
  assert (LH : (length hs <= length (answer_text version (str "200") reason hs body))%nat).
  { unfold answer_text. rewrite !app_length. assert (X : (length hs <= length (render (map hline_text hs)))%nat); [|lia].
    unfold render. rewrite app_length. clear. induction hs as [|h hs IH]; [cbn; lia|]. cbn [map flat_map length]. rewrite !app_length. cbn [length] in *. lia. }
  remember (length (answer_text version (str "200") reason hs body)) as fuel. clear Heqfuel. unfold answer_text.
  rewrite (status_line version (str "200") reason (render (map hline_text hs) ++ body) u name WRunning false V (text_lit (str "200") eq_refl) eq_refl (response_code version (str "200") reason V eq_refl)).
  apply heads_ok; [exact F|lia|reflexivity|reflexivity].
Qed.

Theorem download_ok : forall unz srv u p port name version reason hs body sizes closed,
  parse_address u = Some p -> usable_port p = Some port ->
  srv u = Some (Answer (answer_text version (str "200") reason hs body) sizes closed) ->
  version_ok version reason -> Forall hline_ok hs -> small body ->
  exists st file, download unz srv u name = Some (st, file, u, said_name hs name) /\
    (st = WFinished \/ file = []) /\
    (st = WFinished -> exists b, whole_of unz (said_gzip hs) (said_length hs None) closed body b /\ made_of unz (said_gzip hs) b file) /\
    (said_gzip hs = false ->
      (said_length hs None = Some (Z.of_nat (length body)) \/ (said_length hs None = None /\ closed = true /\ body <> [])) ->
      st = WFinished /\ file = body).
Proof.
  intros unz srv u p port name version reason hs body sizes closed P U A V F Sm. unfold download. rewrite P, U, A. cbn [a_bytes a_sizes a_closed].
  rewrite answer_head by assumption.
  destruct (fold_said hs (WGet (-1) false false false false u name) F) as (L & C & G & N & E). cbv zeta in *.
  set (g := fold_left _ hs _) in *. cbn [g_len g_conf g_gzip g_name g_url orb] in *. specialize (L None eq_refl).
  destruct (pieces_ok (length body) sizes body (le_n _)) as [P1 P2].
  destruct (body_loop unz g (pieces (length body) sizes body) closed [] []) as [[st file]|] eqn:B.
  2: { exfalso. apply body_defined in B; [exact B|]. cbn [app]. rewrite P1. exact Sm. }
  assert (SL : forall n d, said_length hs d = Some n -> (match d with Some x => 0 < x | None => True end) -> 0 < n).
  { clear -F. induction hs as [|h hs IH]; intros n d H D; [cbn in H; subst; exact D|]. inversion F as [|? ? F1 F2]; subst.
    destruct h; cbn [said_length hline_ok] in *; apply (IH F2 n _ H); try exact D; lia. }
  exists st, file. rewrite E, N. split; [reflexivity|].
  assert (C' : g_len g = -1 -> g_conf g = false).
  { intros X. apply C. rewrite L in X. destruct (said_length hs None) as [n|] eqn:Y; [specialize (SL n None Y Logic.I); lia|reflexivity]. }
  assert (Fin := body_fin unz closed (pieces (length body) sizes body) g [] [] st file). cbn [app] in Fin. rewrite P1 in Fin.
  destruct (Fin Sm P2 C' (or_introl (conj eq_refl eq_refl)) B) as [F1 F2]. split; [exact F1|]. split.
  - intros X. destruct (F2 X) as (b & R & Nb & M & L1 & L2). exists b. rewrite G in *. split; [|exact M]. split; [exact R|]. split; [exact Nb|].
    rewrite L in *. destruct (said_length hs None) as [n|] eqn:Y.
    + apply L1. specialize (SL n None Y Logic.I). lia.
    + destruct (L2 eq_refl) as [X1 | [X1 X2]]; [left; exact X1|right; split; [exact X1|exists file; exact X2]].
  - intros Gz H. rewrite Gz in G. destruct H as [H | (H1 & H2 & H3)].
    + specialize (SL _ None H Logic.I). rewrite H in L. rewrite (body_all unz closed _ g [] []) in B; cbn [app]; rewrite ?P1; try assumption; [|cbn [length]; lia|lia].
      rewrite P1 in B. cbn [app] in B. injection B as <- <-. auto.
    + rewrite H1 in L. rewrite (body_open unz closed _ g [] []) in B; cbn [app]; rewrite ?P1; try assumption. cbn [app] in B. rewrite P1, H2 in B.
      destruct body; [congruence|]. cbn [andb] in B. injection B as <- <-. auto.
Qed.

(** ** Redirections *)

Lemma scheme_within s a b : scheme s = Some (a, b) -> within s (str "://").
Proof.
  revert a b. induction s as [|c r IH]; intros a b; [discriminate|]. cbn [scheme]. destruct (prefixb (str "://") (c :: r)) eqn:E.
  - intros _. apply prefixb_iff in E as [t E]. exists [], t. exact E.
  - destruct (scheme r) as [[a' b']|]; [|discriminate]. intros _. destruct (IH _ _ eq_refl) as (x & y & ->). exists (c :: x), y. reflexivity.
Qed.

Lemma cut_query_ok r : exists a q, r = a ++ q /\ ~ In 63 a /\ (q = [] \/ exists t, q = 63 :: t) /\
  match index 63 r with Some i => firstn i r | None => r end = a.
Proof.
  destruct (index 63 r) as [i|] eqn:E.
  - destruct (index_some _ _ _ E) as [A B]. exists (firstn i r), (63 :: skipn (S i) r). repeat split; [exact A|exact B|right; eexists; reflexivity].
  - exists r, []. rewrite app_nil_r. repeat split; [apply index_none; exact E|left; reflexivity].
Qed.

Lemma url_encode_id s : ~ In 32 s -> url_encode s = s.
Proof.
  induction s as [|c s IH]; [reflexivity|]. intros N. cbn [url_encode]. destruct (c =? 32) eqn:E; [exfalso; apply N; left; lia|].
  f_equal. apply IH. intros X. apply N. right. exact X.
Qed.

Theorem redirect_ok : forall p location res, parts_ok p -> ~ within location (str "://") -> resolves (meaning p) location res ->
  ~ In 32 (address p ++ location) -> Z.of_nat (length (address p) + length location) <= 1000 ->
  parse_address (set_url (redirect_to (address p) location)) = Some (same_host (meaning p) res).
Proof.
  intros p location res P W R NB L.
  assert (SC : parse_address location = None).
  { unfold parse_address. destruct (scheme location) as [[a b]|] eqn:E; [exfalso; exact (W (scheme_within _ _ _ E))|reflexivity]. }
  unfold redirect_to. rewrite SC, (address_ok p P).
  assert (LR : (length (u_res (meaning p)) <= S (length (address p)))%nat).
  { unfold meaning, address. cbn [u_res]. rewrite !app_length. destruct (p_res p); cbn [length]; lia. }
  assert (SR : exists r, u_res (meaning p) = 47 :: r).
  { destruct P as (_ & _ & _ & _ & _ & _ & [Q | [r Q]]); unfold meaning; cbn [u_res]; rewrite Q; eexists; reflexivity. }
  assert (RL : line1k (u_res (meaning p)) = u_res (meaning p)) by (apply line1k_short; lia).
  assert (RES : (match location with
     | c :: _ => if c =? 47 then line1k location
                 else
                   let r := line1k (u_res (meaning p)) in
                   let r := match index 63 r with Some i => firstn i r | None => r end in
                   let r := match strrchr 47 r with Some (a, _) => a ++ [47] | None => r end in
                   line1k (r ++ location)
     | [] => let r := line1k (u_res (meaning p)) in
             let r := match index 63 r with Some i => firstn i r | None => r end in
             match strrchr 47 r with Some (a, _) => a ++ [47] | None => r end
     end) = res /\ (exists r, res = 47 :: r) /\ (length res <= length (u_res (meaning p)) + length location)%nat /\ ~ In 32 res).
  { assert (U32 : ~ In 32 (u_res (meaning p))).
    { intros X. unfold meaning in X. cbn [u_res] in X. apply NB. apply in_or_app. left. unfold address. rewrite !in_app_iff.
      destruct (p_res p) as [|c r]; [destruct X as [X | []]; discriminate|]. auto 10. }
    assert (DIR : forall dir, dir_of (u_res (meaning p)) dir ->
       (match strrchr 47 (match index 63 (u_res (meaning p)) with Some i => firstn i (u_res (meaning p)) | None => u_res (meaning p) end) with
        | Some (a, _) => a ++ [47] | None => match index 63 (u_res (meaning p)) with Some i => firstn i (u_res (meaning p)) | None => u_res (meaning p) end end) = dir /\
       (exists r, dir = 47 :: r) /\ (length dir <= length (u_res (meaning p)))%nat /\ ~ In 32 dir).
    { intros dir (nm & q & E & N47 & (d & D) & N63 & Q). split.
      - assert (CUT : match index 63 (u_res (meaning p)) with Some i => firstn i (u_res (meaning p)) | None => u_res (meaning p) end = dir ++ nm).
        { rewrite E. destruct Q as [-> | [t ->]].
          - rewrite app_nil_r, index_not by exact N63. reflexivity.
          - rewrite app_assoc, index_app by exact N63. apply firstn_exact. }
        rewrite CUT, D. rewrite <- app_assoc. cbn [app]. rewrite strrchr_app by exact N47. reflexivity.
      - destruct SR as [r SR]. split; [|split].
        + rewrite SR in E. subst dir. destruct d as [|c d]; [exists []; reflexivity|]. cbn [app] in E. injection E as <- E. eexists. reflexivity.
        + rewrite E. rewrite app_length. lia.
        + intros X. apply U32. rewrite E. apply in_or_app. left. exact X. }
    rewrite RL. destruct R as [[[r ->] ->] | [N47 (dir & D & ->)]].
    - change (47 =? 47) with true. cbv iota. rewrite line1k_short by lia. split; [reflexivity|]. split; [eexists; reflexivity|]. split; [lia|].
      intros X. apply NB. apply in_or_app. right. exact X.
    - destruct (DIR dir D) as (D1 & (r & D2) & D3 & D4). cbv zeta.
      assert (B : ~ In 32 (dir ++ location)).
      { intros X. apply in_app_or in X as [X | X]; [exact (D4 X)|]. apply NB. apply in_or_app. right. exact X. }
      destruct location as [|c l].
      + rewrite D1, app_nil_r in *. split; [reflexivity|]. split; [exists r; exact D2|]. split; [cbn [length]; lia|exact B].
      + assert (C : c =? 47 = false). { destruct (c =? 47) eqn:C; [|reflexivity]. exfalso. apply (N47 l). f_equal. lia. }
        rewrite C, D1. rewrite line1k_short by (rewrite app_length; lia). split; [reflexivity|]. split; [exists (r ++ c :: l); rewrite D2; reflexivity|].
        split; [rewrite app_length; lia|exact B]. }
  cbv zeta in RES. destruct RES as (E & (r & R1) & R2 & R3). cbv zeta. rewrite E. clear E R.
  assert (NEW : u_prot (meaning p) ++ str "://" ++ u_host (meaning p) ++ (if 0 <? u_port (meaning p) then 58 :: zdec (u_port (meaning p)) else []) ++ res =
     address (Parts (p_prot p) None (p_host p) (p_port p) res)).
  { unfold address, meaning. cbn [u_prot u_host u_port p_prot p_login p_host p_port p_res login_text app].
    destruct P as (_ & _ & _ & _ & _ & PP & _). destruct (p_port p) as [n|]; [replace (0 <? n) with true by lia|]; reflexivity. }
  rewrite NEW.
  assert (N32 : ~ In 32 (address (Parts (p_prot p) None (p_host p) (p_port p) res))).
  { intros X. unfold address in X. cbn [p_prot p_login p_host p_port p_res login_text app] in X.
    assert (Y : ~ In 32 (address p)) by (intros Y; apply NB; apply in_or_app; left; exact Y). unfold address in Y. rewrite !in_app_iff in Y.
    apply in_app_or in X as [X | [X | [X | [X | X]]]]; [tauto|discriminate|discriminate|discriminate|]. rewrite !in_app_iff in X. tauto. }
  rewrite line1k_short.
  - unfold set_url. rewrite url_encode_id by exact N32. rewrite address_ok.
    + unfold same_host, meaning. cbn [u_prot u_host u_port p_prot p_login p_host p_port p_res]. rewrite R1. reflexivity.
    + destruct P as (P1 & P2 & P3 & P4 & P5 & P6 & P7). unfold parts_ok. cbn [p_prot p_login p_host p_port p_res].
      repeat (split; [assumption || exact Logic.I|]). right. exists r. exact R1.
  - unfold address. cbn [p_prot p_login p_host p_port p_res login_text app]. rewrite app_length. cbn [length]. rewrite !app_length.
    assert (LU : (length (u_res (meaning p)) <= S (length (p_res p)))%nat) by (unfold meaning; cbn [u_res]; destruct (p_res p); cbn [length]; lia).
    unfold address in L. rewrite !app_length in L. lia.
Qed.

Lemma redirected_heads hs location rest : Forall hline_ok hs -> Forall not_location hs -> location_ok location -> forall f g,
  (length hs < f)%nat -> g_redirecting g = true -> g_redirected g = false ->
  exists g', head_lines f false (flat_map (fun h => hline_text h ++ crlf) hs ++ str "Location: " ++ location ++ crlf ++ rest) g = Some (WRedirect, g', rest) /\
    g_url g' = set_url (redirect_to (g_url g) location) /\ g_name g' = said_name hs (g_name g).
Proof.
  intros F NL (T & B & NE & L). induction hs as [|h hs IH]; intros f g Lf R1 R2; (destruct f as [|f]; [lia|]).
  - cbn [flat_map app]. unfold crlf. cbn [head_lines]. 
    assert (T' : Forall text_char (str "Location: " ++ location)) by (apply Forall_app; split; [apply text_lit; reflexivity|exact T]).
    destruct (read_line (str "Location: " ++ location) rest T') as [Q1 Q2].
    { rewrite app_length. change (length (str "Location: ")) with 10%nat. lia. }
    rewrite <- !app_assoc in Q1. rewrite <- !app_assoc in Q2. rewrite Q1, Q2.
    assert (G : WGet (g_len g) (g_conf g) (g_gzip g) (g_redirecting g) (g_redirected g) (g_url g) (g_name g) = g) by (destruct g; reflexivity).
    rewrite G. destruct (str "Location: " ++ location ++ [13; 10]) as [|c0 q] eqn:X0; [discriminate|].
    assert (C0 : (c0 =? 13) || (c0 =? 10) = false) by (change (str "Location: ") with (76 :: str "ocation: ") in X0; cbn [app] in X0; injection X0 as <- _; reflexivity).
    rewrite C0. rewrite <- X0.
    destruct (exists_last NE) as (s & c & E).
    assert (NB : is_blank c = false).
    { assert (I : In c location) by (rewrite E; apply in_or_app; right; left; reflexivity). rewrite Forall_forall in T. unfold free_of in B. rewrite Forall_forall in B.
      destruct (T c I) as (_ & A1 & A2). specialize (B c I). unfold is_blank. destruct ((c =? 10) || (c =? 13) || (c =? 32) || (c =? 9)) eqn:X; [|reflexivity].
      exfalso. apply B. cbn. lia. }
    assert (TR : trim_right (str "Location: " ++ location ++ [13; 10]) = str "Location: " ++ location).
    { rewrite E. replace (str "Location: " ++ (s ++ [c]) ++ [13; 10]) with (((str "Location: " ++ s) ++ [c]) ++ [13; 10]) by (rewrite <- !app_assoc; reflexivity).
      rewrite trim_right_end by exact NB. rewrite <- app_assoc. reflexivity. }
    rewrite TR. unfold process_header. set (l := str "Location: " ++ location).
    assert (P1 : nocase_prefix (str "Content-Length: ") l = false) by reflexivity.
    assert (P2 : nocase_prefix (str "Content-Encoding: gzip") l = false) by reflexivity.
    assert (P3 : nocase_prefix (str "Content-Disposition: ") l = false) by reflexivity.
    assert (P4 : nocase_prefix (str "Location: ") l = true) by reflexivity.
    rewrite P1, P2, P3, P4, R1. cbn [andb g_redirected]. eexists. split; [|split].
    + match goal with |- Some (?a, ?b, ?c) = Some (_, _, ?d) => assert (SK : c = d); [|rewrite SK; reflexivity] end. replace (str "Location: " ++ location ++ [13; 10] ++ rest) with ((str "Location: " ++ location ++ [13; 10]) ++ rest) by (rewrite <- !app_assoc; reflexivity).
      apply skipn_exact.
    + reflexivity.
    + reflexivity.
  - inversion F as [|? ? F1 F2]; subst. inversion NL as [|? ? N1 N2]; subst.
    destruct (IH F2 N2 f (heard h g)) as (g' & E & U & N).
    { cbn [length] in Lf. lia. }
    { destruct (heard_red h g) as [X _]. congruence. }
    { destruct (heard_red h g) as [_ X]. congruence. }
    exists g'. cbn [flat_map]. unfold crlf in *. rewrite <- !app_assoc. rewrite head_step; [|exact F1|right; exact N1|exact R2].
    split; [exact E|]. destruct h; cbn [heard g_url g_name said_name] in *; auto.
Qed.

Theorem redirect_followed : forall unz srv u p port name version code reason hs location rest sizes closed,
  parse_address u = Some p -> usable_port p = Some port -> In code redirect_codes ->
  srv u = Some (Answer (redirect_text version code reason hs location rest) sizes closed) ->
  version_ok version reason -> Forall hline_ok hs -> Forall not_location hs -> location_ok location ->
  download unz srv u name = Some (WRedirect, [], set_url (redirect_to u location), said_name hs name).
Proof.
  intros unz srv u p port name version code reason hs location rest sizes closed P U IC A V F NL LO.
  unfold download. rewrite P, U, A. cbn [a_bytes]. unfold download_headers.
  assert (LH : (length hs <= length (redirect_text version code reason hs location rest))%nat).
  { unfold redirect_text. rewrite !app_length. assert (X : (length hs <= length (flat_map (fun h => hline_text h ++ crlf) hs))%nat); [|lia].
    clear. induction hs as [|h hs IH]; [cbn; lia|]. cbn [flat_map length]. rewrite !app_length. unfold crlf at 1. cbn [length] in *. lia. }
  remember (length (redirect_text version code reason hs location rest)) as fuel. clear Heqfuel. unfold redirect_text.
  set (r := flat_map (fun h => hline_text h ++ crlf) hs ++ str "Location: " ++ location ++ crlf ++ rest).
  assert (LC : length code = 3%nat /\ Forall text_char code /\
    check_response (str "HTTP/" ++ version ++ 32 :: code ++ reason ++ [13; 10]) = (WRunning, true)).
  { unfold redirect_codes in IC. cbn [map In] in IC.
    assert (X : length code = 3%nat) by (destruct IC as [<- | [<- | [<- | [<- | [<- | []]]]]]; reflexivity).
    split; [exact X|]. rewrite response_code by assumption.
    destruct IC as [<- | [<- | [<- | [<- | [<- | []]]]]]; (split; [apply text_lit; reflexivity|reflexivity]). }
  destruct LC as (LC & TC & CR).
  assert (E := status_line version code reason r u name WRunning true V TC LC CR (S fuel)). unfold crlf at 1. rewrite E. clear E.
  destruct (redirected_heads hs location rest F NL LO (S fuel) (WGet (-1) false false true false u name)) as (g' & E & G1 & G2); [lia|reflexivity|reflexivity|].
  unfold r. rewrite E. rewrite G1, G2. reflexivity.
Qed.

(** ** Repetitions *)

Lemma asked_bound n : forall unz srv t u name st f u' nm asked,
  with_redirects n unz srv t u name = Some (st, f, u', nm, asked) -> (1 <= length asked <= S n)%nat /\ st <> WRedirect.
Proof.
  induction n as [|n IH]; intros unz srv t u name st f u' nm asked; cbn [with_redirects];
    destruct (download unz (srv t) u name) as [[[[s0 f0] u0] n0]|]; try discriminate.
  - destruct s0; intros H; injection H as <- <- <- <- <-; (split; [cbn; lia|discriminate]).
  - destruct s0; try (intros H; injection H as <- <- <- <- <-; (split; [cbn; lia|discriminate])).
    destruct (with_redirects n unz srv (S t) u0 n0) as [[[[[s1 f1] u1] n1] a1]|] eqn:E; [|discriminate].
    intros H. injection H as <- <- <- <- <-. apply IH in E as [E1 E2]. split; [cbn [length]; lia|exact E2].
Qed.

Lemma with_defined n : forall unz srv t u name, (forall t u name, download unz (srv t) u name <> None) -> with_redirects n unz srv t u name <> None.
Proof.
  induction n as [|n IH]; intros unz srv t u name D; cbn [with_redirects]; specialize (D t u name) as D';
    destruct (download unz (srv t) u name) as [[[[s0 f0] u0] n0]|]; try congruence.
  - destruct s0; discriminate.
  - destruct s0; try discriminate. specialize (IH unz srv (S t) u0 n0 D).
    destruct (with_redirects n unz srv (S t) u0 n0) as [[[[[s1 f1] u1] n1] a1]|]; [discriminate|congruence].
Qed.

Lemma with_from n : forall unz srv t u name f u' nm asked, with_redirects n unz srv t u name = Some (WFinished, f, u', nm, asked) ->
  exists t0 u0 n0, In u0 asked /\ download unz (srv t0) u0 n0 = Some (WFinished, f, u', nm).
Proof.
  induction n as [|n IH]; intros unz srv t u name f u' nm asked; cbn [with_redirects];
    destruct (download unz (srv t) u name) as [[[[s0 f0] u0] n0]|] eqn:D; try discriminate.
  - destruct s0; intros H; try discriminate H; injection H as <- <- <- <-; exists t, u, name; (split; [left; reflexivity|exact D]).
  - destruct s0; try (intros H; try discriminate H; injection H as <- <- <- <-; exists t, u, name; (split; [left; reflexivity|exact D])).
    destruct (with_redirects n unz srv (S t) u0 n0) as [[[[[s1 f1] u1] n1] a1]|] eqn:E; [|discriminate].
    intros H. injection H as -> <- <- <- <-. apply IH in E as (t1 & u2 & n2 & I & E). exists t1, u2, n2. split; [right; exact I|exact E].
Qed.

Lemma run_bound fuel : forall unz srv t dl conn u name st0 st f nm l,
  run_loop fuel unz srv t dl conn u name st0 = Some (st, f, nm, l) ->
  (0 < dl -> 0 < conn -> Z.of_nat (length l) <= dl + conn - 1) /\ (dl <= 0 \/ conn <= 0 -> l = []) /\
  Forall (fun asked => (1 <= length asked <= 6)%nat) l /\ (st = WFinished \/ (st = WFailed /\ f = [])) /\
  (st = WFinished -> exists t0 u0 n0 u1 asked, In asked l /\ In u0 asked /\ download unz (srv t0) u0 n0 = Some (WFinished, f, u1, nm)).
Proof.
  induction fuel as [|fuel IH]; intros unz srv t dl conn u name st0 st f nm l; cbn [run_loop].
  - destruct ((0 <? dl) && (0 <? conn))%bool eqn:C; [discriminate|]. intros H. injection H as <- <- <- <-.
    repeat split; [lia|constructor|right; auto|discriminate].
  - destruct ((0 <? dl) && (0 <? conn))%bool eqn:C.
    2: { intros H. injection H as <- <- <- <-. repeat split; [lia|constructor|right; auto|discriminate]. }
    destruct (with_redirects 5 unz srv t u name) as [[[[[s1 f1] u1] n1] a1]|] eqn:W; [|discriminate].
    destruct (asked_bound _ _ _ _ _ _ _ _ _ _ _ W) as [B1 B2].
    assert (Go : forall dl' conn', dl' + conn' = dl + conn - 1 -> 0 <= dl' -> 0 <= conn' ->
      match run_loop fuel unz srv (t + length a1) dl' conn' u1 n1 s1 with
      | Some (s, file', nm0, l0) => Some (s, file', nm0, a1 :: l0) | None => None end = Some (st, f, nm, l) ->
      (0 < dl -> 0 < conn -> Z.of_nat (length l) <= dl + conn - 1) /\ (dl <= 0 \/ conn <= 0 -> l = []) /\
      Forall (fun asked => (1 <= length asked <= 6)%nat) l /\ (st = WFinished \/ (st = WFailed /\ f = [])) /\
      (st = WFinished -> exists t0 u0 n0 u2 asked, In asked l /\ In u0 asked /\ download unz (srv t0) u0 n0 = Some (WFinished, f, u2, nm))).
    { intros dl' conn' S1 S2 S3 H. destruct (run_loop fuel unz srv (t + length a1) dl' conn' u1 n1 s1) as [[[[s2 f2] n2] l2]|] eqn:R; [|discriminate].
      injection H as <- <- <- <-. destruct (IH _ _ _ _ _ _ _ _ _ _ _ _ R) as (I1 & I2 & I3 & I4 & I5). split; [|split; [|split; [|split]]].
      - intros _ _. cbn [length]. destruct (Z_lt_le_dec 0 dl') as [X | X]; [destruct (Z_lt_le_dec 0 conn') as [Y | Y]|].
        + specialize (I1 X Y). lia.
        + rewrite I2 by auto. cbn. lia.
        + rewrite I2 by auto. cbn. lia.
      - lia.
      - constructor; assumption.
      - exact I4.
      - intros X. destruct (I5 X) as (t0 & u0 & n0 & u2 & asked & J1 & J2 & J3). exists t0, u0, n0, u2, asked. split; [right; exact J1|auto]. }
    destruct s1; try (apply Go; lia).
    + intros H. injection H as <- <- <- <-. split; [intros; cbn; lia|]. split; [lia|]. split; [constructor; [lia|constructor]|]. split; [left; reflexivity|].
      intros _. destruct (with_from _ _ _ _ _ _ _ _ _ _ W) as (t0 & u0 & n0 & I & D). exists t0, u0, n0, u1, a1. repeat split; [left; reflexivity|exact I|exact D].
    + intros H. injection H as <- <- <- <-. split; [intros; cbn; lia|]. split; [lia|]. split; [constructor; [lia|constructor]|]. split; [right; auto|discriminate].
    + intros H. injection H as <- <- <- <-. split; [intros; cbn; lia|]. split; [lia|]. split; [constructor; [lia|constructor]|]. split; [right; auto|discriminate].
Qed.

Lemma run_defined unz srv : (forall t u name, download unz (srv t) u name <> None) ->
  forall fuel t dl conn u name st0, dl + conn <= Z.of_nat fuel -> run_loop fuel unz srv t dl conn u name st0 <> None.
Proof.
  intros D. induction fuel as [|fuel IH]; intros t dl conn u name st0 L; cbn [run_loop].
  - destruct ((0 <? dl) && (0 <? conn))%bool eqn:C; [lia|discriminate].
  - destruct ((0 <? dl) && (0 <? conn))%bool eqn:C; [|discriminate].
    assert (W := with_defined 5 unz srv t u name D). destruct (with_redirects 5 unz srv t u name) as [[[[[s1 f1] u1] n1] a1]|]; [|congruence].
    assert (Go : forall dl' conn', dl' + conn' = dl + conn - 1 ->
      match run_loop fuel unz srv (t + length a1) dl' conn' u1 n1 s1 with
      | Some (s, file', nm0, l0) => Some (s, file', nm0, a1 :: l0) | None => None end <> None).
    { intros dl' conn' S1. specialize (IH (t + length a1)%nat dl' conn' u1 n1 s1 ltac:(lia)).
      destruct (run_loop fuel unz srv (t + length a1) dl' conn' u1 n1 s1) as [[[[s2 f2] n2] l2]|]; [discriminate|congruence]. }
    destruct s1; try (apply Go; lia); discriminate.
Qed.

(** Attempts that all end the same way. *)
Lemma run_connect unz srv u name : (forall t, download unz (srv t) u name = Some (WConnectError, [], u, name)) ->
  forall fuel t dl conn st0, 0 < dl -> 0 <= conn -> dl + conn <= Z.of_nat fuel ->
  run_loop fuel unz srv t dl conn u name st0 = Some (WFailed, [], name, repeat [u] (Z.to_nat conn)).
Proof.
  intros D. induction fuel as [|fuel IH]; intros t dl conn st0 L1 L2 L3; [lia|]. cbn [run_loop].
  destruct (0 <? conn) eqn:C.
  - replace (0 <? dl) with true by lia. cbn [andb]. cbn [with_redirects]. rewrite D. cbn [length]. rewrite IH by lia.
    replace (Z.to_nat conn) with (S (Z.to_nat (conn - 1))) by lia. reflexivity.
  - rewrite andb_false_r. replace (Z.to_nat conn) with O by lia. reflexivity.
Qed.
Lemma run_failing unz srv u name : (forall t, download unz (srv t) u name = Some (WFailed, [], u, name)) ->
  forall fuel t dl conn st0, 0 <= dl -> 0 < conn -> dl + conn <= Z.of_nat fuel ->
  run_loop fuel unz srv t dl conn u name st0 = Some (WFailed, [], name, repeat [u] (Z.to_nat dl)).
Proof.
  intros D. induction fuel as [|fuel IH]; intros t dl conn st0 L1 L2 L3; [lia|]. cbn [run_loop].
  destruct (0 <? dl) eqn:C.
  - replace (0 <? conn) with true by lia. cbn [andb]. cbn [with_redirects]. rewrite D. cbn [length]. rewrite IH by lia.
    replace (Z.to_nat dl) with (S (Z.to_nat (dl - 1))) by lia. reflexivity.
  - replace (Z.to_nat dl) with O by lia. reflexivity.
Qed.

Lemma error_answer unz srv u p port name version code reason hs body sizes closed st :
  parse_address u = Some p -> usable_port p = Some port ->
  srv u = Some (Answer (answer_text version code reason hs body) sizes closed) -> version_ok version reason ->
  length code = 3%nat -> Forall text_char code ->
  check_response (str "HTTP/" ++ version ++ 32 :: code ++ reason ++ [13; 10]) = (st, false) -> st <> WRunning ->
  download unz srv u name = Some (st, [], u, name).
Proof.
  intros P U A V LC TC CR N. unfold download. rewrite P, U, A. cbn [a_bytes]. unfold download_headers, answer_text, crlf.
  rewrite (status_line version code reason _ u name st false V TC LC CR). destruct st; try reflexivity. congruence.
Qed.

Theorem run_ok : forall retry retries unz srv u st f nm l, run_download retry retries unz srv u = Some (st, f, nm, l) ->
  Z.of_nat (length l) <= (if retry then Z.max 1 retries + Z.max 10 retries - 1 else 1) /\
  Forall (fun asked => (1 <= length asked <= 6)%nat) l /\
  (st = WFinished \/ (st = WFailed /\ f = [])) /\
  (st = WFinished -> exists t0 u0 n0 u1 asked, In asked l /\ In u0 asked /\ download unz (srv t0) u0 n0 = Some (WFinished, f, u1, nm)).
Proof.
  intros retry retries unz srv u st f nm l H. unfold run_download in H. cbv zeta in H.
  assert (D : exists dl conn, (if retry then ((if 0 <? retries then retries else 1), (if 10 <? (if 0 <? retries then retries else 1) then (if 0 <? retries then retries else 1) else 10)) else (1, 1)) = (dl, conn) /\
    0 < dl /\ 0 < conn /\ dl + conn - 1 = (if retry then Z.max 1 retries + Z.max 10 retries - 1 else 1)).
  { destruct retry; [|exists 1, 1; repeat split; lia]. eexists _, _. split; [reflexivity|].
    destruct (0 <? retries) eqn:E; [destruct (10 <? retries) eqn:F|]; cbn; lia. }
  destruct D as (dl & conn & E & D1 & D2 & D3). rewrite E in H. destruct (run_bound _ _ _ _ _ _ _ _ _ _ _ _ _ H) as (B1 & _ & B3 & B4 & B5).
  split; [specialize (B1 D1 D2); lia|]. auto.
Qed.

Theorem run_total : forall retry retries unz srv u, (forall t u name, download unz (srv t) u name <> None) -> run_download retry retries unz srv u <> None.
Proof.
  intros retry retries unz srv u D. unfold run_download. cbv zeta.
  destruct retry; (apply run_defined; [exact D|]); [|lia]. destruct (0 <? retries) eqn:E; [destruct (10 <? retries) eqn:F|]; cbn; lia.
Qed.

Theorem unreachable_ok : forall retries unz srv u p port, parse_address (set_url u) = Some p -> usable_port p = Some port ->
  (forall t, srv t (set_url u) = None) ->
  run_download true retries unz srv u = Some (WFailed, [], None, repeat [set_url u] (Z.to_nat (Z.max 10 retries))).
Proof.
  intros retries unz srv u p port P U S. unfold run_download. cbv zeta.
  rewrite (run_connect unz srv (set_url u) None).
  - do 3 f_equal. destruct (0 <? retries) eqn:E; [destruct (10 <? retries) eqn:F|]; cbn; lia.
  - intros t. unfold download. rewrite P, U, S. reflexivity.
  - destruct (0 <? retries) eqn:E; lia.
  - destruct (0 <? retries) eqn:E; [destruct (10 <? retries) eqn:F|]; cbn; lia.
  - destruct (0 <? retries) eqn:E; [destruct (10 <? retries) eqn:F|]; cbn; lia.
Qed.

Theorem failing_ok : forall retries unz srv u p port version code reason, parse_address (set_url u) = Some p -> usable_port p = Some port ->
  passing_error code -> version_ok version reason ->
  (forall t, exists hs body sizes closed, srv t (set_url u) = Some (Answer (answer_text version code reason hs body) sizes closed)) ->
  run_download true retries unz srv u = Some (WFailed, [], None, repeat [set_url u] (Z.to_nat (Z.max 1 retries))).
Proof.
  intros retries unz srv u p port version code reason P U (LC & TC & NC) V S. unfold run_download. cbv zeta.
  rewrite (run_failing unz srv (set_url u) None).
  - do 3 f_equal. destruct (0 <? retries) eqn:E; lia.
  - intros t. destruct (S t) as (hs & body & sizes & closed & A).
    apply (error_answer unz (srv t) (set_url u) p port None version code reason hs body sizes closed WFailed P U A V LC TC); [|discriminate].
    rewrite response_code by assumption.
    assert (X : forall k, In k (redirect_codes ++ map str ["200"; "400"; "404"; "499"]%string) -> beqb code k = false).
    { intros k I. apply beqb_neq. intros ->. exact (NC I). }
    rewrite !X; [reflexivity|..]; unfold redirect_codes; cbn [map app In]; auto 12.
  - destruct (0 <? retries) eqn:E; lia.
  - destruct (0 <? retries) eqn:E; [destruct (10 <? retries) eqn:F|]; cbn; lia.
  - destruct (0 <? retries) eqn:E; [destruct (10 <? retries) eqn:F|]; cbn; lia.
Qed.

Theorem missing_ok : forall retry retries unz srv u p port version reason hs body sizes closed, parse_address (set_url u) = Some p -> usable_port p = Some port ->
  version_ok version reason -> srv O (set_url u) = Some (Answer (answer_text version (str "404") reason hs body) sizes closed) ->
  run_download retry retries unz srv u = Some (WFailed, [], None, [[set_url u]]).
Proof.
  intros retry retries unz srv u p port version reason hs body sizes closed P U V A.
  assert (D : download unz (srv O) (set_url u) None = Some (WNotFound, [], set_url u, None)).
  { apply (error_answer unz (srv O) (set_url u) p port None version (str "404") reason hs body sizes closed WNotFound P U A V eq_refl); [apply text_lit; reflexivity| |discriminate].
    rewrite response_code by (assumption || reflexivity). reflexivity. }
  assert (G : forall fuel dl conn, 0 < dl -> 0 < conn -> run_loop (S fuel) unz srv 0 dl conn (set_url u) None WFailed = Some (WFailed, [], None, [[set_url u]])).
  { intros fuel dl conn L1 L2. cbn [run_loop]. replace (0 <? dl) with true by lia. replace (0 <? conn) with true by lia. cbn [andb with_redirects]. rewrite D. reflexivity. }
  assert (F : forall dl conn, 0 < dl -> 0 < conn -> run_loop (Z.to_nat (dl + conn)) unz srv 0 dl conn (set_url u) None WFailed = Some (WFailed, [], None, [[set_url u]])).
  { intros dl conn L1 L2. replace (Z.to_nat (dl + conn)) with (S (Z.to_nat (dl + conn - 1))) by lia. apply G; assumption. }
  unfold run_download. cbv zeta. destruct retry; apply F; try lia; destruct (0 <? retries) eqn:E; try lia; destruct (10 <? retries) eqn:X; cbn; lia.
Qed.

(** ** Names *)

Theorem name_plain : forall line n, parse_filename line = Some (Some n) -> free_of [92; 47] n.
Proof.
  intros line n. unfold parse_filename. destruct (strstr line (str "filename")) as [p|]; [|discriminate].
  destruct (index 61 p) as [i|]; [|discriminate].
  destruct (firstn (Z.to_nat 1023) (drop_blanks (skipn (S i) p))) as [|c f]; [discriminate|].
  destruct (http_unquote (rev (cut_end (rev (c :: f))))) as [q|]; [|discriminate]. intros H. injection H as <-.
  destruct (base_name_ok q) as (d & _ & _ & F). eapply Forall_impl; [|exact F]. cbv beta. intros x N [X | [X | []]]; apply N; subst; [right|left]; reflexivity.
Qed.

Lemma cut_end_nil r : match r with [] => True | c :: _ => end_char c = false end -> cut_end r = r.
Proof. destruct r as [|c t]; [reflexivity|]. intros H. cbn [cut_end]. destruct t; [reflexivity|]. rewrite H. reflexivity. Qed.

Theorem name_bare : forall n, free_of [32; 34; 59; 92; 47; 10; 13] n -> n <> [] -> Z.of_nat (length n) <= 1000 ->
  parse_filename (str "Content-Disposition: attachment; filename=" ++ n) = Some (Some n) /\
  parse_filename (str "Content-Disposition: attachment; filename=" ++ n ++ [59]) = Some (Some n).
Proof.
  intros n F N L. unfold parse_filename. unfold free_of in F. rewrite Forall_forall in F.
  assert (G : forall s, (s = n \/ s = n ++ [59]) ->
    match strstr (str "Content-Disposition: attachment; filename=" ++ s) (str "filename") with
    | None => Some None
    | Some p => match index 61 p with None => Some None | Some i =>
       match firstn (Z.to_nat 1023) (drop_blanks (skipn (S i) p)) with [] => None
       | f => match http_unquote (rev (cut_end (rev f))) with Some n => Some (Some (base_name n)) | None => None end end end
    end = Some (Some n)).
  { intros s Hs.
    assert (E : strstr (str "Content-Disposition: attachment; filename=" ++ s) (str "filename") = Some (str "filename=" ++ s)) by reflexivity.
    rewrite E. clear E. assert (E : index 61 (str "filename=" ++ s) = Some 8%nat) by reflexivity. rewrite E. clear E.
    change (skipn 9 (str "filename=" ++ s)) with s.
    assert (D : drop_blanks s = s).
    { assert (H : exists c t, s = c :: t /\ c <> 32).
      { destruct n as [|c t]; [congruence|]. destruct Hs as [-> | ->]; eexists c, _; (split; [reflexivity|]); intros ->; apply (F 32); cbn; auto. }
      destruct H as (c & t & -> & H). cbn [drop_blanks]. replace (c =? 32) with false by lia. reflexivity. }
    rewrite D. rewrite firstn_all2 by (destruct Hs as [-> | ->]; rewrite ?app_length; cbn [length]; lia).
    assert (NE : s <> []) by (destruct Hs as [-> | ->]; [exact N|destruct n; discriminate]). destruct s as [|c t]; [congruence|].
    assert (CE : cut_end (rev (c :: t)) = rev n).
    { destruct (exists_last N) as (m & x & Em).
      assert (EX : end_char x = false).
      { assert (I : In x n) by (rewrite Em; apply in_or_app; right; left; reflexivity). specialize (F x I). unfold end_char.
        destruct ((x =? 32) || (x =? 10) || (x =? 13) || (x =? 59)) eqn:Q; [|reflexivity]. exfalso. apply F. cbn. lia. }
      assert (RN : rev n = x :: rev m) by (rewrite Em, rev_app_distr; reflexivity).
      destruct Hs as [-> | ->].
      - rewrite RN. apply cut_end_nil. exact EX.
      - rewrite rev_app_distr. cbn [rev app]. cbn [cut_end]. rewrite RN. change (end_char 59) with true. cbv iota. cbn [app]. apply cut_end_nil. exact EX. }
    rewrite CE, rev_involutive. destruct n as [|y n']; [congruence|]. cbn [http_unquote].
    destruct (y =? 34) eqn:Y; [exfalso; apply (F y); [left; reflexivity|cbn; lia]|].
    rewrite base_plain; [reflexivity|]. apply Forall_forall. intros z I [Q | [Q | []]]; apply (F z I); subst; cbn; auto 10. }
  split; apply G; auto.
Qed.
