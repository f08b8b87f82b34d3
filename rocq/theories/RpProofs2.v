(** The commands, their ends and the bounds of reading. *)
From Coq Require Import String.
From Verif Require Import Base NumFmt WildModel CodecModel CodecSpec CodecProofs2 WebModel InfoModel InfoProofs RpModel RpSpec RpProofs.
Open Scope list_scope. Open Scope Z_scope.

Lemma prepare_ok f req t : params_text f req t -> prepare f req = Some t /\ (length t <= length req)%nat.
Proof.
  destruct f; cbn [params_text prepare]; [intros ->; auto| |intros ->; auto].
  intros H. change (34 :: str "params" ++ [34]) with (str """params"""). rewrite H. split; [reflexivity|]. apply strstr_len in H. rewrite app_length in H. lia.
Qed.
Lemma written_len f e vs t : written f e vs t -> (length vs <= length t)%nat.
Proof.
  induction 1; cbn [length]; rewrite ?app_length; cbn [length]; rewrite ?app_length; cbn [length]; try lia.
  unfold element. cbn [length app]. rewrite !app_length. cbn [length]. rewrite ?app_length. cbn [length]. lia.
Qed.

Lemma rate_ok f req t r vs : params_text f req t -> written f false (VInt r :: vs) t -> 0 <= r < 2 ^ 21 -> execute PRate f req = ODone (ERate (r * 1024)).
Proof.
  intros P W H. unfold execute. rewrite (proj1 (prepare_ok _ _ _ P)). unfold do_rate.
  destruct (read_int _ _ _ _ _ W) as (t' & -> & _). cbn [need]. replace (r <? 0) with false by lia. replace (r * 1024 <? 2 ^ 31) with true by lia. reflexivity.
Qed.
Lemma resume_ok f req t r vs : params_text f req t -> written f false (VInt r :: vs) t -> 0 <= r -> execute PResume f req = ODone (EResume r).
Proof.
  intros P W H. unfold execute. rewrite (proj1 (prepare_ok _ _ _ P)). unfold do_resume.
  destruct (read_int _ _ _ _ _ W) as (t' & -> & _). cbn [need]. replace (r <? 0) with false by lia. reflexivity.
Qed.
Lemma ints_ok f : forall ids n t k, written f true (map VInt ids) t -> (length ids < n)%nat -> ints n f (Some t) k = k ids.
Proof.
  induction ids as [|i ids IH]; intros n t k W L; destruct n as [|n]; try (cbn in L; lia); cbn [ints map] in *.
  - inversion W as [t0 S0| | | |]; subst. rewrite stop_int by (apply S0; reflexivity). reflexivity.
  - destruct (read_int _ _ _ _ _ W) as (t' & -> & W'). cbn [bind]. rewrite (IH n t' _ W') by (cbn in L; lia). reflexivity.
Qed.
Lemma edit_table : forallb (fun p : string * Z => match find_action (str (fst p)) 1 actions with Some k => k =? snd p | None => false end) edit_numbers = true.
Proof. vm_compute. reflexivity. Qed.
Lemma find_like a b i l : like a b -> find_action a i l = find_action b i l.
Proof. intros H. revert i. induction l as [|x l IH]; intros i; [reflexivity|]. cbn [find_action]. unfold nocase_eq. unfold like in H. rewrite H, IH. reflexivity. Qed.
Lemma edit_number cmd n k : In (n, k) edit_numbers -> like cmd (str n) -> find_action cmd 1 actions = Some k.
Proof.
  intros H L. rewrite (find_like _ _ _ _ L). pose proof (proj1 (forallb_forall _ _) edit_table _ H) as T. cbn [fst snd] in T.
  destruct (find_action (str n) 1 actions); [|discriminate]. f_equal. lia.
Qed.
Lemma edit_ok f req t cmd n k off args margs ids :
  params_text f req t -> written f true (VStr cmd :: match off with Some o => [VInt o] | None => [] end ++ VStr args :: map VInt ids) t ->
  (off = None -> is_get f = false) -> In (n, k) edit_numbers -> like cmd (str n) -> means f args margs ->
  execute PEdit f req = ODone (EEdit k (match off with Some o => if (k =? 1) || (k =? 11) then zdec o else margs | None => margs end) ids).
Proof.
  intros P W G H L M. pose proof (written_len _ _ _ _ W) as LN. pose proof (proj2 (prepare_ok _ _ _ P)) as LR.
  unfold execute. rewrite (proj1 (prepare_ok _ _ _ P)). unfold do_edit.
  destruct (read_str _ _ _ _ _ W) as (t1 & -> & W1). cbn [need]. rewrite (edit_number _ _ _ H L).
  assert (LI : (length ids < S (S (length req)))%nat).
  { cbn [length] in LN. rewrite app_length in LN. cbn [length] in LN. rewrite map_length in LN. lia. }
  destruct off as [o|]; cbn [app] in W1.
  - destruct (read_int _ _ _ _ _ W1) as (t2 & -> & W2). cbn [bind]. destruct (read_str _ _ _ _ _ W2) as (t3 & -> & W3). cbn [need].
    unfold decoded. rewrite (means_decode _ _ _ M). cbv zeta. rewrite (ints_ok f ids _ t3 _ W3 LI). reflexivity.
  - rewrite (int_not_str _ _ _ _ _ (G eq_refl) W1). cbn [bind]. destruct (read_str _ _ _ _ _ W1) as (t3 & -> & W3). cbn [need].
    unfold decoded. rewrite (means_decode _ _ _ M). cbv zeta. rewrite (ints_ok f ids _ t3 _ W3 LI). reflexivity.
Qed.
Lemma log_ok f req t kd text m vs : params_text f req t -> written f false (VStr (str kd) :: VStr text :: vs) t ->
  In kd ["INFO"; "WARNING"; "ERROR"; "DETAIL"; "DEBUG"]%string -> means f text m -> execute PWriteLog f req = ODone (ELog (str kd) m).
Proof.
  intros P W H M. unfold execute. rewrite (proj1 (prepare_ok _ _ _ P)). unfold do_writelog.
  destruct (read_str _ _ _ _ _ W) as (t1 & -> & W1). cbn [need]. destruct (read_str _ _ _ _ _ W1) as (t2 & -> & W2). cbn [need].
  unfold decoded. rewrite (means_decode _ _ _ M). replace (existsb (beqb (str kd)) kinds) with true; [reflexivity|].
  symmetry. cbn [In] in H. destruct H as [H|[H|[H|[H|[H|[]]]]]]; subst kd; reflexivity.
Qed.
Lemma server_values_len l : length (server_values l) = (2 * length l)%nat.
Proof. induction l as [|[i b] l IH]; cbn [server_values length]; lia. Qed.
Lemma servers_ok f : forall l n t k, written f true (server_values l) t -> (length l < n)%nat -> servers n f (Some t) k = k l.
Proof.
  induction l as [|[i b] l IH]; intros n t k W L; destruct n as [|n]; try (cbn in L; lia); cbn [servers server_values] in *.
  - inversion W as [t0 S0| | | |]; subst. rewrite stop_int by (apply S0; reflexivity). reflexivity.
  - destruct (read_int _ _ _ _ _ W) as (t' & -> & W'). cbn [bind]. destruct (read_bool _ _ _ _ _ W') as (t2 & -> & W2). cbn [need].
    rewrite (IH n t2 _ W2) by (cbn in L; lia). reflexivity.
Qed.
Lemma editserver_ok f req t l : params_text f req t -> written f true (server_values l) t -> l <> [] -> execute PEditServer f req = ODone (EServers l).
Proof.
  intros P W N. pose proof (written_len _ _ _ _ W) as LN. rewrite server_values_len in LN. pose proof (proj2 (prepare_ok _ _ _ P)) as LR.
  unfold execute. rewrite (proj1 (prepare_ok _ _ _ P)). unfold do_editserver. rewrite (servers_ok f l _ t _ W) by lia. destruct l; [congruence|reflexivity].
Qed.

(** ** append *)
Lemma pair_values_len l : length (pair_values l) = (2 * length l)%nat.
Proof. induction l as [|[i b] l IH]; cbn [pair_values length]; lia. Qed.
Lemma pairs_ok f : forall l n t acc k, written f true (pair_values l) t -> (length l < n)%nat ->
  pairs n f (Some t) acc k = k (fold_left (fun a p => set_parameter a (fst p) (snd p)) l acc).
Proof.
  induction l as [|[i b] l IH]; intros n t acc k W L; destruct n as [|n]; try (cbn in L; lia); cbn [pairs pair_values fold_left] in *.
  - inversion W as [t0 S0| | | |]; subst. rewrite stop_str by (apply S0; reflexivity). reflexivity.
  - destruct (read_str _ _ _ _ _ W) as (t' & -> & W'). cbn [bind]. destruct (read_str _ _ _ _ _ W') as (t2 & -> & W2). cbn [need].
    rewrite (IH n t2 _ _ W2) by (cbn in L; lia). reflexivity.
Qed.
Lemma set_new l n v : v <> [] -> ~ In (map lower n) (map (fun p : param => map lower (fst p)) l) -> set_parameter l n v = l ++ [(n, v)].
Proof.
  intros V. induction l as [|[a b] l IH]; intros H; cbn [set_parameter app].
  - destruct v; [congruence|reflexivity].
  - cbn [map In fst] in H. unfold same_nocase. destruct (beqb (map lower a) (map lower n)) eqn:B.
    + apply beqb_eq in B. exfalso. apply H. left; exact B.
    + rewrite IH; [reflexivity|]. intros K. apply H. right; exact K.
Qed.
Lemma fold_new : forall l acc, Forall (fun p : param => snd p <> []) l -> NoDup (map (fun p : param => map lower (fst p)) (acc ++ l)) ->
  fold_left (fun a p => set_parameter a (fst p) (snd p)) l acc = acc ++ l.
Proof.
  induction l as [|[n v] l IH]; intros acc F D; cbn [fold_left fst snd]; [rewrite app_nil_r; reflexivity|].
  inversion F as [|? ? V F']; subst. cbn [snd] in V. rewrite set_new; [|exact V|].
  - rewrite IH; [rewrite <- app_assoc; reflexivity|exact F'|rewrite <- app_assoc; exact D].
  - rewrite map_app in D. cbn [map fst] in D. apply NoDup_remove_2 in D. intros K. apply D. apply in_or_app. left; exact K.
Qed.
Lemma prefix_like p c : nocase_prefix p c = true <-> exists a r, c = a ++ r /\ like a p.
Proof.
  unfold nocase_prefix. rewrite prefixb_iff. split.
  - intros [t H]. exists (firstn (length p) c), (skipn (length p) c). split; [symmetry; apply firstn_skipn|]. unfold like.
    rewrite <- firstn_map, H, firstn_app, map_length, Nat.sub_diag. cbn [firstn]. rewrite app_nil_r. apply firstn_all2. rewrite map_length. lia.
  - intros (a & r & -> & L). exists (map lower r). rewrite map_app. unfold like in L. rewrite L. reflexivity.
Qed.
Lemma content_ok c d : content_means c d -> content_of c = d.
Proof.
  unfold content_of. assert (U : is_url c <-> nocase_prefix (str "http://") c || nocase_prefix (str "https://") c = true).
  { rewrite orb_true_iff, !prefix_like. unfold is_url. split.
    - intros (p & r & -> & [H|H]); [left|right]; exists p, r; auto.
    - intros [(p & r & -> & H)|(p & r & -> & H)]; exists p, r; auto. }
  intros [[H ->]|(H & B & F)].
  - apply U in H. rewrite H. reflexivity.
  - destruct (_ || _) eqn:X; [exfalso; apply H, U; reflexivity|]. apply base64_roundtrip_junk; assumption.
Qed.
Lemma mode_ok s m : like s (mode_name m) -> dupe_mode s = Some m.
Proof. unfold like, dupe_mode, nocase_eq. intros ->. destruct m; reflexivity. Qed.
Lemma append_ok f req t name mname content mcontent data cat mcat prio top paused key mkey score mode md l :
  params_text f req t ->
  written f true (VStr name :: VStr content :: VStr cat :: VInt prio :: VBool top :: VBool paused :: VStr key :: VInt score :: VStr mode :: pair_values l) t ->
  means f name mname -> means f content mcontent -> means f cat mcat -> means f key mkey -> content_means mcontent data -> like mode (mode_name md) ->
  execute PAppend f req = ODone (EAppend true mname data mcat prio top paused mkey score md (fold_left (fun a p => set_parameter a (fst p) (snd p)) l [])).
Proof.
  intros P W M1 M2 M3 M4 C D. pose proof (written_len _ _ _ _ W) as LN. cbn [length] in LN. rewrite pair_values_len in LN. pose proof (proj2 (prepare_ok _ _ _ P)) as LR.
  unfold execute. rewrite (proj1 (prepare_ok _ _ _ P)). unfold do_append.
  destruct (read_str _ _ _ _ _ W) as (t1 & -> & W1). cbn [need]. destruct (read_str _ _ _ _ _ W1) as (t2 & -> & W2). cbn [need].
  destruct (read_str _ _ _ _ _ W2) as (t3 & -> & W3). cbn [bind]. cbv zeta. unfold decoded. rewrite (means_decode _ _ _ M1), (means_decode _ _ _ M3).
  destruct (read_int _ _ _ _ _ W3) as (t4 & -> & W4). cbn [bind]. destruct (read_bool _ _ _ _ _ W4) as (t5 & -> & W5). cbn [need].
  rewrite (means_decode _ _ _ M2). destruct (read_bool _ _ _ _ _ W5) as (t6 & -> & W6). cbn [bind].
  destruct (read_str _ _ _ _ _ W6) as (t7 & -> & W7). cbn [need]. rewrite (means_decode _ _ _ M4).
  destruct (read_int _ _ _ _ _ W7) as (t8 & -> & W8). cbn [need]. destruct (read_str _ _ _ _ _ W8) as (t9 & -> & W9). cbn [need].
  rewrite (mode_ok _ _ D), (pairs_ok f l _ t9 _ _ W9) by lia. rewrite (content_ok _ _ C). reflexivity.
Qed.
Lemma append_params f req t name mname content mcontent data cat mcat prio top paused key mkey score mode md l :
  params_text f req t ->
  written f true (VStr name :: VStr content :: VStr cat :: VInt prio :: VBool top :: VBool paused :: VStr key :: VInt score :: VStr mode :: pair_values l) t ->
  means f name mname -> means f content mcontent -> means f cat mcat -> means f key mkey -> content_means mcontent data -> like mode (mode_name md) ->
  Forall (fun p : param => snd p <> []) l -> NoDup (map (fun p : param => map lower (fst p)) l) ->
  execute PAppend f req = ODone (EAppend true mname data mcat prio top paused mkey score md l).
Proof. intros. erewrite append_ok by eassumption. rewrite fold_new; [reflexivity|assumption|assumption]. Qed.

(** ** Reading stays inside the text, and goes forward *)
Lemma scan_bound b : forall f l n k, json_scan f b l n = Some k -> n <= k <= n + Z.of_nat (length l).
Proof.
  induction f as [|f IH]; intros l n k H; cbn [json_scan] in H; [discriminate|]. destruct l as [|c0 t0]; [injection H as <-; lia|].
  destruct (c0 =? 92).
  - destruct t0 as [|c1 [|c2 t2]]; [discriminate|discriminate|]. cbn [length].
    destruct (b && (c2 =? 34)); [injection H as <-; lia|]. destruct (negb b && json_delim c2); [injection H as <-; lia|]. apply IH in H. lia.
  - cbn [length]. destruct (b && (c0 =? 34)); [injection H as <-; lia|]. destruct (negb b && json_delim c0); [injection H as <-; lia|]. apply IH in H. lia.
Qed.
Lemma scan_inside : forall f l n k, json_scan f false l n = Some k -> l <> [] -> json_delim (last l 0) = true -> k < n + Z.of_nat (length l).
Proof.
  induction f as [|f IH]; intros l n k H N D; cbn [json_scan] in H; [discriminate|]. destruct l as [|c0 t0]; [congruence|].
  destruct (c0 =? 92).
  - destruct t0 as [|c1 [|c2 t2]]; [discriminate|discriminate|]. cbn [length andb negb] in *.
    destruct (json_delim c2) eqn:J; [injection H as <-; lia|]. destruct t2 as [|c3 t3]; [cbn in D; congruence|].
    apply IH in H; [cbn [length] in *; lia|discriminate|]. exact D.
  - cbn [length andb negb] in *. destruct (json_delim c0) eqn:J; [injection H as <-; lia|]. destruct t0 as [|c3 t3]; [cbn in D; congruence|].
    apply IH in H; [cbn [length] in *; lia|discriminate|]. exact D.
Qed.
Definition good (t : list Z) : Prop := t = [] \/ json_delim (last t 0) = true.
Lemma last_app_ne {A} (a b : list A) d : b <> [] -> last (a ++ b) d = last b d.
Proof. intros H. induction a as [|x a IH]; [reflexivity|]. cbn [app last]. destruct (a ++ b) eqn:E0; [destruct a, b; cbn in *; congruence|exact IH]. Qed.
Lemma good_skipn n t : good t -> good (skipn n t).
Proof.
  intros [->|H]; [left; apply skipn_nil|]. destruct (skipn n t) as [|c r] eqn:E0; [left; reflexivity|]. right. rewrite <- E0.
  rewrite <- (firstn_skipn n t), last_app_ne in H by congruence. exact H.
Qed.
Lemma skip_ws_suffix : forall l n s m, skip_ws l n = (s, m) -> m = n + Z.of_nat (length l - length s) /\ s = skipn (length l - length s) l /\ (length s <= length l)%nat.
Proof.
  induction l as [|c l IH]; intros n s m H; cbn [skip_ws] in H; [injection H as <- <-; cbn; auto with zarith|].
  destruct (json_ws c); [|injection H as <- <-; rewrite Nat.sub_diag; cbn [skipn]; repeat split; lia].
  apply IH in H as (H1 & H2 & H3). cbn [length]. replace (S (length l) - length s)%nat with (S (length l - length s)) by lia. repeat split; [lia|exact H2|lia].
Qed.
Lemma next_value_facts t n k : json_next_value t = Some (n, k) ->
  0 <= n /\ let p := skipn (Z.to_nat n) t in p <> [] /\ 0 <= k <= Z.of_nat (length p) /\ (head p <> 34 -> good t -> k < Z.of_nat (length p)).
Proof.
  unfold json_next_value. destruct (skip_ws t 0) as [s m] eqn:W. apply skip_ws_suffix in W as (E1 & E2 & E3). destruct s as [|c r]; [discriminate|].
  destruct (Z.eqb_spec c 34) as [->|C].
  - destruct (json_scan _ true r 1) as [k'|] eqn:S0; [|discriminate]. intros H. injection H as <- <-. subst m. split; [lia|]. cbv zeta.
    rewrite Z.add_0_l, Nat2Z.id, <- E2. apply scan_bound in S0. cbn [length]. split; [discriminate|]. split; [lia|]. cbn [head]. congruence.
  - destruct (json_scan _ false (c :: r) 0) as [k'|] eqn:S0; [|discriminate]. intros H. injection H as <- <-. subst m. split; [lia|]. cbv zeta.
    rewrite Z.add_0_l, Nat2Z.id, <- E2. split; [discriminate|]. split; [apply scan_bound in S0; lia|]. intros _ G.
    apply (good_skipn (length t - length (c :: r))) in G. rewrite <- E2 in G. destruct G as [G|G]; [discriminate|]. apply scan_inside in S0; [lia|discriminate|exact G].
Qed.
Lemma forward_in p n : n <= Z.of_nat (length p) -> forward p n = Some (skipn (Z.to_nat n) p).
Proof. intros H. unfold forward. replace (_ <=? _) with true by lia. reflexivity. Qed.
Lemma forward_shrinks p n t : forward p n = Some t -> t = skipn (Z.to_nat n) p /\ n <= Z.of_nat (length p).
Proof. unfold forward. destruct (n <=? Z.of_nat (length p)) eqn:L; [|discriminate]. intros H. injection H as <-. split; [reflexivity|lia]. Qed.

(** The content of a tag, and what is left behind it. *)
Lemma find_tag_facts tag xml c k : find_tag tag xml = Some (c, k) ->
  (length c <= length xml)%nat /\ k + Z.of_nat (length tag) + 2 < Z.of_nat (length c) + 1 /\ ((length c < length xml)%nat \/ k = 0).
Proof.
  unfold find_tag. cbv zeta. set (o := 60 :: tag ++ [62]). set (oc := 60 :: tag ++ [47; 62]). set (cl := 60 :: 47 :: tag ++ [62]).
  assert (LO : length o = (length tag + 2)%nat) by (unfold o; cbn [length]; rewrite app_length; cbn; lia).
  assert (LOC : length oc = (length tag + 3)%nat) by (unfold oc; cbn [length]; rewrite app_length; cbn; lia).
  assert (LC : length cl = (length tag + 3)%nat) by (unfold cl; cbn [length]; rewrite app_length; cbn; lia). clearbody o oc cl.
  assert (OC : forall q, strstr xml oc = Some q -> (length q <= length xml)%nat /\ 0 + Z.of_nat (length tag) + 2 < Z.of_nat (length q) + 1 /\ ((length q < length xml)%nat \/ 0 = 0)).
  { intros q Q. pose proof (strstr_len _ _ _ Q). apply strstr_size in Q. repeat split; [lia|lia|right; reflexivity]. }
  assert (OP : forall p q, strstr xml o = Some p -> strstr p cl = Some q ->
     (length (skipn (length o) p) <= length xml)%nat /\ Z.of_nat (length p) - Z.of_nat (length q) - Z.of_nat (length o) + Z.of_nat (length tag) + 2 < Z.of_nat (length (skipn (length o) p)) + 1 /\
     ((length (skipn (length o) p) < length xml)%nat \/ Z.of_nat (length p) - Z.of_nat (length q) - Z.of_nat (length o) = 0)).
  { intros p q P Q. pose proof (strstr_len _ _ _ P). pose proof (strstr_size _ _ _ P). pose proof (strstr_len _ _ _ Q). pose proof (strstr_size _ _ _ Q).
    rewrite skipn_length. repeat split; [lia|lia|left; lia]. }
  destruct (strstr xml o) as [p|] eqn:P; destruct (strstr xml oc) as [q|] eqn:Q.
  - destruct (length p <? length q)%nat; [intros H; injection H as <- <-; apply OC; reflexivity|].
    destruct (strstr p cl) as [q'|] eqn:Q'; [|discriminate]. intros H. injection H as <- <-. apply OP; [reflexivity|exact Q'].
  - destruct (strstr p cl) as [q'|] eqn:Q'; [|discriminate]. intros H. injection H as <- <-. apply OP; [reflexivity|exact Q'].
  - intros H; injection H as <- <-; apply OC; reflexivity.
  - discriminate.
Qed.
Lemma xml_value_facts t tag c k : xml_next_value t tag = Some (c, k) ->
  (length c <= length t)%nat /\ k + Z.of_nat (length tag) + 2 < Z.of_nat (length c) + 1 /\ ((length c < length t)%nat \/ k = 0).
Proof.
  unfold xml_next_value. destruct (find_tag (str "value") t) as [[v n]|] eqn:F; [|discriminate]. apply find_tag_facts in F as (F1 & _ & _).
  destruct (find_tag tag v) as [[c' k']|] eqn:F'; [|discriminate]. apply find_tag_facts in F' as (G1 & G2 & G3). destruct (_ <=? n); [|discriminate].
  intros H. injection H as <- <-. repeat split; lia.
Qed.
Lemma xml_forward_facts t tag c k g : xml_next_value t tag = Some (c, k) -> g = Z.of_nat (length tag) + 2 -> exists t', forward c (k + g) = Some t' /\ (length t' < length t)%nat.
Proof.
  intros H ->. apply xml_value_facts in H as (H1 & H2 & H3). rewrite forward_in by lia. eexists. split; [reflexivity|]. rewrite skipn_length. lia.
Qed.

Definition fine (f : form) (t : list Z) : Prop := match f with FJson => good t | _ => True end.
Definition reaches {A} (f : form) (t : list Z) (r : res A) : Prop := exists v t', r = Res v (Some t') /\ fine f t'.
Lemma json_ahead t n k : json_next_value t = Some (n, k) -> good t -> k < Z.of_nat (length (skipn (Z.to_nat n) t)) ->
  exists t', forward (skipn (Z.to_nat n) t) (k + 1) = Some t' /\ good t'.
Proof. intros H G L. apply next_value_facts in H as (N & H). rewrite forward_in by lia. eexists. split; [reflexivity|]. apply good_skipn, good_skipn, G. Qed.
Lemma int_inside f t : fine f t -> reaches f t (next_int f (Some t)).
Proof.
  intros G. unfold reaches. destruct f as [j| |]; cbn [next_int].
  - destruct (index 61 t); eexists _, _; split; reflexivity.
  - destruct (json_next_value t) as [[n k]|] eqn:V; [|eexists _, _; split; [reflexivity|exact G]]. cbv zeta.
    destruct (numeral (head (skipn (Z.to_nat n) t))) eqn:N; [|eexists _, _; split; [reflexivity|exact G]].
    pose proof (next_value_facts _ _ _ V) as (_ & _ & _ & L). cbv zeta in L.
    assert (NQ : head (skipn (Z.to_nat n) t) <> 34) by (intros K; rewrite K in N; discriminate). specialize (L NQ G).
    destruct (json_ahead t n k V G L) as (t' & -> & G'). eexists _, _; split; [reflexivity|exact G'].
  - destruct (xml_next_value t (str "i4")) as [[c k]|] eqn:V.
    + destruct (numeral (head c)); [|eexists _, _; split; reflexivity]. destruct (xml_forward_facts _ _ _ _ 4 V eq_refl) as (t' & -> & _). eexists _, _; split; reflexivity.
    + destruct (xml_next_value t (str "int")) as [[c k]|] eqn:V'; [|eexists _, _; split; reflexivity].
      destruct (numeral (head c)); [|eexists _, _; split; reflexivity]. destruct (xml_forward_facts _ _ _ _ 5 V' eq_refl) as (t' & -> & _). eexists _, _; split; reflexivity.
Qed.
Lemma nth_last (p : list Z) k : k = Z.of_nat (length p) -> p <> [] -> nth (Z.to_nat (k - 1)) p 0 = last p 0.
Proof.
  intros -> N. replace (Z.to_nat (Z.of_nat (length p) - 1)) with (length p - 1)%nat by lia. rewrite (app_removelast_last 0 N) at 2. 
  rewrite (app_removelast_last 0 N) at 1. rewrite app_length. cbn [length]. rewrite app_nth2 by lia. replace (_ - _)%nat with O by lia. reflexivity.
Qed.
Lemma str_inside f t : fine f t -> reaches f t (next_str f (Some t)).
Proof.
  intros G. unfold reaches. destruct f as [j| |]; cbn [next_str].
  - destruct (index 61 t); [cbv zeta; destruct (index 38 _)|]; eexists _, _; split; reflexivity.
  - destruct (json_next_value t) as [[n k]|] eqn:V; [|eexists _, _; split; [reflexivity|exact G]]. cbv zeta.
    destruct (_ || _ || _) eqn:C; [eexists _, _; split; [reflexivity|exact G]|].
    pose proof (next_value_facts _ _ _ V) as (_ & NE & B & _). cbv zeta in NE, B.
    assert (L : k < Z.of_nat (length (skipn (Z.to_nat n) t))).
    { destruct (Z.eq_dec k (Z.of_nat (length (skipn (Z.to_nat n) t)))) as [E0|]; [|lia]. exfalso.
      apply orb_false_elim in C as [_ C]. rewrite (nth_last _ _ E0 NE) in C. destruct (good_skipn (Z.to_nat n) t G) as [K|K]; [congruence|].
      unfold json_delim in K. lia. }
    destruct (json_ahead t n k V G L) as (t' & -> & G'). eexists _, _; split; [reflexivity|exact G'].
  - destruct (xml_next_value t (str "string")) as [[c k]|] eqn:V; [|eexists _, _; split; reflexivity].
    destruct (xml_forward_facts _ _ _ _ 8 V eq_refl) as (t' & -> & _). eexists _, _; split; reflexivity.
Qed.
Lemma bool_inside f t : fine f t -> reaches f t (next_bool f (Some t)).
Proof.
  intros G. destruct f as [j| |]; cbn [next_bool].
  - destruct (str_inside (FGet j) t G) as (v & t' & -> & _). unfold reaches. destruct v; [destruct j|]; eexists _, _; split; reflexivity.
  - unfold reaches. destruct (json_next_value t) as [[n k]|] eqn:V; [|eexists _, _; split; [reflexivity|exact G]]. cbv zeta.
    pose proof (next_value_facts _ _ _ V) as (_ & _ & _ & L). cbv zeta in L.
    assert (Q : forall x, prefixb x (skipn (Z.to_nat n) t) = true -> head x <> 34 -> x <> [] -> exists t', forward (skipn (Z.to_nat n) t) (k + 1) = Some t' /\ good t').
    { intros x P X NX. apply (json_ahead t n k V G). apply L; [|exact G]. apply prefixb_iff in P as [r ->]. destruct x; [congruence|]. exact X. }
    destruct ((k =? 4) && prefixb (str "true") _) eqn:C1.
    + apply andb_prop in C1 as [_ C1]. destruct (Q _ C1) as (t' & -> & G'); [discriminate|discriminate|]. eexists _, _; split; [reflexivity|exact G'].
    + destruct ((k =? 5) && prefixb (str "false") _) eqn:C2; [|eexists _, _; split; [reflexivity|exact G]].
      apply andb_prop in C2 as [_ C2]. destruct (Q _ C2) as (t' & -> & G'); [discriminate|discriminate|]. eexists _, _; split; [reflexivity|exact G'].
  - unfold reaches. destruct (xml_next_value t (str "boolean")) as [[c k]|] eqn:V; [|eexists _, _; split; reflexivity].
    destruct (xml_forward_facts _ _ _ _ 9 V eq_refl) as (t' & -> & _). eexists _, _; split; reflexivity.
Qed.
Lemma reads_inside f : forall ks t, fine f t -> exists t', reads ks f (Some t) = Some (Some t').
Proof.
  induction ks as [|k ks IH]; intros t G; [eexists; reflexivity|]. cbn [reads].
  destruct k; cbn [next]; [destruct (int_inside f t G) as (v & t' & -> & G')|destruct (str_inside f t G) as (v & t' & -> & G')|destruct (bool_inside f t G) as (v & t' & -> & G')];
    apply IH, G'.
Qed.
Lemma prepare_fine f req : (f = FJson -> exists r c, req = r ++ [c] /\ after_value c) -> exists t, prepare f req = Some t /\ fine f t.
Proof.
  intros H. destruct f as [j| |]; cbn [prepare fine]; try (eexists; split; [reflexivity|exact Logic.I]).
  destruct (H eq_refl) as (r & c & -> & A). assert (G : good (r ++ [c])).
  { right. rewrite last_app_ne by discriminate. apply json_delim_spec, A. }
  destruct (strstr (r ++ [c]) (34 :: str "params" ++ [34])) as [p|] eqn:S0; [|eexists; split; [reflexivity|left; reflexivity]].
  eexists; split; [reflexivity|]. apply good_skipn.
  assert (X : forall s w, strstr s (34 :: str "params" ++ [34]) = Some w -> exists n, w = skipn n s).
  { induction s as [|x s IH]; intros w E0; cbn [strstr] in E0.
    - destruct (prefixb _ []); [injection E0 as <-; exists O; reflexivity|discriminate].
    - destruct (prefixb _ (x :: s)); [injection E0 as <-; exists O; reflexivity|]. destruct (IH _ E0) as [n ->]. exists (S n). reflexivity. }
  destruct (X _ _ S0) as [n ->]. apply good_skipn, G.
Qed.

(** ** Ends *)
Lemma json_shrinks t n k t' : json_next_value t = Some (n, k) -> forward (skipn (Z.to_nat n) t) (k + 1) = Some t' -> (length t' < length t)%nat.
Proof.
  intros V F. apply next_value_facts in V as (N & H). cbv zeta in H. destruct H as (_ & K & _). apply forward_shrinks in F as [-> L].
  rewrite skipn_length. rewrite skipn_length in *. lia.
Qed.
Lemma index_some c : forall t i, index c t = Some i -> (i < length t)%nat.
Proof. induction t as [|x t IH]; intros i H; cbn [index] in H; [discriminate|]. destruct (x =? c); [injection H as <-; cbn; lia|]. destruct (index c t) as [n|]; [|discriminate]. injection H as <-. specialize (IH _ eq_refl). cbn. lia. Qed.
Lemma skip_le : forall t, (length (skip_numerals t) <= length t)%nat.
Proof. induction t as [|c t IH]; cbn [skip_numerals]; [lia|]. destruct (_ || _); cbn [length]; lia. Qed.
Lemma int_shrinks f t v t' : next_int f (Some t) = Res (Some v) (Some t') -> (length t' < length t)%nat.
Proof.
  destruct f as [j| |]; cbn [next_int]; intros H.
  - destruct (index 61 t) as [i|] eqn:I0; [|discriminate]. apply index_some in I0.
    assert (E0 : t' = skip_numerals (skipn (S i) t)) by congruence. rewrite E0. pose proof (skip_le (skipn (S i) t)) as K. rewrite skipn_length in K. lia.
  - destruct (json_next_value t) as [[n k]|] eqn:V; [|discriminate]. cbv zeta in H. destruct (numeral _); [|discriminate]. injection H as _ H. apply (json_shrinks _ _ _ _ V H).
  - destruct (xml_next_value t (str "i4")) as [[c k]|] eqn:V.
    + destruct (numeral _); [|discriminate]. injection H as _ H. destruct (xml_forward_facts _ _ _ _ 4 V eq_refl) as (t2 & F & L). congruence.
    + destruct (xml_next_value t (str "int")) as [[c k]|] eqn:V'; [|discriminate].
      destruct (numeral _); [|discriminate]. injection H as _ H. destruct (xml_forward_facts _ _ _ _ 5 V' eq_refl) as (t2 & F & L). congruence.
Qed.
Lemma str_shrinks f t v t' : next_str f (Some t) = Res (Some v) (Some t') -> (length t' < length t)%nat.
Proof.
  destruct f as [j| |]; cbn [next_str]; intros H.
  - destruct (index 61 t) as [i|] eqn:I0; [|discriminate]. cbv zeta in H. apply index_some in I0.
    remember (skipn (S i) t) as s0 eqn:E0. assert (L : (length s0 < length t)%nat) by (subst s0; rewrite skipn_length; lia).
    destruct (index 38 s0) as [i2|]; [assert (E1 : t' = skipn (S i2) s0) by congruence|assert (E1 : t' = []) by congruence]; rewrite E1, ?skipn_length; cbn [length]; lia.
  - destruct (json_next_value t) as [[n k]|] eqn:V; [|discriminate]. cbv zeta in H. destruct (_ || _); [discriminate|]. injection H as _ H. apply (json_shrinks _ _ _ _ V H).
  - destruct (xml_next_value t (str "string")) as [[c k]|] eqn:V; [|discriminate].
    injection H as _ H. destruct (xml_forward_facts _ _ _ _ 8 V eq_refl) as (t2 & F & L). congruence.
Qed.
Lemma bool_shrinks f t v t' : next_bool f (Some t) = Res (Some v) (Some t') -> (length t' < length t)%nat.
Proof.
  destruct f as [j| |]; cbn [next_bool]; intros H.
  - destruct (next_str (FGet j) (Some t)) as [|[w|] p] eqn:S0; [discriminate| |discriminate]. destruct j; injection H as _ ->; apply (str_shrinks _ _ _ _ S0).
  - destruct (json_next_value t) as [[n k]|] eqn:V; [|discriminate]. cbv zeta in H.
    destruct (_ && _); [injection H as _ H; apply (json_shrinks _ _ _ _ V H)|]. destruct (_ && _); [injection H as _ H; apply (json_shrinks _ _ _ _ V H)|discriminate].
  - destruct (xml_next_value t (str "boolean")) as [[c k]|] eqn:V; [|discriminate].
    injection H as _ H. destruct (xml_forward_facts _ _ _ _ 9 V eq_refl) as (t2 & F & L). congruence.
Qed.
Definition room (a : option (list Z)) : nat := match a with Some t => S (length t) | None => O end.
Lemma int_room f a v p : next_int f a = Res v p -> (room p <= room a)%nat /\ (v <> None -> room p < room a)%nat.
Proof.
  destruct a as [t|]; [|discriminate]. intros H. destruct v as [v|], p as [p|]; cbn [room].
  - apply int_shrinks in H. lia.
  - split; intros; lia.
  - split; [|congruence]. revert H. destruct f; cbn [next_int].
    + destruct (index 61 t); [discriminate|]. intros H; injection H as <-; lia.
    + destruct (json_next_value t) as [[n k]|]; [cbv zeta; destruct (numeral _); [discriminate|]|]; intros H; injection H as <-; lia.
    + destruct (xml_next_value t (str "i4")) as [[c k]|]; [|destruct (xml_next_value t (str "int")) as [[c k]|]]; try (destruct (numeral _); [discriminate|]); intros H; injection H as <-; lia.
  - split; [lia|congruence].
Qed.
Lemma str_room f a v p : next_str f a = Res v p -> (room p <= room a)%nat /\ (v <> None -> room p < room a)%nat.
Proof.
  destruct a as [t|]; [|discriminate]. intros H. destruct v as [v|], p as [p|]; cbn [room].
  - apply str_shrinks in H. lia.
  - split; intros; lia.
  - split; [|congruence]. revert H. destruct f; cbn [next_str].
    + destruct (index 61 t); [cbv zeta; destruct (index 38 _); discriminate|]. intros H; injection H as <-; lia.
    + destruct (json_next_value t) as [[n k]|]; [cbv zeta; destruct (_ || _); [|discriminate]|]; intros H; injection H as <-; lia.
    + destruct (xml_next_value t (str "string")) as [[c k]|]; [discriminate|]. intros H; injection H as <-; lia.
  - split; [lia|congruence].
Qed.
Lemma bool_room f a v p : next_bool f a = Res v p -> (room p <= room a)%nat.
Proof.
  intros H. destruct p as [p|]; [|cbn [room]; lia]. destruct v as [v|].
  - destruct a as [t|]; [apply bool_shrinks in H; cbn [room]; lia|]. destruct f; discriminate.
  - revert H. destruct f as [j| |]; cbn [next_bool].
    + destruct (next_str (FGet j) a) as [|[w|] q] eqn:S0; [discriminate| |]; apply str_room in S0 as [S0 _].
      * destruct j; [destruct (prefixb _ _); [discriminate|destruct (prefixb _ _); [discriminate|]]|discriminate]. intros H; injection H as ->. exact S0.
      * intros H; injection H as ->. exact S0.
    + destruct a as [t|]; [|discriminate]. destruct (json_next_value t) as [[n k]|]; [cbv zeta; destruct (_ && _); [discriminate|]; destruct (_ && _); [discriminate|]|]; intros H; injection H as <-; cbn [room]; lia.
    + destruct a as [t|]; [|discriminate]. destruct (xml_next_value t _) as [[c k]|]; [discriminate|]. intros H; injection H as <-; cbn [room]; lia.
Qed.
Lemma ints_ends f : forall n a k, (room a < n)%nat -> (forall l, k l <> OLoop) -> ints n f a k <> OLoop.
Proof.
  induction n as [|n IH]; intros a k L K; [lia|]. cbn [ints]. destruct (next_int f a) as [|v p] eqn:N; [discriminate|]. cbn [bind]. destruct v as [i|]; [|apply K].
  apply int_room in N as [N1 N2]. specialize (N2 ltac:(discriminate)). apply IH; [lia|]. intros l. apply K.
Qed.
Lemma pairs_ends f : forall n a acc k, (room a < n)%nat -> (forall l, k l <> OLoop) -> pairs n f a acc k <> OLoop.
Proof.
  induction n as [|n IH]; intros a acc k L K; [lia|]. cbn [pairs]. destruct (next_str f a) as [|v p] eqn:N; [discriminate|]. cbn [bind]. destruct v as [i|]; [|apply K].
  apply str_room in N as [N1 N2]. specialize (N2 ltac:(discriminate)). destruct (next_str f p) as [|[w|] q] eqn:N'; cbn [need]; [discriminate| |discriminate].
  apply str_room in N' as [N1' _]. apply IH; [lia|exact K].
Qed.
Lemma servers_ends f : forall n a k, (room a < n)%nat -> (forall l, k l <> OLoop) -> servers n f a k <> OLoop.
Proof.
  induction n as [|n IH]; intros a k L K; [lia|]. cbn [servers]. destruct (next_int f a) as [|v p] eqn:N; [discriminate|]. cbn [bind]. destruct v as [i|]; [|apply K].
  apply int_room in N as [N1 N2]. specialize (N2 ltac:(discriminate)). destruct (next_bool f p) as [|[w|] q] eqn:N'; cbn [need]; [discriminate| |discriminate].
  apply bool_room in N'. apply IH; [lia|]. intros l. apply K.
Qed.
Lemma prepare_room f req : (room (prepare f req) <= S (length req))%nat.
Proof.
  destruct f; cbn [prepare room]; [lia| |lia]. destruct (strstr req _) as [p|] eqn:S0; cbn [room length]; [|lia]. apply strstr_len in S0. rewrite skipn_length. lia.
Qed.
Lemma need_str f a k : (forall v p, (room p <= room a)%nat -> k v p <> OLoop) -> need (next_str f a) k <> OLoop.
Proof. intros H. destruct (next_str f a) as [|[v|] p] eqn:N; cbn [need]; [discriminate| |discriminate]. apply H. apply str_room in N. lia. Qed.
Lemma need_int f a k : (forall v p, (room p <= room a)%nat -> k v p <> OLoop) -> need (next_int f a) k <> OLoop.
Proof. intros H. destruct (next_int f a) as [|[v|] p] eqn:N; cbn [need]; [discriminate| |discriminate]. apply H. apply int_room in N. lia. Qed.
Lemma need_bool f a k : (forall v p, (room p <= room a)%nat -> k v p <> OLoop) -> need (next_bool f a) k <> OLoop.
Proof. intros H. destruct (next_bool f a) as [|[v|] p] eqn:N; cbn [need]; [discriminate| |discriminate]. apply H. apply bool_room in N. lia. Qed.
Lemma bind_str f a k : (forall v p, (room p <= room a)%nat -> k v p <> OLoop) -> bind (next_str f a) k <> OLoop.
Proof. intros H. destruct (next_str f a) as [|v p] eqn:N; cbn [bind]; [discriminate|]. apply H. apply str_room in N. lia. Qed.
Lemma bind_int f a k : (forall v p, (room p <= room a)%nat -> k v p <> OLoop) -> bind (next_int f a) k <> OLoop.
Proof. intros H. destruct (next_int f a) as [|v p] eqn:N; cbn [bind]; [discriminate|]. apply H. apply int_room in N. lia. Qed.
Lemma bind_bool f a k : (forall v p, (room p <= room a)%nat -> k v p <> OLoop) -> bind (next_bool f a) k <> OLoop.
Proof. intros H. destruct (next_bool f a) as [|v p] eqn:N; cbn [bind]; [discriminate|]. apply H. apply bool_room in N. lia. Qed.
Lemma decoded_ends f s k : (forall d, k d <> OLoop) -> decoded f s k <> OLoop.
Proof. intros H. unfold decoded. destruct (decode_str f s); [apply H|discriminate]. Qed.
Lemma execute_ends p f req : execute p f req <> OLoop.
Proof.
  pose proof (prepare_room f req) as R. unfold execute. cbv zeta. remember (prepare f req) as a. clear Heqa.
  assert (R' : (room a < S (S (length req)))%nat) by lia. remember (S (S (length req))) as n. clear Heqn R. destruct p.
  - apply need_int. intros v q _. destruct (v <? 0); [discriminate|]. destruct (_ <? _); discriminate.
  - apply need_int. intros v q _. destruct (v <? 0); discriminate.
  - apply need_str. intros v q L1. destruct (find_action _ _ _); [|discriminate]. apply bind_int. intros o q2 L2. apply need_str. intros ar q3 L3.
    apply decoded_ends. intros d. apply ints_ends; [lia|discriminate].
  - unfold do_append. apply need_str. intros v q L1. apply need_str. intros v2 q2 L2. apply bind_str. intros v3 q3 L3. cbv zeta.
    apply decoded_ends. intros d1. apply decoded_ends. intros d2. apply bind_int. intros v4 q4 L4. apply need_bool. intros v5 q5 L5.
    assert (G : forall (c : list Z) (a' : option (list Z)) (b : bool), (room a' <= room q5)%nat -> 
      decoded f c (fun content => bind (next_bool f a') (fun pz a0 =>
        match pz with
        | None => if b then OError 2 else ODone (EAppend b d1 (content_of content) d2 (match v4 with Some x => x | None => 0 end) v5 false [] 0 DScore [])
        | Some paused => need (next_str f a0) (fun key a1 => decoded f key (fun key => need (next_int f a1) (fun score a2 => need (next_str f a2) (fun m a3 =>
            match dupe_mode m with None => OError 2
            | Some mode => if b then pairs n f a3 [] (fun params => ODone (EAppend b d1 (content_of content) d2 (match v4 with Some x => x | None => 0 end) v5 paused key score mode params))
                           else ODone (EAppend b d1 (content_of content) d2 (match v4 with Some x => x | None => 0 end) v5 paused key score mode []) end))))
        end)) <> OLoop).
    { intros c a' b L. apply decoded_ends. intros d3. apply bind_bool. intros v6 q6 L6. destruct v6 as [pz|]; [|destruct b; discriminate].
      apply need_str. intros v7 q7 L7. apply decoded_ends. intros d4. apply need_int. intros v8 q8 L8. apply need_str. intros v9 q9 L9.
      destruct (dupe_mode v9); [|discriminate]. destruct b; [|discriminate]. apply pairs_ends; [lia|discriminate]. }
    destruct v3; [apply (G _ _ true); lia|]. apply need_str. intros v10 q10 L10. apply (G _ _ false). lia.
  - apply need_str. intros v q L1. apply need_str. intros v2 q2 L2. apply decoded_ends. intros d. destruct (existsb _ _); discriminate.
  - apply servers_ends; [lia|]. intros [|x l]; discriminate.
Qed.

(** ** Refusals *)
Lemma find_none cmd : (forall n k, In (n, k) edit_numbers -> ~ like cmd (str n)) -> forall i l, incl l actions -> find_action cmd i l = None.
Proof.
  intros H i l. revert i. induction l as [|x l IH]; intros i I; [reflexivity|]. cbn [find_action].
  assert (N : nocase_eq cmd x = false).
  { destruct (nocase_eq cmd x) eqn:Q; [exfalso|reflexivity]. unfold nocase_eq in Q. apply beqb_eq in Q.
    assert (T : map (fun p : string * Z => str (fst p)) edit_numbers = actions) by (vm_compute; reflexivity).
    pose proof (I x (or_introl eq_refl)) as J. rewrite <- T in J. apply in_map_iff in J. destruct J as ([n k] & J1 & J2). apply (H n k J2). unfold like. cbn [fst] in J1. rewrite J1. exact Q. }
  rewrite N. apply IH. intros y Y. apply I. right. exact Y.
Qed.
Lemma edit_refused f req t cmd vs : params_text f req t -> written f false (VStr cmd :: vs) t -> (forall n k, In (n, k) edit_numbers -> ~ like cmd (str n)) ->
  execute PEdit f req = OError 3.
Proof.
  intros P W H. unfold execute. rewrite (proj1 (prepare_ok _ _ _ P)). unfold do_edit.
  destruct (read_str _ _ _ _ _ W) as (t1 & -> & W1). cbn [need]. rewrite (find_none _ H 1 actions (incl_refl _)). reflexivity.
Qed.
Lemma log_refused f req t kd text m vs : params_text f req t -> written f false (VStr kd :: VStr text :: vs) t -> means f text m ->
  (forall k, In k ["INFO"; "WARNING"; "ERROR"; "DETAIL"; "DEBUG"]%string -> kd <> str k) -> execute PWriteLog f req = OError 3.
Proof.
  intros P W M H. unfold execute. rewrite (proj1 (prepare_ok _ _ _ P)). unfold do_writelog.
  destruct (read_str _ _ _ _ _ W) as (t1 & -> & W1). cbn [need]. destruct (read_str _ _ _ _ _ W1) as (t2 & -> & W2). cbn [need].
  unfold decoded. rewrite (means_decode _ _ _ M). destruct (existsb (beqb kd) kinds) eqn:X; [exfalso|reflexivity].
  apply existsb_exists in X. destruct X as (x & X1 & X2). apply beqb_eq in X2. subst x. unfold kinds in X1. apply in_map_iff in X1. destruct X1 as (k & K1 & K2). exact (H k K2 (eq_sym K1)).
Qed.
Lemma rate_refused f req t r vs : params_text f req t -> written f false (VInt r :: vs) t -> r < 0 -> execute PRate f req = OError 2 /\ execute PResume f req = OError 2.
Proof.
  intros P W H. unfold execute. rewrite (proj1 (prepare_ok _ _ _ P)). unfold do_rate, do_resume.
  destruct (read_int _ _ _ _ _ W) as (t' & -> & _). cbn [need]. replace (r <? 0) with true by lia. split; reflexivity.
Qed.
Lemma nothing_refused f req t : params_text f req t -> stops f t -> forall p, execute p f req = OError 2.
Proof.
  intros P S0 p. unfold execute. rewrite (proj1 (prepare_ok _ _ _ P)).
  destruct p; cbn [do_editserver servers]; unfold do_rate, do_resume, do_edit, do_append, do_writelog, do_editserver; try (rewrite (stop_int _ _ S0); reflexivity);
    try (rewrite (stop_str _ _ S0); reflexivity).
Qed.
Lemma append_mode_refused f req t name mname content mcontent cat mcat prio top paused key mkey score mode vs :
  params_text f req t ->
  written f false (VStr name :: VStr content :: VStr cat :: VInt prio :: VBool top :: VBool paused :: VStr key :: VInt score :: VStr mode :: vs) t ->
  means f name mname -> means f content mcontent -> means f cat mcat -> means f key mkey -> (forall md, ~ like mode (mode_name md)) ->
  execute PAppend f req = OError 2.
Proof.
  intros P W M1 M2 M3 M4 H. unfold execute. rewrite (proj1 (prepare_ok _ _ _ P)). unfold do_append.
  destruct (read_str _ _ _ _ _ W) as (t1 & -> & W1). cbn [need].
  destruct (read_str _ _ _ _ _ W1) as (t2 & -> & W2). cbn [need].
  destruct (read_str _ _ _ _ _ W2) as (t3 & -> & W3). cbn [bind]. cbv zeta. unfold decoded. rewrite (means_decode _ _ _ M1), (means_decode _ _ _ M3).
  destruct (read_int _ _ _ _ _ W3) as (t4 & -> & W4). cbn [bind].
  destruct (read_bool _ _ _ _ _ W4) as (t5 & -> & W5). cbn [need]. rewrite (means_decode _ _ _ M2).
  destruct (read_bool _ _ _ _ _ W5) as (t6 & -> & W6). cbn [bind].
  destruct (read_str _ _ _ _ _ W6) as (t7 & -> & W7). cbn [need]. rewrite (means_decode _ _ _ M4).
  destruct (read_int _ _ _ _ _ W7) as (t8 & -> & W8). cbn [need].
  destruct (read_str _ _ _ _ _ W8) as (t9 & -> & W9). cbn [need].
  replace (dupe_mode mode) with (@None dmode); [reflexivity|]. symmetry. unfold dupe_mode, nocase_eq.
  destruct (beqb (map lower mode) (map lower (str "score"))) eqn:Q1; [exfalso; apply beqb_eq in Q1; apply (H DScore); exact Q1|].
  destruct (beqb (map lower mode) (map lower (str "all"))) eqn:Q2; [exfalso; apply beqb_eq in Q2; apply (H DAll); exact Q2|].
  destruct (beqb (map lower mode) (map lower (str "force"))) eqn:Q3; [exfalso; apply beqb_eq in Q3; apply (H DForce); exact Q3|]. reflexivity.
Qed.
