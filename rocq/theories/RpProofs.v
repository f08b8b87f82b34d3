(** Parameters are read as written. *)
From Coq Require Import String.
From Verif Require Import Base NumFmt WildModel CodecModel CodecSpec CodecProofs2 WebModel RpModel RpSpec.
Open Scope list_scope. Open Scope Z_scope.

Lemma strstr_step c s p : prefixb p (c :: s) = false -> strstr (c :: s) p = strstr s p.
Proof. intros H. cbn [strstr]. rewrite H. reflexivity. Qed.
Lemma strstr_here s p : prefixb p s = true -> strstr s p = Some s.
Proof. intros H. destruct s; cbn [strstr]; rewrite H; reflexivity. Qed.
Lemma prefix_nohead q c s : c <> 60 -> prefixb (60 :: q) (c :: s) = false.
Proof. intros H. cbn [prefixb]. replace (60 =? c) with false by lia. reflexivity. Qed.
Lemma strstr_nolt q : forall raw s, ~ In 60 raw -> strstr (raw ++ s) (60 :: q) = strstr s (60 :: q).
Proof.
  induction raw as [|c r IH]; intros s H; [reflexivity|]. cbn [app]. rewrite strstr_step.
  - apply IH. intros K. apply H. right; exact K.
  - apply prefix_nohead. intros ->. apply H. left; reflexivity.
Qed.
Lemma prefix_cross : forall q n s, ~ In 60 q -> prefixb q (n ++ 60 :: s) = true -> prefixb q n = true.
Proof.
  induction q as [|a q IH]; intros n s H P; [destruct n; reflexivity|]. destruct n as [|b n]; cbn [app prefixb] in P.
  - apply andb_prop in P as [P _]. exfalso. apply H. left. lia.
  - apply andb_prop in P as [P P']. cbn [prefixb]. rewrite P. cbn [andb]. apply (IH n s); [|exact P']. intros K. apply H. right; exact K.
Qed.
Lemma strstr_noise q s : ~ In 60 q -> forall n, strstr n (60 :: q) = None -> strstr (n ++ 60 :: s) (60 :: q) = strstr (60 :: s) (60 :: q).
Proof.
  intros H. induction n as [|c n IH]; intros N; [reflexivity|]. cbn [strstr] in N. destruct (prefixb (60 :: q) (c :: n)) eqn:P; [discriminate|].
  cbn [app]. rewrite strstr_step; [exact (IH N)|].
  destruct (prefixb (60 :: q) (c :: n ++ 60 :: s)) eqn:P'; [|reflexivity]. exfalso. cbn [prefixb] in P, P'. apply andb_prop in P' as [P1 P2].
  rewrite P1 in P. cbn [andb] in P. rewrite (prefix_cross q n s H P2) in P. discriminate.
Qed.

Ltac notin := let K := fresh in intros K; cbn in K; repeat (destruct K as [K|K]; [discriminate|]); exact K.
Ltac step := rewrite strstr_step by reflexivity.

(** ** Numbers *)
Lemma zdec_chars z : Forall (fun c => is_digit c = true \/ c = 45) (zdec z) /\ exists c r, zdec z = c :: r /\ numeral c = true.
Proof.
  unfold zdec. destruct (z <? 0) eqn:Hz.
  - split.
    + constructor; [right; reflexivity|]. eapply Forall_impl; [|apply udec_digits; lia]. intros c K. left; exact K.
    + eexists _, _. split; reflexivity.
  - split.
    + eapply Forall_impl; [|apply udec_digits; lia]. intros c K. left; exact K.
    + destruct (udec_cons z ltac:(lia)) as (c & t & -> & D). exists c, t. split; [reflexivity|]. unfold numeral. rewrite D. lia.
Qed.
Lemma to_i32_id z : - 2 ^ 31 <= z < 2 ^ 31 -> to_i32 z = z.
Proof. intros H. unfold to_i32. rewrite Z.mod_small by lia. lia. Qed.
Lemma atoi_zdec z r : - 2 ^ 31 <= z < 2 ^ 31 -> nondigit_head r -> atoi (zdec z ++ r) = z.
Proof. intros H N. unfold atoi. rewrite atoll_zdec by exact N. apply to_i32_id, H. Qed.
Lemma digit_facts c : is_digit c = true \/ c = 45 -> ~ after_value c /\ c <> 92 /\ c <> 34 /\ ~ before_value c /\ c <> 60 /\ c <> 38 /\ c <> 61.
Proof. unfold is_digit, after_value, before_value. cbn [In]. lia. Qed.
Lemma zdec_nolt z : ~ In 60 (zdec z).
Proof. intros K. destruct (zdec_chars z) as [F _]. rewrite Forall_forall in F. specialize (F _ K). unfold is_digit in F. lia. Qed.

(** ** JSON *)
Lemma forward_app p r : forward (p ++ r) (Z.of_nat (length p)) = Some r.
Proof. unfold forward. rewrite app_length. replace (_ <=? _) with true by lia. rewrite Nat2Z.id, skipn_app, skipn_all, Nat.sub_diag. reflexivity. Qed.
Lemma skipn_len {A} (a b : list A) : skipn (Z.to_nat (Z.of_nat (length a))) (a ++ b) = b.
Proof. rewrite Nat2Z.id, skipn_app, skipn_all, Nat.sub_diag. reflexivity. Qed.
Lemma forward_plain t c r : forward (t ++ c :: r) (Z.of_nat (length t) + 1) = Some r.
Proof.
  replace (t ++ c :: r) with ((t ++ [c]) ++ r) by (rewrite <- app_assoc; reflexivity).
  replace (Z.of_nat (length t) + 1) with (Z.of_nat (length (t ++ [c]))) by (rewrite app_length; simpl; lia). apply forward_app.
Qed.
Lemma after_nondigit c r : after_value c -> nondigit_head (c :: r).
Proof. unfold after_value, nondigit_head, is_digit. cbn [In]. lia. Qed.
Lemma next_plain ws tok c r : Forall before_value ws -> Forall (fun c => ~ after_value c /\ c <> 92 /\ c <> 34) tok -> tok <> [] -> ~ before_value (hd 0 tok) ->
  after_value c -> json_next_value (ws ++ tok ++ c :: r) = Some (Z.of_nat (length ws), Z.of_nat (length tok)).
Proof. intros. apply json_next_plain'; assumption. Qed.

Lemma json_int z ws c r : - 2 ^ 31 <= z < 2 ^ 31 -> Forall before_value ws -> after_value c -> next_int FJson (Some (ws ++ zdec z ++ c :: r)) = Res (Some z) (Some r).
Proof.
  intros Hz W A. cbn [next_int]. destruct (zdec_chars z) as [F (c0 & r0 & E0 & N)].
  rewrite next_plain; [|exact W| | | |exact A].
  - cbv zeta. rewrite skipn_len, atoi_zdec by (exact Hz || apply after_nondigit, A).
    replace (head (zdec z ++ c :: r)) with c0 by (rewrite E0; reflexivity). rewrite N, forward_plain. reflexivity.
  - eapply Forall_impl; [|exact F]. intros d D. apply digit_facts in D. tauto.
  - rewrite E0. discriminate.
  - rewrite E0 in *. cbn [hd]. inversion F as [|? ? D]; subst. apply digit_facts in D. tauto.
Qed.
Lemma str_is_body s : Forall (fun c => c <> 34 /\ c <> 92 /\ c <> 0) s -> s = body (map JPlain s).
Proof. induction 1 as [|c s H F IH]; [reflexivity|]. cbn. f_equal. exact IH. Qed.
Lemma json_quoted ws raw c r ts : Forall before_value ws -> Forall jtok_ok ts -> no_adjacent ts -> raw = body ts ->
  json_next_value (ws ++ (34 :: raw ++ [34]) ++ c :: r) = Some (Z.of_nat (length ws), Z.of_nat (length raw) + 2).
Proof.
  intros W T N ->. fold (jstring ts). unfold body. change (34 :: concat (map jtok_text ts) ++ [34]) with (jstring ts).
  rewrite json_next_string' by assumption. unfold jstring. cbn [length]. rewrite app_length. cbn [length]. f_equal. f_equal. lia.
Qed.
Lemma quoted_last (raw : list Z) t : nth (Z.to_nat (Z.of_nat (length raw) + 2 - 1)) ((34 :: raw ++ [34]) ++ t) 0 = 34.
Proof.
  replace (Z.to_nat (Z.of_nat (length raw) + 2 - 1)) with (S (length raw)) by lia. cbn [app nth]. rewrite <- app_assoc, app_nth2 by lia.
  rewrite Nat.sub_diag. reflexivity.
Qed.
Lemma json_str raw ts ws c r : Forall before_value ws -> Forall jtok_ok ts -> no_adjacent ts -> raw = body ts ->
  next_str FJson (Some (ws ++ (34 :: raw ++ [34]) ++ c :: r)) = Res (Some raw) (Some r).
Proof.
  intros W T N E0. cbn [next_str]. rewrite (json_quoted ws raw c r ts W T N E0). cbv zeta. rewrite skipn_len.
  replace (_ <? 2) with false by lia. rewrite quoted_last. cbn [app head]. simpl (34 =? 34). cbn [negb orb].
  replace (Z.to_nat (Z.of_nat (length raw) + 2 - 2)) with (length raw) by lia. cbn [skipn].
  rewrite <- app_assoc, firstn_app, firstn_all, Nat.sub_diag. cbn [firstn]. rewrite app_nil_r.
  replace (34 :: raw ++ [34] ++ c :: r) with ((34 :: raw ++ [34]) ++ c :: r) by (cbn [app]; rewrite <- app_assoc; reflexivity).
  replace (Z.of_nat (length raw) + 2 + 1) with (Z.of_nat (length (34 :: raw ++ [34])) + 1) by (cbn [length]; rewrite app_length; simpl; lia).
  rewrite forward_plain. reflexivity.
Qed.
Lemma json_int_str raw ts ws c r : Forall before_value ws -> Forall jtok_ok ts -> no_adjacent ts -> raw = body ts ->
  next_int FJson (Some (ws ++ (34 :: raw ++ [34]) ++ c :: r)) = Res None (Some (ws ++ (34 :: raw ++ [34]) ++ c :: r)).
Proof. intros W T N E0. cbn [next_int]. rewrite (json_quoted ws raw c r ts W T N E0). cbv zeta. rewrite skipn_len. reflexivity. Qed.
Lemma json_bool b ws c r : Forall before_value ws -> after_value c -> next_bool FJson (Some (ws ++ bool_text true b ++ c :: r)) = Res (Some b) (Some r).
Proof.
  intros W A. cbn [next_bool]. rewrite next_plain; [|exact W| | | |exact A].
  - cbv zeta. rewrite skipn_len, forward_plain. destruct b; reflexivity.
  - apply Forall_forall. intros x. destruct b; unfold after_value; cbn; lia.
  - destruct b; discriminate.
  - destruct b; unfold before_value; cbn; lia.
Qed.
Lemma skip_ws_all ws : Forall before_value ws -> forall n r, skip_ws (ws ++ r) n = skip_ws r (n + Z.of_nat (length ws)).
Proof.
  induction 1 as [|c l Hc Hl IH]; intros n r; cbn [app skip_ws length]; [f_equal; lia|]. apply json_ws_spec in Hc. rewrite Hc, IH. f_equal. lia.
Qed.
Lemma json_stop t : stops FJson t -> json_next_value t = None \/ exists n, json_next_value t = Some (n, 0) /\ numeral (head (skipn (Z.to_nat n) t)) = false.
Proof.
  intros (ws & r & W & -> & [->|(c & r' & -> & H)]); unfold json_next_value; rewrite (skip_ws_all ws W).
  - left. reflexivity.
  - right. exists (Z.of_nat (length ws)). cbn [skip_ws].
    assert (J : json_ws c = false) by (unfold json_ws; lia). rewrite J. replace (c =? 34) with false by lia.
    assert (D : json_delim c = true) by (unfold json_delim; lia).
    cbn [json_scan]. replace (c =? 92) with false by lia. rewrite D. cbn [andb negb].
    split; [f_equal; f_equal; lia|]. rewrite skipn_len. cbn [head]. unfold numeral, is_digit. lia.
Qed.
Lemma json_stop_int t : stops FJson t -> next_int FJson (Some t) = Res None (Some t).
Proof. intros H. cbn [next_int]. destruct (json_stop t H) as [->|(n & -> & K)]; [reflexivity|]. cbv zeta. rewrite K. reflexivity. Qed.
Lemma json_stop_str t : stops FJson t -> next_str FJson (Some t) = Res None (Some t).
Proof. intros H. cbn [next_str]. destruct (json_stop t H) as [->|(n & -> & K)]; reflexivity. Qed.

(** ** XML *)
Lemma novalue_opn n s : novalue n -> strstr (n ++ str "<value>" ++ s) (str "<value>") = Some (str "<value>" ++ s).
Proof.
  intros [A B]. change (str "<value>" ++ s) with (60 :: str "value>" ++ s). change (str "<value>") with (60 :: str "value>") at 1.
  rewrite strstr_noise; [apply strstr_here; reflexivity|notin|exact A].
Qed.
Lemma novalue_oc n s : novalue n -> strstr (n ++ str "<value>" ++ s) (str "<value/>") = strstr s (str "<value/>").
Proof.
  intros [A B]. change (str "<value>" ++ s) with (60 :: str "value>" ++ s). change (str "<value/>") with (60 :: str "value/>").
  rewrite strstr_noise; [|notin|exact B]. cbn [str app]. change (str "value>" ++ s) with (118 :: 97 :: 108 :: 117 :: 101 :: 62 :: s). do 7 step. reflexivity.
Qed.
Lemma strstr_len p : forall s w, strstr s p = Some w -> (length w <= length s)%nat.
Proof.
  induction s as [|c s IH]; intros w H; cbn [strstr] in H.
  - destruct (prefixb p []); [injection H as <-; lia|discriminate].
  - destruct (prefixb p (c :: s)); [injection H as <-; lia|]. apply IH in H. cbn [length]. lia.
Qed.
Lemma strstr_size p : forall s w, strstr s p = Some w -> (length p <= length w)%nat.
Proof.
  assert (G : forall s, prefixb p s = true -> (length p <= length s)%nat) by (intros s H; apply prefixb_iff in H as [t ->]; rewrite app_length; lia).
  induction s as [|c s IH]; intros w H; cbn [strstr] in H.
  - destruct (prefixb p []) eqn:P; [injection H as <-; apply G, P|discriminate].
  - destruct (prefixb p (c :: s)) eqn:P; [injection H as <-; apply G, P|]. apply IH, H.
Qed.

Definition close_value : list Z := str "</value>".
Lemma find_value n t r : novalue n -> strstr (t ++ close_value ++ r) close_value = Some (close_value ++ r) ->
  find_tag (str "value") (n ++ element (str "value") t ++ r) = Some (t ++ close_value ++ r, Z.of_nat (length t)).
Proof.
  intros N C. replace (n ++ element (str "value") t ++ r) with (n ++ str "<value>" ++ t ++ close_value ++ r).
  2:{ unfold element. cbn [str app]. rewrite <- app_assoc. reflexivity. }
  unfold find_tag. change (60 :: str "value" ++ [62]) with (str "<value>"). change (60 :: str "value" ++ [47; 62]) with (str "<value/>").
  change (60 :: 47 :: str "value" ++ [62]) with close_value. rewrite novalue_opn, novalue_oc by exact N.
  assert (G : match strstr (t ++ close_value ++ r) (str "<value/>") with
              | Some q => if (length (str "<value>" ++ t ++ close_value ++ r) <? length q)%nat then Some q else None | None => None end = None).
  { destruct (strstr (t ++ close_value ++ r) (str "<value/>")) as [q|] eqn:S0; [|reflexivity]. apply strstr_len in S0.
    replace (_ <? _)%nat with false; [reflexivity|]. symmetry. apply Nat.ltb_ge. rewrite (app_length (str "<value>")). lia. }
  rewrite G. assert (K : strstr (str "<value>" ++ t ++ close_value ++ r) close_value = Some (close_value ++ r)).
  { change (str "<value>" ++ t ++ close_value ++ r) with (60 :: 118 :: 97 :: 108 :: 117 :: 101 :: 62 :: t ++ close_value ++ r). do 7 step. exact C. }
  rewrite K. f_equal. f_equal. rewrite !app_length. cbn [length str app]. lia.
Qed.
Lemma strstr_shorter p s w : prefixb p s = false -> strstr s p = Some w -> (length w < length s)%nat.
Proof. intros H K. destruct s as [|c s]; cbn [strstr] in K; rewrite H in K; [discriminate|]. apply strstr_len in K. cbn [length]. lia. Qed.

Definition plain_tag (tag : list Z) : Prop := tag = str "i4" \/ tag = str "int" \/ tag = str "boolean" \/ tag = str "string".
Lemma element_text tag inner s : element tag inner ++ s = 60 :: tag ++ 62 :: inner ++ 60 :: 47 :: tag ++ 62 :: s.
Proof. unfold element. cbn [app]. rewrite <- !app_assoc. cbn [app]. rewrite <- !app_assoc. cbn [app]. rewrite <- !app_assoc. reflexivity. Qed.
Lemma find_plain tag inner s : plain_tag tag -> ~ In 60 inner ->
  find_tag tag (element tag inner ++ s) = Some (inner ++ 60 :: 47 :: tag ++ 62 :: s, Z.of_nat (length inner)).
Proof.
  intros T N. rewrite element_text. unfold find_tag.
  assert (A : strstr (60 :: tag ++ 62 :: inner ++ 60 :: 47 :: tag ++ 62 :: s) (60 :: tag ++ [62]) = Some (60 :: tag ++ 62 :: inner ++ 60 :: 47 :: tag ++ 62 :: s)).
  { apply strstr_here. destruct T as [->|[->|[->| ->]]]; reflexivity. }
  rewrite A.
  assert (B : prefixb (60 :: tag ++ [47; 62]) (60 :: tag ++ 62 :: inner ++ 60 :: 47 :: tag ++ 62 :: s) = false) by (destruct T as [->|[->|[->| ->]]]; reflexivity).
  assert (D : strstr (60 :: tag ++ 62 :: inner ++ 60 :: 47 :: tag ++ 62 :: s) (60 :: 47 :: tag ++ [62]) = Some (60 :: 47 :: tag ++ 62 :: s)).
  { destruct T as [->|[->|[->| ->]]]; cbn [str app]; repeat (rewrite strstr_step by reflexivity); rewrite (strstr_nolt _ inner _ N); apply strstr_here; reflexivity. }
  match goal with |- context [match ?X with Some q => Some (q, 0) | None => _ end] => assert (G : X = None) end.
  { destruct (strstr _ (60 :: tag ++ [47; 62])) as [q|] eqn:S0; [|reflexivity]. apply strstr_shorter in S0; [|exact B].
    replace (_ <? _)%nat with false; [reflexivity|]. symmetry. apply Nat.ltb_ge. lia. }
  rewrite G, D. f_equal. f_equal.
  - destruct T as [->|[->|[->| ->]]]; reflexivity.
  - destruct T as [->|[->|[->| ->]]]; cbn [str app length]; rewrite app_length; cbn [length]; lia.
Qed.
Lemma close_after tag inner r : plain_tag tag -> ~ In 60 inner -> strstr (element tag inner ++ close_value ++ r) close_value = Some (close_value ++ r).
Proof.
  intros T N. rewrite element_text. change close_value with (60 :: str "/value>").
  destruct T as [->|[->|[->| ->]]]; cbn [str app]; repeat (rewrite strstr_step by reflexivity); rewrite (strstr_nolt _ inner _ N);
    repeat (rewrite strstr_step by reflexivity); apply strstr_here; reflexivity.
Qed.
Lemma xml_value tag inner n r : plain_tag tag -> novalue n -> ~ In 60 inner ->
  xml_next_value (n ++ element (str "value") (element tag inner) ++ r) tag = Some (inner ++ 60 :: 47 :: tag ++ 62 :: close_value ++ r, Z.of_nat (length inner)).
Proof.
  intros T N I0. unfold xml_next_value. rewrite (find_value n _ r N (close_after tag inner r T I0)), (find_plain tag inner _ T I0).
  replace (_ <=? _) with true; [reflexivity|]. symmetry. apply Z.leb_le. unfold element. cbn [app length]. rewrite !app_length. cbn [app length].
  rewrite !app_length. cbn [app length]. rewrite ?app_length. cbn [length]. rewrite ?app_length. cbn [length]. lia.
Qed.
Lemma find_far tag xml L c k : (forall w, strstr xml (60 :: tag ++ [62]) = Some w -> (length w <= L)%nat) ->
  (forall w, strstr xml (60 :: tag ++ [47; 62]) = Some w -> (length w <= L)%nat) -> find_tag tag xml = Some (c, k) -> (length c <= L)%nat.
Proof.
  intros A B H. unfold find_tag in H. cbv zeta in H. remember (60 :: tag ++ [62]) as o eqn:O0. clear O0. destruct (strstr xml o) as [p|]; destruct (strstr xml (60 :: tag ++ [47; 62])) as [q|].
  - specialize (A _ eq_refl). specialize (B _ eq_refl). destruct (length p <? length q)%nat; [injection H as <- _; exact B|].
    destruct (strstr p _); [|discriminate]. injection H as <- _. rewrite skipn_length. lia.
  - specialize (A _ eq_refl). destruct (strstr p _); [|discriminate]. injection H as <- _. rewrite skipn_length. lia.
  - specialize (B _ eq_refl). injection H as <- _. exact B.
  - discriminate.
Qed.
Lemma xml_other tag inner n r : tag = str "i4" \/ tag = str "int" -> novalue n -> ~ In 60 inner ->
  xml_next_value (n ++ element (str "value") (element (str "string") inner) ++ r) tag = None.
Proof.
  intros T N I0. unfold xml_next_value. assert (PT : plain_tag (str "string")) by (right; right; right; reflexivity).
  rewrite (find_value n _ r N (close_after (str "string") inner r PT I0)).
  destruct (find_tag tag _) as [[c k]|] eqn:F; [|reflexivity].
  apply (find_far tag _ (length r)) in F.
  - replace (_ <=? _) with false; [reflexivity|]. symmetry. apply Z.leb_gt. rewrite !app_length. cbn [length close_value str]. lia.
  - intros w H. apply (strstr_len (60 :: tag ++ [62])). rewrite <- H, element_text. unfold close_value.
    destruct T as [->| ->]; cbn [str app]; repeat (rewrite strstr_step by reflexivity); rewrite (strstr_nolt _ inner _ I0);
      repeat (rewrite strstr_step by reflexivity); reflexivity.
  - intros w H. apply (strstr_len (60 :: tag ++ [47; 62])). rewrite <- H, element_text. unfold close_value.
    destruct T as [->| ->]; cbn [str app]; repeat (rewrite strstr_step by reflexivity); rewrite (strstr_nolt _ inner _ I0);
      repeat (rewrite strstr_step by reflexivity); reflexivity.
Qed.
Lemma xml_i4_int z n r : novalue n -> xml_next_value (n ++ element (str "value") (element (str "int") (zdec z)) ++ r) (str "i4") = None.
Proof.
  intros N. unfold xml_next_value. assert (PT : plain_tag (str "int")) by (right; left; reflexivity). pose proof (zdec_nolt z) as I0.
  rewrite (find_value n _ r N (close_after (str "int") (zdec z) r PT I0)).
  destruct (find_tag (str "i4") _) as [[c k]|] eqn:F; [|reflexivity].
  apply (find_far (str "i4") _ (length r)) in F.
  - replace (_ <=? _) with false; [reflexivity|]. symmetry. apply Z.leb_gt. rewrite !app_length. cbn [length close_value str]. lia.
  - intros w H. apply (strstr_len (60 :: str "i4" ++ [62])). rewrite <- H, element_text. unfold close_value.
    cbn [str app]; repeat (rewrite strstr_step by reflexivity); rewrite (strstr_nolt _ (zdec z) _ I0); repeat (rewrite strstr_step by reflexivity); reflexivity.
  - intros w H. apply (strstr_len (60 :: str "i4" ++ [47; 62])). rewrite <- H, element_text. unfold close_value.
    cbn [str app]; repeat (rewrite strstr_step by reflexivity); rewrite (strstr_nolt _ (zdec z) _ I0); repeat (rewrite strstr_step by reflexivity); reflexivity.
Qed.
Definition gone (r : list Z) : list Z := 62 :: close_value ++ r.
Lemma xml_forward inner tag r k : Z.of_nat (length tag) + 2 = k ->
  forward (inner ++ 60 :: 47 :: tag ++ 62 :: close_value ++ r) (Z.of_nat (length inner) + k) = Some (gone r).
Proof.
  intros <-. replace (inner ++ 60 :: 47 :: tag ++ 62 :: close_value ++ r) with ((inner ++ 60 :: 47 :: tag) ++ gone r).
  2:{ rewrite <- app_assoc. reflexivity. }
  replace (Z.of_nat (length inner) + (Z.of_nat (length tag) + 2)) with (Z.of_nat (length (inner ++ 60 :: 47 :: tag))) by (rewrite app_length; cbn [length]; lia).
  apply forward_app.
Qed.
Lemma xml_int z t n r : - 2 ^ 31 <= z < 2 ^ 31 -> t = element (str "i4") (zdec z) \/ t = element (str "int") (zdec z) -> novalue n ->
  next_int FXml (Some (n ++ element (str "value") t ++ r)) = Res (Some z) (Some (gone r)).
Proof.
  intros Hz T N. cbn [next_int]. destruct (zdec_chars z) as [_ (c0 & r0 & E0 & NM)].
  assert (HD : forall s, head (zdec z ++ s) = c0) by (intros s; rewrite E0; reflexivity).
  destruct T as [-> | ->].
  - rewrite (xml_value (str "i4") (zdec z) n r (or_introl eq_refl) N (zdec_nolt z)). rewrite HD, NM, atoi_zdec by (exact Hz || reflexivity).
    rewrite xml_forward by reflexivity. reflexivity.
  - rewrite xml_i4_int by exact N. rewrite (xml_value (str "int") (zdec z) n r (or_intror (or_introl eq_refl)) N (zdec_nolt z)).
    rewrite HD, NM, atoi_zdec by (exact Hz || reflexivity). rewrite xml_forward by reflexivity. reflexivity.
Qed.
Lemma xml_str raw n r : ~ In 60 raw -> novalue n ->
  next_str FXml (Some (n ++ element (str "value") (element (str "string") raw) ++ r)) = Res (Some raw) (Some (gone r)).
Proof.
  intros R N. cbn [next_str]. rewrite (xml_value (str "string") raw n r (or_intror (or_intror (or_intror eq_refl))) N R).
  rewrite xml_forward by reflexivity. rewrite Nat2Z.id, firstn_app, firstn_all, Nat.sub_diag. cbn [firstn]. rewrite app_nil_r. reflexivity.
Qed.
Lemma xml_bool b n r : novalue n ->
  next_bool FXml (Some (n ++ element (str "value") (element (str "boolean") (bool_text false b)) ++ r)) = Res (Some b) (Some (gone r)).
Proof.
  intros N. cbn [next_bool]. rewrite (xml_value (str "boolean") (bool_text false b) n r (or_intror (or_intror (or_introl eq_refl))) N) by (destruct b; notin).
  rewrite xml_forward by reflexivity. destruct b; reflexivity.
Qed.
Lemma xml_int_str raw n r : ~ In 60 raw -> novalue n ->
  next_int FXml (Some (n ++ element (str "value") (element (str "string") raw) ++ r)) = Res None (Some (n ++ element (str "value") (element (str "string") raw) ++ r)).
Proof. intros R N. cbn [next_int]. rewrite !xml_other by auto. reflexivity. Qed.
Lemma gone_novalue n : novalue n -> novalue (gone n).
Proof.
  intros [A B]. unfold novalue, gone, close_value. cbn [str app]. split.
  - do 9 step. exact A.
  - do 9 step. exact B.
Qed.
Lemma gone_written e vs r : written FXml e vs r -> written FXml e vs (gone r).
Proof.
  intros W. inversion W as [t S0|v vs' t ws c r' F|v vs' t n r' F N T W'|v vs' t n r' F|v t n F]; subst; try discriminate.
  - constructor. intros E0. apply gone_novalue, S0, E0.
  - unfold gone. rewrite app_assoc. change (62 :: (close_value ++ n) ++ element (str "value") t ++ r') with ((62 :: close_value ++ n) ++ element (str "value") t ++ r').
    apply w_xml; [reflexivity| |exact T|exact W']. apply gone_novalue, N.
Qed.
Lemma xml_stop t tag : novalue t -> xml_next_value t tag = None.
Proof.
  intros [A B]. unfold xml_next_value, find_tag. change (60 :: str "value" ++ [62]) with (str "<value>"). change (60 :: str "value" ++ [47; 62]) with (str "<value/>").
  rewrite A, B. reflexivity.
Qed.

(** ** Addresses *)
Lemma index_skip c n s : ~ In c n -> index c (n ++ c :: s) = Some (length n).
Proof.
  induction n as [|x n IH]; intros H; cbn [app index length]; [rewrite Z.eqb_refl; reflexivity|].
  replace (x =? c) with false; [rewrite IH; [reflexivity|]|]; [intros K; apply H; right; exact K|]. symmetry. apply Z.eqb_neq. intros ->. apply H. left; reflexivity.
Qed.
Lemma index_none c n : ~ In c n -> index c n = None.
Proof.
  induction n as [|x n IH]; intros H; cbn [index]; [reflexivity|].
  replace (x =? c) with false; [rewrite IH; [reflexivity|]|]; [intros K; apply H; right; exact K|]. symmetry. apply Z.eqb_neq. intros ->. apply H. left; reflexivity.
Qed.
Lemma skipn_S {A} (n : list A) c s : skipn (S (length n)) (n ++ c :: s) = s.
Proof. replace (n ++ c :: s) with ((n ++ [c]) ++ s) by (rewrite <- app_assoc; reflexivity). replace (S (length n)) with (length (n ++ [c])) by (rewrite app_length; simpl; lia).
  rewrite skipn_app, skipn_all, Nat.sub_diag. reflexivity. Qed.
Lemma numerals_digits d s : Forall (fun c => is_digit c = true \/ c = 45) d -> skip_numerals (d ++ s) = skip_numerals s.
Proof.
  induction 1 as [|c d H F IH]; [reflexivity|]. cbn [app skip_numerals]. replace (numeral c || (c =? 38)) with true; [exact IH|]. symmetry. unfold numeral.
  destruct H as [H| ->]; [rewrite H; lia|reflexivity].
Qed.
Lemma skip_suffix : forall n s, ~ In 61 n -> exists n', ~ In 61 n' /\ skip_numerals (n ++ 61 :: s) = n' ++ 61 :: s.
Proof.
  induction n as [|c n IH]; intros s H; cbn [app skip_numerals].
  - exists []. split; [intros []|]. reflexivity.
  - destruct (numeral c || (c =? 38)); [apply IH; intros K; apply H; right; exact K|]. exists (c :: n). split; [exact H|reflexivity].
Qed.
Lemma skip_no61 : forall t, ~ In 61 t -> ~ In 61 (skip_numerals t).
Proof. induction t as [|c t IH]; intros H; cbn [skip_numerals]; [exact H|]. destruct (_ || _); [apply IH; intros K; apply H; right; exact K|exact H]. Qed.
Lemma skip_written j e vs r : written (FGet j) e vs r -> written (FGet j) e vs (skip_numerals r).
Proof.
  intros W. inversion W as [t S0|v vs' t ws c r' F|v vs' t n r' F N T W'|v vs' t n r' F N T W'|v t n F N T]; subst; try discriminate.
  - constructor. intros E0. cbn [stops]. apply skip_no61, S0, E0.
  - destruct (skip_suffix n (t ++ 38 :: r') N) as (n' & N' & ->). apply w_get; assumption.
  - destruct (skip_suffix n t N) as (n' & N' & ->). apply w_last; assumption.
Qed.
Lemma empty_written j e : written (FGet j) e [] [].
Proof. constructor. intros _ []. Qed.

(** ** All forms *)
Lemma read_int f e z vs t : written f e (VInt z :: vs) t -> exists t', next_int f (Some t) = Res (Some z) (Some t') /\ written f e vs t'.
Proof.
  intros W. inversion W as [t0 S0|v vs' t0 ws c r F B T A W'|v vs' t0 n r F N T W'|v vs' t0 n r F N T W'|v t0 n F N T]; subst.
  - destruct T as [Hz ->]. destruct A as [A|[_ []]]. exists r. split; [apply json_int; assumption|exact W'].
  - destruct T as [Hz T]. exists (gone r). split; [apply xml_int; assumption|apply gone_written, W'].
  - destruct f as [j| |]; try discriminate. destruct T as [Hz ->]. exists (skip_numerals r). split; [|apply skip_written, W'].
    cbn [next_int]. rewrite (index_skip 61 n _ N). cbv zeta. rewrite skipn_S, atoi_zdec by (exact Hz || reflexivity).
    rewrite (numerals_digits (zdec z)) by apply zdec_chars. reflexivity.
  - destruct f as [j| |]; try discriminate. destruct T as [Hz ->]. exists []. split; [|apply empty_written].
    cbn [next_int]. rewrite (index_skip 61 n _ N). cbv zeta. rewrite skipn_S. rewrite <- (app_nil_r (zdec z)).
    rewrite atoi_zdec by (exact Hz || exact Logic.I). rewrite (numerals_digits (zdec z)) by apply zdec_chars. reflexivity.
Qed.
Lemma get_str j v n r : ~ In 61 n -> ~ In 38 v -> next_str (FGet j) (Some (n ++ 61 :: v ++ 38 :: r)) = Res (Some v) (Some r).
Proof.
  intros N V. cbn [next_str]. rewrite (index_skip 61 n _ N). cbv zeta. rewrite skipn_S, (index_skip 38 v r V).
  rewrite firstn_app, firstn_all, Nat.sub_diag. cbn [firstn]. rewrite app_nil_r, skipn_S. reflexivity.
Qed.
Lemma get_str_last j v n : ~ In 61 n -> ~ In 38 v -> next_str (FGet j) (Some (n ++ 61 :: v)) = Res (Some v) (Some []).
Proof. intros N V. cbn [next_str]. rewrite (index_skip 61 n _ N). cbv zeta. rewrite skipn_S, (index_none 38 v V). reflexivity. Qed.
Lemma read_str f e raw vs t : written f e (VStr raw :: vs) t -> exists t', next_str f (Some t) = Res (Some raw) (Some t') /\ written f e vs t'.
Proof.
  intros W. inversion W as [t0 S0|v vs' t0 ws c r F B T A W'|v vs' t0 n r F N T W'|v vs' t0 n r F N T W'|v t0 n F N T]; subst.
  - destruct T as (ts & T1 & T2 & T3 & ->). exists r. split; [apply (json_str raw ts); assumption|exact W'].
  - destruct T as [R ->]. exists (gone r). split; [apply xml_str; assumption|apply gone_written, W'].
  - destruct f as [j| |]; try discriminate. destruct T as [R ->]. exists r. split; [apply get_str; assumption|exact W'].
  - destruct f as [j| |]; try discriminate. destruct T as [R ->]. exists []. split; [apply get_str_last; assumption|apply empty_written].
Qed.
Lemma read_bool f e b vs t : written f e (VBool b :: vs) t -> exists t', next_bool f (Some t) = Res (Some b) (Some t') /\ written f e vs t'.
Proof.
  intros W. inversion W as [t0 S0|v vs' t0 ws c r F B T A W'|v vs' t0 n r F N T W'|v vs' t0 n r F N T W'|v t0 n F N T]; subst.
  - cbn [writes is_json] in T. subst t0. destruct A as [A|[_ []]]. exists r. split; [apply json_bool; assumption|exact W'].
  - cbn [writes] in T. subst t0. exists (gone r). split; [apply xml_bool; assumption|apply gone_written, W'].
  - destruct f as [j| |]; try discriminate. cbn [writes is_json] in T. subst t0. exists r. split; [|exact W'].
    cbn [next_bool]. rewrite get_str by (assumption || (destruct j, b; notin)). destruct j, b; reflexivity.
  - destruct f as [j| |]; try discriminate. cbn [writes is_json] in T. subst t0. exists []. split; [|apply empty_written].
    cbn [next_bool]. rewrite get_str_last by (assumption || (destruct j, b; notin)). destruct j, b; reflexivity.
Qed.
Lemma int_not_str f e raw vs t : is_get f = false -> written f e (VStr raw :: vs) t -> next_int f (Some t) = Res None (Some t).
Proof.
  intros G W. inversion W as [t0 S0|v vs' t0 ws c r F B T A W'|v vs' t0 n r F N T W'|v vs' t0 n r F N T W'|v t0 n F N T]; subst.
  - destruct T as (ts & T1 & T2 & T3 & ->). apply (json_int_str raw ts); assumption.
  - destruct T as [R ->]. apply xml_int_str; assumption.
  - congruence.
  - congruence.
Qed.
Lemma stop_int f t : stops f t -> next_int f (Some t) = Res None (Some t).
Proof.
  destruct f as [j| |]; intros H.
  - cbn [next_int]. rewrite index_none by exact H. reflexivity.
  - apply json_stop_int, H.
  - cbn [next_int]. rewrite !xml_stop by exact H. reflexivity.
Qed.
Lemma stop_str f t : stops f t -> next_str f (Some t) = Res None (Some t).
Proof.
  destruct f as [j| |]; intros H.
  - cbn [next_str]. rewrite index_none by exact H. reflexivity.
  - apply json_stop_str, H.
  - cbn [next_str]. rewrite !xml_stop by exact H. reflexivity.
Qed.

(** ** Meanings *)
Lemma decode_body ts : Forall jtok_ok ts -> forall m n, jmeaning ts = Some m -> (length (body ts) < n)%nat -> decode json_step n (body ts) = Some m.
Proof.
  induction 1 as [|t ts H F IH]; intros m n M L.
  - injection M as <-. destruct n; [cbn in L; lia|]. reflexivity.
  - destruct n as [|n]; [lia|]. destruct t as [c|c]; cbn [jmeaning] in M; unfold body in *; cbn [map concat jtok_text app length] in *.
    + destruct (jmeaning ts) as [m'|]; [|discriminate]. injection M as <-. destruct H as (H1 & H2 & H3). cbn [decode json_step].
      replace (c =? 92) with false by lia. cbn [skipn]. rewrite (IH m' n eq_refl ltac:(lia)). reflexivity.
    + destruct (json_esc c) as [x|] eqn:X; [|discriminate]. destruct (jmeaning ts) as [m'|]; [|discriminate]. injection M as <-.
      assert (Q : json_step (92 :: c :: concat (map jtok_text ts)) = SOut [x] 2).
      { unfold json_esc in X. unfold json_step. simpl (92 =? 92). cbv iota.
        destruct (Z.eqb_spec c 34) as [->|]; [injection X as <-; reflexivity|]. destruct (Z.eqb_spec c 92) as [->|]; [injection X as <-; reflexivity|].
        destruct (Z.eqb_spec c 47) as [->|]; [injection X as <-; reflexivity|]. destruct (c =? 98); [injection X as <-; reflexivity|].
        destruct (c =? 102); [injection X as <-; reflexivity|]. destruct (c =? 110); [injection X as <-; reflexivity|].
        destruct (c =? 114); [injection X as <-; reflexivity|]. destruct (c =? 116); [injection X as <-; reflexivity|]. discriminate. }
      cbn [decode]. rewrite Q. cbn [skipn]. rewrite (IH m' n eq_refl ltac:(lia)). reflexivity.
Qed.
Lemma named_step nm c r : xtok_ok (XName nm c) -> xml_step (38 :: nm ++ 59 :: r) = SOut [c] (S (S (length nm))).
Proof. cbn [xtok_ok In]. intros [H|[H|[H|[H|[H|[]]]]]]; injection H as <- <-; reflexivity. Qed.
Lemma named_skip (nm r : list Z) : skipn (S (S (length nm))) (38 :: nm ++ 59 :: r) = r.
Proof. cbn [skipn]. change (match nm ++ 59 :: r with [] => [] | _ :: l => skipn (length nm) l end) with (skipn (S (length nm)) (nm ++ 59 :: r)). apply skipn_S. Qed.
Lemma decode_xtoks xs : Forall xtok_ok xs -> forall n, (length (concat (map xtok_text xs)) < n)%nat -> decode xml_step n (concat (map xtok_text xs)) = Some (map xtok_char xs).
Proof.
  induction 1 as [|x xs H F IH]; intros n L.
  - destruct n; [cbn in L; lia|]. reflexivity.
  - destruct n as [|n]; [lia|]. destruct x as [c|nm c]; cbn [map concat xtok_text xtok_char app length] in *.
    + cbn [xtok_ok] in H. cbn [decode xml_step]. replace (c =? 38) with false by lia. cbn [skipn]. rewrite IH by lia. reflexivity.
    + rewrite !app_length in L. cbn [length] in L. rewrite <- app_assoc. cbn [app]. cbn [decode]. rewrite (named_step nm c _ H), (named_skip nm). rewrite IH by lia. reflexivity.
Qed.
Lemma means_decode f raw m : means f raw m -> decode_str f raw = Some m.
Proof.
  unfold means, decode_str. destruct (is_json f).
  - intros (ts & F & -> & M). unfold json_decode. apply decode_body; [exact F|exact M|lia].
  - intros (xs & F & -> & ->). unfold xml_decode. apply decode_xtoks; [exact F|lia].
Qed.
