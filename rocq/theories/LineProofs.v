(** Proofs about state file lines. *)
From Verif Require Import Base NumFmt LineModel LineSpec.

Lemma cstr_id s : Forall (fun c => c <> 0) s -> cstr s = s.
Proof.
  induction 1 as [|c r H _ IH]; cbn [cstr]; [reflexivity|].
  destruct (Z.eqb_spec c 0); [contradiction|]. now rewrite IH.
Qed.

Lemma take_line_short : forall n s rest, Forall (fun c => c <> 10) s -> (length s < n)%nat ->
  take_line n (s ++ 10 :: rest) = (s ++ [10], rest).
Proof.
  induction n as [|n IH]; intros s rest H L; [inversion L|].
  destruct s as [|c s]; cbn [app take_line].
  - reflexivity.
  - inversion H; subst. destruct (Z.eqb_spec c 10); [contradiction|].
    cbn [length] in L. rewrite IH by (auto; lia). reflexivity.
Qed.

Lemma take_line_long : forall n s rest, Forall (fun c => c <> 10) s -> (n <= length s)%nat ->
  take_line n (s ++ rest) = (firstn n s, skipn n s ++ rest).
Proof.
  induction n as [|n IH]; intros s rest H L.
  - destruct s; destruct rest; reflexivity.
  - destruct s as [|c s]; cbn [length] in L; [lia|]. cbn [app take_line firstn skipn].
    inversion H; subst. destruct (Z.eqb_spec c 10); [contradiction|].
    rewrite IH by (auto; lia). reflexivity.
Qed.

Lemma last_snoc (s : list Z) d : last (s ++ [10]) d = 10.
Proof. apply last_last. Qed.

Lemma forall_last_ne (s : list Z) : Forall (fun c => c <> 10) s -> s <> [] -> (last s 0 =? 10) = false.
Proof.
  intros H N. destruct (exists_last N) as (a & b & ->). rewrite last_last.
  apply Forall_app in H as [_ H]. inversion H; subst. now apply Z.eqb_neq.
Qed.

Lemma line_text_ne10 s : line_text s -> Forall (fun c => c <> 10) s.
Proof. apply Forall_impl; tauto. Qed.
Lemma line_text_ne0 s : line_text s -> Forall (fun c => c <> 0) s.
Proof. apply Forall_impl; tauto. Qed.

Lemma forall_firstn_p {A} (P : A -> Prop) : forall n l, Forall P l -> Forall P (firstn n l).
Proof.
  induction n; intros l H; [constructor|]. destruct l; [constructor|]. inversion H; subst.
  cbn [firstn]. constructor; auto.
Qed.
Lemma forall_skipn_p {A} (P : A -> Prop) : forall n l, Forall P l -> Forall P (skipn n l).
Proof.
  induction n; intros l H; [exact H|]. destruct l; [constructor|]. inversion H; subst.
  cbn [skipn]. auto.
Qed.

Lemma cstr_line s : line_text s -> cstr (s ++ [10]) = s ++ [10].
Proof.
  intros H. apply cstr_id. apply Forall_app; split; [now apply line_text_ne0 | repeat constructor; discriminate].
Qed.

Lemma skip_rest_line : forall fuel s rest, line_text s -> (length (s ++ 10%Z :: rest) <= fuel)%nat ->
  skip_rest fuel (s ++ 10 :: rest) = rest.
Proof.
  induction fuel as [|k IH]; intros s rest H L.
  - rewrite app_length in L. cbn [length] in L. lia.
  - cbn [skip_rest]. unfold fgets.
    replace (match s ++ 10 :: rest with [] => None | _ :: _ => Some (take_line (1024 - 1) (s ++ 10 :: rest)) end)
      with (Some (take_line (1024 - 1) (s ++ 10 :: rest))) by (destruct s; reflexivity).
    change (1024 - 1)%nat with 1023%nat.
    destruct (Nat.lt_ge_cases (length s) 1023) as [S|S].
    + rewrite take_line_short by (auto using line_text_ne10). cbn beta iota.
      rewrite (cstr_line _ H).
      destruct (s ++ [10]) eqn:E; [destruct s; discriminate|]. rewrite <- E, last_snoc. reflexivity.
    + rewrite take_line_long by (auto using line_text_ne10). cbn beta iota.
      rewrite cstr_id by (apply forall_firstn_p, line_text_ne0, H).
      assert (N : firstn 1023 s <> []) by (destruct s; [cbn [length] in S; lia | discriminate]).
      destruct (firstn 1023 s) eqn:E; [contradiction|]. rewrite <- E.
      rewrite forall_last_ne; [|apply forall_firstn_p, line_text_ne10, H | now rewrite E].
      apply IH; [now apply forall_skipn_p|].
      rewrite app_length in *. rewrite skipn_length. cbn [length] in *. lia.
Qed.

Lemma removelast_firstn_S {A} (l : list A) n : (S n <= length l)%nat -> removelast (firstn (S n) l) = firstn n l.
Proof. intros H. apply removelast_firstn. lia. Qed.

(** A line of any length: the text comes back cut to [size - 2] bytes, and
    reading continues at the next line. *)
Lemma read_line_any size s rest : line_text s -> (2 <= size)%nat ->
  read_line size (s ++ 10 :: rest) = Some (firstn (size - 2) s, rest).
Proof.
  intros H SZ. unfold read_line, fgets.
  replace (match s ++ 10 :: rest with [] => None | _ :: _ => Some (take_line (size - 1) (s ++ 10 :: rest)) end)
    with (Some (take_line (size - 1) (s ++ 10 :: rest))) by (destruct s; reflexivity).
  destruct (Nat.lt_ge_cases (length s) (size - 1)) as [S|S].
  - rewrite take_line_short by (auto using line_text_ne10). cbn beta iota.
    rewrite (cstr_line _ H).
    destruct (s ++ [10]) eqn:E; [destruct s; discriminate|]. rewrite <- E, last_snoc.
    rewrite removelast_last, firstn_all2 by lia. reflexivity.
  - rewrite take_line_long by (auto using line_text_ne10). cbn beta iota.
    rewrite cstr_id by (apply forall_firstn_p, line_text_ne0, H).
    assert (N : firstn (size - 1) s <> []).
    { intros E. apply (f_equal (@length Z)) in E. rewrite firstn_length in E. cbn [length] in E. lia. }
    destruct (firstn (size - 1) s) eqn:E; [contradiction|]. rewrite <- E.
    rewrite forall_last_ne; [|apply forall_firstn_p, line_text_ne10, H | now rewrite E].
    rewrite skip_rest_line; [|now apply forall_skipn_p | reflexivity].
    replace (size - 1)%nat with (Datatypes.S (size - 2)) by lia.
    rewrite removelast_firstn_S by lia. reflexivity.
Qed.

Lemma read_line_ok size s rest : line_text s -> (length s + 2 <= size)%nat ->
  read_line size (s ++ 10 :: rest) = Some (s, rest).
Proof.
  intros H L. rewrite read_line_any by (auto; lia). rewrite firstn_all2 by lia. reflexivity.
Qed.

(** ** Numbers *)

Lemma dval10 c : is_digit c = true -> dval 10 c = Some (c - 48).
Proof.
  intros H. unfold dval, hexval. rewrite H. unfold is_digit in H.
  replace (c - 48 <? 10) with true by lia. reflexivity.
Qed.

Definition sep_head (r : list Z) : Prop := match r with [] => True | c :: _ => c = 44 end.

Lemma take_digits_pdigits l : forall acc r, Forall (fun c => is_digit c = true) l -> sep_head r ->
  take_digits 10 acc (l ++ r) = (pdigits acc l, r).
Proof.
  induction l as [|c l IH]; intros acc r H S; cbn [app take_digits pdigits].
  - destruct r as [|c r]; [reflexivity|]. cbn in S; subst. reflexivity.
  - inversion H; subst. rewrite (dval10 c), H2 by auto. apply IH; auto.
Qed.

Lemma pdigits_app_nil n : 0 <= n -> pdigits 0 (udec n) = n.
Proof. intros H. rewrite <- (app_nil_r (udec n)). apply pdigits_udec; [lia | exact I]. Qed.

Lemma scan_digits_udec n r : 0 <= n -> sep_head r -> scan_digits 10 (udec n ++ r) = Some (n, r).
Proof.
  intros H S. pose proof (udec_digits n H) as D. destruct (udec_cons n H) as (c & t & E & Dc).
  unfold scan_digits. rewrite E. cbn [app]. rewrite dval10 by auto.
  change (c :: t ++ r) with ((c :: t) ++ r). rewrite <- E.
  rewrite take_digits_pdigits by auto. rewrite pdigits_app_nil by auto. reflexivity.
Qed.

Lemma udec_go_head : forall f n acc, 0 < n -> n < 2 ^ Z.of_nat f ->
  exists c t, udec_go f n acc = c :: t /\ c <> 48.
Proof.
  induction f as [|f IH]; intros n acc P B.
  - cbn in B. lia.
  - cbn [udec_go]. destruct (Z.ltb_spec n 10).
    + exists (48 + n mod 10), acc. split; [reflexivity | lia].
    + apply IH; [lia|]. rewrite Nat2Z.inj_succ, Z.pow_succ_r in B by lia. lia.
Qed.

Lemma udec_head n : 0 < n -> exists c t, udec n = c :: t /\ c <> 48.
Proof. intros H. apply udec_go_head; [lia|]. apply udec_fuel. lia. Qed.

Lemma scan_auto_udec n r : 0 <= n -> sep_head r -> scan_auto (udec n ++ r) = Some (n, r).
Proof.
  intros H S. destruct (Z.eq_dec n 0) as [->|N].
  - change (udec 0) with [48]. cbn [app scan_auto]. change (48 =? 48) with true. cbn iota.
    destruct r as [|c r]; [reflexivity|]. cbn in S; subst. reflexivity.
  - destruct (udec_head n) as (c & t & E & Nc); [lia|].
    pose proof (scan_digits_udec n r H S) as K. rewrite E in *. cbn [app scan_auto].
    destruct (Z.eqb_spec c 48); [contradiction|]. exact K.
Qed.

Lemma to_i32_id v : in_i32 v -> to_i32 v = v.
Proof. unfold in_i32, to_i32. intros H. change (2^31) with 2147483648 in *. change (2^32) with 4294967296. lia. Qed.

Lemma digit_not_sign c t : is_digit c = true -> split_sign (skip_space (c :: t)) = (false, c :: t).
Proof.
  intros H. rewrite skip_space_digit by auto. unfold split_sign. unfold is_digit in H.
  replace (c =? 45) with false by lia. replace (c =? 43) with false by lia. reflexivity.
Qed.

Lemma scan_num_ok k v r : conv_range k v -> sep_head r -> scan_num k (zdec v ++ r) = Some (v, r).
Proof.
  intros R S. unfold scan_num, zdec.
  destruct (Z.ltb_spec v 0).
  - destruct k; [|unfold conv_range, in_u32 in R; lia].
    change ((45 :: udec (- v)) ++ r) with (45 :: (udec (- v) ++ r)).
    change (skip_space (45 :: (udec (- v) ++ r))) with (45 :: (udec (- v) ++ r)).
    cbn [split_sign]. change (45 =? 45) with true. cbn iota.
    rewrite scan_auto_udec by (auto; lia). rewrite Z.opp_involutive.
    unfold clamp. cbn [conv_range] in R.
    replace (Z.max (- 2 ^ 63) (Z.min (2 ^ 63 - 1) v)) with v by (unfold in_i32 in R; lia).
    now rewrite to_i32_id.
  - destruct (udec_cons v) as (c & t & E & D); [lia|].
    assert (SS : split_sign (skip_space (udec v ++ r)) = (false, udec v ++ r)).
    { rewrite E. cbn [app]. now apply digit_not_sign. }
    rewrite SS. destruct k; cbn [conv_range] in R.
    + rewrite scan_auto_udec by (auto; lia). unfold clamp.
      replace (Z.max (- 2 ^ 63) (Z.min (2 ^ 63 - 1) v)) with v by (unfold in_i32 in R; lia).
      now rewrite to_i32_id.
    + rewrite scan_digits_udec by (auto; lia). unfold in_u32 in R.
      replace (2 ^ 64 <=? v) with false by lia. rewrite Z.mod_small by lia. reflexivity.
Qed.

Lemma scan_fmt_ok : forall ks vs r, Forall2 conv_range ks vs -> sep_head r ->
  scan_fmt ks (fmt_nums vs ++ r) = Some vs.
Proof.
  induction ks as [|k ks IH]; intros vs r F S; inversion F; subst; [reflexivity|].
  cbn [scan_fmt]. destruct ks as [|k' ks'].
  - inversion H3; subst. cbn [fmt_nums]. rewrite scan_num_ok by auto. reflexivity.
  - inversion H3 as [|? w ? ws]; subst. cbn [fmt_nums]. rewrite <- app_assoc. cbn [app].
    rewrite scan_num_ok by (auto; reflexivity). change (44 =? 44) with true. cbn iota.
    change (match ws with [] => zdec w | _ :: _ => zdec w ++ 44 :: fmt_nums ws end) with (fmt_nums (w :: ws)).
    rewrite IH by auto. reflexivity.
Qed.

(** ** Shape of the formatted numbers *)

Lemma udec_text n : 0 <= n -> Forall (fun c => 45 <= c <= 57) (udec n).
Proof.
  intros H. eapply Forall_impl; [|exact (udec_digits n H)]. intros c D. unfold is_digit in D. lia.
Qed.

Lemma zdec_text v : Forall (fun c => 45 <= c <= 57) (zdec v).
Proof.
  unfold zdec. destruct (Z.ltb_spec v 0); [constructor; [lia|]|]; apply udec_text; lia.
Qed.

Lemma fmt_nums_text vs : Forall (fun c => 44 <= c <= 57) (fmt_nums vs).
Proof.
  induction vs as [|v vs IH]; [constructor|]. 
  assert (Zd : Forall (fun c => 44 <= c <= 57) (zdec v)) by (eapply Forall_impl; [|apply zdec_text]; cbn; lia).
  destruct vs as [|w ws]; [exact Zd|].
  change (fmt_nums (v :: w :: ws)) with (zdec v ++ 44 :: fmt_nums (w :: ws)).
  apply Forall_app; split; [exact Zd | constructor; [lia | exact IH]].
Qed.

Lemma fmt_nums_line vs : line_text (fmt_nums vs).
Proof. eapply Forall_impl; [|apply fmt_nums_text]. cbn. lia. Qed.

Lemma udec_go_len : forall f n acc k, 0 <= n < 10 ^ Z.of_nat k -> (1 <= k)%nat -> 
  (length (udec_go f n acc) <= k + length acc)%nat.
Proof.
  induction f as [|f IH]; intros n acc k B K; cbn [udec_go]; [lia|].
  destruct (Z.ltb_spec n 10); [cbn [length]; lia|].
  destruct k as [|k]; [lia|].
  rewrite Nat2Z.inj_succ, Z.pow_succ_r in B by lia.
  destruct k as [|k]; [cbn in B; lia|].
  specialize (IH (n / 10) ((48 + n mod 10) :: acc) (S k)).
  cbn [length] in IH. lia.
Qed.

Lemma zdec_len v : - 2 ^ 31 <= v < 2 ^ 32 -> (length (zdec v) <= 11)%nat.
Proof.
  intros H. unfold zdec, udec.
  destruct (Z.ltb_spec v 0); cbn [length].
  - pose proof (udec_go_len (S (Z.to_nat (Z.log2 (- v)))) (- v) [] 10) as L. cbn [length] in L.
    change (10 ^ Z.of_nat 10) with 10000000000 in L. lia.
  - pose proof (udec_go_len (S (Z.to_nat (Z.log2 v))) v [] 10) as L. cbn [length] in L.
    change (10 ^ Z.of_nat 10) with 10000000000 in L. lia.
Qed.

Lemma conv_range_32 k v : conv_range k v -> - 2 ^ 31 <= v < 2 ^ 32.
Proof. destruct k; unfold conv_range, in_i32, in_u32; lia. Qed.

Lemma fmt_nums_len : forall ks vs, Forall2 conv_range ks vs -> (length (fmt_nums vs) <= 12 * length ks)%nat.
Proof.
  induction 1 as [|k v ks vs R F IH]; [cbn; lia|].
  pose proof (zdec_len v (conv_range_32 _ _ R)). cbn [length].
  destruct vs as [|w ws]; [cbn [fmt_nums]; lia|].
  change (fmt_nums (v :: w :: ws)) with (zdec v ++ 44 :: fmt_nums (w :: ws)).
  rewrite app_length. cbn [length]. lia.
Qed.

Lemma scan_line_ok ks vs rest : Forall2 conv_range ks vs -> (length ks <= 80)%nat ->
  scan_line ks (fmt_nums vs ++ 10 :: rest) = Some (vs, rest).
Proof.
  intros F L. unfold scan_line. pose proof (fmt_nums_len _ _ F).
  rewrite read_line_ok; [|apply fmt_nums_line | lia].
  rewrite <- (app_nil_r (fmt_nums vs)), scan_fmt_ok by (auto; exact I). reflexivity.
Qed.

(** ** Writing *)

Lemma print_line_some s : (length s <= 1023)%nat -> print_line s = Some (line s).
Proof. intros H. unfold print_line. replace (Z.of_nat (length s) <=? 1023) with true by lia. reflexivity. Qed.

Lemma print_line_none s : (1024 <= length s)%nat -> print_line s = None.
Proof. intros H. unfold print_line. replace (Z.of_nat (length s) <=? 1023) with false by lia. reflexivity. Qed.

Lemma print_lines_some ls : Forall (fun s : list Z => (length s <= 1023)%nat) ls ->
  print_lines ls = Some (concat (map line ls)).
Proof.
  induction 1 as [|s ls H _ IH]; [reflexivity|]. cbn [print_lines].
  rewrite print_line_some, IH by auto. reflexivity.
Qed.

Lemma print_lines_inv ls out : print_lines ls = Some out ->
  out = concat (map line ls) /\ Forall (fun s : list Z => (length s <= 1023)%nat) ls.
Proof.
  revert out; induction ls as [|s ls IH]; intros out H; cbn [print_lines] in H.
  - inversion H; subst. split; [reflexivity | constructor].
  - unfold print_line in H. destruct (Z.leb_spec (Z.of_nat (length s)) 1023); [|discriminate].
    destruct (print_lines ls); [|discriminate]. inversion H; subst.
    destruct (IH _ eq_refl) as [-> F]. split; [reflexivity | constructor; [lia | exact F]].
Qed.
