(** Proofs about dates in RFC 822 form. *)
From Coq Require Import String.
From Verif Require Import Base NumFmt InfoModel WildModel FeedModel WildSpec CalendarModel CalendarSpec CalendarProofs Rfc822Model Rfc822Spec.

Lemma digit_is c : digit c -> is_digit c = true.
Proof. unfold digit, is_digit. lia. Qed.
Lemma digit_not_space c : digit c -> is_space c = false.
Proof. unfold digit, is_space. lia. Qed.
Lemma scan_digits_ok ds : forall w rest, Forall digit ds -> (length ds <= w)%nat ->
  (w = length ds \/ match rest with [] => True | c :: _ => is_digit c = false end) ->
  scan_digits w (ds ++ rest) = (ds, rest).
Proof.
  induction ds as [|c ds IH]; intros w rest F L E; cbn [app].
  - destruct w; [reflexivity|]. destruct rest as [|c r]; [reflexivity|]. cbn [scan_digits].
    destruct E as [E|E]; [discriminate|]. rewrite E. reflexivity.
  - destruct w; [cbn [length] in L; lia|]. cbn [scan_digits]. rewrite digit_is by (inversion F; assumption).
    rewrite IH; [reflexivity|inversion F; assumption|cbn [length] in L; lia|].
    destruct E as [E|E]; [left; cbn [length] in E; lia|right; exact E].
Qed.
Lemma number_head n t : number_text n t -> exists c r, t = c :: r /\ digit c.
Proof. intros (N & F & _). destruct t as [|c r]; [congruence|]. exists c, r. inversion F; auto. Qed.
Lemma skip_space_digit c r : digit c -> skip_space (c :: r) = c :: r.
Proof. intros D. cbn [skip_space]. rewrite digit_not_space by exact D. reflexivity. Qed.

Lemma scan_int_plain n t w rest : number_text n t -> (length t <= w)%nat ->
  (w = length t \/ match rest with [] => True | c :: _ => is_digit c = false end) ->
  scan_int w (t ++ rest) = Some (n, rest).
Proof.
  intros T L E. destruct (number_head _ _ T) as (c & r & -> & D). destruct T as (N & F & P).
  unfold scan_int. change ((c :: r) ++ rest) with (c :: r ++ rest). rewrite skip_space_digit by exact D.
  replace (c =? 45) with false by (unfold digit in D; lia). replace (c =? 43) with false by (unfold digit in D; lia).
  change (c :: r ++ rest) with ((c :: r) ++ rest). rewrite scan_digits_ok by assumption. rewrite P. reflexivity.
Qed.
Lemma scan_int_space w l : scan_int w (str " " ++ l) = scan_int w l.
Proof. reflexivity. Qed.
Lemma scan_int_signed neg n t w rest : number_text n t -> S (length t) = w ->
  scan_int w ((if neg : bool then 45 else 43) :: t ++ rest) = Some (if neg then - n else n, rest).
Proof.
  intros T L. destruct T as (N & F & P).
  unfold scan_int. cbn [skip_space].
  replace (is_space (if neg then 45 else 43)) with false by (destruct neg; reflexivity).
  destruct neg; cbn [Z.eqb Pos.eqb]; subst w; cbn [Nat.pred]; rewrite scan_digits_ok by (try assumption; try lia; left; reflexivity);
    destruct t; try congruence; rewrite P; reflexivity.
Qed.
Lemma scan_word_ok t : forall w rest, Forall (fun c => is_space c = false) t -> (length t <= w)%nat ->
  (w = length t \/ match rest with [] => True | c :: _ => is_space c = true end) ->
  scan_word w (t ++ rest) = (t, rest).
Proof.
  induction t as [|c t IH]; intros w rest F L E; cbn [app].
  - destruct w; [reflexivity|]. destruct rest as [|c r]; [reflexivity|]. cbn [scan_word].
    destruct E as [E|E]; [discriminate|]. rewrite E. reflexivity.
  - destruct w; [cbn [length] in L; lia|]. cbn [scan_word]. replace (is_space c) with false by (inversion F; congruence).
    rewrite IH; [reflexivity|inversion F; assumption|cbn [length] in L; lia|].
    destruct E as [E|E]; [left; cbn [length] in E; lia|right; exact E].
Qed.
Lemma scan_str_ok t w rest : t <> [] -> Forall (fun c => is_space c = false) t -> (length t <= w)%nat ->
  (w = length t \/ match rest with [] => True | c :: _ => is_space c = true end) ->
  scan_str w (t ++ rest) = Some (t, rest).
Proof.
  intros N F L E. unfold scan_str. destruct t as [|c t]; [congruence|].
  change ((c :: t) ++ rest) with (c :: t ++ rest). cbn [skip_space].
  replace (is_space c) with false by (inversion F; congruence).
  change (c :: t ++ rest) with ((c :: t) ++ rest). rewrite scan_word_ok by assumption. reflexivity.
Qed.
Lemma scan_str_space w l : scan_str w (str " " ++ l) = scan_str w l.
Proof. reflexivity. Qed.

Lemma month_letters : forall k name, nth_error month_texts k = Some name ->
  length name = 3%nat /\ (k < 12)%nat /\ month_of month_names 0 name = Z.of_nat k /\ Forall (fun c => 97 <= lc c <= 122) name.
Proof.
  intros k name H. assert (L : (k < 12)%nat) by (change 12%nat with (length month_texts); apply nth_error_Some; congruence).
  do 12 (destruct k as [|k]; [cbv in H; injection H as <-; repeat split; repeat constructor; cbv; discriminate|]). lia.
Qed.
Lemma month_of_lc a b : map lc a = map lc b -> forall names n, month_of names n a = month_of names n b.
Proof.
  intros E. induction names as [|x r IH]; intros n; [reflexivity|]. cbn [month_of].
  replace (same_nocase a x) with (same_nocase b x); [rewrite IH; reflexivity|].
  unfold same_nocase. change WildModel.lower with lc. rewrite E. reflexivity.
Qed.
Lemma lc_not_space c : 97 <= lc c <= 122 -> is_space c = false.
Proof. unfold lc, is_space. destruct ((65 <=? c) && (c <=? 90)) eqn:E; lia. Qed.

Lemma rfc822_ok y mo d h mi s zone t : date_text y mo d h mi s zone t ->
  (zone < 0 \/ 60 <= zone \/ zone = 0) ->
  parse_rfc822 t = timegm (tm_of (y, mo, d) h mi s) - 60 * zone.
Proof.
  intros D Z0. destruct D as [y mo d h mi s zone wd ty tmo td th tmi ts tz [W1 W2] Td (name & Nm & Em) Hm Ty Th Tmi Ts Tz].
  destruct (month_letters _ _ Nm) as (L3 & _ & Mo & Let).
  assert (Ltmo : length tmo = 3%nat) by (apply (f_equal (@length Z)) in Em; rewrite !map_length in Em; congruence).
  assert (Ftmo : Forall (fun c => is_space c = false) tmo).
  { apply Forall_forall. intros c Hc. apply lc_not_space. assert (I : In (lc c) (map lc name)) by (rewrite <- Em; apply in_map, Hc).
    apply in_map_iff in I as (x & <- & Hx). rewrite Forall_forall in Let. apply Let, Hx. }
  unfold parse_rfc822.
  match goal with |- context [length ?l] => set (all := length l) end.
  assert (A1 : (length wd <= all)%nat) by (unfold all; rewrite !app_length; lia).
  assert (A2 : (length td <= all)%nat) by (unfold all; rewrite !app_length; lia).
  assert (A3 : (length ty <= all)%nat) by (unfold all; rewrite !app_length; lia).
  assert (A4 : (length th <= all)%nat) by (unfold all; rewrite !app_length; lia).
  assert (A5 : (length tmi <= all)%nat) by (unfold all; rewrite !app_length; lia).
  assert (A6 : (length ts <= all)%nat) by (unfold all; rewrite !app_length; lia).
  clearbody all.
  rewrite scan_str_ok; [|exact W1| |exact A1|right; reflexivity].
  2:{ eapply Forall_impl; [|exact W2]. intros c. cbv beta. unfold is_space. lia. }
  cbn [obind]. rewrite scan_int_space, (scan_int_plain d) by (auto; right; reflexivity). cbn [obind].
  rewrite scan_str_space, scan_str_ok; [|destruct tmo; discriminate|exact Ftmo|lia|left; congruence].
  cbn [obind]. rewrite scan_int_space, (scan_int_plain y) by (auto; right; reflexivity).
  cbn [obind]. rewrite scan_int_space, (scan_int_plain h) by (auto; right; reflexivity).
  cbn [obind]. 
  match goal with |- context [scan_colon (str ":" ++ ?x)] => change (scan_colon (str ":" ++ x)) with (Some x) end.
  cbn [obind]. rewrite (scan_int_plain mi) by (auto; right; reflexivity).
  cbn [obind]. match goal with |- context [scan_colon (str ":" ++ ?x)] => change (scan_colon (str ":" ++ x)) with (Some x) end.
  cbn [obind]. rewrite (scan_int_plain s) by (auto; right; reflexivity).
  cbn [obind]. rewrite scan_int_space.
  rewrite (month_of_lc _ _ Em), Mo.
  assert (T : mkTm (y - 1900) (Z.of_nat (Z.to_nat (mo - 1))) d h mi s = tm_of (y, mo, d) h mi s).
  { unfold tm_of. f_equal. lia. }
  rewrite T. unfold rfc822_time. set (base := timegm _). clearbody base.
  assert (NN : forall n t, number_text n t -> 0 <= n).
  { intros n t (_ & F & <-). assert (G : forall l a, Forall digit l -> 0 <= a -> 0 <= pdigits a l).
    { induction l as [|c l IH]; intros a Fl Ha; [exact Ha|]. cbn [pdigits]. inversion Fl; subst.
      rewrite digit_is by assumption. apply IH; [assumption|]. unfold digit in *. lia. }
    apply G; [exact F|lia]. }
  inversion Tz as [zh hh zm mm H1 H2 H3 H4 H5 E1 E2|zh hh zm mm H1 H2 H3 H4 H5 E1 E2].
  - assert (P1 := NN _ _ H1). assert (P2 := NN _ _ H3).
    assert (X := scan_int_signed false zh hh 3 mm H1 ltac:(lia)). cbv iota in X. rewrite X. cbn [obind].
    rewrite <- (app_nil_r mm), (scan_int_plain zm) by (auto; lia). cbn [obind].
    destruct (0 <? zh) eqn:Q; lia.
  - assert (P1 := NN _ _ H1). assert (P2 := NN _ _ H3).
    assert (X := scan_int_signed true zh hh 3 mm H1 ltac:(lia)). cbv iota in X. rewrite X. cbn [obind].
    rewrite <- (app_nil_r mm), (scan_int_plain zm) by (auto; lia). cbn [obind].
    destruct (0 <? - zh) eqn:Q; lia.
Qed.
