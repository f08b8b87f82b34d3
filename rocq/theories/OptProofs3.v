(** Proofs about the times and days of tasks. *)
From Coq Require Import String.
From Verif Require Import Base NumFmt LineModel WildSpec WildModel TextProofs WebModel WebSpec WebProofs OptModel OptSpec OptProofs OptProofs2.
Open Scope list_scope. Open Scope Z_scope.

(** ** Days *)

Definition mask (d : days) : Z := match d with DDay d => 2 ^ (d - 1) | DRange a b => 2 ^ b - 2 ^ (a - 1) end.
Lemma mask_ok d x : days_ok d -> 1 <= x -> Z.testbit (mask d) (x - 1) = true <-> on_day d x.
Proof.
  intros H Hx. destruct (Z_le_gt_dec x 7) as [L|G].
  - assert (Q : x = 1 \/ x = 2 \/ x = 3 \/ x = 4 \/ x = 5 \/ x = 6 \/ x = 7) by lia.
    destruct d as [d|a b]; cbn [days_ok mask on_day] in *.
    + rewrite Z.pow2_bits_eqb by lia. rewrite Z.eqb_eq. lia.
    + assert (A : a = 1 \/ a = 2 \/ a = 3 \/ a = 4 \/ a = 5 \/ a = 6) by lia.
      assert (B : b = 2 \/ b = 3 \/ b = 4 \/ b = 5 \/ b = 6 \/ b = 7) by lia.
      repeat match goal with H : _ \/ _ |- _ => destruct H as [H|H] end; subst; try lia;
        match goal with |- ?t = true <-> _ => let v := eval vm_compute in t in change t with v end; split; intros; try lia; try discriminate; reflexivity.
  - assert (B : 0 < mask d < 2 ^ 7).
    { destruct d as [d|a b]; cbn [days_ok mask] in *.
      - split; [apply Z.pow_pos_nonneg; lia|]. apply Z.pow_lt_mono_r; lia.
      - assert (2 ^ (a - 1) < 2 ^ b) by (apply Z.pow_lt_mono_r; lia). assert (2 ^ b <= 2 ^ 7) by (apply Z.pow_le_mono_r; lia).
        assert (0 < 2 ^ (a - 1)) by (apply Z.pow_pos_nonneg; lia). lia. }
    rewrite Z.bits_above_log2; [|lia|].
    + split; [discriminate|]. destruct d as [d|a b]; cbn [days_ok on_day] in *; lia.
    + apply Z.lt_le_trans with 7; [|lia]. apply Z.log2_lt_pow2; lia.
Qed.
Lemma week_item d r bits first : days_ok d -> exists first', week_go (days_text d ++ r) bits first false = week_go r (Z.lor bits (mask d)) first' false.
Proof.
  intros H. destruct d as [d|a b]; cbn [days_ok days_text mask app] in *.
  - cbn [week_go]. replace ((49 <=? 48 + d) && (48 + d <=? 55)) with true by lia. cbv iota zeta. replace (48 + d - 48) with d by lia. exists d. reflexivity.
  - cbn [week_go]. replace ((49 <=? 48 + a) && (48 + a <=? 55)) with true by lia. cbv iota zeta. replace (48 + a - 48) with a by lia.
    change ((49 <=? 45) && (45 <=? 55)) with false. change (45 =? 44) with false. change (45 =? 45) with true. cbv iota.
    replace ((49 <=? 48 + b) && (48 + b <=? 55)) with true by lia. cbv iota zeta. replace (48 + b - 48) with b by lia.
    replace ((b <=? a) || (a =? 0)) with false by lia. cbv iota. exists 0. f_equal. rewrite <- Z.lor_assoc. f_equal.
    assert (A : a = 1 \/ a = 2 \/ a = 3 \/ a = 4 \/ a = 5 \/ a = 6) by lia.
    assert (B : b = 2 \/ b = 3 \/ b = 4 \/ b = 5 \/ b = 6 \/ b = 7) by lia.
    repeat match goal with H : _ \/ _ |- _ => destruct H as [H|H] end; subst; try lia; reflexivity.
Qed.
Lemma week_items : forall ds bits first, Forall days_ok ds ->
  week_go (OptSpec.joined [44] (map days_text ds)) bits first false = Some (fold_left Z.lor (map mask ds) bits).
Proof.
  induction ds as [|d ds IH]; intros bits first H; [reflexivity|]. inversion H as [|? ? Hd Hds]; subst. cbn [map fold_left].
  destruct ds as [|d2 ds].
  - cbn [map OptSpec.joined fold_left]. rewrite <- (app_nil_r (days_text d)). destruct (week_item d [] bits first Hd) as (f' & ->). reflexivity.
  - change (OptSpec.joined [44] (days_text d :: map days_text (d2 :: ds))) with (days_text d ++ 44 :: OptSpec.joined [44] (map days_text (d2 :: ds))).
    destruct (week_item d (44 :: OptSpec.joined [44] (map days_text (d2 :: ds))) bits first Hd) as (f' & ->). cbn [week_go].
    change ((49 <=? 44) && (44 <=? 55)) with false. change (44 =? 44) with true. cbv iota. rewrite (IH _ f' Hds). reflexivity.
Qed.
Lemma fold_bits x : forall l b, Z.testbit (fold_left Z.lor l b) x = true <-> Z.testbit b x = true \/ exists m, In m l /\ Z.testbit m x = true.
Proof.
  induction l as [|m l IH]; intros b; cbn [fold_left In].
  - split; [auto|]. intros [H|(? & [] & _)]; exact H.
  - rewrite IH, Z.lor_spec, orb_true_iff. split.
    + intros [[H|H]|(m' & H & E)]; [auto| right; exists m; auto | right; exists m'; auto].
    + intros [H|(m' & [->|H] & E)]; [auto|auto|]. right. exists m'. auto.
Qed.
Theorem week_ok : forall ds, Forall days_ok ds -> exists bits, parse_week (OptSpec.joined [44] (map days_text ds)) = Some bits /\
  forall x, 1 <= x -> Z.testbit bits (x - 1) = true <-> exists d, In d ds /\ on_day d x.
Proof.
  intros ds H. exists (fold_left Z.lor (map mask ds) 0). split; [apply week_items, H|]. intros x Hx. rewrite fold_bits. rewrite Z.bits_0.
  rewrite Forall_forall in H. split.
  - intros [X|(m & Hm & E)]; [discriminate|]. apply in_map_iff in Hm as (d & <- & Hd). exists d. split; [exact Hd|]. apply mask_ok in E; auto.
  - intros (d & Hd & E). right. exists (mask d). split; [apply in_map, Hd|]. apply mask_ok; auto.
Qed.
Lemma week_chars : forall s bits first range b, week_go s bits first range = Some b -> Forall (fun c => 49 <= c <= 55 \/ c = 44 \/ c = 45 \/ c = 32) s.
Proof.
  induction s as [|c s IH]; intros bits first range b H; [constructor|]. cbn [week_go] in H.
  destruct ((49 <=? c) && (c <=? 55)) eqn:E1.
  { constructor; [lia|]. destruct range; [|eapply IH, H]. destruct ((c - 48 <=? first) || (first =? 0)); [discriminate|eapply IH, H]. }
  destruct (Z.eqb_spec c 44) as [->|N1]; [constructor; [auto|eapply IH, H]|].
  destruct (Z.eqb_spec c 45) as [->|N2]; [constructor; [auto|eapply IH, H]|].
  destruct (Z.eqb_spec c 32) as [->|N3]; [constructor; [auto|eapply IH, H]|]. discriminate.
Qed.

(** ** Times *)

Lemma two_ok x s : 0 <= x < 100 -> two x s -> exists c t, s = c :: t /\ Forall (fun c => is_digit c = true) s /\ forall r, nondigit_head r -> atoi (s ++ r) = x.
Proof.
  intros Hx H. destruct H as [->|(Hx' & ->)].
  - exists (48 + x / 10), [48 + x mod 10]. assert (D : is_digit (48 + x / 10) = true /\ is_digit (48 + x mod 10) = true) by (unfold is_digit; lia).
    destruct D as (D1 & D2). repeat split; [repeat constructor; assumption|]. intros r Hr. unfold atoi. cbn [app]. rewrite atoll_digit by exact D1.
    cbn [pdigits]. rewrite D1, D2. rewrite pdigits_stop by exact Hr. unfold to_i32. lia.
  - exists (48 + x), []. assert (D : is_digit (48 + x) = true) by (unfold is_digit; lia). repeat split; [repeat constructor; assumption|].
    intros r Hr. unfold atoi. cbn [app]. rewrite atoll_digit by exact D. cbn [pdigits]. rewrite D. rewrite pdigits_stop by exact Hr. unfold to_i32. lia.
Qed.
Lemma digits_time l : Forall (fun c => is_digit c = true) l -> forallb time_char l = true /\ filter (Z.eqb 58) l = [] /\ ~ In 58 l /\ ~ In 42 l.
Proof.
  induction 1 as [|c l H Hs (I1 & I2 & I3 & I4)]; [auto|]. assert (48 <= c <= 57) by (unfold is_digit in H; lia). cbn [forallb filter In].
  replace (58 =? c) with false by lia. unfold time_char at 1. rewrite H. cbn [orb andb]. repeat split; auto; intros [X|X]; auto; lia.
Qed.
Lemma time_ok w s : when_ok w -> when_text w s -> exists h m, parse_time s = Some (h, Some m) /\
  match w with WAt h' m' => h = h' /\ m = m' | WEvery m' => h = -2 /\ m = m' end.
Proof.
  intros Hw H. destruct w as [h m|m]; cbn [when_ok when_text] in *.
  - destruct H as (a & b & Ha & Hb & ->). destruct (two_ok h a ltac:(lia) Ha) as (c & ta & Ea & Da & Aa). destruct (two_ok m b ltac:(lia) Hb) as (d & tb & Eb & Db & Ab).
    destruct (digits_time a Da) as (A1 & A2 & A3 & A4). destruct (digits_time b Db) as (B1 & B2 & B3 & B4).
    exists h, m. split; [|auto]. unfold parse_time. change ([58] ++ b) with (58 :: b).
    assert (E0 : beqb (a ++ 58 :: b) (str "*") = false). { apply beqb_neq. intros X. apply A4. rewrite Ea in X |- *. injection X as X _. left. exact X. }
    rewrite E0. rewrite forallb_app. cbn [forallb]. rewrite A1, B1. change (time_char 58) with true. cbn [andb negb].
    rewrite filter_app. cbn [filter]. change (58 =? 58) with true. cbv iota. rewrite A2, B2. cbn [app length]. change (negb (Z.of_nat 1 =? 1)) with false. cbv iota.
    rewrite index_app by exact A3. rewrite skipn_app, skipn_all2 by lia. replace (S (length a) - length a)%nat with 1%nat by lia. cbn [skipn app].
    replace (atoi (a ++ 58 :: b)) with h by (symmetry; apply Aa; reflexivity).
    assert (Ab' : atoi b = m) by (rewrite <- (app_nil_r b); apply Ab; exact I). rewrite Ab'.
    rewrite Ea. cbn [app]. rewrite Eb.
    assert (Hc : is_digit c = true) by (rewrite Ea in Da; inversion Da; assumption).
    assert (Hd : is_digit d = true) by (rewrite Eb in Db; inversion Db; assumption). unfold is_digit in Hc, Hd.
    replace (c =? 42) with false by lia. replace ((h <? 0) || (23 <? h)) with false by lia. replace (d =? 42) with false by lia. cbv iota.
    replace ((m <? 0) || (59 <? m)) with false by lia. reflexivity.
  - destruct H as (b & Hb & ->). destruct (two_ok m b ltac:(lia) Hb) as (d & tb & Eb & Db & Ab). destruct (digits_time b Db) as (B1 & B2 & B3 & B4).
    exists (-2), m. split; [|auto]. unfold parse_time. change (str "*:" ++ b) with (42 :: 58 :: b).
    assert (E0 : beqb (42 :: 58 :: b) (str "*") = false) by (apply beqb_neq; discriminate). rewrite E0. cbn [forallb]. rewrite B1.
    change (time_char 42) with true. change (time_char 58) with true. cbn [andb negb filter]. change (58 =? 42) with false. change (58 =? 58) with true. cbv iota.
    rewrite B2. cbn [length]. change (negb (Z.of_nat 1 =? 1)) with false. cbv iota. cbn [index]. change (42 =? 58) with false. change (58 =? 58) with true. cbv iota.
    cbn [skipn]. change (42 =? 42) with true. cbv iota. assert (Ab' : atoi b = m) by (rewrite <- (app_nil_r b); apply Ab; exact I). rewrite Ab'. rewrite Eb.
    assert (Hd : is_digit d = true) by (rewrite Eb in Db; inversion Db; assumption). unfold is_digit in Hd. replace (d =? 42) with false by lia.
    replace ((m <? 0) || (59 <? m)) with false by lia. reflexivity.
Qed.
Lemma time_chars s h m : parse_time s = Some (h, m) -> Forall time_char_ok s /\ (h = -1 \/ h = -2 \/ 0 <= h < 24) /\ (h <> -1 -> exists x, m = Some x /\ 0 <= x < 60).
Proof.
  unfold parse_time. destruct (beqb s (str "*")) eqn:E0.
  { intros H. injection H as <- <-. apply beqb_eq in E0. subst s. split; [|split; [auto|congruence]]. constructor; [unfold time_char_ok; auto|constructor]. }
  destruct (forallb time_char s) eqn:E1; cbn [negb]; [|discriminate]. destruct (negb _); [discriminate|]. destruct (index 58 s) as [i|]; [|discriminate].
  assert (C : Forall time_char_ok s).
  { rewrite forallb_forall in E1. apply Forall_forall. intros c Hc. specialize (E1 c Hc). unfold time_char, is_digit in E1. unfold time_char_ok, digit. lia. }
  cbv zeta. destruct s as [|c s]; [discriminate|]. destruct (c =? 42).
  - match goal with |- (if ?b then _ else _) = _ -> _ => destruct b end; [discriminate|].
    match goal with |- context [atoi (skipn ?k ?l)] => generalize (atoi (skipn k l)); intros z end.
    match goal with |- (if ?b then _ else _) = _ -> _ => destruct b eqn:Q end; [discriminate|]. intros H. injection H as <- <-.
    split; [exact C|]. split; [auto|]. intros _. eexists. split; [reflexivity|]. lia.
  - remember (atoi (c :: s)) as hh eqn:Eh. clear Eh. destruct ((hh <? 0) || (23 <? hh)) eqn:Q0; [discriminate|].
    match goal with |- (if ?b then _ else _) = _ -> _ => destruct b end; [discriminate|].
    match goal with |- context [atoi (skipn ?k ?l)] => generalize (atoi (skipn k l)); intros z end.
    match goal with |- (if ?b then _ else _) = _ -> _ => destruct b eqn:Q end; [discriminate|]. intros H. injection H as <- <-.
    split; [exact C|]. split; [lia|]. intros _. eexists. split; [reflexivity|]. lia.
Qed.

(** A list of times. *)
Lemma fields_app sep x c r : Forall (fun c => sep c = false) x -> sep c = true -> fields sep (x ++ c :: r) = x :: fields sep r.
Proof.
  intros H Hc. induction H as [|y x Hy H IH]; cbn [app fields]; [rewrite Hc; reflexivity|]. rewrite Hy, IH. reflexivity.
Qed.
Lemma fields_one sep x : Forall (fun c => sep c = false) x -> fields sep x = [x].
Proof. induction 1 as [|y x Hy H IH]; cbn [fields]; [reflexivity|]. rewrite Hy, IH. reflexivity. Qed.
Definition solid_text (x : list Z) : Prop := x <> [] /\ Forall (fun c => is_blank c = false) x.
Lemma trim_solid x : solid_text x -> trim x = x.
Proof.
  intros (N & H). assert (D : forall y, Forall (fun c => is_blank c = false) y -> drop_blank y = y).
  { intros y Hy. destruct Hy as [|c y Hc Hy]; [reflexivity|]. cbn [drop_blank]. rewrite Hc. reflexivity. }
  unfold trim. rewrite (D (rev x)) by (apply Forall_rev, H). rewrite rev_involutive. apply D, H.
Qed.
Lemma kept_joined seps sep l : in_set seps sep = true -> Forall (fun x => solid_text x /\ Forall (fun c => in_set seps c = false) x) l ->
  kept seps (OptSpec.joined [sep] l) = l.
Proof.
  intros Hs. unfold kept. induction l as [|x l IH]; intros H; [reflexivity|]. inversion H as [|? ? (Hx & Hn) H']; subst.
  assert (T : ne (trim x) = true) by (rewrite trim_solid by exact Hx; destruct x; [destruct Hx; contradiction|reflexivity]).
  destruct l as [|y l].
  - cbn [OptSpec.joined]. rewrite fields_one by exact Hn. cbn [map filter]. rewrite T, trim_solid by exact Hx. reflexivity.
  - change (OptSpec.joined [sep] (x :: y :: l)) with (x ++ sep :: OptSpec.joined [sep] (y :: l)). rewrite fields_app by assumption.
    cbn [map filter]. rewrite T, (trim_solid x) by exact Hx. f_equal. apply IH, H'.
Qed.
Lemma when_solid w s : when_ok w -> when_text w s -> solid_text s /\ Forall (fun c => in_set (str ";,") c = false) s.
Proof.
  intros Hw H. assert (C : Forall (fun c => digit c \/ c = 58 \/ c = 42) s /\ s <> []).
  { assert (T : forall x a, 0 <= x < 60 -> two x a -> Forall (fun c => digit c \/ c = 58 \/ c = 42) a).
    { intros x a Hx Ha. destruct (two_ok x a ltac:(lia) Ha) as (_ & _ & _ & D & _). eapply Forall_impl; [|exact D]. cbv beta. unfold is_digit, digit. lia. }
    destruct w as [h m|m]; cbn [when_ok when_text] in *.
    - destruct H as (a & b & Ha & Hb & ->). split; [|destruct a; discriminate]. apply Forall_app. split; [apply (T h); [lia|exact Ha]|].
      constructor; [auto|]. apply (T m); [lia|exact Hb].
    - destruct H as (b & Hb & ->). split; [|discriminate]. change (str "*:" ++ b) with (42 :: 58 :: b). constructor; [auto|]. constructor; [auto|]. apply (T m); [lia|exact Hb]. }
  destruct C as (C & N). split; [split; [exact N|]|].
  - eapply Forall_impl; [|exact C]. cbv beta. intros c Hc. unfold is_blank. unfold digit in Hc. lia.
  - eapply Forall_impl; [|exact C]. cbv beta. intros c Hc. unfold in_set. change (str ";,") with [59; 44]. cbn [existsb]. unfold digit in Hc. lia.
Qed.
Lemma hours_all : hours24 = map Z.of_nat (seq 0 24).
Proof. reflexivity. Qed.
Lemma times_ok : forall ws ss last, Forall2 (fun w s => when_ok w /\ when_text w s) ws ss ->
  task_times ss last = (map (fun p => (fst p, Some (snd p))) (flat_map when_times ws), true).
Proof.
  induction ws as [|w ws IH]; intros ss last H; inversion H as [|? s ? ss' (Hw & Ht) H']; subst; [reflexivity|]. cbn [task_times flat_map].
  destruct (time_ok w s Hw Ht) as (h & m & E & Q). rewrite E. cbv iota zeta. rewrite (IH ss' (Some m) H'). rewrite map_app. f_equal. f_equal.
  destruct w as [h' m'|m']; cbn [when_ok when_times] in *; destruct Q as (-> & ->).
  - replace (h' =? -2) with false by lia. reflexivity.
  - change (-2 =? -2) with true. cbv iota. unfold hours24. rewrite !map_map. reflexivity.
Qed.
Theorem task_ok : forall sep ws ss ds, sep = 44 \/ sep = 59 -> Forall2 (fun w s => when_ok w /\ when_text w s) ws ss -> Forall days_ok ds ->
  exists bits, create_task (OptSpec.joined [sep] ss) (Some (OptSpec.joined [44] (map days_text ds))) =
    Some (map (fun p => (fst p, Some (snd p))) (flat_map when_times ws), bits, true) /\
  forall x, 1 <= x -> Z.testbit bits (x - 1) = true <-> exists d, In d ds /\ on_day d x.
Proof.
  intros sep ws ss ds Hs H Hd. destruct (week_ok ds Hd) as (bits & E & B). exists bits. split; [|exact B]. unfold create_task. rewrite E.
  rewrite tokens_ok. rewrite kept_joined.
  - cbn [option_map]. rewrite (times_ok ws ss None H). reflexivity.
  - destruct Hs as [-> | ->]; reflexivity.
  - clear - H. induction H as [|w s ws ss (Hw & Ht) H IH]; constructor; [|exact IH]. apply (when_solid w s Hw Ht).
Qed.
