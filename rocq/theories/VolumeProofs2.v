From Verif Require Import Base CalendarModel CalendarSpec CalendarProofs VolumeModel VolumeSpec VolumeProofs.

Lemma bytes_when_app : forall p a b, bytes_when p (a ++ b) = bytes_when p a + bytes_when p b.
Proof. induction a as [|[t x] a IH]; intro b; cbn [app bytes_when]; [lia|rewrite IH; lia]. Qed.

Lemma bytes_when_none : forall p l, (forall x, In x l -> p (fst x) = false) -> bytes_when p l = 0.
Proof.
  induction l as [|[t x] l IH]; intro H; cbn [bytes_when]; auto.
  pose proof (H (t, x) (or_introl eq_refl)) as E. cbn [fst] in E. rewrite E, IH; auto.
  intros y Hy. apply H. now right.
Qed.

Lemma add_data_rings : forall cur off b v v',
  rings_ok v -> 0 <= cur + off < 2147483648 -> -2147483648 < cur - v_time v < 2147483648 ->
  add_data cur off b v = Some v' -> rings_ok v' /\ v_time v' = cur /\ v_total v' = v_total v + b.
Proof.
  intros cur off b v v' R H D E. destruct (add_data_spec cur off b v R H D) as (w & E' & S1 & S2 & S3 & T1 & _ & T2 & _).
  rewrite E in E'. inversion E'; subst w. clear E'. destruct R as (R1 & R2 & R3).
  destruct S1 as [S1 _], S2 as [S2 _], S3 as [S3 _]. repeat split; auto; congruence.
Qed.

(** ** Totals, for any clock *)

Lemma add_all_total : forall off l v, rings_ok v -> 0 <= v_time v < 2147483648 -> clock_ok off l ->
  exists v', add_all off l v = Some v' /\ rings_ok v' /\ 0 <= v_time v' < 2147483648 /\
    v_total v' = v_total v + bytes_when (fun _ => true) l.
Proof.
  induction l as [|[t b] l IH]; intros v R T C; cbn [add_all bytes_when].
  - exists v. repeat split; auto; try lia; destruct R as (? & ? & ?); auto.
  - inversion C as [|? ? [C1 C2] C3]; subst. cbn [fst] in *.
    destruct (add_data_spec t off b v R ltac:(lia) ltac:(lia)) as (v1 & E & _).
    rewrite E. cbn [bind].
    destruct (add_data_rings t off b v v1 R ltac:(lia) ltac:(lia) E) as (R1 & T1 & S1).
    destruct (IH v1 R1 ltac:(lia) C3) as (v' & E' & R' & T' & S').
    exists v'. repeat split; auto; try lia; destruct R' as (? & ? & ?); auto.
Qed.

Lemma new_rings : rings_ok new_volume.
Proof. repeat split; reflexivity. Qed.

Lemma add_all_app : forall off a b v, add_all off (a ++ b) v = bind (add_all off a v) (add_all off b).
Proof.
  induction a as [|[t x] a IH]; intros b v; cbn [app add_all]; auto.
  destruct (add_data t off x v); cbn [bind]; auto.
Qed.

(** ** Days *)

Lemma days_step : forall off l v F, rings_ok v -> 0 <= v_time v < 2147483648 -> clock_ok off l ->
  0 < F -> v_first v = F ->
  Forall (fun x => in_days (day_of off (fst x)) = true /\ F <= day_of off (fst x)) l ->
  exists v', add_all off l v = Some v' /\ v_first v' = F /\
    forall i, 0 <= i -> nth (Z.to_nat i) (v_days v') 0 =
      nth (Z.to_nat i) (v_days v) 0 + bytes_when (fun t => day_of off t =? F + i) l.
Proof.
  induction l as [|[t b] l IH]; intros v F R T C HF Hv Hd; cbn [add_all bytes_when].
  - exists v. repeat split; auto. intros; lia.
  - inversion C as [|? ? [C1 C2] C3]; subst. cbn [fst] in *.
    inversion Hd as [|? ? [D1 D2] D3]; subst. cbn [fst] in *.
    destruct (add_data_spec t off b v R ltac:(lia) ltac:(lia)) as (v1 & E & _ & _ & _ & _ & _ & _ & _ & _ & K).
    rewrite E. cbn [bind]. fold (day_of off t) in K. rewrite D1 in K.
    destruct K as (K1 & K2 & K3).
    replace ((v_first v =? 0) || (day_of off t <? v_first v)) with false in K1 by lia.
    destruct (add_data_rings t off b v v1 R ltac:(lia) ltac:(lia) E) as (R1 & T1 & S1).
    destruct (IH v1 (v_first v) R1 ltac:(lia) C3 HF K1 D3) as (v' & E' & F' & G').
    exists v'. repeat split; auto. intros i Hi. rewrite G', K3, K1 by lia.
    replace (i =? day_of off t - v_first v) with (day_of off t =? v_first v + i) by lia. lia.
Qed.

Lemma days_all : forall off t0 b0 r, clock_ok off ((t0, b0) :: r) ->
  Forall (fun x => in_days (day_of off (fst x)) = true /\ day_of off t0 <= day_of off (fst x)) ((t0, b0) :: r) ->
  exists v', add_all off ((t0, b0) :: r) new_volume = Some v' /\ v_first v' = day_of off t0 /\
    forall k, day_volume v' k = bytes_when (fun t => day_of off t =? k) ((t0, b0) :: r).
Proof.
  intros off t0 b0 r C Hd. pose proof new_rings as R.
  inversion C as [|? ? [C1 C2] C3]; subst. cbn [fst] in *.
  inversion Hd as [|? ? [D1 D2] D3]; subst. cbn [fst] in *.
  destruct (add_data_spec t0 off b0 new_volume R ltac:(lia)) as (v1 & E & _ & _ & _ & _ & _ & _ & _ & _ & K).
  { cbn [new_volume v_time]. lia. }
  fold (day_of off t0) in K. rewrite D1 in K. destruct K as (K1 & K2 & K3).
  cbn [new_volume v_first Z.eqb orb] in K1.
  assert (P : 0 < day_of off t0) by (unfold in_days in D1; lia).
  destruct (add_data_rings t0 off b0 new_volume v1 R ltac:(lia)) as (R1 & T1 & S1); auto.
  { cbn [new_volume v_time]. lia. }
  destruct (days_step off r v1 (day_of off t0) R1 ltac:(lia) C3 P K1 D3) as (v' & E' & F' & G').
  exists v'. cbn [add_all]. rewrite E. cbn [bind]. split; auto. split; auto.
  intro k. unfold day_volume. rewrite F'. destruct (k <? day_of off t0) eqn:Ek.
  - symmetry. apply bytes_when_none. intros x Hx.
    rewrite Forall_forall in Hd. destruct (Hd x Hx) as [_ Hle]. lia.
  - rewrite G', K3 by lia. cbn [bytes_when].
    replace (nth (Z.to_nat (k - day_of off t0)) (v_days new_volume) 0) with 0
      by (cbn; now destruct (Z.to_nat (k - day_of off t0))).
    rewrite K1.
    replace (day_of off t0 + (k - day_of off t0)) with k by lia.
    replace (k - day_of off t0 =? day_of off t0 - day_of off t0) with (day_of off t0 =? k) by lia. lia.
Qed.

(** ** Rings, for a clock that does not run backwards *)

Lemma ring_ok_step : forall n u off ring ring' T T' l b c,
  0 < n -> 0 < u -> ring_ok n u off ring T l ->
  (forall x, In x l -> fst x <= T) -> T <= T' ->
  c = Z.min n ((T' + off) / u - (T + off) / u) ->
  ring_step n (((T' + off) / u) mod n) 1 c b ring ring' ->
  ring_ok n u off ring' T' (l ++ [(T', b)]).
Proof.
  intros n u off ring ring' T T' l b c Hn Hu [L H] Hl HT Hc [L' S]. split; [lia|].
  intros k Hk.
  assert (HI : (T + off) / u <= (T' + off) / u) by (apply Z.div_le_mono; lia).
  set (I' := (T' + off) / u) in *. set (I := (T + off) / u) in *.
  assert (Hold : forall x, In x l -> (fst x + off) / u <= I).
  { intros x Hx. apply Z.div_le_mono; [lia|]. specialize (Hl x Hx). lia. }
  assert (B : 0 <= (I' - k) mod n < n) by (apply Z.mod_pos_bound; lia).
  assert (Ek : ((I' mod n - (I' - k) mod n) * 1) mod n = k).
  { rewrite Z.mul_1_r, <- Zminus_mod. replace (I' - (I' - k)) with k by lia. now apply Z.mod_small. }
  rewrite S by lia. rewrite Ek. rewrite bytes_when_app. cbn [bytes_when]. fold I'.
  assert (E0 : ((I' - k) mod n =? I' mod n) = (I' =? I' - k)).
  { destruct (Z.eqb_spec k 0) as [->|Nk].
    - rewrite Z.sub_0_r. now rewrite !Z.eqb_refl.
    - replace (I' =? I' - k) with false by lia. apply Z.eqb_neq. intro Q. rewrite Q in Ek.
      rewrite Z.sub_diag, Z.mul_0_l, Z.mod_0_l in Ek by lia. lia. }
  rewrite E0. clearbody I I'. clear L' S E0.
  assert (Old : (if k <? c then 0 else nth (Z.to_nat ((I' - k) mod n)) ring 0) =
                bytes_when (fun t => (t + off) / u =? I' - k) l).
  { destruct (k <? c) eqn:Ec.
    - symmetry. apply bytes_when_none. intros x Hx. specialize (Hold x Hx).
      apply Z.eqb_neq. clear - Hold Ec Hc. lia.
    - assert (c = I' - I) by lia. specialize (H (k - c) ltac:(lia)).
      replace (I - (k - c)) with (I' - k) in H by lia. exact H. }
  rewrite Old. lia.
Qed.

Lemma ring_ok_nil : forall n u off T, 0 < n -> ring_ok n u off (repeat 0 (Z.to_nat n)) T [].
Proof.
  intros. split; [rewrite repeat_length; lia|]. intros k Hk. cbn [bytes_when].
  apply nth_repeat.
Qed.

Record vol_ok (Pm Ph : Prop) (off : Z) (v : volume) (T : Z) (l : list (Z * Z)) : Prop := {
  vo_time : v_time v = T;
  vo_rings : rings_ok v;
  vo_range : 0 <= T < 2147483648;
  vo_past : forall x, In x l -> fst x <= T;
  vo_sec : ring_ok 60 1 off (v_sec v) T l;
  vo_min : Pm -> ring_ok 60 60 off (v_min v) T l;
  vo_hour : Ph -> ring_ok 24 3600 off (v_hour v) T l;
  vo_slots : T = 0 \/ (v_ms v = ((T + off) / 60) mod 60 /\ v_hs v = ((T + off) / 3600) mod 24)
}.

Lemma vol_step : forall Pm Ph off v T l t b,
  vol_ok Pm Ph off v T l -> T <= t -> 86400 <= t < 2147483648 -> 0 <= t + off < 2147483648 ->
  (Pm -> t - T < 60 \/ 3600 <= t - T) -> (Ph -> t - T < 3600 \/ 86400 <= t - T) ->
  exists v', add_data t off b v = Some v' /\ vol_ok Pm Ph off v' t (l ++ [(t, b)]).
Proof.
  intros Pm Ph off v T l t b [] HT Ht Ho Hpm Hph.
  destruct (add_data_spec t off b v vo_rings0 Ho ltac:(lia))
    as (v' & E & S1 & S2 & S3 & _ & _ & T1 & M1 & M2 & _).
  destruct (add_data_rings t off b v v' vo_rings0 Ho ltac:(lia) E) as (R' & T' & _).
  rewrite vo_time0 in S1, S2, S3.
  assert (Sg : sgn (t - T) = 1) by (unfold sgn; destruct (t - T <? 0) eqn:X; lia).
  rewrite Sg in S1, S2, S3.
  exists v'. split; auto. constructor; auto; try lia.
  - intros x Hx. apply in_app_or in Hx as [Hx|[<-|[]]]; [specialize (vo_past0 x Hx); lia|cbn; lia].
  - apply (ring_ok_step 60 1 off (v_sec v) (v_sec v') T t l b (sec_count (t - T))); auto; try lia.
    + unfold sec_count. rewrite !Z.div_1_r.
      destruct (t - T <? 0) eqn:X; [lia|]. destruct (60 <=? t - T) eqn:Y; lia.
    + rewrite Z.div_1_r. exact S1.
  - intro P. specialize (vo_min0 P). specialize (Hpm P).
    apply (ring_ok_step 60 60 off (v_min v) (v_min v') T t l b
             (min_count (t - T) (((t + off) / 60) mod 60 =? v_ms v))); auto; try lia.
    clear - Hpm HT Ht vo_slots0 vo_range0.
    unfold min_count. replace (t - T <? 0) with false by lia.
    destruct (Z.lt_ge_cases (t - T) 3600) as [Hlt|Hge].
    + destruct Hpm as [Hpm|?]; [|lia]. destruct vo_slots0 as [?|[-> _]]; [lia|].
      replace ((t - T) / 60) with 0 by lia. cbn [Z.leb Z.compare Z.eqb andb].
      destruct (negb _ && negb _) eqn:X; lia.
    + replace (60 <=? (t - T) / 60) with true by lia. cbn [Z.eqb andb]. lia.
  - intro P. specialize (vo_hour0 P). specialize (Hph P).
    apply (ring_ok_step 24 3600 off (v_hour v) (v_hour v') T t l b
             (hour_count (t - T) (((t + off) / 3600) mod 24 =? v_hs v))); auto; try lia.
    clear - Hph HT Ht vo_slots0 vo_range0.
    unfold hour_count. replace (t - T <? 0) with false by lia.
    destruct (Z.lt_ge_cases (t - T) 86400) as [Hlt|Hge].
    + destruct Hph as [Hph|?]; [|lia]. destruct vo_slots0 as [?|[_ ->]]; [lia|].
      replace ((t - T) / 3600) with 0 by lia. cbn [Z.leb Z.compare Z.eqb andb].
      destruct (negb _ && negb _) eqn:X; lia.
    + replace (24 <=? (t - T) / 3600) with true by lia. cbn [Z.eqb andb]. lia.
Qed.

Lemma vol_all : forall (Pm Ph : Prop) off r v T l,
  vol_ok Pm Ph off v T l -> increasing T r -> clock_ok off r -> Forall (fun x => 86400 <= fst x) r ->
  (Pm -> spaced 60 3600 T r) -> (Ph -> spaced 3600 86400 T r) ->
  exists v', add_all off r v = Some v' /\ vol_ok Pm Ph off v' (last_time T r) (l ++ r).
Proof.
  induction r as [|[t b] r IH]; intros v T l H Hi C D Hm Hh.
  - exists v. cbn. rewrite app_nil_r. auto.
  - cbn [increasing] in Hi. destruct Hi as [Hi1 Hi2].
    inversion C as [|? ? [C1 C2] C3]; subst. cbn [fst] in *.
    inversion D as [|? ? D1 D2]; subst. cbn [fst] in *.
    destruct (vol_step Pm Ph off v T l t b H Hi1 ltac:(lia) ltac:(lia)) as (v1 & E & H1).
    { intro P. destruct (Hm P). auto. }
    { intro P. destruct (Hh P). auto. }
    destruct (IH v1 t (l ++ [(t, b)]) H1 Hi2 C3 D2) as (v' & E' & H').
    { intro P. destruct (Hm P). auto. }
    { intro P. destruct (Hh P). auto. }
    exists v'. cbn [add_all]. rewrite E. cbn [bind]. split; auto.
    rewrite <- app_assoc in H'. exact H'.
Qed.

Lemma increasing_ge : forall r a, increasing a r -> Forall (fun x => a <= fst x) r.
Proof.
  induction r as [|[t b] r IH]; intros a H; constructor; cbn [fst increasing] in *; [tauto|].
  destruct H as [H1 H2]. apply IH in H2. eapply Forall_impl; [|exact H2]. cbn. intros. lia.
Qed.

Lemma vol_new : forall off r,
  increasing 86400 r -> clock_ok off r ->
  exists v', add_all off r new_volume = Some v' /\
    vol_ok (spaced 60 3600 0 r) (spaced 3600 86400 0 r) off v' (last_time 0 r) r.
Proof.
  intros off r Hi C.
  assert (D : Forall (fun x => 86400 <= fst x) r).
  { apply increasing_ge. exact Hi. }
  destruct (vol_all (spaced 60 3600 0 r) (spaced 3600 86400 0 r) off r new_volume 0 []) as (v' & E & H); auto.
  - constructor; cbn [new_volume v_time v_sec v_min v_hour v_ms v_hs]; auto; try lia.
    + apply new_rings.
    + intros x [].
    + apply (ring_ok_nil 60). lia.
    + intros _. apply (ring_ok_nil 60). lia.
    + intros _. apply (ring_ok_nil 24). lia.
  - destruct r as [|[t b] r]; auto. cbn in *. split; [lia|tauto].
  - exists v'. auto.
Qed.
