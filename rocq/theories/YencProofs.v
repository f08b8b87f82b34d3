From Verif Require Import Base YencModel YencSpec.

Definition pre (o : list Z) (r : dres) : dres :=
  mkD (d_code r) (o ++ d_out r) (d_state r) (d_rest r).

Lemma pre_pre a b r : pre a (pre b r) = pre (a ++ b) r.
Proof. unfold pre; simpl. rewrite app_assoc. reflexivity. Qed.

Lemma pre_nil r : pre [] r = r.
Proof. destruct r; reflexivity. Qed.

(** One step of the specification. *)
Lemma yrun_cons st c t :
  yrun st (c :: t) =
  (let '(o, st', e) := ystep st c in
   if e =? 0 then pre o (yrun st' t) else mkD e o st' t).
Proof. simpl. destruct (ystep st c) as [[o st'] e]. destruct (e =? 0); reflexivity. Qed.

Lemma sub8_106 c : sub8 c 106 = (c - 106) mod 256.
Proof. reflexivity. Qed.
Lemma sub8_42 c : sub8 c 42 = (c - 42) mod 256.
Proof. reflexivity. Qed.

Ltac zb :=
  repeat match goal with
  | H : (?a =? ?b) = true |- _ => apply Z.eqb_eq in H; subst
  end.

Ltac ys := rewrite ?yrun_cons; unfold ystep; 
  repeat match goal with
  | H : (?a =? ?b) = _ |- context [?a =? ?b] => rewrite H
  end; simpl.

Lemma y_S_CR_10 t : yrun S_CR (10 :: t) = yrun S_CRLF t.
Proof. rewrite yrun_cons. apply pre_nil. Qed.
Lemma y_S_CRLF_46 t : yrun S_CRLF (46 :: t) = yrun S_CRLFDT t.
Proof. rewrite yrun_cons. apply pre_nil. Qed.
Lemma y_S_CRLF_61 t : yrun S_CRLF (61 :: t) = yrun S_CRLFEQ t.
Proof. rewrite yrun_cons. apply pre_nil. Qed.
Lemma y_S_CRLFDT_13 t : yrun S_CRLFDT (13 :: t) = yrun S_CRLFDTCR t.
Proof. rewrite yrun_cons. apply pre_nil. Qed.
Lemma y_S_CRLFDT_61 t : yrun S_CRLFDT (61 :: t) = yrun S_CRLFEQ t.
Proof. rewrite yrun_cons. apply pre_nil. Qed.
Lemma y_S_NONE_10 t : yrun S_NONE (10 :: t) = yrun S_NONE t.
Proof. rewrite yrun_cons. apply pre_nil. Qed.
Lemma y_S_NONE_13 t : yrun S_NONE (13 :: t) = yrun S_CR t.
Proof. rewrite yrun_cons. apply pre_nil. Qed.
Lemma y_S_NONE_61 t : yrun S_NONE (61 :: t) = yrun S_EQ t.
Proof. rewrite yrun_cons. apply pre_nil. Qed.

Lemma ytail_spec rem acc :
  (length rem <= 2)%nat -> ytail rem acc = pre (rev acc) (yrun S_NONE rem).
Proof.
  intros H.
  destruct rem as [|c [|c1 [|c2 rem]]]; [| | | simpl in H; lia].
  - unfold pre; simpl. rewrite app_nil_r. reflexivity.
  - unfold ytail, ytail_last.
    destruct (c =? 10) eqn:E10; destruct (c =? 13) eqn:E13; destruct (c =? 61) eqn:E61;
      zb; try discriminate; simpl; unfold ystep; rewrite ?E10, ?E13, ?E61; simpl;
      unfold pre; simpl; rewrite ?app_nil_r; reflexivity.
  - unfold ytail, ytail_last.
    destruct (c =? 13) eqn:E13; [|destruct (c =? 10) eqn:E10; [|destruct (c =? 61) eqn:E61]];
    destruct (c1 =? 10) eqn:F10; destruct (c1 =? 13) eqn:F13; destruct (c1 =? 61) eqn:F61;
      zb; try discriminate; simpl; unfold ystep; rewrite ?E10, ?E13, ?E61, ?F10, ?F13, ?F61; simpl;
      rewrite ?F10, ?F13, ?F61; simpl;
      unfold pre; simpl; rewrite ?app_nil_r, <- ?app_assoc; reflexivity.
Qed.

Lemma yloop_spec f rem acc :
  (length rem < f)%nat -> yloop f rem acc = pre (rev acc) (yrun S_NONE rem).
Proof.
  revert rem acc; induction f as [|f IH]; intros rem acc Hl; [lia|].
  destruct rem as [|c [|c1 [|c2 rest]]];
    [apply ytail_spec; simpl; lia | apply ytail_spec; simpl; lia | apply ytail_spec; simpl; lia |].
  cbn [yloop].
  simpl in Hl.
  destruct (c =? 13) eqn:E13.
  - destruct (c1 =? 10) eqn:F10.
    + destruct (c2 =? 46) eqn:G46.
      * destruct rest as [|e r1].
        { zb. simpl. rewrite ?app_nil_r. unfold pre; simpl; rewrite ?app_nil_r. reflexivity. }
        destruct (e =? 13) eqn:H13.
        { destruct r1 as [|e2 r2].
          - zb. unfold pre; simpl; rewrite ?app_nil_r. reflexivity.
          - destruct (e2 =? 10) eqn:I10.
            + zb. unfold pre; simpl; rewrite ?app_nil_r. reflexivity.
            + rewrite IH by (simpl in *; lia). zb.
              rewrite y_S_NONE_13.
              rewrite y_S_CR_10.
              rewrite y_S_CRLF_46.
              rewrite y_S_CRLFDT_13.
              rewrite !yrun_cons. unfold ystep. rewrite I10. reflexivity. }
        destruct (e =? 61) eqn:H61.
        { destruct r1 as [|e2 r2].
          - zb. unfold pre; simpl; rewrite ?app_nil_r. reflexivity.
          - destruct (e2 =? 121) eqn:I121.
            + zb. unfold pre; simpl; rewrite ?app_nil_r. reflexivity.
            + rewrite IH by (destruct (e2 =? 13); simpl in *; lia). zb.
              rewrite y_S_NONE_13.
              rewrite y_S_CR_10.
              rewrite y_S_CRLF_46.
              rewrite y_S_CRLFDT_61.
              rewrite (yrun_cons S_CRLFEQ). unfold ystep. rewrite I121. simpl (0 =? 0). cbn iota.
              cbn [rev]. rewrite pre_pre.
              destruct (e2 =? 13) eqn:J13; [|reflexivity]. zb.
              rewrite y_S_NONE_13.
              reflexivity. }
        { rewrite IH by (simpl in *; lia). zb.
          rewrite y_S_NONE_13.
          rewrite y_S_CR_10.
          rewrite y_S_CRLF_46.
          rewrite !yrun_cons. unfold ystep. rewrite H13, H61. reflexivity. }
      * destruct (c2 =? 61) eqn:G61.
        { destruct rest as [|e r1].
          - zb. unfold pre; simpl; rewrite ?app_nil_r. reflexivity.
          - destruct (e =? 121) eqn:I121.
            + zb. unfold pre; simpl; rewrite ?app_nil_r. reflexivity.
            + rewrite IH by (destruct (e =? 13); simpl in *; lia). zb.
              rewrite y_S_NONE_13.
              rewrite y_S_CR_10.
              rewrite y_S_CRLF_61.
              rewrite (yrun_cons S_CRLFEQ). unfold ystep. rewrite I121. simpl (0 =? 0). cbn iota.
              cbn [rev]. rewrite pre_pre.
              destruct (e =? 13) eqn:J13; [|reflexivity]. zb.
              rewrite y_S_NONE_13.
              reflexivity. }
        { rewrite IH by (simpl in *; lia). zb.
          rewrite y_S_NONE_13.
          rewrite y_S_CR_10.
          rewrite y_S_NONE_10.
          rewrite !yrun_cons. unfold ystep. rewrite G46, G61. reflexivity. }
    + rewrite IH by (simpl in *; lia). zb.
      rewrite y_S_NONE_13.
      rewrite (yrun_cons S_CR c1), (yrun_cons S_NONE c1). unfold ystep. rewrite F10. reflexivity.
  - destruct (c =? 10) eqn:E10.
    { rewrite IH by (simpl in *; lia). zb.
      rewrite y_S_NONE_10. reflexivity. }
    destruct (c =? 61) eqn:E61.
    { rewrite IH by (destruct (c1 =? 13); simpl in *; lia). zb.
      rewrite y_S_NONE_61.
      rewrite (yrun_cons S_EQ c1). unfold ystep. simpl (0 =? 0). cbn iota.
      cbn [rev]. rewrite pre_pre.
      destruct (c1 =? 13) eqn:J13; [|reflexivity]. zb.
      rewrite y_S_NONE_13.
      reflexivity. }
    rewrite IH by (simpl in *; lia).
    rewrite (yrun_cons S_NONE c). unfold ystep. rewrite E13, E10, E61. simpl (0 =? 0). cbn iota.
    cbn [rev]. rewrite pre_pre. reflexivity.
Qed.

Lemma ymain_spec rem acc : ymain rem acc = pre (rev acc) (yrun S_NONE rem).
Proof. apply yloop_spec. lia. Qed.

Definition eqw (st : ystate) : nat := match st with S_CRLFEQ => 1 | _ => 0 end.

Lemma ypro_spec f st rem acc :
  (2 * length rem + eqw st <= f)%nat -> (rem = [] -> (0 < f)%nat) ->
  ypro f st rem acc = pre (rev acc) (yrun st rem).
Proof.
  revert st rem acc; induction f as [|f IH]; intros st rem acc Hl H0.
  { destruct rem; [specialize (H0 eq_refl); lia | simpl in Hl; lia]. }
  destruct rem as [|c t]; cbn [ypro].
  { unfold pre; simpl; rewrite app_nil_r; reflexivity. }
  simpl in Hl.
  assert (Hrec : forall st' t' acc', t' = t -> ypro f st' t' acc' = pre (rev acc') (yrun st' t')).
  { intros st' t' acc' ->. apply IH; [destruct st', st; simpl in *; lia | intros ->; simpl in *; lia]. }
  destruct st; rewrite yrun_cons; unfold ystep.
  - destruct (c =? 46) eqn:E1; [rewrite Hrec by reflexivity; simpl (0 =? 0); cbn iota; rewrite pre_nil; reflexivity|].
    destruct (c =? 61) eqn:E2; [rewrite Hrec by reflexivity; simpl (0 =? 0); cbn iota; rewrite pre_nil; reflexivity|].
    rewrite ymain_spec. rewrite yrun_cons. unfold ystep. rewrite E2. reflexivity.
  - simpl (0 =? 0); cbn iota. destruct (c =? 13) eqn:E1.
    + rewrite Hrec by reflexivity. cbn [rev]. rewrite pre_pre. reflexivity.
    + rewrite ymain_spec. cbn [rev]. rewrite pre_pre. reflexivity.
  - destruct (c =? 10) eqn:E1; [rewrite Hrec by reflexivity; simpl (0 =? 0); cbn iota; rewrite pre_nil; reflexivity|].
    rewrite ymain_spec. rewrite yrun_cons. unfold ystep. rewrite E1. reflexivity.
  - rewrite ymain_spec. rewrite yrun_cons. unfold ystep. reflexivity.
  - destruct (c =? 13) eqn:E1; [rewrite Hrec by reflexivity; simpl (0 =? 0); cbn iota; rewrite pre_nil; reflexivity|].
    destruct (c =? 61) eqn:E2; [rewrite Hrec by reflexivity; simpl (0 =? 0); cbn iota; rewrite pre_nil; reflexivity|].
    rewrite ymain_spec. rewrite yrun_cons. unfold ystep. rewrite E1, E2. reflexivity.
  - destruct (c =? 10) eqn:E1; [unfold pre; simpl; rewrite app_nil_r; reflexivity|].
    rewrite ymain_spec. rewrite yrun_cons. unfold ystep. rewrite E1. reflexivity.
  - destruct (c =? 121) eqn:E1; [unfold pre; simpl; rewrite app_nil_r; reflexivity|].
    rewrite IH; [|simpl in *; lia|discriminate].
    rewrite yrun_cons. unfold ystep. reflexivity.
Qed.

Lemma decode_scalar_spec st src : decode_scalar st src = yrun st src.
Proof.
  unfold decode_scalar. rewrite ypro_spec; [apply pre_nil | | intros ->; simpl; lia].
  destruct st; simpl; lia.
Qed.

(** Chunk independence of the specification. *)
Lemma yrun_app st a b :
  yrun st (a ++ b) =
  (let r := yrun st a in
   if d_code r =? 0 then pre (d_out r) (yrun (d_state r) b)
   else mkD (d_code r) (d_out r) (d_state r) (d_rest r ++ b)).
Proof.
  revert st; induction a as [|c a IH]; intros st.
  - simpl. rewrite pre_nil. reflexivity.
  - rewrite <- app_comm_cons, !yrun_cons.
    destruct (ystep st c) as [[o st'] e].
    destruct (e =? 0) eqn:E.
    + rewrite IH. cbn zeta. destruct (yrun st' a) as [code out s r].
      unfold pre; simpl. destruct (code =? 0); simpl; rewrite ?app_assoc; reflexivity.
    + simpl. rewrite E. reflexivity.
Qed.

Lemma feed_concat st chunks : feed st chunks = yrun st (concat chunks).
Proof.
  revert st; induction chunks as [|c cs IH]; intros st; [reflexivity|].
  cbn [feed concat]. rewrite yrun_app, decode_scalar_spec, IH. cbn zeta.
  destruct (d_code (yrun st c) =? 0); reflexivity.
Qed.

Lemma feed_single st chunks : feed st chunks = feed st [concat chunks].
Proof. rewrite !feed_concat. simpl. rewrite app_nil_r. reflexivity. Qed.

Lemma feed_decode st chunks : feed st chunks = decode_scalar st (concat chunks).
Proof. rewrite feed_concat, decode_scalar_spec. reflexivity. Qed.

(** ** Round trip *)

(** Decoder states compatible with the encoder column. *)
Definition enc_inv (lnsz : Z) (st : ystate) : Prop :=
  (lnsz = 0 /\ st = S_CRLF) \/ (lnsz > 0 /\ st = S_NONE).

Lemma esc_byte b ch0 c : is_byte b -> ch0 = (b + 42) mod 256 ->
  ((ch0 =? 0) || (ch0 =? 10) || (ch0 =? 13) || (ch0 =? 61) || (ch0 =? 32) || (ch0 =? 9)) = true ->
  c = (ch0 + 64) mod 256 ->
  (c - 106) mod 256 = b /\ c <> 13 /\ c <> 121 /\ c <> 46.
Proof. unfold is_byte; intros Hb E0 He Ec. lia. Qed.

Lemma plain_byte b : is_byte b -> ((b + 42) mod 256 - 42) mod 256 = b.
Proof. unfold is_byte; intros; lia. Qed.

Lemma yrun_enc width data : forall lnsz st tail,
  bytes_ok data -> 0 <= lnsz -> enc_inv lnsz st -> (data = [] -> st = S_CRLF) ->
  yrun st (yenc_bytes width lnsz data ++ tail) = pre data (yrun S_CRLF tail).
Proof.
  induction data as [|b rest IH]; intros lnsz st tail Hb Hn Hi H0.
  { simpl. rewrite (H0 eq_refl), pre_nil. reflexivity. }
  inversion Hb as [|? ? Hb1 Hb2]; subst.
  assert (HNL : forall l2 (nl := (width <=? l2) || match rest with [] => true | _ => false end) st',
    st' = S_NONE -> 0 < l2 ->
    yrun st' (((if nl then [13; 10] else []) ++ yenc_bytes width (if nl then 0 else l2) rest) ++ tail)
    = pre rest (yrun S_CRLF tail)).
  { intros l2 nl st' -> Hl2. subst nl.
    destruct ((width <=? l2) || _) eqn:En.
    - rewrite <- app_assoc.
      change ([13; 10] ++ (yenc_bytes width 0 rest ++ tail)) with (13 :: 10 :: (yenc_bytes width 0 rest ++ tail)).
      rewrite y_S_NONE_13.
      rewrite y_S_CR_10.
      apply IH; [assumption | lia | left; auto | auto].
    - simpl. apply IH; [assumption | lia | right; split; [lia|reflexivity] |].
      intros ->. rewrite orb_true_r in En. discriminate. }
  cbn [yenc_bytes]. cbv zeta.
  set (ch0 := (b + 42) mod 256).
  destruct ((ch0 =? 0) || (ch0 =? 10) || (ch0 =? 13) || (ch0 =? 61) || (ch0 =? 32) || (ch0 =? 9)) eqn:Ee.
  - (* escaped *)
    destruct (esc_byte b ch0 ((ch0 + 64) mod 256) Hb1 eq_refl Ee eq_refl) as (Hv & H13 & H121 & H46).
    set (c := (ch0 + 64) mod 256) in *.
    replace (c =? 46) with false by lia. cbn [andb].
    rewrite <- !app_assoc. simpl app.
    assert (Hesc : forall X, yrun st (61 :: c :: X) = pre [b] (yrun S_NONE X)).
    { intros X. destruct Hi as [[_ ->]|[_ ->]].
      - rewrite y_S_CRLF_61.
        rewrite (yrun_cons S_CRLFEQ c). unfold ystep.
        replace (c =? 121) with false by lia. replace (c =? 13) with false by lia.
        simpl (0 =? 0). cbn iota. rewrite Hv. reflexivity.
      - rewrite y_S_NONE_61.
        rewrite (yrun_cons S_EQ c). unfold ystep.
        replace (c =? 13) with false by lia.
        simpl (0 =? 0). cbn iota. rewrite Hv. reflexivity. }
    rewrite Hesc. rewrite app_assoc. rewrite HNL by (reflexivity || lia).
    rewrite pre_pre. reflexivity.
  - (* plain *)
    assert (Hplain : forall st', st' = S_NONE \/ (st' = S_CRLF /\ ch0 <> 46) \/ st' = S_CRLFDT ->
      forall X, yrun st' (ch0 :: X) = pre [b] (yrun S_NONE X)).
    { intros st' Hst X. rewrite yrun_cons. unfold ystep.
      assert (E13 : ch0 =? 13 = false) by lia. assert (E10 : ch0 =? 10 = false) by lia.
      assert (E61 : ch0 =? 61 = false) by lia.
      rewrite E13, E10, E61.
      replace ((ch0 - 42) mod 256) with b by (unfold ch0; rewrite plain_byte; auto).
      destruct Hst as [->|[[-> H46]| ->]]; try reflexivity.
      replace (ch0 =? 46) with false by lia. reflexivity. }
    destruct ((ch0 =? 46) && (lnsz =? 0)) eqn:Ed.
    + assert (E46 : ch0 = 46) by lia. assert (El : lnsz = 0) by lia.
      destruct Hi as [[_ ->]|[? _]]; [|lia].
      rewrite <- !app_assoc. simpl app.
      rewrite y_S_CRLF_46.
      rewrite Hplain by auto. rewrite app_assoc. rewrite HNL by (reflexivity || lia).
      rewrite pre_pre. reflexivity.
    + rewrite <- !app_assoc. simpl app.
      rewrite Hplain.
      * rewrite app_assoc. rewrite HNL by (reflexivity || lia). rewrite pre_pre. reflexivity.
      * destruct Hi as [[Hl ->]|[Hl ->]]; [right; left; split; [reflexivity|lia] | left; reflexivity].
Qed.

Lemma yenc_roundtrip width data tail :
  bytes_ok data ->
  yrun S_CRLF (yenc_bytes width 0 data ++ tail) = pre data (yrun S_CRLF tail).
Proof. intros H. apply yrun_enc; [exact H | lia | left; auto | auto]. Qed.

(** The encoded body followed by the "=yend" trailer line. *)
Lemma yenc_roundtrip_end width data trailer :
  bytes_ok data ->
  decode_scalar S_CRLF (yenc_bytes width 0 data ++ 61 :: 121 :: trailer) = mkD 1 data S_NONE trailer.
Proof.
  intros H. rewrite decode_scalar_spec, yenc_roundtrip by exact H.
  rewrite !yrun_cons. simpl. unfold pre; simpl. rewrite app_nil_r. reflexivity.
Qed.

(** The encoder never emits NUL. *)
Lemma yenc_no_nul width data lnsz : bytes_ok data -> ~ In 0 (yenc_bytes width lnsz data).
Proof.
  revert lnsz; induction data as [|b rest IH]; intros lnsz Hb; [simpl; tauto|].
  inversion Hb as [|? ? Hb1 Hb2]; subst. unfold is_byte in Hb1.
  cbn [yenc_bytes]. cbv zeta.
  set (ch0 := (b + 42) mod 256).
  intros Hin. rewrite !in_app_iff in Hin.
  destruct Hin as [Hin|[Hin|[Hin|[Hin|Hin]]]].
  - destruct (_ || _) in Hin; simpl in Hin; lia.
  - destruct (_ && _) in Hin; simpl in Hin; lia.
  - destruct ((ch0 =? 0) || (ch0 =? 10) || (ch0 =? 13) || (ch0 =? 61) || (ch0 =? 32) || (ch0 =? 9)) eqn:E;
      simpl in Hin; lia.
  - destruct (_ || _) in Hin; simpl in Hin; lia.
  - revert Hin. apply IH, Hb2.
Qed.
