From Verif Require Import Base VolumeModel VolumeSpec VolumeProofs VolumeProofs2.

(** ** All servers together *)

Definition vol_fine (v : volume) : Prop := rings_ok v /\ 0 <= v_time v < 2147483648.

Lemma nth_replace : forall (l : list volume) i v, (i < length l)%nat ->
  length (firstn i l ++ v :: skipn (S i) l) = length l /\
  forall j d, nth j (firstn i l ++ v :: skipn (S i) l) d = if (j =? i)%nat then v else nth j l d.
Proof.
  induction l as [|x l IH]; intros i v H; cbn [length] in H; [lia|].
  destruct i as [|i]; cbn [firstn skipn app].
  - split; [reflexivity|]. intros [|j] d; reflexivity.
  - destruct (IH i v ltac:(lia)) as [A B]. split; [cbn [length]; f_equal; exact A|].
    intros [|j] d; cbn [nth]; [reflexivity|]. apply B.
Qed.

Lemma add_on_ok : forall cur off b i l, (i < length l)%nat -> Forall vol_fine l ->
  0 <= cur < 2147483648 -> 0 <= cur + off < 2147483648 ->
  exists l', add_on cur off b i l = Some l' /\ length l' = length l /\ Forall vol_fine l' /\
    forall j, (j < length l)%nat ->
      v_total (nth j l' new_volume) = v_total (nth j l new_volume) + if (j =? i)%nat then b else 0.
Proof.
  intros cur off b i l Hi F H1 H2. unfold add_on.
  rewrite (nth_error_nth' l new_volume Hi). set (v := nth i l new_volume).
  assert (Fv : vol_fine v) by (rewrite Forall_forall in F; apply F, nth_In; auto). destruct Fv as [R T].
  destruct (add_data_spec cur off b v R ltac:(lia) ltac:(lia)) as (v' & E & _). rewrite E. cbn [bind].
  destruct (add_data_rings cur off b v v' R ltac:(lia) ltac:(lia) E) as (R1 & T1 & S1).
  destruct (nth_replace l i v' Hi) as [L N]. eexists. split; [reflexivity|]. split; [exact L|]. split.
  - apply Forall_forall. intros x Hx. apply (In_nth _ _ new_volume) in Hx. destruct Hx as (j & Hj & <-).
    rewrite N. destruct (j =? i)%nat; [split; [exact R1|lia]|].
    rewrite Forall_forall in F. apply F, nth_In. lia.
  - intros j Hj. rewrite N. destruct (Nat.eqb_spec j i); [subst j; fold v; lia|lia].
Qed.

Lemma server_all_ok : forall off ops l, Forall vol_fine l ->
  Forall (fun x : Z * Z * nat => 0 <= fst (fst x) < 2147483648 /\ 0 <= fst (fst x) + off < 2147483648 /\
                  (1 <= snd x < length l)%nat) ops ->
  exists l', server_all off ops l = Some l' /\ length l' = length l /\
    forall j, (j < length l)%nat ->
      v_total (nth j l' new_volume) = v_total (nth j l new_volume) + bytes_for j ops.
Proof.
  intros off. induction ops as [|[[t b] sid] ops IH]; intros l F H; cbn [server_all bytes_for].
  - exists l. split; auto. split; auto. intros. lia.
  - inversion H as [|? ? (H1 & H2 & H3) H4]; subst. cbn [fst snd] in *. unfold add_server_data.
    destruct (Z.eqb_spec b 0) as [->|Nb]; cbn [bind].
    + destruct (IH l F H4) as (l' & E & L & K). exists l'. split; auto. split; auto.
      intros j Hj. rewrite (K j Hj). destruct (_ || _); lia.
    + destruct (add_on_ok t off b 0 l ltac:(lia) F ltac:(lia) ltac:(lia)) as (l1 & E1 & L1 & F1 & K1).
      rewrite E1. cbn [bind].
      destruct (add_on_ok t off b sid l1 ltac:(lia) F1 ltac:(lia) ltac:(lia)) as (l2 & E2 & L2 & F2 & K2).
      rewrite E2. cbn [bind].
      destruct (IH l2 F2) as (l' & E & L & K).
      { eapply Forall_impl; [|exact H4]. cbn. intros a Ha. rewrite L2, L1. exact Ha. }
      exists l'. split; auto. split; [lia|]. intros j Hj.
      rewrite (K j), (K2 j), (K1 j) by lia.
      destruct (Nat.eqb_spec j 0); destruct (Nat.eqb_spec j sid); cbn [orb]; lia.
Qed.
