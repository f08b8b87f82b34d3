(** Reed-Solomon: bases and the solution of the repair equations. *)
From Verif Require Import Base CrcProofs GaloisModel GaloisSpec GaloisProofs RSModel RSSpec.

(** ** Bases *)
Lemma gcd_loop_ok fuel : forall a b, 0 <= a -> 0 <= b -> 1 <= a + b <= Z.of_nat fuel -> gcd_loop fuel a b = Some (Z.gcd a b).
Proof.
  induction fuel as [|f IH]; intros a b A B F; [lia|]. cbn [gcd_loop].
  destruct (a =? 0) eqn:Ea; cbn [orb].
  { replace a with 0 by lia. rewrite Z.gcd_0_l. f_equal. lia. }
  destruct (b =? 0) eqn:Eb.
  { replace b with 0 by lia. rewrite Z.gcd_0_r. f_equal. lia. }
  destruct (b <? a) eqn:L.
  - assert (M := Z.mod_pos_bound a b ltac:(lia)). assert (D := Z.div_mod a b ltac:(lia)).
    assert (1 <= a / b) by (apply Z.div_le_lower_bound; lia).
    rewrite IH by nia. f_equal. rewrite Z.gcd_mod by lia. apply Z.gcd_comm.
  - assert (M := Z.mod_pos_bound b a ltac:(lia)). assert (D := Z.div_mod b a ltac:(lia)).
    assert (1 <= b / a) by (apply Z.div_le_lower_bound; lia).
    rewrite IH by nia. f_equal. rewrite Z.gcd_comm, Z.gcd_mod by lia. reflexivity.
Qed.
Lemma gcd32_ok l : 0 <= l -> exists d, gcd32 65535 l = Some d /\ (d = 1 <-> Z.gcd 65535 l = 1).
Proof.
  intros H. unfold gcd32. change (65535 =? 0) with false. cbn [orb]. destruct (l =? 0) eqn:E.
  - exists 0. split; [reflexivity|]. replace l with 0 by lia. change (Z.gcd 65535 0) with 65535. lia.
  - exists (Z.gcd 65535 l). split; [|tauto]. apply gcd_loop_ok; lia.
Qed.
Definition cop (l : Z) : list Z := filter (fun l => Z.gcd 65535 l =? 1) (zseq l (Z.to_nat (65535 - l))).
Lemma cop_end l : 65535 <= l -> cop l = [].
Proof. intros H. unfold cop. replace (Z.to_nat (65535 - l)) with 0%nat by lia. reflexivity. Qed.
Lemma cop_step l : l < 65535 -> cop l = if Z.gcd 65535 l =? 1 then l :: cop (l + 1) else cop (l + 1).
Proof.
  intros H. unfold cop. replace (Z.to_nat (65535 - l)) with (S (Z.to_nat (65535 - (l + 1)))) by lia.
  cbn [zseq filter]. reflexivity.
Qed.
Lemma next_log_ok n : forall l fuel, 0 <= l <= 65535 -> Z.to_nat (65535 - l) = n -> fuel = Z.to_nat (65537 - l) ->
  exists x, next_log fuel l = Some x /\ match cop l with y :: r => x = y /\ l <= y < 65535 /\ r = cop (y + 1) | [] => x = 65536 end.
Proof.
  induction n as [|n IH]; intros l fuel H E ->.
  - assert (l = 65535) by lia. subst l. exists 65536. split; [reflexivity|]. rewrite cop_end by lia. reflexivity.
  - replace (Z.to_nat (65537 - l)) with (S (Z.to_nat (65537 - (l + 1)))) by lia. cbn [next_log].
    destruct (gcd32_ok l ltac:(lia)) as (d & -> & Hd). rewrite cop_step by lia.
    destruct (d =? 1) eqn:E1.
    + exists l. split; [reflexivity|]. replace (Z.gcd 65535 l =? 1) with true by lia. split; [reflexivity|]. split; [lia|reflexivity].
    + replace (Z.gcd 65535 l =? 1) with false by lia. destruct (IH (l + 1) _ ltac:(lia) ltac:(lia) eq_refl) as (x & -> & Hx).
      exists x. split; [reflexivity|]. destruct (cop (l + 1)) as [|y r]; [exact Hx|]. intuition lia.
Qed.
Lemma bases_ok n : forall l, 0 <= l <= 65535 ->
  bases n l = if Nat.leb n (length (cop l)) then Some (map galog (firstn n (cop l))) else None.
Proof.
  induction n as [|n IH]; intros l H; cbn [bases].
  - reflexivity.
  - destruct (next_log_ok _ l _ H eq_refl eq_refl) as (x & -> & Hx). destruct (cop l) as [|y r] eqn:E.
    + subst x. reflexivity.
    + destruct Hx as (-> & Hy & ->). replace (65535 <=? y) with false by lia. rewrite IH by lia.
      cbn [length Nat.leb firstn map]. destruct (Nat.leb n (length (cop (y + 1)))); reflexivity.
Qed.
Lemma cop_0 : cop 0 = base_logs.
Proof. rewrite cop_step by lia. change (Z.gcd 65535 0 =? 1) with false. reflexivity. Qed.
Lemma base_count : Z.of_nat (length base_logs) = 32768.
Proof. vm_compute. reflexivity. Qed.
Lemma base_logs_range l : In l base_logs -> 0 < l < 65535.
Proof.
  unfold base_logs. rewrite filter_In. intros [H _].
  assert (R : forall n f, In l (zseq f n) -> f <= l < f + Z.of_nat n).
  { induction n as [|n IHn]; intros f Hf; cbn [zseq In] in Hf; [contradiction|]. destruct Hf as [<-|Hf]; [lia|]. apply IHn in Hf. lia. }
  apply R in H. lia.
Qed.
Lemma zseq_nodup n : forall f, NoDup (zseq f n).
Proof.
  induction n as [|n IH]; intros f; cbn [zseq]; constructor; [|apply IH].
  assert (R : forall m g x, In x (zseq g m) -> g <= x).
  { induction m as [|m IHm]; intros g x Hx; cbn [zseq In] in Hx; [contradiction|]. destruct Hx as [<-|Hx]; [lia|]. apply IHm in Hx. lia. }
  intros H. apply R in H. lia.
Qed.
Lemma base_logs_nodup : NoDup base_logs.
Proof. apply NoDup_filter, zseq_nodup. Qed.
Global Opaque base_logs.

Lemma bases_spec n : match bases n 0 with
  | Some db => (n <= length base_logs)%nat /\ db = map galog (firstn n base_logs)
  | None => (length base_logs < n)%nat end.
Proof.
  rewrite bases_ok by lia. rewrite cop_0. destruct (Nat.leb n (length base_logs)) eqn:E.
  - apply Nat.leb_le in E. auto.
  - apply Nat.leb_gt in E. exact E.
Qed.
Lemma galog_Z l : 0 <= l < 65535 -> galog l = ga (Z.to_nat l).
Proof. intros H. rewrite <- (Z2Nat.id l) at 1 by lia. apply galog_ga. lia. Qed.
Lemma in_firstn {A} n (l : list A) x : In x (firstn n l) -> In x l.
Proof. intros H. rewrite <- (firstn_skipn n l). apply in_or_app. left. exact H. Qed.
Lemma nodup_firstn {A} n (l : list A) : NoDup l -> NoDup (firstn n l).
Proof.
  intros H. rewrite <- (firstn_skipn n l) in H. clear - H. induction (firstn n l) as [|x r IH]; [constructor|].
  inversion H; subst. constructor; [|apply IH; assumption]. intros F. apply H2. apply in_or_app. left. exact F.
Qed.
Lemma bases_facts n db : bases n 0 = Some db -> length db = n /\ NoDup db /\ Forall (fun b => u16 b /\ b <> 0) db /\
  forall i b, nth_error db i = Some b -> par2_base i b.
Proof.
  intros H. assert (S := bases_spec n). rewrite H in S. destruct S as [L ->].
  assert (E : map galog (firstn n base_logs) = map (fun l => ga (Z.to_nat l)) (firstn n base_logs)).
  { apply map_ext_in. intros l Hl. apply galog_Z. apply in_firstn, base_logs_range in Hl. lia. }
  split; [rewrite map_length; apply firstn_length_le, L|]. split.
  { rewrite E. apply nodup_map_in; [|apply nodup_firstn, base_logs_nodup].
    intros x y Hx Hy G. apply in_firstn, base_logs_range in Hx, Hy. apply ga_inj in G; lia. }
  split.
  { rewrite E. apply Forall_forall. intros b Hb. apply in_map_iff in Hb as (l & <- & _). split; [apply ga_u16|apply ga_nonzero]. }
  intros i b Hb. rewrite E, nth_error_map in Hb. destruct (nth_error (firstn n base_logs) i) as [l|] eqn:El; [|discriminate].
  cbn in Hb. inversion Hb; subst. exists l. split.
  - assert (Hi : (i < n)%nat). { assert (X : nth_error (firstn n base_logs) i <> None) by congruence. apply nth_error_Some in X.
      rewrite firstn_length_le in X by exact L. exact X. }
    rewrite <- (firstn_skipn n base_logs), nth_error_app1; [exact El|]. rewrite firstn_length_le by exact L. exact Hi.
  - apply is_rem_cong. split; [apply ga_u16|apply ga_cong].
Qed.

(** ** Linear algebra *)
Notation u16s := (Forall u16).
Definition dot (l x : list Z) : Z := xsum (map2 gmul l x).
Lemma map2_length {A B C} (f : A -> B -> C) l : forall m, length l = length m -> length (map2 f l m) = length l.
Proof. induction l as [|a l IH]; intros [|b m] E; try discriminate E; cbn [length] in E; cbn [map2 length]; [reflexivity|]. rewrite IH; congruence. Qed.
Lemma u16_0 : u16 0. Proof. unfold u16; lia. Qed.
Lemma u16_1 : u16 1. Proof. unfold u16; lia. Qed.
Lemma xsum_u16 l : u16s l -> u16 (xsum l).
Proof. induction 1; cbn [xsum fold_right]; [apply u16_0|]. apply u16_lxor; assumption. Qed.
Lemma map2_u16 l : forall m, u16s l -> u16s m -> u16s (map2 gmul l m).
Proof.
  induction l as [|a l IH]; intros [|b m] A B; cbn [map2]; try constructor.
  - inversion A; inversion B; subst. apply gmul_u16; assumption.
  - inversion A; inversion B; subst. apply IH; assumption.
Qed.
Lemma dot_u16 l x : u16s l -> u16s x -> u16 (dot l x).
Proof. intros. apply xsum_u16, map2_u16; assumption. Qed.
Lemma dot_cons a l b x : dot (a :: l) (b :: x) = gadd (gmul a b) (dot l x). Proof. reflexivity. Qed.
Lemma dot_scale c l : forall x, u16 c -> u16s l -> u16s x -> dot (map (gmul c) l) x = gmul c (dot l x).
Proof.
  induction l as [|a l IH]; intros [|b x] C L X; cbn [map]; try (symmetry; apply gmul_0_r).
  inversion L; inversion X; subst. rewrite !dot_cons, IH, gmul_assoc by assumption.
  rewrite gmul_add_r; [reflexivity|assumption|apply gmul_u16; assumption|apply dot_u16; assumption].
Qed.
Lemma dot_add l : forall m x, length l = length m -> u16s l -> u16s m -> u16s x ->
  dot (map2 gadd l m) x = gadd (dot l x) (dot m x).
Proof.
  induction l as [|a l IH]; intros [|b m] [|c x] E L M X; try discriminate E; cbn [length] in E; try reflexivity.
  cbn [map2]. inversion L; inversion M; inversion X; subst. rewrite !dot_cons, IH by (try congruence; assumption).
  rewrite gmul_add_l by assumption. apply lxor4.
Qed.
Lemma dot_app a b : forall x y, length a = length x -> dot (a ++ b) (x ++ y) = gadd (dot a x) (dot b y).
Proof.
  induction a as [|p a IH]; intros [|q x] y E; try discriminate E; cbn [length] in E.
  - cbn [app]. change (dot [] []) with 0. symmetry. apply Z.lxor_0_l.
  - cbn [app]. rewrite !dot_cons, IH by congruence. unfold gadd. symmetry. apply Z.lxor_assoc.
Qed.

Definition ginv (p : Z) : Z := gquot p 1.
Lemma gquot_ok p x : u16 p -> p <> 0 -> u16 x -> u16 (gquot p x) /\ gmul (gquot p x) p = x.
Proof.
  intros P N X. unfold gquot. destruct (x =? 0) eqn:E.
  - replace x with 0 by lia. split; [apply u16_0|reflexivity].
  - destruct (gdiv_ok x p X P N) as (q & -> & U & M). auto.
Qed.
Lemma ginv_ok p : u16 p -> p <> 0 -> u16 (ginv p) /\ ginv p <> 0 /\ gmul (ginv p) p = 1.
Proof.
  intros P N. destruct (gquot_ok p 1 P N u16_1) as [U M]. split; [exact U|]. split; [|exact M].
  intros E. unfold ginv in E. rewrite E, gmul_0_l in M. discriminate M.
Qed.
Lemma gquot_inv p x : u16 p -> p <> 0 -> u16 x -> gquot p x = gmul (ginv p) x.
Proof.
  intros P N X. destruct (gquot_ok p x P N X) as [U M]. destruct (ginv_ok p P N) as (V & _ & W).
  apply (gmul_cancel _ _ p); try assumption; [apply gmul_u16; assumption|].
  rewrite M, gmul_assoc, (gmul_comm x p), <- gmul_assoc, W, gmul_1_l by assumption. reflexivity.
Qed.

(** ** One round *)
Definition scaled (c : Z) (q : mrow) : mrow := (map (gmul c) (fst q), map (gmul c) (snd q)).
Definition added (q p : mrow) : mrow := (map2 gadd (fst q) (fst p), map2 gadd (snd q) (snd p)).
Definition wfr (lc rc : nat) (q : mrow) : Prop :=
  length (fst q) = lc /\ length (snd q) = rc /\ u16s (fst q) /\ u16s (snd q).
Definition delta (i c : nat) : Z := if Nat.eqb i c then 1 else 0.

Lemma map_quot p l : u16 p -> p <> 0 -> u16s l -> map (gquot p) l = map (gmul (ginv p)) l.
Proof. intros P N L. apply map_ext_in. intros x Hx. rewrite Forall_forall in L. apply gquot_inv; auto. Qed.
Lemma map_one l : u16s l -> map (gmul 1) l = l.
Proof. induction 1; cbn [map]; [reflexivity|]. rewrite gmul_1_l by assumption. congruence. Qed.
Lemma ginv_1 : ginv 1 = 1.
Proof.
  destruct (ginv_ok 1 u16_1 ltac:(lia)) as (U & _ & M). rewrite gmul_comm, gmul_1_l in M by (try exact U; apply u16_1). exact M.
Qed.
Lemma zeros_map c l : Forall (eq 0) l -> map (gmul c) l = l.
Proof. induction 1 as [|x l <- F IH]; cbn [map]; [reflexivity|]. rewrite gmul_0_r, IH. reflexivity. Qed.

Lemma scale_row_ok lc rc k q : wfr lc rc q -> (k < rc)%nat -> nth k (snd q) 0 <> 0 -> Forall (eq 0) (firstn k (snd q)) ->
  scale_row k (nth k (snd q) 0) q = scaled (ginv (nth k (snd q) 0)) q.
Proof.
  intros (L1 & L2 & U1 & U2) Hk N F. destruct q as [l r]. cbn [fst snd] in *. unfold scale_row, scaled. cbn [fst snd].
  set (p := nth k r 0) in *.
  assert (Up : u16 p). { rewrite Forall_forall in U2. apply U2, nth_In. lia. }
  destruct (p =? 1) eqn:E.
  - replace p with 1 by lia. rewrite ginv_1, !map_one by assumption. reflexivity.
  - f_equal; [apply map_quot; assumption|].
    destruct (nth_split r 0 (n := k) ltac:(lia)) as (a & b & Er & La). fold p in Er.
    assert (Ea : firstn k r = a) by (rewrite Er, <- La, firstn_app, firstn_all, Nat.sub_diag; cbn [firstn]; apply app_nil_r).
    assert (Eb : skipn (S k) r = b).
    { rewrite Er, skipn_app, <- La. rewrite skipn_all2 by lia. replace (S (length a) - length a)%nat with 1%nat by lia. reflexivity. }
    rewrite Ea in F. rewrite Ea, Eb. rewrite Er, map_app. cbn [map]. rewrite zeros_map by exact F.
    rewrite Er in U2. apply Forall_app in U2 as [_ U2]. apply Forall_inv_tail in U2.
    rewrite map_quot by assumption. destruct (ginv_ok p Up N) as (_ & _ & ->). reflexivity.
Qed.

Lemma elim_f1 l : forall m, u16s m -> map2 (fun a b => if b =? 0 then a else gadd a b) l m = map2 gadd l (map (gmul 1) m).
Proof.
  intros m U. rewrite map_one by exact U. revert m U. induction l as [|a l IH]; intros [|b m] U; try reflexivity.
  inversion U; subst. cbn [map2]. rewrite IH by assumption. f_equal. destruct (b =? 0) eqn:E; [|reflexivity].
  replace b with 0 by lia. symmetry. apply Z.lxor_0_r.
Qed.
Lemma elim_fs s l : forall m, u16 s -> u16s m ->
  map2 (fun a b => if b =? 0 then a else gadd a (gmul b s)) l m = map2 gadd l (map (gmul s) m).
Proof.
  induction l as [|a l IH]; intros [|b m] S U; try reflexivity. inversion U; subst. cbn [map map2]. rewrite IH by assumption.
  f_equal. destruct (b =? 0) eqn:E; [|rewrite (gmul_comm b s) by assumption; reflexivity].
  replace b with 0 by lia. rewrite gmul_0_r. symmetry. apply Z.lxor_0_r.
Qed.
Lemma add_zeros l : forall m, length l = length m -> Forall (eq 0) m -> map2 gadd l m = l.
Proof.
  induction l as [|a l IH]; intros [|b m] E F; try discriminate E; cbn [length] in E; [reflexivity|]. inversion F; subst. cbn [map2].
  rewrite IH by (try congruence; assumption). f_equal. apply Z.lxor_0_r.
Qed.
Lemma map2_app {A B C} (f : A -> B -> C) a : forall b x y, length a = length x -> map2 f (a ++ b) (x ++ y) = map2 f a x ++ map2 f b y.
Proof. induction a as [|p a IH]; intros b [|q x] y E; try discriminate E; cbn [length] in E; [reflexivity|]. cbn [app map2]. rewrite IH by congruence. reflexivity. Qed.
Lemma forall_firstn {A} (P : A -> Prop) n l : Forall P l -> Forall P (firstn n l).
Proof. intros H. rewrite <- (firstn_skipn n l) in H. apply Forall_app in H. tauto. Qed.
Lemma forall_skipn {A} (P : A -> Prop) n l : Forall P l -> Forall P (skipn n l).
Proof. intros H. rewrite <- (firstn_skipn n l) in H. apply Forall_app in H. tauto. Qed.
Lemma zeros_scaled c l : Forall (eq 0) l -> Forall (eq 0) (map (gmul c) l).
Proof. intros H. rewrite zeros_map by exact H. exact H. Qed.
Lemma u16_scaled c l : u16 c -> u16s l -> u16s (map (gmul c) l).
Proof. intros C L. apply Forall_map. eapply Forall_impl; [|exact L]. intros a A. apply gmul_u16; assumption. Qed.

Lemma elim_row_ok lc rc k p q : wfr lc rc p -> wfr lc rc q -> (k < rc)%nat -> Forall (eq 0) (firstn k (snd p)) ->
  elim_row k p q = added q (scaled (nth k (snd q) 0) p).
Proof.
  intros (P1 & P2 & P3 & P4) (Q1 & Q2 & Q3 & Q4) Hk F. destruct p as [pl pr], q as [l r]. cbn [fst snd] in *.
  unfold elim_row, added, scaled. cbn [fst snd]. set (s := nth k r 0).
  assert (Us : u16 s). { rewrite Forall_forall in Q4. apply Q4, nth_In. lia. }
  assert (R : forall c, u16 c -> firstn k r ++ map2 gadd (skipn k r) (map (gmul c) (skipn k pr)) = map2 gadd r (map (gmul c) pr)).
  { intros c C. rewrite <- (firstn_skipn k r) at 3. rewrite <- (firstn_skipn k pr) at 2. rewrite map_app.
    rewrite map2_app; [|rewrite map_length, !firstn_length; lia]. f_equal. symmetry. apply add_zeros; [|apply zeros_scaled, F].
    rewrite map_length, !firstn_length. lia. }
  destruct (s =? 1) eqn:E1.
  - replace s with 1 by lia. rewrite !elim_f1 by (try apply forall_skipn; assumption). rewrite R by apply u16_1. reflexivity.
  - destruct (s =? 0) eqn:E0.
    + replace s with 0 by lia. f_equal.
      * symmetry. apply add_zeros; [rewrite map_length; lia|]. apply Forall_map. apply Forall_forall. intros. reflexivity.
      * symmetry. apply add_zeros; [rewrite map_length; lia|]. apply Forall_map. apply Forall_forall. intros. reflexivity.
    + rewrite !elim_fs by (try apply forall_skipn; assumption). rewrite R by exact Us. reflexivity.
Qed.

Lemma wfr_scaled lc rc c q : u16 c -> wfr lc rc q -> wfr lc rc (scaled c q).
Proof.
  intros C (L1 & L2 & U1 & U2). unfold scaled. repeat split; cbn [fst snd]; rewrite ?map_length; try assumption; apply u16_scaled; assumption.
Qed.
Lemma u16_added l : forall m, u16s l -> u16s m -> u16s (map2 gadd l m).
Proof.
  induction l as [|a l IH]; intros [|b m] A B; cbn [map2]; try constructor; inversion A; inversion B; subst.
  - apply u16_lxor; assumption.
  - apply IH; assumption.
Qed.
Lemma wfr_added lc rc q p : wfr lc rc q -> wfr lc rc p -> wfr lc rc (added q p).
Proof.
  intros (L1 & L2 & U1 & U2) (M1 & M2 & V1 & V2). unfold added. repeat split; cbn [fst snd]; rewrite ?map2_length; try congruence; apply u16_added; assumption.
Qed.
Lemma nth_map2 l : forall m c, length l = length m -> nth c (map2 gadd l m) 0 = gadd (nth c l 0) (nth c m 0).
Proof.
  induction l as [|a l IH]; intros [|b m] [|c] E; try discriminate E; cbn [length] in E; cbn [map2 nth]; try reflexivity. apply IH. congruence.
Qed.
Lemma nth_scaled c l k : nth k (map (gmul c) l) 0 = gmul c (nth k l 0).
Proof. rewrite <- (gmul_0_r c) at 1. apply map_nth. Qed.

(** Columns below [k], and from [dm] on, are those of the unit matrix. *)
Definition solved (rc dm k : nat) (m : list mrow) : Prop :=
  forall i q c, nth_error m i = Some q -> (c < rc)%nat -> (c < k \/ dm <= c)%nat -> nth c (snd q) 0 = delta i c.
Lemma solved_zeros rc dm k m q : (k < dm)%nat -> (dm <= rc)%nat -> solved rc dm k m -> nth_error m k = Some q -> Forall (eq 0) (firstn k (snd q)).
Proof.
  intros H1 H2 S E. apply Forall_forall. intros x Hx. apply (In_nth _ _ 0) in Hx as (c & Hc & <-).
  rewrite firstn_length in Hc.
  assert (N : nth c (firstn k (snd q)) 0 = nth c (snd q) 0).
  { rewrite <- (firstn_skipn k (snd q)) at 2. rewrite app_nth1; [reflexivity|]. rewrite firstn_length. lia. }
  rewrite N, (S k q c E) by lia. unfold delta. replace (Nat.eqb k c) with false; [reflexivity|].
  symmetry. apply Nat.eqb_neq. lia.
Qed.

Lemma nth_error_combine_seq {A} (l : list A) : forall i s, nth_error (combine (seq s (length l)) l) i =
  match nth_error l i with Some x => Some ((s + i)%nat, x) | None => None end.
Proof.
  induction l as [|a l IH]; intros [|i] s; cbn [length seq combine nth_error]; try reflexivity.
  - rewrite Nat.add_0_r. reflexivity.
  - rewrite IH. destruct (nth_error l i); [|reflexivity]. f_equal. f_equal. lia.
Qed.

Lemma step_form lc rc dm k m m' : Forall (wfr lc rc) m -> solved rc dm k m -> (k < dm)%nat -> (dm <= rc)%nat ->
  gauss_step k m = Some m' ->
  exists q pivot, nth_error m k = Some q /\ pivot = nth k (snd q) 0 /\ u16 pivot /\ pivot <> 0 /\ length m' = length m /\
    forall i, nth_error m' i = match nth_error m i with
      | None => None
      | Some x => Some (if Nat.eqb i k then scaled (ginv pivot) q else added x (scaled (nth k (snd x) 0) (scaled (ginv pivot) q)))
      end.
Proof.
  intros W S Hk Hd H. unfold gauss_step in H. destruct (nth_error m k) as [q|] eqn:E; [|discriminate].
  destruct (nth k (snd q) 0 =? 0) eqn:Ep; [discriminate|]. inversion H; subst m'; clear H.
  assert (Wq : wfr lc rc q) by (rewrite Forall_forall in W; apply W; eapply nth_error_In, E).
  assert (Zq := solved_zeros _ _ _ _ _ Hk Hd S E).
  exists q, (nth k (snd q) 0). split; [reflexivity|]. split; [reflexivity|].
  assert (Up : u16 (nth k (snd q) 0)). { destruct Wq as (_ & L & _ & U). rewrite Forall_forall in U. apply U, nth_In. lia. }
  split; [exact Up|]. split; [lia|]. split; [rewrite map_length, combine_length, seq_length; lia|].
  intros i. rewrite nth_error_map, nth_error_combine_seq. destruct (nth_error m i) as [x|] eqn:Ei; [|reflexivity].
  cbn [option_map fst snd Nat.add]. rewrite (scale_row_ok lc rc k q Wq) by (try assumption; lia).
  destruct (Nat.eqb i k); [reflexivity|]. f_equal.
  assert (Ui : u16 (ginv (nth k (snd q) 0))) by (apply ginv_ok; [exact Up|lia]).
  apply (elim_row_ok lc rc); [apply wfr_scaled; assumption|rewrite Forall_forall in W; apply W; eapply nth_error_In, Ei|lia|].
  unfold scaled. cbn [snd]. rewrite firstn_map. apply zeros_scaled, Zq.
Qed.

Lemma step_wf lc rc dm k m m' : Forall (wfr lc rc) m -> solved rc dm k m -> (k < dm)%nat -> (dm <= rc)%nat ->
  gauss_step k m = Some m' -> Forall (wfr lc rc) m'.
Proof.
  intros W S Hk Hd H. destruct (step_form _ _ _ _ _ _ W S Hk Hd H) as (q & p & E & -> & Up & Np & L & F).
  apply Forall_forall. intros x Hx. apply In_nth_error in Hx as (i & Hi). rewrite F in Hi.
  rewrite Forall_forall in W.
  assert (Wq : wfr lc rc q) by (apply W; eapply nth_error_In, E).
  assert (Ui : u16 (ginv (nth k (snd q) 0))) by (apply ginv_ok; assumption).
  destruct (nth_error m i) as [y|] eqn:Ey; [|discriminate]. assert (Wy : wfr lc rc y) by (apply W; eapply nth_error_In, Ey).
  inversion Hi; subst. destruct (Nat.eqb i k).
  - apply wfr_scaled; assumption.
  - apply wfr_added; [exact Wy|]. apply wfr_scaled; [|apply wfr_scaled; assumption].
    destruct Wy as (_ & Ly & _ & Uy). rewrite Forall_forall in Uy. apply Uy, nth_In. lia.
Qed.

Lemma step_solved lc rc dm k m m' : Forall (wfr lc rc) m -> solved rc dm k m -> (k < dm)%nat -> (dm <= rc)%nat ->
  gauss_step k m = Some m' -> solved rc dm (S k) m'.
Proof.
  intros W S Hk Hd H. destruct (step_form _ _ _ _ _ _ W S Hk Hd H) as (q & p & E & -> & Up & Np & L & F).
  intros i x c Hx Hc Hcc. rewrite F in Hx. destruct (nth_error m i) as [y|] eqn:Ey; [|discriminate]. inversion Hx; subst x; clear Hx.
  rewrite Forall_forall in W.
  assert (Wq : wfr lc rc q) by (apply W; eapply nth_error_In, E).
  assert (Wy : wfr lc rc y) by (apply W; eapply nth_error_In, Ey).
  destruct (ginv_ok _ Up Np) as (Ui & Ni & Mi).
  assert (Sc : nth c (snd (scaled (ginv (nth k (snd q) 0)) q)) 0 = delta k c).
  { unfold scaled. cbn [snd]. rewrite nth_scaled. destruct (Nat.eq_dec c k) as [->|Nc].
    - rewrite Mi. unfold delta. rewrite Nat.eqb_refl. reflexivity.
    - rewrite (S k q c E Hc) by lia. unfold delta. replace (Nat.eqb k c) with false by (symmetry; apply Nat.eqb_neq; lia). apply gmul_0_r. }
  destruct (Nat.eqb i k) eqn:Ei.
  - apply Nat.eqb_eq in Ei. subst i. exact Sc.
  - apply Nat.eqb_neq in Ei. unfold added. cbn [snd].
    set (s := nth k (snd y) 0). assert (Us : u16 s). { destruct Wy as (_ & Ly & _ & Uy). rewrite Forall_forall in Uy. apply Uy, nth_In. lia. }
    rewrite nth_map2.
    2:{ unfold scaled. cbn [snd]. rewrite !map_length. destruct Wy as (_ & -> & _), Wq as (_ & -> & _). reflexivity. }
    unfold scaled at 1. cbn [snd]. rewrite nth_scaled, Sc. destruct (Nat.eq_dec c k) as [->|Nc].
    + fold s. unfold delta. rewrite Nat.eqb_refl. rewrite gmul_comm, gmul_1_l by (try exact Us; apply u16_1).
      replace (Nat.eqb i k) with false by (symmetry; apply Nat.eqb_neq, Ei). apply Z.lxor_nilpotent.
    + rewrite (S i y c Ey Hc) by lia. unfold delta at 2. replace (Nat.eqb k c) with false by (symmetry; apply Nat.eqb_neq; lia).
      rewrite gmul_0_r. apply Z.lxor_0_r.
Qed.

Definition eqn (x y : list Z) (q : mrow) : Prop := dot (fst q) x = dot (snd q) y.
Lemma step_eqn lc rc dm k m m' x y : Forall (wfr lc rc) m -> solved rc dm k m -> (k < dm)%nat -> (dm <= rc)%nat ->
  gauss_step k m = Some m' -> u16s x -> u16s y -> Forall (eqn x y) m -> Forall (eqn x y) m'.
Proof.
  intros W S Hk Hd H X Y Q. destruct (step_form _ _ _ _ _ _ W S Hk Hd H) as (q & p & E & -> & Up & Np & L & F).
  rewrite Forall_forall in W, Q. apply Forall_forall. intros z Hz. apply In_nth_error in Hz as (i & Hi). rewrite F in Hi.
  destruct (nth_error m i) as [w|] eqn:Ew; [|discriminate]. inversion Hi; subst z; clear Hi.
  assert (Wq : wfr lc rc q) by (apply W; eapply nth_error_In, E).
  assert (Ww : wfr lc rc w) by (apply W; eapply nth_error_In, Ew).
  assert (Eq : eqn x y q) by (apply Q; eapply nth_error_In, E).
  assert (Ew2 : eqn x y w) by (apply Q; eapply nth_error_In, Ew).
  destruct (ginv_ok _ Up Np) as (Ui & Ni & Mi).
  assert (SC : forall c r, u16 c -> wfr lc rc r -> eqn x y r -> eqn x y (scaled c r)).
  { intros c r C (_ & _ & R1 & R2) R. unfold eqn, scaled. cbn [fst snd]. rewrite !dot_scale by assumption. f_equal. exact R. }
  destruct (Nat.eqb i k); [apply SC; assumption|].
  set (s := nth k (snd w) 0). assert (Us : u16 s). { destruct Ww as (_ & Ly & _ & Uy). rewrite Forall_forall in Uy. apply Uy, nth_In. lia. }
  assert (Ws : wfr lc rc (scaled (ginv (nth k (snd q) 0)) q)) by (apply wfr_scaled; assumption).
  assert (Wss : wfr lc rc (scaled s (scaled (ginv (nth k (snd q) 0)) q))) by (apply wfr_scaled; assumption).
  assert (Es : eqn x y (scaled s (scaled (ginv (nth k (snd q) 0)) q))) by (apply SC; [exact Us|exact Ws|apply SC; assumption]).
  unfold eqn, added. cbn [fst snd]. destruct Ww as (A1 & A2 & A3 & A4), Wss as (B1 & B2 & B3 & B4).
  rewrite !dot_add by (try congruence; assumption). f_equal; assumption.
Qed.

Lemma gauss_ok lc rc dm x y : (dm <= rc)%nat -> u16s x -> u16s y -> forall todo k m m', (todo + k = dm)%nat ->
  Forall (wfr lc rc) m -> solved rc dm k m -> Forall (eqn x y) m -> gauss_loop todo k m = Some m' ->
  Forall (wfr lc rc) m' /\ solved rc dm dm m' /\ Forall (eqn x y) m' /\ length m' = length m.
Proof.
  intros Hd X Y. induction todo as [|t IH]; intros k m m' T W S Q H; cbn [gauss_loop] in H.
  - inversion H; subst. replace (0 + k)%nat with k by lia. auto.
  - destruct (gauss_step k m) as [m1|] eqn:E; [|discriminate].
    destruct (step_form _ _ _ _ _ _ W S ltac:(lia) Hd E) as (_ & _ & _ & _ & _ & _ & L & _).
    destruct (IH (Datatypes.S k) m1 m' ltac:(lia)) as (A & B & C & D); try assumption.
    + eapply step_wf; eauto. lia.
    + eapply step_solved; eauto. lia.
    + eapply step_eqn; eauto. lia.
    + repeat split; try assumption. congruence.
Qed.

(** A unit row picks a component. *)
Lemma dot_zeros l : forall y, Forall (eq 0) l -> dot l y = 0.
Proof. induction l as [|a l IH]; intros [|b y] F; try reflexivity. inversion F; subst. rewrite dot_cons, IH by assumption. reflexivity. Qed.
Lemma dot_unit r : forall i y, (i < length r)%nat -> length y = length r -> u16s y ->
  (forall c, (c < length r)%nat -> nth c r 0 = delta i c) -> dot r y = nth i y 0.
Proof.
  induction r as [|a r IH]; intros i [|b y] Hi L U D; try discriminate L; cbn [length] in L; [cbn in Hi; lia|].
  inversion U; subst. rewrite dot_cons. assert (D0 := D 0%nat ltac:(cbn; lia)). cbn [nth] in D0. subst a. destruct i as [|i].
  - unfold delta. cbn [Nat.eqb nth]. rewrite gmul_1_l by assumption. rewrite dot_zeros; [apply Z.lxor_0_r|].
    apply Forall_forall. intros x Hx. apply (In_nth _ _ 0) in Hx as (c & Hc & <-).
    assert (Dc := D (S c) ltac:(cbn [length]; lia)). cbn [nth] in Dc. rewrite Dc. reflexivity.
  - unfold delta. cbn [Nat.eqb nth]. rewrite gmul_0_l. cbn [length] in *. rewrite (IH i) by (try assumption; try lia; try congruence;
      intros c Hc; assert (Dc := D (S c) ltac:(lia)); cbn [nth] in Dc; rewrite Dc; reflexivity). apply Z.lxor_0_l.
Qed.
Lemma gauss_solution lc rc dm x y m m' : (dm <= rc)%nat -> length m = rc -> length y = rc -> u16s x -> u16s y ->
  Forall (wfr lc rc) m -> solved rc dm 0 m -> Forall (eqn x y) m -> gauss_loop dm 0 m = Some m' ->
  length m' = rc /\ Forall (wfr lc rc) m' /\ forall i q, nth_error m' i = Some q -> dot (fst q) x = nth i y 0.
Proof.
  intros Hd Lm Ly X Y W S Q H. destruct (gauss_ok lc rc dm x y Hd X Y dm 0%nat m m' ltac:(lia) W S Q H) as (W' & S' & Q' & L').
  split; [congruence|]. split; [exact W'|]. intros i q E. rewrite Forall_forall in W', Q'.
  assert (Hi : (i < rc)%nat). { rewrite <- Lm, <- L'. apply nth_error_Some. congruence. }
  destruct (W' q (nth_error_In _ _ E)) as (_ & Lq & _ & _). rewrite (Q' q (nth_error_In _ _ E)).
  apply dot_unit; [lia|congruence|exact Y|]. intros c Hc. apply (S' i q c E); lia.
Qed.
