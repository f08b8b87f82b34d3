(** Proofs about the text buffers. *)
From Verif Require Import Base FeedModel FeedProofs BufModel BufSpec.
Open Scope list_scope. Open Scope Z_scope.

Definition holds (mem t : list Z) : Prop := is_text t /\ exists j, mem = t ++ 0 :: j.

Lemma cstr_app t j : is_text t -> cstr (t ++ 0 :: j) = Some t.
Proof.
  induction t as [|c t IH]; intros H; [reflexivity|]. inversion H; subst. change ((c :: t) ++ 0 :: j) with (c :: t ++ 0 :: j). cbn [cstr].
  replace (c =? 0) with false by lia. replace (c <? 0) with false by lia. rewrite IH by assumption. reflexivity.
Qed.
Lemma cstr_holds mem t : holds mem t -> cstr mem = Some t.
Proof. intros [T [j ->]]. apply cstr_app. exact T. Qed.
Lemma zlen_app {A} (a b : list A) : zlen (a ++ b) = zlen a + zlen b.
Proof. unfold zlen. rewrite app_length. lia. Qed.

Lemma ncpy_text n : forall s j, is_text s -> ncpy n (s ++ 0 :: j) = Some (firstn n s ++ repeat 0 (n - length s)).
Proof.
  induction n as [|n IH]; intros s j H; [reflexivity|]. destruct s as [|c s].
  - cbn [app ncpy length firstn]. rewrite Nat.sub_0_r. reflexivity.
  - inversion H; subst. change ((c :: s) ++ 0 :: j) with (c :: s ++ 0 :: j). cbn [ncpy].
    replace (c =? 0) with false by lia. replace (c <? 0) with false by lia. rewrite IH by assumption. reflexivity.
Qed.
Lemma ncpy_raw n : forall t j, is_text t -> (n <= length t)%nat -> ncpy n (t ++ j) = Some (firstn n t).
Proof.
  induction n as [|n IH]; intros s j H L; [reflexivity|]. destruct s as [|c s]; [cbn in L; lia|].
  inversion H; subst. change ((c :: s) ++ j) with (c :: s ++ j). cbn [ncpy].
  replace (c =? 0) with false by lia. replace (c <? 0) with false by lia. rewrite IH by (assumption || (cbn in L; lia)). reflexivity.
Qed.
Lemma is_text_firstn n t : is_text t -> is_text (firstn n t).
Proof.
  revert n. induction t as [|c t IH]; intros [|n] H; try constructor; inversion H; subst; [assumption|]. apply IH. assumption.
Qed.
Lemma is_text_app a b : is_text a -> is_text b -> is_text (a ++ b).
Proof. intros A B. apply Forall_app. split; assumption. Qed.
Lemma is_text_app_l a b : is_text (a ++ b) -> is_text a.
Proof. intros A. apply Forall_app in A. tauto. Qed.
Lemma is_text_app_r a b : is_text (a ++ b) -> is_text b.
Proof. intros A. apply Forall_app in A. tauto. Qed.

Lemma denotes_text src len t : denotes src len t -> is_text t.
Proof.
  intros [(L & s & j & -> & T & ->)|(L & T & E & _)]; [|exact T].
  destruct (len =? 0); [exact T|]. apply is_text_firstn. exact T.
Qed.
Lemma denotes_ncpy src len t n : denotes src len t -> (0 < len -> Z.of_nat n <= len) ->
  ncpy n src = Some (firstn n t ++ repeat 0 (n - length t)).
Proof.
  intros [(L & s & j & -> & T & ->)|(L & T & E & j & ->)] N.
  - rewrite ncpy_text by exact T. f_equal. destruct (Z.eqb_spec len 0) as [->|NZ]; [reflexivity|].
    assert (NL : (n <= Z.to_nat len)%nat) by lia. rewrite firstn_firstn, Nat.min_l by exact NL.
    f_equal. f_equal. rewrite firstn_length. lia.
  - unfold zlen in E. rewrite ncpy_raw by (try assumption; lia). replace (n - length t)%nat with 0%nat by lia.
    cbn [repeat]. rewrite app_nil_r. reflexivity.
Qed.
(** The length an operation works with. *)
Lemma denotes_len src len t : denotes src len t ->
  exists n, (if len =? 0 then option_map zlen (cstr src) else Some len) = Some n /\ zlen t <= n /\ 0 <= n /\ (0 < len -> n = len) /\ (len = 0 -> n = zlen t).
Proof.
  intros [(L & s & j & -> & T & ->)|(L & T & E & j & ->)].
  - destruct (Z.eqb_spec len 0) as [->|NZ].
    + rewrite cstr_app by exact T. exists (zlen s). cbn [option_map]. unfold zlen. repeat split; lia.
    + exists len. split; [reflexivity|]. unfold zlen. rewrite firstn_length. repeat split; lia.
  - exists len. replace (len =? 0) with false by lia. repeat split; lia.
Qed.

(** Writing a padded text and its terminator. *)
Lemma write_split a b c bs : length b = length bs -> write_at (a ++ b ++ c) (zlen a) bs = Some (a ++ bs ++ c).
Proof.
  intros L. unfold write_at, zlen. rewrite !app_length.
  replace (_ && _) with true by lia. rewrite Nat2Z.id.
  rewrite firstn_app, Nat.sub_diag, firstn_O, app_nil_r, firstn_all.
  replace (skipn (length a + length bs) (a ++ b ++ c)) with c; [reflexivity|].
  rewrite skipn_app, skipn_all2 by lia. cbn [app]. rewrite skipn_app, skipn_all2 by lia. cbn [app].
  replace (length a + length bs - length a - length b)%nat with 0%nat by lia. reflexivity.
Qed.
Lemma write_rest a rest bs : (length bs <= length rest)%nat ->
  write_at (a ++ rest) (zlen a) bs = Some (a ++ bs ++ skipn (length bs) rest).
Proof.
  intros L. rewrite <- (firstn_skipn (length bs) rest) at 1. apply write_split. rewrite firstn_length. lia.
Qed.
Lemma put cur rest v : (length v < length rest)%nat ->
  obind (write_at (cur ++ rest) (zlen cur) v) (fun m => write_at m (zlen cur + zlen v) [0])
  = Some (cur ++ v ++ 0 :: skipn (S (length v)) rest).
Proof.
  intros L. rewrite write_rest by lia. cbn [obind]. rewrite app_assoc, <- zlen_app.
  rewrite write_rest by (rewrite skipn_length; cbn [length]; lia). f_equal. rewrite <- app_assoc. f_equal. f_equal.
  cbn [length app]. f_equal. clear. revert rest. induction (length v) as [|n IH]; intros rest; [destruct rest; reflexivity|].
  destruct rest as [|x rest]; [reflexivity|]. cbn [skipn]. apply IH.
Qed.
(** [strncpy] followed by the terminator, on top of a text. *)
Lemma strncpy_put cur rest src len t n : is_text cur -> denotes src len t -> 0 <= n -> (0 < len -> n <= len) -> n < zlen rest ->
  exists m, obind (strncpy (cur ++ rest) (zlen cur) src n) (fun m => write_at m (zlen cur + n) [0]) = Some m /\
    length m = length (cur ++ rest) /\ holds m (cur ++ firstn (Z.to_nat n) t).
Proof.
  intros C D N NL R. unfold strncpy. replace (n <? 0) with false by lia.
  rewrite (denotes_ncpy _ _ _ (Z.to_nat n) D) by lia. cbn [obind].
  set (v := firstn (Z.to_nat n) t ++ repeat 0 (Z.to_nat n - length t)).
  assert (LV : length v = Z.to_nat n) by (unfold v; rewrite app_length, firstn_length, repeat_length; lia).
  assert (P := put cur rest v). unfold zlen in R. rewrite LV in P. specialize (P ltac:(lia)).
  replace (zlen v) with n in P by (unfold zlen; lia).
  rewrite P. exists (cur ++ v ++ 0 :: skipn (S (Z.to_nat n)) rest). split; [reflexivity|]. split.
  - rewrite !app_length. cbn [length]. rewrite skipn_length, LV. lia.
  - split; [apply is_text_app; [exact C|]; apply is_text_firstn, (denotes_text _ _ _ D)|].
    unfold v. destruct (Z.to_nat n - length t)%nat as [|k].
    + eexists. cbn [repeat]. rewrite app_nil_r, <- app_assoc. reflexivity.
    + exists (repeat 0 k ++ 0 :: skipn (S (Z.to_nat n)) rest). cbn [repeat]. rewrite <- !app_assoc. reflexivity.
Qed.
Lemma vsn_put cur rest text size : is_text cur -> is_text text -> 0 < size -> (length (firstn (Z.to_nat (size - 1)) text) < length rest)%nat ->
  exists m, vsn (cur ++ rest) (zlen cur) size text = Some m /\ length m = length (cur ++ rest) /\
    holds m (cur ++ firstn (Z.to_nat (size - 1)) text).
Proof.
  intros C T S R. unfold vsn. replace (size <=? 0) with false by lia.
  set (v := firstn (Z.to_nat (size - 1)) text) in *.
  rewrite write_rest by (rewrite app_length; cbn [length]; lia). eexists. split; [reflexivity|]. split.
  - rewrite !app_length, skipn_length. rewrite ?app_length. cbn [length]. lia.
  - split; [apply is_text_app; [exact C|]; apply is_text_firstn, T|]. eexists. rewrite <- !app_assoc. reflexivity.
Qed.

Lemma firstn_cut {A} k (t s : list A) : firstn k (firstn k t ++ s) = firstn k (t ++ s).
Proof.
  rewrite !firstn_app, firstn_firstn, Nat.min_id. f_equal. rewrite firstn_length.
  destruct (Nat.le_gt_cases k (length t)) as [L|L].
  - replace (k - length t)%nat with 0%nat by lia. replace (k - Nat.min k (length t))%nat with 0%nat by lia. reflexivity.
  - replace (Nat.min k (length t)) with (length t) by lia. reflexivity.
Qed.

(** ** BString *)
Lemma bs_step_ok o t e k mem : text_after t [o] e -> length mem = S k -> holds mem (firstn k t) ->
  exists m, bs_step mem o = Some m /\ length m = S k /\ holds m (firstn k e).
Proof.
  intros A L H.
  inversion A as [|? src len s ? ? D A1|? src len s ? ? D A1|? s ? ? T A1|? s ? ? T A1|? ? ? A1]; subst; inversion A1; subst; cbn [bs_step].
  - unfold bs_set. assert (W : write_at mem 0 [0] = Some (0 :: skipn 1 mem)).
    { assert (W := write_rest [] mem [0]). cbn [app] in W. apply W. cbn [length]. lia. }
    rewrite W. cbn [obind]. replace (zlen mem) with (Z.of_nat (S k)) by (unfold zlen; lia).
    set (n := if 0 <? len then _ else _).
    assert (N : 0 <= n /\ (0 < len -> n <= len) /\ n < Z.of_nat (S k)) by (unfold n; destruct (Z.ltb_spec 0 len); lia).
    assert (LR : length (0 :: skipn 1 mem) = S k) by (cbn [length]; rewrite skipn_length; lia).
    destruct (strncpy_put [] (0 :: skipn 1 mem) src len e n) as (m & E & LM & HM); try (constructor; fail); try assumption; try lia; [unfold zlen; lia|].
    cbn [app zlen length] in E. change (zlen (@nil Z)) with 0 in E. rewrite Z.add_0_l in E. exists m. split; [exact E|]. split; [rewrite LM; exact LR|].
    replace (firstn k e) with (firstn (Z.to_nat n) e); [exact HM|].
    unfold n. destruct (Z.ltb_spec 0 len) as [P|P]; [|f_equal; lia].
    destruct (Z.le_gt_cases len (Z.of_nat (S k) - 1)) as [Q|Q]; [|f_equal; lia].
    rewrite Z.min_r by lia. assert (LT : zlen e <= len).
    { destruct (denotes_len _ _ _ D) as (n' & _ & Z1 & _ & Z2 & _). rewrite Z2 in Z1 by lia. exact Z1. }
    unfold zlen in LT. rewrite !firstn_all2 by lia. reflexivity.
  - unfold bs_append. destruct (denotes_len _ _ _ D) as (n & EN & NL & N0 & NP & NZ). rewrite EN. cbn [obind].
    rewrite (cstr_holds _ _ H). cbn [obind]. destruct H as [HT [j Hj]].
    set (cur := firstn k t) in *. set (add := Z.min _ _).
    assert (LC : (length cur <= k)%nat) by (unfold cur; rewrite firstn_length; lia).
    assert (LJ : length (0 :: j) = (S k - length cur)%nat) by (rewrite Hj, app_length in L; lia).
    rewrite <- firstn_cut. fold cur.
    assert (DT := denotes_text _ _ _ D).
    destruct (Z.ltb_spec 0 add) as [P|P].
    + rewrite Hj. destruct (strncpy_put cur (0 :: j) src len s add) as (m & E & LM & HM); try assumption; try lia.
      * unfold zlen. rewrite LJ. unfold add, zlen. lia.
      * exists m. split; [exact E|]. split; [rewrite LM, <- Hj; exact L|].
        replace (firstn k (cur ++ s)) with (cur ++ firstn (Z.to_nat add) s); [exact HM|].
        rewrite firstn_app, (firstn_all2 cur) by exact LC. f_equal. unfold add, zlen. rewrite Hj, app_length, LJ.
        destruct (Z.le_gt_cases (Z.of_nat (length cur + (S k - length cur)) - Z.of_nat (length cur) - 1) n) as [Q|Q].
        -- rewrite Z.min_l by lia. f_equal. lia.
        -- rewrite Z.min_r by lia. unfold zlen in NL. rewrite !firstn_all2 by lia. reflexivity.
    + exists mem. split; [reflexivity|]. split; [exact L|].
      replace (firstn k (cur ++ s)) with cur; [split; [exact HT|exists j; exact Hj]|].
      unfold add, zlen in P. unfold zlen in NL. rewrite L in P. rewrite firstn_app, (firstn_all2 cur) by exact LC.
      destruct (Nat.eq_dec (k - length cur) 0) as [Q|Q]; [rewrite Q; cbn [firstn]; rewrite app_nil_r; reflexivity|].
      assert (S0 : length s = 0%nat) by lia. destruct s; [|discriminate]. rewrite firstn_nil, app_nil_r. reflexivity.
  - unfold bs_format. destruct (vsn_put [] mem e (zlen mem)) as (m & E & LM & HM); try (constructor; fail); try assumption.
    + unfold zlen. lia.
    + rewrite firstn_length. unfold zlen. lia.
    + exists m. split; [exact E|]. split; [rewrite LM; exact L|]. replace (Z.to_nat (zlen mem - 1)) with k in HM by (unfold zlen; lia). exact HM.
  - unfold bs_append_fmt. rewrite (cstr_holds _ _ H). cbn [obind]. destruct H as [HT [j Hj]].
    rewrite <- firstn_cut. set (cur := firstn k t) in *.
    assert (LC : (length cur <= k)%nat) by (unfold cur; rewrite firstn_length; lia).
    assert (LJ : length (0 :: j) = (S k - length cur)%nat) by (rewrite Hj, app_length in L; lia).
    replace (zlen mem) with (Z.of_nat (S k)) by (unfold zlen; lia). replace (0 <? Z.of_nat (S k) - zlen cur) with true by (unfold zlen; lia).
    rewrite Hj. destruct (vsn_put cur (0 :: j) s (Z.of_nat (S k) - zlen cur)) as (m & E & LM & HM); try assumption.
    + unfold zlen. lia.
    + rewrite firstn_length, LJ. unfold zlen. lia.
    + exists m. split; [exact E|]. split; [rewrite LM, <- Hj; exact L|].
      rewrite firstn_app, (firstn_all2 cur) by exact LC.
      replace (k - length cur)%nat with (Z.to_nat (Z.of_nat (S k) - zlen cur - 1)) by (unfold zlen; lia). exact HM.
  - unfold bs_clear. assert (W : write_at mem 0 [0] = Some (0 :: skipn 1 mem)).
    { assert (W := write_rest [] mem [0]). cbn [app] in W. apply W. cbn [length]. lia. }
    rewrite W. eexists. split; [reflexivity|]. split; [cbn [length]; rewrite skipn_length; lia|].
    rewrite firstn_nil. split; [constructor|]. eexists. reflexivity.
Qed.

Theorem bs_run_ok : forall ops t e k mem, text_after t ops e -> length mem = S k -> holds mem (firstn k t) ->
  exists m, bs_run mem ops = Some m /\ length m = S k /\ cstr m = Some (firstn k e).
Proof.
  induction ops as [|o ops IH]; intros t e k mem A L H.
  - inversion A; subst. exists mem. split; [reflexivity|]. split; [exact L|]. apply cstr_holds, H.
  - cbn [bs_run]. assert (X : exists t', text_after t [o] t' /\ text_after t' ops e).
    { inversion A; subst; eexists; (split; [econstructor; try eassumption; constructor|eassumption]). }
    destruct X as (t' & A1 & A2). destruct (bs_step_ok _ _ _ _ _ A1 L H) as (m & -> & LM & HM). cbn [obind].
    exact (IH _ _ _ _ A2 LM HM).
Qed.

Theorem bstring_ok : forall size ops e, 0 < size -> text_after [] ops e ->
  exists m0 m, bs_new size = Some m0 /\ bs_run m0 ops = Some m /\ zlen m = size /\ cstr m = Some (firstn (Z.to_nat (size - 1)) e).
Proof.
  intros size ops e S A. unfold bs_new. set (m0 := repeat junk (Z.to_nat size)).
  assert (W := write_rest [] m0 [0]). assert (LM : length m0 = Z.to_nat size) by (unfold m0; apply repeat_length).
  specialize (W ltac:(cbn [length]; lia)). cbn [app] in W. change (zlen []) with 0 in W. rewrite W. exists (0 :: skipn 1 m0).
  destruct (bs_run_ok ops [] e (Z.to_nat (size - 1)) (0 :: skipn 1 m0) A) as (m & R & L & C).
  - cbn [length]. rewrite skipn_length. lia.
  - rewrite firstn_nil. split; [constructor|]. eexists. reflexivity.
  - exists m. split; [reflexivity|]. split; [exact R|]. split; [unfold zlen; lia|exact C].
Qed.
