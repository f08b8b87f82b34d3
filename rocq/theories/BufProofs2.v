(** Proofs about CString and StringBuilder. *)
From Verif Require Import Base FeedModel FeedProofs BufModel BufSpec BufProofs.
Open Scope list_scope. Open Scope Z_scope.

Definition cholds (mem t : list Z) : Prop := (mem = [] /\ t = []) \/ holds mem t.

Lemma cs_text_holds mem t : cholds mem t -> cs_text mem = Some t.
Proof.
  intros [[-> ->]|H]; [reflexivity|]. assert (C := cstr_holds _ _ H). destruct H as [_ [j ->]].
  destruct t; exact C.
Qed.
Lemma cholds_text mem t : cholds mem t -> is_text t.
Proof. intros [[-> ->]|[T _]]; [constructor|exact T]. Qed.
Lemma resize_len mem n : length (resize mem n) = Z.to_nat n.
Proof. unfold resize. rewrite app_length, firstn_length, repeat_length. lia. Qed.
Lemma resize_prefix mem t n : cholds mem t -> zlen t <= n -> exists rest, resize mem n = t ++ rest /\ zlen rest = n - zlen t.
Proof.
  intros C L. assert (X : exists rest, resize mem n = t ++ rest).
  { unfold zlen in L. destruct C as [[-> ->]|[_ [j ->]]]; [eexists; reflexivity|]. unfold resize.
    rewrite firstn_app, (firstn_all2 t) by lia. rewrite <- app_assoc. eexists. reflexivity. }
  destruct X as [rest E]. exists rest. split; [exact E|]. assert (R := resize_len mem n). rewrite E, app_length in R. unfold zlen in *. lia.
Qed.
Lemma resize_holds mem t n : holds mem t -> zlen t < n -> holds (resize mem n) t.
Proof.
  intros [T [j ->]] L. split; [exact T|]. unfold zlen in L. unfold resize. rewrite firstn_app, (firstn_all2 t) by lia.
  destruct (Z.to_nat n - length t)%nat as [|k] eqn:E; [lia|]. cbn [firstn]. rewrite <- app_assoc.
  change ((0 :: firstn k j) ++ ?x) with (0 :: firstn k j ++ x). eexists. reflexivity.
Qed.
Lemma put_whole cur rest src len t n : is_text cur -> denotes src len t -> 0 <= n -> (0 < len -> n <= len) -> zlen t <= n -> n < zlen rest ->
  exists m, obind (strncpy (cur ++ rest) (zlen cur) src n) (fun m => write_at m (zlen cur + n) [0]) = Some m /\
    length m = length (cur ++ rest) /\ holds m (cur ++ t).
Proof.
  intros C D N NL L R. destruct (strncpy_put cur rest src len t n C D N NL R) as (m & E & LM & H). exists m. split; [exact E|]. split; [exact LM|].
  rewrite firstn_all2 in H by (unfold zlen in L; lia). exact H.
Qed.

Lemma trimmed_snoc_blank u c s : blank_char c -> trimmed (u ++ [c]) s -> trimmed u s.
Proof.
  intros B [(b & E & F) O]. destruct (exists_last (l := b)) as (b' & x & ->).
  - intros ->. rewrite app_nil_r in E. subst s. destruct O as [O|(v & d & O & N)]; [destruct u; discriminate|].
    apply app_inj_tail in O as [_ ->]. contradiction.
  - rewrite app_assoc in E. apply app_inj_tail in E as [-> ->]. split; [|exact O]. exists b'. split; [reflexivity|].
    apply Forall_app in F. tauto.
Qed.
Lemma trimmed_snoc_other u c s : ~ blank_char c -> trimmed (u ++ [c]) s -> s = u ++ [c].
Proof.
  intros B [(b & E & F) O]. destruct b as [|x b].
  - rewrite app_nil_r in E. symmetry. exact E.
  - exfalso. destruct (exists_last (l := x :: b)) as (b' & y & Y); [discriminate|]. rewrite Y in E, F.
    rewrite app_assoc in E. apply app_inj_tail in E as [_ ->]. apply Forall_app in F as [_ F]. inversion F; subst. contradiction.
Qed.
Lemma blank_iff c : blank c = true <-> blank_char c.
Proof. unfold blank, blank_char. lia. Qed.
Lemma blank_end_ok t : forall j s, is_text t -> trimmed t s -> holds (blank_end (length t) (t ++ 0 :: j)) s.
Proof.
  induction t as [|c t IH] using rev_ind; intros j s T H.
  - destruct H as [(b & E & _) _]. symmetry in E. apply app_eq_nil in E as [-> _]. cbn [length blank_end app].
    split; [constructor|]. exists j. reflexivity.
  - rewrite app_length. cbn [length]. rewrite Nat.add_1_r. cbn [blank_end].
    replace (nth (length t) ((t ++ [c]) ++ 0 :: j) 0) with c.
    2:{ rewrite <- app_assoc. rewrite app_nth2 by lia. rewrite Nat.sub_diag. reflexivity. }
    destruct (blank c) eqn:B.
    + apply blank_iff in B. rewrite <- app_assoc.
      replace (firstn (length t) (t ++ [c] ++ 0 :: j)) with t by (rewrite firstn_app, Nat.sub_diag, firstn_O, app_nil_r, firstn_all; reflexivity).
      change ([0] ++ ?x) with (0 :: x). apply IH; [apply is_text_app_l in T; exact T|]. exact (trimmed_snoc_blank _ _ _ B H).
    + assert (B' : ~ blank_char c) by (rewrite <- blank_iff; congruence). rewrite (trimmed_snoc_other _ _ _ B' H).
      split; [exact T|]. exists j. reflexivity.
Qed.

Lemma replace_ok a b c src s j k n : src = s ++ 0 :: j -> is_text s -> is_text (a ++ b ++ c) -> 0 <= n ->
  exists m, cs_replace ((a ++ b ++ c) ++ 0 :: k) (zlen a) (zlen b) src n = Some m /\
    holds m (a ++ (if n =? 0 then s else firstn (Z.to_nat n) s) ++ c).
Proof.
  intros -> S T N. unfold cs_replace. rewrite cstr_app by exact S. cbn [obind].
  set (mem := (a ++ b ++ c) ++ 0 :: k). assert (H : holds mem (a ++ b ++ c)) by (split; [exact T|exists k; reflexivity]).
  rewrite (cs_text_holds mem (a ++ b ++ c)) by (right; exact H). cbn [obind].
  set (add := if 0 <? n then _ else _). set (x := if n =? 0 then s else _).
  assert (X : x = firstn (Z.to_nat add) s /\ zlen x = add /\ 0 <= add <= zlen s).
  { unfold x, add, zlen. destruct (Z.eqb_spec n 0) as [->|Q]; cbn [Z.ltb Z.compare].
    - rewrite firstn_all2 by lia. repeat split; lia.
    - replace (0 <? n) with true by lia. rewrite firstn_length. split; [|lia].
      destruct (Z.le_gt_cases n (Z.of_nat (length s))) as [L|L]; [rewrite Z.min_r by lia; reflexivity|].
      rewrite Z.min_l by lia. rewrite !firstn_all2 by lia. reflexivity. }
  clearbody add x. destruct X as (X1 & X2 & X3).
  rewrite !zlen_app. replace (zlen a + zlen b <=? _) with true by (unfold zlen; lia).
  replace (_ <? zlen a) with false by (unfold zlen; lia).
  replace (zlen a + (zlen b + zlen c) - zlen b + add) with (zlen a + add + zlen c) by lia.
  set (blk := repeat junk _). assert (LB : zlen blk = zlen a + add + zlen c + 1).
  { unfold blk, zlen in *. rewrite repeat_length. lia. }
  clearbody blk. unfold strncpy at 1. replace (zlen a <? 0) with false by (unfold zlen; lia).
  unfold mem at 1. rewrite ncpy_text by exact T.
  replace (firstn (Z.to_nat (zlen a)) (a ++ b ++ c)) with a.
  2:{ unfold zlen. rewrite Nat2Z.id, firstn_app, Nat.sub_diag, firstn_O, app_nil_r, firstn_all. reflexivity. }
  replace (Z.to_nat (zlen a) - length (a ++ b ++ c))%nat with 0%nat by (unfold zlen; rewrite app_length; lia).
  cbn [repeat obind]. rewrite app_nil_r.
  assert (W1 := write_rest [] blk a). cbn [app] in W1. change (zlen []) with 0 in W1. rewrite W1 by (unfold zlen in LB; lia). clear W1.
  cbn [obind]. set (r1 := skipn (length a) blk). assert (L1 : zlen r1 = add + zlen c + 1).
  { unfold r1, zlen in *. rewrite skipn_length. lia. }
  clearbody r1. unfold strncpy. replace (add <? 0) with false by lia. rewrite ncpy_text by exact S. rewrite <- X1.
  replace (Z.to_nat add - length s)%nat with 0%nat by (unfold zlen in X3; lia). cbn [repeat obind]. rewrite app_nil_r.
  rewrite write_rest by (unfold zlen in *; lia). cbn [obind]. set (r2 := skipn (length x) r1). assert (L2 : zlen r2 = zlen c + 1).
  { unfold r2, zlen in *. rewrite skipn_length. lia. }
  clearbody r2. replace (skipn (Z.to_nat (zlen a + zlen b)) mem) with (c ++ 0 :: k).
  2:{ unfold mem. replace ((a ++ b ++ c) ++ 0 :: k) with ((a ++ b) ++ c ++ 0 :: k) by (rewrite <- !app_assoc; reflexivity).
      rewrite skipn_app, skipn_all2 by (unfold zlen; rewrite app_length; lia). cbn [app].
      replace (_ - _)%nat with 0%nat by (unfold zlen; rewrite app_length; lia). reflexivity. }
  rewrite cstr_app by (apply is_text_app_r in T; apply is_text_app_r in T; exact T). cbn [obind].
  rewrite <- X2. rewrite app_assoc, <- zlen_app. rewrite write_rest by (rewrite app_length; unfold zlen in L2; cbn [length]; lia).
  eexists. split; [reflexivity|]. split.
  - apply is_text_app; [apply is_text_app_l in T; exact T|]. apply is_text_app; [rewrite X1; apply is_text_firstn, S|].
    apply is_text_app_r in T; apply is_text_app_r in T; exact T.
  - eexists. rewrite <- !app_assoc. reflexivity.
Qed.

(** ** CString *)
Lemma cs_step_ok o t e mem : ctext_after t [o] e -> cholds mem t -> exists m, cs_step mem o = Some m /\ cholds m e.
Proof.
  intros A H.
  inversion A as [|? src len s ? ? D A1|? ? ? A1|? src len s ? ? D A1|? s ? ? T A1|? s ? ? T A1|? cap ? ? Q A1|? s ? ? T A1|a b c src s j n ? ? ES TS N0 NE A1];
    subst; inversion A1; subst; cbn [cs_step].
  - unfold cs_set. destruct (denotes_len _ _ _ D) as (n & EN & NL & N0 & NP & NZ). rewrite EN. cbn [obind].
    destruct (put_whole [] (resize mem (n + 1)) src len e n) as (m & E & _ & HM); try assumption; try (constructor; fail); try lia.
    { unfold zlen. rewrite resize_len. lia. }
    cbn [app] in E. change (zlen []) with 0 in E. rewrite Z.add_0_l in E. exists m. split; [exact E|right; exact HM].
  - exists []. split; [reflexivity|left; split; reflexivity].
  - unfold cs_append. destruct (denotes_len _ _ _ D) as (n & EN & NL & N0 & NP & NZ). rewrite EN. cbn [obind].
    rewrite (cs_text_holds _ _ H). cbn [obind]. destruct (resize_prefix mem t (zlen t + n + 1) H) as (rest & -> & LR); [lia|].
    destruct (put_whole t rest src len s n) as (m & E & _ & HM); try assumption; try lia; [exact (cholds_text _ _ H)|].
    exists m. split; [exact E|right; exact HM].
  - unfold cs_format. destruct (vsn_put [] (resize mem (zlen e + 1)) e (zlen e + 1)) as (m & E & _ & HM); try assumption; try (constructor; fail).
    + unfold zlen. lia.
    + rewrite firstn_length, resize_len. unfold zlen. lia.
    + exists m. split; [exact E|right]. rewrite firstn_all2 in HM by (unfold zlen; lia). exact HM.
  - unfold cs_append_fmt. rewrite (cs_text_holds _ _ H). cbn [obind].
    destruct (resize_prefix mem t (zlen t + zlen s + 1) H) as (rest & -> & LR); [unfold zlen; lia|].
    destruct (vsn_put t rest s (zlen t + zlen s + 1)) as (m & E & _ & HM); try assumption.
    + exact (cholds_text _ _ H).
    + unfold zlen. lia.
    + rewrite firstn_length. unfold zlen in *. lia.
    + exists m. split; [exact E|right]. rewrite firstn_all2 in HM by (unfold zlen; lia). exact HM.
  - unfold cs_reserve. rewrite (cs_text_holds _ _ H). cbn [obind]. destruct (_ || _) eqn:B; [|exists mem; split; [reflexivity|exact H]].
    destruct (resize_prefix mem e (cap + 1) H) as (rest & -> & LR); [unfold zlen in *; lia|].
    rewrite write_rest by (unfold zlen in *; cbn [length]; lia). eexists. split; [reflexivity|]. right. split; [exact (cholds_text _ _ H)|].
    eexists. reflexivity.
  - unfold cs_trim. rewrite (cs_text_holds _ _ H). cbn [obind]. eexists. split; [reflexivity|].
    destruct H as [[-> ->]|[TT [j ->]]].
    + destruct T as [(b & E & _) _]. symmetry in E. apply app_eq_nil in E as [-> _]. left. split; reflexivity.
    + right. apply blank_end_ok; assumption.
  - destruct H as [[-> H]|[TT [k ->]]]; [contradiction|].
    destruct (replace_ok a b c (s ++ 0 :: j) s j k n eq_refl TS TT N0) as (m & E & HM). exists m. split; [exact E|right; exact HM].
Qed.
Theorem cstring_ok : forall ops t e mem, ctext_after t ops e -> cholds mem t ->
  exists m, cs_run mem ops = Some m /\ cs_text m = Some e.
Proof.
  induction ops as [|o ops IH]; intros t e mem A H.
  - inversion A; subst. exists mem. split; [reflexivity|]. apply cs_text_holds, H.
  - cbn [cs_run]. assert (X : exists t', ctext_after t [o] t' /\ ctext_after t' ops e).
    { inversion A; subst; eexists; (split; [econstructor; try eassumption; try reflexivity; constructor|eassumption]). }
    destruct X as (t' & A1 & A2). destruct (cs_step_ok _ _ _ _ A1 H) as (m & -> & HM). cbn [obind]. exact (IH _ _ _ A2 HM).
Qed.

(** ** Replacing every occurrence *)
Lemma find_from_spec what : forall s pos, 0 <= pos ->
  (find_from pos s what = -1 /\ (forall a b, s <> a ++ what ++ b)) \/
  (exists a b, s = a ++ what ++ b /\ leftmost what a b /\ find_from pos s what = pos + zlen a).
Proof.
  induction s as [|c s IH]; intros pos P.
  - cbn [find_from]. destruct (prefixb what []) eqn:E.
    + right. apply prefixb_iff in E as [t E]. exists [], t. split; [exact E|]. split; [intros a' b' _; cbn; lia|unfold zlen; cbn; lia].
    + left. split; [reflexivity|]. intros a b Q. symmetry in Q. apply app_eq_nil in Q as [-> Q]. apply app_eq_nil in Q as [-> ->]. discriminate.
  - cbn [find_from]. destruct (prefixb what (c :: s)) eqn:E.
    + right. apply prefixb_iff in E as [t E]. exists [], t. split; [exact E|]. split; [intros a' b' _; cbn; lia|unfold zlen; cbn; lia].
    + assert (NP : forall t, c :: s <> what ++ t).
      { intros t Q. assert (X : prefixb what (c :: s) = true) by (apply prefixb_iff; exists t; exact Q). congruence. }
      destruct (IH (pos + 1) ltac:(lia)) as [[E1 N]|(a & b & E1 & LM & E2)].
      * left. split; [exact E1|]. intros [|x a] b Q; [exact (NP b Q)|]. injection Q as -> Q. exact (N a b Q).
      * right. exists (c :: a), b. split; [rewrite E1; reflexivity|]. split.
        -- intros [|x a'] b' Q; [exfalso; apply (NP b'); rewrite E1; exact Q|]. injection Q as -> Q. apply LM in Q. cbn [length]. lia.
        -- rewrite E2. unfold zlen. cbn [length]. lia.
Qed.
Lemma skip_prefix (p s k : list Z) : skipn (Z.to_nat (zlen p)) ((p ++ s) ++ k) = s ++ k.
Proof.
  unfold zlen. rewrite Nat2Z.id, <- app_assoc, skipn_app, skipn_all2 by lia. rewrite Nat.sub_diag. reflexivity.
Qed.
Lemma replace_all_ok from to : is_text to -> from <> [] -> forall fuel p s k, is_text (p ++ s) -> (length s < fuel)%nat ->
  exists s' m, cs_replace_all fuel ((p ++ s) ++ 0 :: k) from to (zlen p) = Some m /\ holds m (p ++ s') /\ replaced from to s s'.
Proof.
  intros TO NE. induction fuel as [|fuel IH]; intros p s k T F; [lia|]. cbn [cs_replace_all]. unfold cs_find.
  assert (H : holds ((p ++ s) ++ 0 :: k) (p ++ s)) by (split; [exact T|exists k; reflexivity]).
  rewrite (cs_text_holds _ (p ++ s)) by (right; exact H). cbn [obind].
  destruct (negb (zlen p =? 0) && (zlen (p ++ s) <=? zlen p)) eqn:B.
  - assert (s = []).
    { destruct s as [|c s]; [reflexivity|]. rewrite zlen_app in B. unfold zlen in B. cbn [length] in B. lia. }
    subst s. cbn [obind Z.eqb Pos.eqb]. exists [], ((p ++ []) ++ 0 :: k). split; [reflexivity|]. split; [exact H|].
    apply rep_none. intros a b Q. symmetry in Q. apply app_eq_nil in Q as [_ Q]. apply app_eq_nil in Q as [Q _]. contradiction.
  - rewrite skip_prefix, cstr_app by (apply is_text_app_r in T; exact T). cbn [obind].
    destruct (find_from_spec from s (zlen p) ltac:(unfold zlen; lia)) as [[E N]|(a & b & E1 & LM & E2)].
    + rewrite E. cbn [Z.eqb Pos.eqb]. exists s, ((p ++ s) ++ 0 :: k). split; [reflexivity|]. split; [exact H|]. apply rep_none, N.
    + rewrite E2. replace (zlen p + zlen a =? -1) with false by (unfold zlen; lia). subst s. rewrite <- zlen_app.
      replace ((p ++ a ++ from ++ b) ++ 0 :: k) with (((p ++ a) ++ from ++ b) ++ 0 :: k) by (rewrite <- !app_assoc; reflexivity).
      destruct (replace_ok (p ++ a) from b (to ++ [0]) to [] k 0 eq_refl TO) as (m & -> & HT & j & HM); [rewrite <- app_assoc; exact T|lia|].
      cbn [obind]. change (if 0 =? 0 then to else _) with to in HM, HT. rewrite <- zlen_app. rewrite app_assoc in HM, HT. rewrite HM.
      destruct (IH ((p ++ a) ++ to) b j HT) as (b' & m' & E' & H' & R').
      { rewrite !app_length in F. destruct from; [contradiction|]. cbn [length] in F. lia. }
      exists (a ++ to ++ b'), m'. split; [exact E'|]. split; [rewrite <- !app_assoc in H'; exact H'|]. apply rep_step; assumption.
Qed.
Theorem replace_all_text : forall from to s k, is_text s -> is_text to -> from <> [] ->
  exists s' m, cs_replace_all (S (length s)) (s ++ 0 :: k) from to 0 = Some m /\ cs_text m = Some s' /\ replaced from to s s'.
Proof.
  intros from to s k S T N. destruct (replace_all_ok from to T N (Datatypes.S (length s)) [] s k S ltac:(lia)) as (s' & m & E & H & R).
  exists s', m. split; [exact E|]. split; [apply cs_text_holds; right; exact H|exact R].
Qed.
Lemma replace_empty to : is_text to -> forall fuel p s k, is_text (p ++ s) -> s <> [] ->
  cs_replace_all fuel ((p ++ s) ++ 0 :: k) [] to (zlen p) = None.
Proof.
  intros TO. induction fuel as [|fuel IH]; intros p s k T NE; [reflexivity|]. cbn [cs_replace_all]. unfold cs_find.
  assert (H : holds ((p ++ s) ++ 0 :: k) (p ++ s)) by (split; [exact T|exists k; reflexivity]).
  rewrite (cs_text_holds _ (p ++ s)) by (right; exact H). cbn [obind].
  destruct s as [|c s]; [contradiction|].
  replace (negb (zlen p =? 0) && (zlen (p ++ c :: s) <=? zlen p)) with false by (rewrite zlen_app; unfold zlen; cbn [length]; lia).
  rewrite skip_prefix, cstr_app by (apply is_text_app_r in T; exact T). cbn [obind find_from prefixb].
  replace (zlen p =? -1) with false by (unfold zlen; lia).
  destruct (replace_ok p [] (c :: s) (to ++ [0]) to [] k 0 eq_refl TO T) as (m & E & HT & j & HM); [lia|].
  change ([] ++ c :: s) with (c :: s) in E. change (zlen []) with 0 in *. rewrite E. cbn [obind].
  change (if 0 =? 0 then to else _) with to in HM, HT. rewrite app_assoc in HM, HT. rewrite HM, <- zlen_app. apply IH; [exact HT|discriminate].
Qed.

(** ** StringBuilder *)
Definition sb_inv (b : builder) (t : list Z) : Prop :=
  (sb_mem b = [] /\ t = [] /\ sb_len b = 0 /\ sb_cap b = 0) \/
  (holds (sb_mem b) t /\ zlen (sb_mem b) = sb_cap b + 1 /\ sb_len b = zlen t).
Lemma holds_len mem t : holds mem t -> zlen t < zlen mem.
Proof. intros [_ [j ->]]. rewrite zlen_app. unfold zlen. cbn [length]. lia. Qed.
Lemma sb_reserve_ok b t cap x : sb_inv b t -> 0 <= cap ->
  exists b', sb_reserve b cap x = Some b' /\ sb_len b' = sb_len b /\ cap <= sb_cap b' /\
    holds (sb_mem b') t /\ zlen (sb_mem b') = sb_cap b' + 1.
Proof.
  intros I C. unfold sb_reserve. destruct ((sb_cap b <? cap) || (sb_cap b =? 0)) eqn:B.
  - set (nc := if cap <? _ then _ else cap). assert (N : cap <= nc) by (unfold nc; destruct (Z.ltb_spec cap (if x then 0 else sb_cap b * 3 / 2)); lia).
    clearbody nc. destruct I as [(M & -> & L & K)|(H & L & K)].
    + rewrite M. assert (W := write_rest [] (resize [] (nc + 1)) [0]). cbn [app] in W. change (zlen []) with 0 in W.
      rewrite W by (rewrite resize_len; cbn [length]; lia). eexists. split; [reflexivity|]. cbn [sb_len sb_cap sb_mem].
      split; [reflexivity|]. split; [exact N|]. split; [split; [constructor|]; eexists; reflexivity|].
      unfold zlen. cbn [length]. rewrite skipn_length, resize_len. cbn [length]. lia.
    + assert (HL := holds_len _ _ H). assert (R : holds (resize (sb_mem b) (nc + 1)) t) by (apply resize_holds; [exact H|lia]).
      exists (mkSb (resize (sb_mem b) (nc + 1)) (sb_len b) nc). split; [destruct (sb_mem b); [destruct H as [_ [j H]]; destruct t; discriminate|reflexivity]|].
      cbn [sb_len sb_cap sb_mem]. repeat split; try assumption; try lia; [apply R|apply R|]. unfold zlen. rewrite resize_len. unfold zlen in *. lia.
  - exists b. split; [reflexivity|]. split; [reflexivity|]. split; [lia|]. destruct I as [(M & -> & L & K)|(H & L & K)]; [lia|]. split; assumption.
Qed.
Lemma sb_step_ok o t e b : stext_after t [o] e -> sb_inv b t -> exists b', sb_step b o = Some b' /\ sb_inv b' e.
Proof.
  intros A I. assert (LT : sb_len b = zlen t) by (destruct I as [(_ & -> & -> & _)|(_ & _ & ->)]; reflexivity).
  inversion A as [|? src len s ? ? [D X] A1|? s ? ? T A1|? cap x ? ? Q A1|? ? ? A1]; subst; inversion A1; subst; cbn [sb_step].
  - unfold sb_append. destruct (denotes_len _ _ _ D) as (n & EN & NL & N0 & NP & NZ). rewrite EN. cbn [obind].
    assert (N : n = zlen s) by (destruct X as [->|X]; [apply NZ; reflexivity|]; destruct (Z.eq_dec len 0); [apply NZ; assumption|]; assert (0 <= zlen s) by (unfold zlen; lia); rewrite NP by lia; lia).
    subst n. destruct (sb_reserve_ok b t (sb_len b + zlen s) false I) as (b1 & -> & L1 & C1 & H1 & Z1); [unfold zlen in *; lia|].
    cbn [obind]. destruct H1 as [T1 [j M1]]. rewrite M1. rewrite LT. assert (LJ : zlen (0 :: j) = sb_cap b1 + 1 - zlen t).
    { rewrite M1, zlen_app in Z1. lia. }
    destruct (put_whole t (0 :: j) src len s (zlen s)) as (m & E & LM & HM); try assumption; try lia.
    rewrite LT in C1. destruct (strncpy (t ++ 0 :: j) (zlen t) src (zlen s)) as [m0|]; [|discriminate E]. cbn [obind] in *.
    rewrite E. cbn [obind]. eexists. split; [reflexivity|]. right. cbn [sb_mem sb_cap sb_len]. split; [exact HM|].
    split; [unfold zlen; rewrite LM, <- M1; exact Z1|rewrite zlen_app; reflexivity].
  - unfold sb_append_fmt. destruct (sb_reserve_ok b t (sb_len b + zlen s) false I) as (b1 & -> & L1 & C1 & H1 & Z1); [unfold zlen in *; lia|].
    cbn [obind]. destruct H1 as [T1 [j M1]]. rewrite M1. rewrite LT in *. assert (LJ : zlen (0 :: j) = sb_cap b1 + 1 - zlen t).
    { rewrite M1, zlen_app in Z1. lia. }
    destruct (vsn_put t (0 :: j) s (zlen t + zlen s + 1)) as (m & E & LM & HM); try assumption.
    + unfold zlen. lia.
    + rewrite firstn_length. unfold zlen in *. lia.
    + rewrite E. cbn [obind]. eexists. split; [reflexivity|]. right. cbn [sb_mem sb_cap sb_len].
      rewrite firstn_all2 in HM by (unfold zlen; lia). split; [exact HM|].
      split; [unfold zlen; rewrite LM, <- M1; exact Z1|rewrite zlen_app; reflexivity].
  - destruct (sb_reserve_ok b e cap x I Q) as (b1 & -> & L1 & C1 & H1 & Z1). exists b1. split; [reflexivity|]. right. rewrite L1, LT. auto.
  - exists sb_new. split; [reflexivity|]. left. repeat split; reflexivity.
Qed.
Theorem builder_ok : forall ops t e b, stext_after t ops e -> sb_inv b t ->
  exists b', sb_run b ops = Some b' /\ sb_inv b' e.
Proof.
  induction ops as [|o ops IH]; intros t e b A H.
  - inversion A; subst. exists b. split; [reflexivity|exact H].
  - cbn [sb_run]. assert (X : exists t', stext_after t [o] t' /\ stext_after t' ops e).
    { inversion A; subst; eexists; (split; [econstructor; try eassumption; constructor|eassumption]). }
    destruct X as (t' & A1 & A2). destruct (sb_step_ok _ _ _ _ A1 H) as (m & -> & HM). cbn [obind]. exact (IH _ _ _ A2 HM).
Qed.
Theorem builder_text : forall ops e, stext_after [] ops e ->
  exists b, sb_run sb_new ops = Some b /\ cs_text (sb_mem b) = Some e /\ sb_len b = zlen e /\ sb_len b <= sb_cap b.
Proof.
  intros ops e A. destruct (builder_ok ops [] e sb_new A) as (b & R & I); [left; repeat split; reflexivity|].
  exists b. split; [exact R|]. destruct I as [(M & -> & L & K)|(H & L & K)].
  - rewrite M, L, K. repeat split; try reflexivity; lia.
  - split; [apply cs_text_holds; right; exact H|]. split; [exact K|]. apply holds_len in H. lia.
Qed.
