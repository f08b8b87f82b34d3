(** Lemmas about the reading of nzb-files: the name found in a subject. *)
From Coq Require Import String.
From Verif Require Import Base NumFmt WildModel WildSpec CodecModel NzbModel NzbSpec NzbProofs NzbProofs2.
Open Scope list_scope. Open Scope Z_scope.

Lemma index_app c a r : ~ In c a -> index c (a ++ c :: r) = Some (length a).
Proof.
  induction a as [|x a IH]; intros N; cbn [app index length].
  - rewrite Z.eqb_refl. reflexivity.
  - destruct (Z.eqb_spec x c) as [->|_]; [exfalso; apply N; left; reflexivity|]. rewrite IH; [reflexivity|]. intros I. apply N. right. exact I.
Qed.
Lemma index_none c s : ~ In c s -> index c s = None.
Proof.
  induction s as [|x s IH]; intros N; [reflexivity|]. cbn [index].
  destruct (Z.eqb_spec x c) as [->|_]; [exfalso; apply N; left; reflexivity|]. rewrite IH; [reflexivity|]. intros I. apply N. right. exact I.
Qed.
Lemma index_found c s n : index c s = Some n -> exists a r, s = a ++ c :: r /\ length a = n /\ ~ In c a.
Proof.
  revert n. induction s as [|x s IH]; intros n E; [discriminate|]. cbn [index] in E. destruct (Z.eqb_spec x c) as [->|N].
  - injection E as <-. exists [], s. auto.
  - destruct (index c s) as [k|]; [|discriminate]. injection E as <-. destruct (IH k eq_refl) as (a & r & -> & <- & I).
    exists (x :: a), r. split; [reflexivity|]. split; [reflexivity|]. intros [J | J]; [congruence|exact (I J)].
Qed.
Lemma index_missing c s : index c s = None -> ~ In c s.
Proof.
  induction s as [|x s IH]; intros E; [intros []|]. cbn [index] in E. destruct (Z.eqb_spec x c) as [->|N]; [discriminate|].
  destruct (index c s); [discriminate|]. intros [I | I]; [congruence|exact (IH eq_refl I)].
Qed.

(** The buffer: text, terminator, rest. *)
Lemma skip_text t junk i : (i <= length t)%nat -> skipn i (t ++ 0 :: junk) = skipn i t ++ 0 :: junk.
Proof. intros L. rewrite skipn_app. replace (i - length t)%nat with 0%nat by lia. reflexivity. Qed.
Lemma nonul_skip i t : nonul t -> nonul (skipn i t).
Proof. intros N I. apply N. rewrite <- (firstn_skipn i t). apply in_or_app. right. exact I. Qed.
Lemma nonul_first i t : nonul t -> nonul (firstn i t).
Proof. intros N I. apply N. rewrite <- (firstn_skipn i t). apply in_or_app. left. exact I. Qed.
Lemma chr_text t junk i c : nonul t -> (i <= length t)%nat ->
  chr (t ++ 0 :: junk) i c = Some (match index c (skipn i t) with Some k => Some (i + k)%nat | None => None end).
Proof.
  intros N L. unfold chr. rewrite app_length. cbn [length].
  replace (length t + S (length junk) <=? i)%nat with false by (symmetry; apply Nat.leb_gt; lia).
  rewrite skip_text, c_string_app; [reflexivity|apply nonul_skip, N|exact L].
Qed.
Lemma slice_text t junk i j : nonul t -> (j <= length t)%nat ->
  c_string (firstn (j - i) (skipn i (t ++ 0 :: junk))) = firstn (j - i) (skipn i t).
Proof.
  intros N L. destruct (le_lt_dec i (length t)) as [H|H].
  - rewrite skip_text by exact H. rewrite firstn_app. rewrite skipn_length. replace (j - i - (length t - i))%nat with 0%nat by lia.
    cbn [firstn]. rewrite app_nil_r. apply c_string_nonul, nonul_first, nonul_skip, N.
  - replace (j - i)%nat with 0%nat by lia. reflexivity.
Qed.

(** ** Names in quotation marks *)

Lemma quote_before_suffix l b t suf : l ++ 34 :: b = t ++ suf -> ~ In 34 suf -> exists b', t = l ++ 34 :: b'.
Proof.
  revert t. induction l as [|x l IH]; intros t E N.
  - destruct t as [|y t]; [exfalso; apply N; cbn [app] in E; rewrite <- E; left; reflexivity|]. injection E as <- _. exists t. reflexivity.
  - destruct t as [|y t].
    + exfalso. apply N. cbn [app] in E. rewrite <- E. right. apply in_or_app. right. left. reflexivity.
    + injection E as <- E. destruct (IH t E N) as (b' & ->). exists b'. reflexivity.
Qed.
Lemma not_quote d : Forall digit d -> ~ In 34 d.
Proof. intros F I. rewrite Forall_forall in F. apply F in I. unfold digit in I. lia. Qed.
Lemma quote_not_odd l b : ~ odd_subject (l ++ 34 :: b).
Proof.
  intros [E | [E | (d & D & E)]].
  - destruct l; discriminate.
  - destruct l as [|x [|y l]]; discriminate.
  - assert (I : In 34 (l ++ 34 :: b)) by (apply in_or_app; right; left; reflexivity). rewrite E in I.
    destruct I as [I | I]; [lia|]. apply in_app_or in I as [I | [I | []]]; [exact (not_quote d D I)|lia].
Qed.
Lemma core_quote l b t : core (l ++ 34 :: b) t -> exists b', t = l ++ 34 :: b'.
Proof.
  intros [(_ & d1 & d2 & D1 & D2 & E) | (-> & _)]; [|exists b; reflexivity].
  apply (quote_before_suffix l b t (str " yEnc (" ++ d1 ++ [47] ++ d2 ++ [41]) E). intros I.
  repeat (apply in_app_or in I as [I | I]); cbn in I; try lia; [exact (not_quote d1 D1 I)|exact (not_quote d2 D2 I)].
Qed.

Lemma core_nonul s t : core s t -> nonul s -> nonul t.
Proof.
  intros [(_ & d1 & d2 & _ & _ & ->) | (-> & _)] N; [|exact N]. apply nonul_app in N. tauto.
Qed.
Lemma core_length s t : core s t -> (length t <= length s)%nat.
Proof. intros [(_ & d1 & d2 & _ & _ & ->) | (-> & _)]; [rewrite app_length|]; lia. Qed.

Lemma quoted_ok a c r b : nonul (a ++ 34 :: (c :: r) ++ 34 :: b) -> Z.of_nat (length (a ++ 34 :: (c :: r) ++ 34 :: b)) <= 1023 ->
  ~ In 34 a -> ~ In 34 (c :: r) -> In 46 r ->
  parse_subject true (a ++ 34 :: (c :: r) ++ 34 :: b) = Some (c :: r).
Proof.
  intros N L Na Nn Dt. set (s := a ++ 34 :: (c :: r) ++ 34 :: b) in *.
  assert (Es : s = (a ++ 34 :: c :: r) ++ 34 :: b) by (unfold s; rewrite <- app_assoc; reflexivity).
  assert (NO : ~ odd_subject s) by (rewrite Es; apply quote_not_odd).
  destruct (strip_ok s N ltac:(lia) NO) as (t & junk & C & E & LB & _).
  assert (Nt := core_nonul _ _ C N).
  rewrite Es in C. apply core_quote in C as (b' & Et). unfold parse_subject. rewrite E. clear Es E.
  rewrite <- app_assoc in Et. cbn [app] in Et.
  assert (LL : length t = (length a + S (S (length r + S (length b'))))%nat) by (rewrite Et, !app_length; cbn [length]; rewrite app_length; cbn [length]; lia).
  unfold quoted_name. rewrite chr_text by (exact Nt || lia).
  change (skipn 0 t) with t. rewrite Et at 1. rewrite index_app by exact Na. cbn [Nat.add].
  assert (SK : forall k, skipn (length a + k) t = skipn k (34 :: c :: r ++ 34 :: b')).
  { intros k. rewrite Et, skipn_app, skipn_all2 by lia. replace (length a + k - length a)%nat with k by lia. reflexivity. }
  assert (SK2 : skipn (S (S (length a))) t = r ++ 34 :: b').
  { replace (S (S (length a))) with (length a + 2)%nat by lia. rewrite SK. reflexivity. }
  assert (Nr : ~ In 34 r) by (intros I; apply Nn; right; exact I).
  rewrite !chr_text by (exact Nt || lia). rewrite !SK2, index_app by exact Nr.
  destruct (in_split 46 r Dt) as (r1 & r2 & Er).
  destruct (index 46 (r ++ 34 :: b')) as [k|] eqn:IX.
  2:{ exfalso. apply index_missing in IX. apply IX, in_or_app. left. exact Dt. }
  assert (K : (k < length r)%nat).
  { apply index_found in IX as (u & v & Eu & Lu & Nu). destruct (le_lt_dec (length r) k) as [H|H]; [|exact H]. exfalso. apply Nu.
    assert (Q := f_equal (firstn (length r)) Eu). rewrite firstn_app, Nat.sub_diag, firstn_all in Q. cbn [firstn] in Q. rewrite app_nil_r in Q.
    rewrite firstn_app in Q. replace (length r - length u)%nat with 0%nat in Q by lia. cbn [firstn] in Q. rewrite app_nil_r in Q.
    rewrite Q in Dt. rewrite <- (firstn_skipn (length r) u). apply in_or_app. left. exact Dt. }
  replace (S (S (length a)) + k <? S (S (length a)) + length r)%nat with true by (symmetry; apply Nat.ltb_lt; lia).
  rewrite slice_text by (exact Nt || lia).
  replace (S (length a)) with (length a + 1)%nat by lia. rewrite SK. cbn [skipn].
  replace (S (length a + 1) + length r - (length a + 1))%nat with (length (c :: r)) by (cbn [length]; lia).
  change (c :: r ++ 34 :: b') with ((c :: r) ++ 34 :: b'). rewrite firstn_app, firstn_all, Nat.sub_diag. cbn [firstn]. rewrite app_nil_r. reflexivity.
Qed.

(** ** Words *)

Definition flush (cur : list Z) : list (list Z) := match cur with [] => [] | _ => [cur] end.
Fixpoint words (cur rest : list Z) : list (list Z) :=
  match rest with
  | [] => flush cur
  | c :: r => if c =? 32 then flush cur ++ words [] r else words (cur ++ [c]) r
  end.

Lemma toks_plain junk t : nonul t -> ~ In 34 t -> junk <> [] -> (forall c r, junk = c :: r -> c <> 34) ->
  forall rest pre fuel start cur, t = pre ++ rest -> (start <= length pre)%nat -> cur = skipn start pre -> (length rest < fuel)%nat ->
  toks_go fuel (t ++ 0 :: junk) (length pre) start false = Some (words cur rest).
Proof.
  intros N NQ NJ HJ. induction rest as [|x rest IH]; intros pre fuel start cur Et ST EC F.
  - destruct fuel as [|fuel]; [lia|]. cbn [toks_go]. rewrite app_nil_r in Et. subst pre.
    rewrite nth_error_app2, Nat.sub_diag by lia. cbn [nth_error].
    change (0 =? 34) with false. change (0 =? 32) with false. change (0 =? 0) with true. cbn [orb andb negb].
    rewrite nth_error_app2 by lia. replace (S (length t) - length t)%nat with 1%nat by lia. cbn [nth_error].
    destruct junk as [|j junk]; [contradiction|]. cbn [nth_error].
    destruct (Z.eqb_spec j 34) as [->|_]; [exfalso; exact (HJ 34 junk eq_refl eq_refl)|].
    cbn [words]. rewrite slice_text by (exact N || lia). f_equal.
    assert (X : firstn (length t - start) (skipn start t) = cur).
    { rewrite EC. apply firstn_all2. rewrite skipn_length. lia. }
    rewrite X. assert (LC : length cur = (length t - start)%nat) by (rewrite EC, skipn_length; reflexivity).
    destruct (Nat.ltb_spec start (length t)) as [H|H]; destruct cur; cbn [length] in LC; try lia; reflexivity.
  - destruct fuel as [|fuel]; [lia|]. cbn [toks_go].
    assert (X0 : x <> 0) by (intros E; apply N; rewrite Et, E; apply in_or_app; right; left; reflexivity).
    assert (X34 : x <> 34) by (intros E; apply NQ; rewrite Et, E; apply in_or_app; right; left; reflexivity).
    assert (NE : nth_error (t ++ 0 :: junk) (length pre) = Some x).
    { rewrite Et, <- app_assoc, nth_error_app2, Nat.sub_diag by lia. reflexivity. }
    rewrite NE. replace (x =? 34) with false by lia. replace (x =? 0) with false by lia. rewrite !orb_false_r. cbn [orb negb andb words].
    assert (LT : length t = (length pre + S (length rest))%nat) by (rewrite Et, app_length; reflexivity).
    assert (EP : t = (pre ++ [x]) ++ rest) by (rewrite Et, <- app_assoc; reflexivity).
    assert (LP : length (pre ++ [x]) = S (length pre)) by (rewrite app_length; cbn [length]; lia).
    destruct (Z.eqb_spec x 32) as [->|X32].
    + change (negb false) with true. 
      assert (TK : (if (start <? length pre)%nat then [c_string (firstn (length pre - start) (skipn start (t ++ 0 :: junk)))] else []) = flush cur).
      { rewrite slice_text by (exact N || lia). rewrite Et, skipn_app. replace (start - length pre)%nat with 0%nat by lia. cbn [skipn].
        rewrite firstn_app, skipn_length. replace (length pre - start - (length pre - start))%nat with 0%nat by lia. cbn [firstn]. rewrite app_nil_r.
        rewrite firstn_all2 by (rewrite skipn_length; lia). rewrite <- EC.
        assert (LC : length cur = (length pre - start)%nat) by (rewrite EC, skipn_length; reflexivity).
        destruct (Nat.ltb_spec start (length pre)) as [H|H]; destruct cur; cbn [length] in LC; try lia; reflexivity. }
      rewrite TK.
      assert (NE2 : exists y, nth_error (t ++ 0 :: junk) (S (length pre)) = Some y /\ y <> 34).
      { rewrite EP, <- app_assoc, <- LP, nth_error_app2, Nat.sub_diag by lia. destruct rest as [|y rest]; cbn [app nth_error].
        - exists 0. split; [reflexivity|lia].
        - exists y. split; [reflexivity|]. intros ->. apply NQ. rewrite Et. apply in_or_app. right. right. left. reflexivity. }
      destruct NE2 as (y & -> & Y). replace (y =? 34) with false by lia. 
      rewrite <- LP. rewrite (IH (pre ++ [32]) fuel (length (pre ++ [32])) []); [reflexivity|exact EP|lia|rewrite skipn_all; reflexivity|cbn [length] in F; lia].
    + rewrite <- LP. apply IH; [exact EP|lia| |cbn [length] in F; lia].
      rewrite EC, skipn_app. replace (start - length pre)%nat with 0%nat by lia. reflexivity.
Qed.

Lemma words_cur cur w b : ~ In 32 w -> cur ++ w <> [] -> (b = [] \/ exists b', b = 32 :: b') -> words cur (w ++ b) = (cur ++ w) :: words [] b.
Proof.
  revert cur. induction w as [|x w IH]; intros cur N NE B; cbn [app].
  - rewrite app_nil_r in *. destruct B as [-> | (b' & ->)]; cbn [words].
    + destruct cur; [contradiction|reflexivity].
    + change (32 =? 32) with true. cbn [flush app]. destruct cur; [contradiction|reflexivity].
  - cbn [words]. destruct (Z.eqb_spec x 32) as [->|_]; [exfalso; apply N; left; reflexivity|].
    rewrite IH; [rewrite <- app_assoc; reflexivity|intros I; apply N; right; exact I|rewrite <- app_assoc; destruct cur; discriminate|exact B].
Qed.
Lemma words_blank cur a b : words cur (a ++ 32 :: b) = words cur a ++ words [] b.
Proof.
  revert cur. induction a as [|x a IH]; intros cur; cbn [app words]; [reflexivity|].
  destruct (x =? 32); rewrite IH; [rewrite app_assoc|]; reflexivity.
Qed.
Lemma words_at a w b : word_at a w b -> words [] (a ++ w ++ b) = words [] a ++ w :: words [] b.
Proof.
  intros (NE & N & A & B). destruct A as [-> | (a' & ->)].
  - cbn [app words flush]. rewrite words_cur; auto.
  - rewrite <- app_assoc. cbn [app]. rewrite words_blank, words_cur; auto.
    rewrite words_blank. cbn [words flush]. rewrite app_nil_r. reflexivity.
Qed.
Lemma words_in x cur rest : ~ In 32 cur -> In x (words cur rest) -> exists a b, cur ++ rest = a ++ x ++ b /\ word_at a x b.
Proof.
  revert cur. induction rest as [|c r IH]; intros cur N I; cbn [words] in I.
  - destruct cur as [|y cur]; [contradiction|]. destruct I as [<- | []]. exists [], []. rewrite !app_nil_r. split; [reflexivity|].
    split; [discriminate|]. auto.
  - destruct (Z.eqb_spec c 32) as [->|C].
    + apply in_app_or in I as [I | I].
      * destruct cur as [|y cur]; [contradiction|]. destruct I as [<- | []]. exists [], (32 :: r). split; [reflexivity|]. split; [discriminate|].
        split; [exact N|]. split; [auto|]. right. exists r. reflexivity.
      * apply IH in I as (a & b & E & NE & N2 & A & B); [|intros []]. cbn [app] in E. exists (cur ++ 32 :: a), b. split; [rewrite E, <- app_assoc; reflexivity|].
        split; [exact NE|]. split; [exact N2|]. split; [|exact B]. right.
        destruct A as [-> | (a' & ->)]; [exists cur; reflexivity|]. exists (cur ++ 32 :: a'). rewrite <- app_assoc. reflexivity.
    + apply IH in I as (a & b & E & W).
      * exists a, b. split; [rewrite <- E, <- app_assoc; reflexivity|exact W].
      * intros J. apply in_app_or in J as [J | [J | []]]; [exact (N J)|congruence].
Qed.
Lemma dotted_iff w : dotted w = true <-> like_name w.
Proof.
  unfold dotted, like_name. split.
  - destruct (index 46 w) as [k|] eqn:E; [|discriminate]. apply index_found in E as (u & v & -> & <- & N).
    rewrite skipn_app, skipn_all2 by lia. replace (S (length u) - length u)%nat with 1%nat by lia. cbn [skipn app].
    intros H. exists u, v. split; [reflexivity|]. split; [exact N|]. destruct v; discriminate.
  - intros (u & v & -> & N & NV). rewrite index_app by exact N.
    rewrite skipn_app, skipn_all2 by lia. replace (S (length u) - length u)%nat with 1%nat by lia. cbn [skipn app].
    destruct v; [contradiction|reflexivity].
Qed.
Lemma find_first_app p l r : find_first p (l ++ r) = match find_first p l with Some x => Some x | None => find_first p r end.
Proof. induction l as [|x l IH]; [reflexivity|]. cbn [app find_first]. destruct (p x); [reflexivity|exact IH]. Qed.
Lemma find_first_none p l : (forall x, In x l -> p x = false) -> find_first p l = None.
Proof.
  induction l as [|x l IH]; intros H; [reflexivity|]. cbn [find_first]. rewrite (H x (or_introl eq_refl)). apply IH. intros y I. apply H. right. exact I.
Qed.

(** The plain subject: words, the last one which looks like a name. *)
Lemma plain_words quotes s t : nonul s -> Z.of_nat (length s) <= 1022 -> ~ In 34 s -> ~ odd_subject s -> core s t ->
  parse_subject quotes s = Some (match words [] t with [] => s | l => best_token l end).
Proof.
  intros N L NQ NO C. destruct (strip_ok s N ltac:(lia) NO) as (t' & junk & C' & E & LB & HJ).
  rewrite (core_unique _ _ _ C' C) in *. clear t' C'.
  assert (Nt := core_nonul _ _ C N). assert (Lt := core_length _ _ C).
  assert (NQt : ~ In 34 t).
  { destruct C as [(_ & d1 & d2 & _ & _ & ->) | (-> & _)]; [|exact NQ]. intros I. apply NQ, in_or_app. left. exact I. }
  unfold parse_subject. rewrite E.
  assert (Q : (if quotes then quoted_name (t ++ 0 :: junk) else Some None) = Some None).
  { destruct quotes; [|reflexivity]. unfold quoted_name. rewrite chr_text by (exact Nt || lia). change (skipn 0 t) with t.
    rewrite (index_none 34 t NQt). reflexivity. }
  rewrite Q.
  assert (NJ : junk <> []).
  { intros ->. rewrite app_length in LB. cbn [length] in LB. unfold bsize in LB. lia. }
  assert (HJ2 : forall c r, junk = c :: r -> c <> 34) by (intros c r EJ EC; apply HJ; rewrite EJ, EC; left; reflexivity).
  assert (X : toks_go (S (S bsize)) (t ++ 0 :: junk) 0 0 false = Some (words [] t)).
  { apply (toks_plain junk t Nt NQt NJ HJ2 t [] (S (S bsize)) 0%nat []); [reflexivity|lia|reflexivity|unfold bsize; lia]. }
  rewrite X.
  destruct (words [] t); reflexivity.
Qed.
Lemma words_ok quotes s a w b : nonul s -> Z.of_nat (length s) <= 1022 -> ~ In 34 s -> ~ odd_subject s ->
  core s (a ++ w ++ b) -> word_at a w b -> like_name w ->
  (forall a' w' b', b = a' ++ w' ++ b' -> word_at a' w' b' -> ~ like_name w') ->
  parse_subject quotes s = Some w.
Proof.
  intros N L NQ NO C W LN H. rewrite (plain_words quotes s _ N L NQ NO C), (words_at a w b W).
  assert (X : best_token (words [] a ++ w :: words [] b) = w).
  { unfold best_token. rewrite rev_app_distr. cbn [rev]. rewrite <- !app_assoc, find_first_app, find_first_none.
    - cbn [app find_first]. apply dotted_iff in LN. rewrite LN. reflexivity.
    - intros x I. apply in_rev in I. apply words_in in I as (a' & b' & E & W'); [|intros []]. cbn [app] in E.
      destruct (dotted x) eqn:D; [|reflexivity]. exfalso. apply dotted_iff in D. exact (H a' x b' E W' D). }
  destruct (words [] a ++ w :: words [] b) eqn:E; [destruct (words [] a); discriminate|]. rewrite X. reflexivity.
Qed.
Lemma last_word_ok quotes s a w b : nonul s -> Z.of_nat (length s) <= 1022 -> ~ In 34 s -> ~ odd_subject s ->
  core s (a ++ w ++ b) -> word_at a w b -> (forall c, In c b -> c = 32) ->
  (forall a' w' b', a ++ w ++ b = a' ++ w' ++ b' -> word_at a' w' b' -> ~ like_name w') ->
  parse_subject quotes s = Some w.
Proof.
  intros N L NQ NO C W HB H. rewrite (plain_words quotes s _ N L NQ NO C).
  assert (ND : find_first dotted (rev (words [] (a ++ w ++ b))) = None).
  { apply find_first_none. intros x I. apply in_rev in I. apply words_in in I as (a' & b' & E & W'); [|intros []]. cbn [app] in E.
    destruct (dotted x) eqn:D; [|reflexivity]. exfalso. apply dotted_iff in D. exact (H a' x b' E W' D). }
  assert (WB : words [] b = []).
  { clear -HB. induction b as [|c b IH]; [reflexivity|]. cbn [words]. rewrite (HB c (or_introl eq_refl)). change (32 =? 32) with true. cbn [flush app].
    apply IH. intros d I. apply HB. right. exact I. }
  assert (X : best_token (words [] (a ++ w ++ b)) = w).
  { unfold best_token. rewrite ND. rewrite (words_at a w b W), WB, last_last. reflexivity. }
  rewrite (words_at a w b W), WB in *. destruct (words [] a ++ [w]) eqn:E; [destruct (words [] a); discriminate|].
  rewrite X. reflexivity.
Qed.

(** ** All subjects *)

Lemma toks_defined t junk : nonul t -> (length t <= Z.to_nat 1022)%nat -> length (t ++ 0 :: junk) = bsize -> ~ In 34 junk ->
  forall fuel p start quot, (p <= length t)%nat -> (length t - p < fuel)%nat ->
  exists l, toks_go fuel (t ++ 0 :: junk) p start quot = Some l /\ Forall (fun x => x <> [] /\ nonul x) l.
Proof.
  intros N L LB NJ. set (buf := t ++ 0 :: junk) in *.
  assert (IN : forall i, (i < bsize)%nat -> exists c, nth_error buf i = Some c).
  { intros i H. destruct (nth_error buf i) eqn:E; [eauto|]. apply nth_error_None in E. lia. }
  assert (B : bsize = Z.to_nat 1024) by reflexivity.
  induction fuel as [|fuel IH]; intros p start quot P F; [lia|]. cbn [toks_go].
  destruct (IN p ltac:(lia)) as (ch & Ech). rewrite Ech.
  assert (P0 : ch <> 0 -> (p < length t)%nat).
  { intros H. destruct (Nat.eq_dec p (length t)) as [->|]; [|lia]. unfold buf in Ech. rewrite nth_error_app2, Nat.sub_diag in Ech by lia.
    injection Ech as <-. contradiction. }
  destruct ((ch =? 34) || negb quot && (ch =? 32) || (ch =? 0)) eqn:SEP.
  2:{ apply IH; [|]; assert (ch <> 0) by (intros ->; rewrite orb_true_r in SEP; discriminate); specialize (P0 H); lia. }
  set (tok := if (start <? p)%nat then _ else _).
  assert (TOK : Forall (fun x => x <> [] /\ nonul x) tok).
  { unfold tok. destruct (Nat.ltb_spec start p) as [H|H]; [|constructor]. constructor; [|constructor]. split; [|apply c_string_no0].
    unfold buf. rewrite slice_text by (exact N || lia). intros X. apply (f_equal (@length Z)) in X. rewrite firstn_length, skipn_length in X. cbn [length] in X. lia. }
  set (start1 := if negb (ch =? 34) || quot then S p else p).
  assert (S1 : (p <= start1 <= S p)%nat) by (unfold start1; destruct (negb (ch =? 34) || quot); lia).
  destruct (IN start1 ltac:(lia)) as (c1 & Ec1). rewrite Ec1.
  assert (FOUND : exists fo, (if c1 =? 34 then chr buf (S start1) 34 else Some None) = Some fo /\
    (forall q, fo = Some q -> ch <> 0 -> (p < q <= length t)%nat)).
  { destruct (Z.eqb_spec c1 34) as [->|_]; [|exists None; split; [reflexivity|discriminate]].
    destruct (Z.eq_dec ch 0) as [C0|C0].
    - unfold chr. destruct (Nat.leb_spec (length buf) (S start1)) as [H|H]; [|eexists; split; [reflexivity|intros; contradiction]].
      exfalso. assert (p = length t) as ->.
      { destruct (Nat.eq_dec p (length t)); [assumption|]. exfalso. subst ch. unfold buf in Ech. rewrite nth_error_app1 in Ech by lia.
        apply nth_error_In in Ech. exact (N Ech). }
      apply NJ. assert (E1 : start1 = S (length t)) by (unfold start1; rewrite C0; reflexivity).
      unfold buf in Ec1. rewrite E1, nth_error_app2 in Ec1 by lia. replace (S (length t) - length t)%nat with 1%nat in Ec1 by lia.
      destruct junk as [|j junk2]; [discriminate|]. injection Ec1 as ->. left. reflexivity.
    - specialize (P0 C0).
      assert (S2 : (start1 < length t)%nat).
      { destruct (Nat.eq_dec start1 (length t)) as [E|]; [|lia]. unfold buf in Ec1. rewrite E, nth_error_app2, Nat.sub_diag in Ec1 by lia. discriminate. }
      unfold buf. rewrite chr_text by (exact N || lia). eexists. split; [reflexivity|]. intros q Q _.
      destruct (index 34 (skipn (S start1) t)) as [k|] eqn:IX; [|discriminate]. injection Q as <-.
      apply index_found in IX as (u & v & E & <- & _). apply (f_equal (@length Z)) in E. rewrite skipn_length, app_length in E. cbn [length] in E. lia. }
  destruct FOUND as (fo & EF & HF). rewrite EF.
  destruct (Z.eqb_spec ch 0) as [C0|C0].
  - exists tok. split; [destruct fo; reflexivity|exact TOK].
  - specialize (P0 C0). destruct fo as [q|].
    + specialize (HF q eq_refl C0). destruct (IH q (S start1) true ltac:(lia) ltac:(lia)) as (l & -> & A).
      exists (tok ++ l). split; [reflexivity|]. apply Forall_app. auto.
    + destruct (IH (S p) (if c1 =? 34 then S start1 else start1) false ltac:(lia) ltac:(lia)) as (l & -> & A).
      exists (tok ++ l). split; [reflexivity|]. apply Forall_app. auto.
Qed.

Lemma find_first_in p l x : find_first p l = Some x -> In x l.
Proof. induction l as [|y l IH]; intros E; [discriminate|]. cbn [find_first] in E. destruct (p y); [injection E as <-; left; reflexivity|right; exact (IH E)]. Qed.
Lemma best_in l : l <> [] -> In (best_token l) l.
Proof.
  intros NE. unfold best_token. destruct (find_first dotted (rev l)) as [s|] eqn:E.
  - apply find_first_in in E. apply in_rev, E.
  - destruct (exists_last NE) as (l' & x & ->). rewrite last_last. apply in_or_app. right. left. reflexivity.
Qed.

Lemma subject_defined quotes s : nonul s -> Z.of_nat (length s) <= 1022 -> ~ odd_subject s ->
  exists n, parse_subject quotes s = Some n /\ n <> [] /\ nonul n.
Proof.
  intros N L NO. destruct (strip_ok s N ltac:(lia) NO) as (t & junk & C & E & LB & HJ).
  assert (Nt := core_nonul _ _ C N). assert (Lt := core_length _ _ C). unfold parse_subject. rewrite E.
  assert (Q : exists o, (if quotes then quoted_name (t ++ 0 :: junk) else Some None) = Some o /\ forall n, o = Some n -> n <> [] /\ nonul n).
  { destruct quotes; [|exists None; split; [reflexivity|discriminate]]. unfold quoted_name. rewrite chr_text by (exact Nt || lia).
    change (skipn 0 t) with t. destruct (index 34 t) as [i|] eqn:IX; [|exists None; split; [reflexivity|discriminate]].
    apply index_found in IX as (u & v & Et & Lu & Nu).
    assert (LI : (i < length t)%nat) by (rewrite Et, app_length, Lu; cbn [length]; lia).
    cbn [Nat.add].
    destruct (le_lt_dec (S (S i)) (length t)) as [H|H].
    - rewrite !chr_text by (exact Nt || lia). destruct (index 34 (skipn (S (S i)) t)) as [k|] eqn:IX; [|exists None; split; [reflexivity|discriminate]].
      destruct (index 46 (skipn (S (S i)) t)) as [k2|]; [|exists None; split; [reflexivity|discriminate]].
      destruct (Nat.ltb (S (S i) + k2) (S (S i) + k)); [|exists None; split; [reflexivity|discriminate]].
      assert (K : (S (S i) + k < length t)%nat).
      { apply index_found in IX as (x & y & Ex & <- & _). apply (f_equal (@length Z)) in Ex. rewrite skipn_length, app_length in Ex. cbn [length] in Ex. lia. }
      eexists. split; [reflexivity|]. intros n EN. injection EN as <-. split; [|apply c_string_no0].
      change (c_string (firstn (S (S i) + k - S i) (skipn (S i) (t ++ 0 :: junk))) <> []). rewrite slice_text by (exact Nt || lia). intros X. apply (f_equal (@length Z)) in X. rewrite firstn_length, skipn_length in X. cbn [length] in X. lia.
    - (* the quotation mark is the last character *)
      assert (i = (length t - 1)%nat) by lia.
      unfold chr. rewrite LB. replace (bsize <=? S (S i))%nat with false by (symmetry; apply Nat.leb_gt; unfold bsize; lia).
      set (rest := c_string (skipn (S (S i)) (t ++ 0 :: junk))).
      destruct (index 34 rest) as [k|] eqn:I1; [|exists None; split; [reflexivity|discriminate]].
      destruct (index 46 rest) as [k2|] eqn:I2; [|exists None; split; [reflexivity|discriminate]].
      destruct (Nat.ltb (S (S i) + k2) (S (S i) + k)) eqn:LK; [|exists None; split; [reflexivity|discriminate]].
      exfalso. (* nothing but the rest of the counter follows the terminator *)
      assert (R : rest = c_string junk).
      { unfold rest. rewrite skipn_app, skipn_all2 by lia. replace (S (S i) - length t)%nat with 1%nat by lia. reflexivity. }
      apply index_found in I1 as (x & y & Ex & _ & _). apply HJ.
      assert (I : In 34 (c_string junk)) by (rewrite <- R, Ex; apply in_or_app; right; left; reflexivity).
      clear -I. induction junk as [|j junk IH]; [exact I|]. cbn [c_string] in I. destruct (j =? 0); [contradiction|].
      destruct I as [I | I]; [left; exact I|right; exact (IH I)]. }
  destruct Q as (o & -> & HO). destruct o as [n|]; [exists n; split; [reflexivity|apply HO; reflexivity]|].
  destruct (toks_defined t junk Nt ltac:(lia) LB HJ (S (S bsize)) 0%nat 0%nat false ltac:(lia) ltac:(unfold bsize; lia)) as (l & -> & A).
  destruct l as [|w l].
  - exists s. split; [reflexivity|]. split; [|exact N]. intros ->. apply NO. left. reflexivity.
  - exists (best_token (w :: l)). split; [reflexivity|]. rewrite Forall_forall in A. apply A, best_in. discriminate.
Qed.
