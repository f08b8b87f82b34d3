(** Proofs about numbers, words and the lines of the configuration file. *)
From Coq Require Import String.
From Verif Require Import Base NumFmt LineModel WildSpec WildModel WebModel WebSpec WebProofs OptModel OptSpec OptProofs.
Open Scope list_scope. Open Scope Z_scope.

Lemma skip_space_ok s : exists sp, Forall space sp /\ s = sp ++ skip_space s.
Proof.
  induction s as [|c s (sp & H & E)]; [exists []; auto|]. cbn [skip_space]. destruct (is_space c) eqn:Ec; [|exists []; auto].
  exists (c :: sp). split; [constructor; [unfold is_space in Ec; unfold space; lia|exact H]|]. cbn [app]. f_equal. exact E.
Qed.
Lemma skip_space_app sp r : Forall space sp -> (forall c x, r = c :: x -> ~ space c) -> skip_space (sp ++ r) = r.
Proof.
  intros H Hr. induction H as [|c sp Hc H IH]; cbn [app skip_space].
  - destruct r as [|c r]; [reflexivity|]. cbn [skip_space]. destruct (is_space c) eqn:E; [|reflexivity].
    exfalso. apply (Hr c r eq_refl). unfold is_space in E. unfold space. lia.
  - destruct (is_space c) eqn:E; [exact IH|]. unfold is_space, space in *. lia.
Qed.
Lemma digits_ok base : forall ds acc, Forall (fun c => 48 <= c < 48 + base) ds ->
  digits base acc ds = (fold_left (fun a c => a * base + (c - 48)) ds acc, []).
Proof.
  induction ds as [|c ds IH]; intros acc H; [reflexivity|]. inversion H; subst. cbn [digits fold_left].
  replace ((48 <=? c) && (c <? 48 + base)) with true by lia. apply IH. assumption.
Qed.
Lemma digits_rest base : forall s acc, snd (digits base acc s) = [] -> Forall (fun c => 48 <= c < 48 + base) s.
Proof.
  induction s as [|c s IH]; intros acc H; [constructor|]. cbn [digits] in H. destruct ((48 <=? c) && (c <? 48 + base)) eqn:E; [|discriminate].
  constructor; [lia|]. eapply IH, H.
Qed.
Definition clamp (x : Z) : Z := Z.max (- 2 ^ 63) (Z.min (2 ^ 63 - 1) x).
Lemma strtol_numeral base s x : 2 <= base <= 10 -> numeral base s x -> strtol base s = (clamp x, []).
Proof.
  intros Hb (sp & sg & ds & -> & Hsp & Hn & Hd & Hs). destruct ds as [|d ds]; [contradiction|].
  assert (Hd' := Hd). inversion Hd' as [|? ? Hd0 Hds]; subst. unfold strtol.
  assert (E : skip_space (sp ++ sg ++ d :: ds) = sg ++ d :: ds).
  { apply skip_space_app; [exact Hsp|]. intros c y Hc. assert (c = d \/ c = 43 \/ c = 45).
    { destruct Hs as [([-> | ->] & _)|(-> & _)]; cbn [app str] in Hc; injection Hc as Hc _; auto. }
    unfold space. lia. }
  rewrite E. unfold clamp. destruct Hs as [([-> | ->] & ->)|(-> & ->)].
  - cbn [app]. replace (d =? 45) with false by lia. replace (d =? 43) with false by lia. cbv iota.
    replace ((48 <=? d) && (d <? 48 + base)) with true by lia. rewrite digits_ok by exact Hd. reflexivity.
  - change (str "+" ++ d :: ds) with (43 :: d :: ds). cbv iota. change (43 =? 45) with false. change (43 =? 43) with true. cbv iota.
    replace ((48 <=? d) && (d <? 48 + base)) with true by lia. rewrite digits_ok by exact Hd. reflexivity.
  - change (str "-" ++ d :: ds) with (45 :: d :: ds). cbv iota. change (45 =? 45) with true. cbv iota.
    replace ((48 <=? d) && (d <? 48 + base)) with true by lia. rewrite digits_ok by exact Hd. reflexivity.
Qed.
Lemma strtol_rest base s : 2 <= base <= 10 -> snd (strtol base s) = [] -> s = [] \/ exists x, numeral base s x.
Proof.
  intros Hb. unfold strtol. destruct (skip_space_ok s) as (sp & Hsp & E). remember (skip_space s) as p eqn:Ep. clear Ep.
  destruct p as [|c p]; [cbn [snd]; auto|].
  destruct (Z.eqb_spec c 45) as [->|N1]; [|destruct (Z.eqb_spec c 43) as [->|N2]]; cbv iota.
  - destruct p as [|d p]; [cbn [snd]; auto|]. destruct ((48 <=? d) && (d <? 48 + base)) eqn:Q; [|cbn [snd]; auto].
    destruct (digits base 0 (d :: p)) as (v & rest) eqn:D. cbn [snd]. intros ->. right.
    assert (F : Forall (fun c => 48 <= c < 48 + base) (d :: p)) by (apply (digits_rest base _ 0); rewrite D; reflexivity).
    exists (- dvalue base (d :: p)). exists sp, (str "-"), (d :: p). split; [exact E|]. split; [exact Hsp|]. split; [discriminate|]. split; [exact F|].
    right. split; reflexivity.
  - destruct p as [|d p]; [cbn [snd]; auto|]. destruct ((48 <=? d) && (d <? 48 + base)) eqn:Q; [|cbn [snd]; auto].
    destruct (digits base 0 (d :: p)) as (v & rest) eqn:D. cbn [snd]. intros ->. right.
    assert (F : Forall (fun c => 48 <= c < 48 + base) (d :: p)) by (apply (digits_rest base _ 0); rewrite D; reflexivity).
    exists (dvalue base (d :: p)). exists sp, (str "+"), (d :: p). split; [exact E|]. split; [exact Hsp|]. split; [discriminate|]. split; [exact F|].
    left. split; [right|]; reflexivity.
  - destruct ((48 <=? c) && (c <? 48 + base)) eqn:Q; [|cbn [snd]; auto].
    destruct (digits base 0 (c :: p)) as (v & rest) eqn:D. cbn [snd]. intros ->. right.
    assert (F : Forall (fun c => 48 <= c < 48 + base) (c :: p)) by (apply (digits_rest base _ 0); rewrite D; reflexivity).
    exists (dvalue base (c :: p)). exists sp, [], (c :: p). split; [exact E|]. split; [exact Hsp|]. split; [discriminate|]. split; [exact F|].
    left. split; [left|]; reflexivity.
Qed.
Lemma clamp_i32 x : int32 x -> to_i32 (clamp x) = x.
Proof. unfold int32, to_i32, clamp. lia. Qed.

Lemma get_find t n v : get t n = Some v -> exists e, find_opt n t = Some e /\ e_value e = Some v.
Proof. unfold get. destruct (find_opt n t); [eauto|discriminate]. Qed.

Theorem number_ok : forall base t n v x, 2 <= base <= 10 -> get t n = Some v -> numeral base v x -> int32 x -> parse_int base t n = (x, t, []).
Proof.
  intros base t n v x Hb G N I. apply get_find in G as ([en ev ed] & F & E). cbn [e_value] in E. subst ev. unfold parse_int. rewrite F.
  rewrite (strtol_numeral base v x Hb N). rewrite clamp_i32 by exact I. reflexivity.
Qed.
Theorem no_number_ok : forall base t n e v d y, 2 <= base <= 10 -> find_opt n t = Some e -> e_value e = Some v -> e_def e = Some d ->
  v <> [] -> (forall x, ~ numeral base v x) -> numeral base d y -> int32 y ->
  exists t', parse_int base t n = (y, t', [n]) /\ get t' n = Some d /\ forall m, ~ same m n -> get t' m = get t m.
Proof.
  intros base t n e v d y Hb F E D Nv N Nd I. destruct e as [en ev ed]. cbn [e_value e_def] in E, D. subst ev ed. unfold parse_int. rewrite F.
  assert (R := strtol_rest base v Hb). destruct (strtol base v) as (x & rest). cbn [snd] in R.
  destruct rest as [|r0 rest]; [destruct (R eq_refl) as [->|(z & Hz)]; [contradiction|exfalso; eapply N, Hz]|].
  rewrite (strtol_numeral base d y Hb Nd). cbn [fst]. rewrite clamp_i32 by exact I. exists (put t n d). split; [reflexivity|].
  assert (P : find_opt n t <> None) by congruence. split.
  - rewrite get_put by exact P. rewrite (proj2 (nocase_same n n) (same_refl n)). reflexivity.
  - intros m Hm. rewrite get_put by exact P. destruct (nocase_eq n m) eqn:Q; [|reflexivity]. apply nocase_same in Q. exfalso. apply Hm, same_sym, Q.
Qed.

(** ** Words *)

Lemma first_word_ok : forall l x w, first_with l x w -> first_word l x = w.
Proof.
  intros l x w (a & b & -> & H). unfold first_word. induction a as [|(w' & y) a IH]; cbn [app find fst snd].
  - rewrite Z.eqb_refl. reflexivity.
  - replace (y =? x) with false; [apply IH; intros w0 y0 H0; apply (H w0); right; exact H0|]. symmetry. apply Z.eqb_neq. apply (H w'). left. reflexivity.
Qed.
Lemma first_with_ex : forall l x w, In (w, x) l -> exists w', first_with l x w'.
Proof.
  induction l as [|(w0 & y) l IH]; intros x w H; [contradiction|]. destruct (Z.eqb_spec y x) as [->|N].
  - exists w0. exists [], l. split; [reflexivity|]. intros ? ? [].
  - destruct H as [H|H]; [injection H as -> ->; contradiction|]. destruct (IH x w H) as (w' & a & b & -> & Ha).
    exists w', ((w0, y) :: a), b. split; [reflexivity|]. intros u z [H'|H']; [congruence|eapply Ha, H'].
Qed.

Lemma enum_found t n v def all : forall l i d x w, distinct l -> In (w, x) l -> same v w ->
  enum_go l all (length l) i t n v def d = Some (x, put t n (first_word all x), []).
Proof.
  induction l as [|(w0 & y) l IH]; intros i d x w D H E; [contradiction|]. cbn [length enum_go]. inversion D as [|? ? N D']; subst.
  destruct (nocase_eq v w0) eqn:Q.
  - apply nocase_same in Q. destruct H as [H|H]; [injection H as -> ->; reflexivity|].
    exfalso. apply N. change (map lc (fst (w0, y))) with (map lc w0). replace (map lc w0) with (map lc w) by (unfold same in *; congruence).
    exact (in_map (fun p : list Z * Z => map lc (fst p)) l (w, x) H).
  - destruct H as [H|H]; [injection H as -> ->; apply nocase_diff in Q; contradiction|]. apply (IH (S i) _ x w D' H E).
Qed.
Lemma enum_missing t n v def all : forall l pre d, all = pre ++ l -> (forall w x, In (w, x) l -> ~ same v w) ->
  forall w0 x0, distinct all -> In (w0, x0) all -> same def w0 -> (In (w0, x0) pre -> nth_error all d = Some (w0, x0)) ->
  enum_go l all (length l) (length pre) t n v def d = Some (x0, put t n w0, [n]).
Proof.
  induction l as [|(w & y) l IH]; intros pre d Ea Nv w0 x0 D H0 Hd Hp; cbn [length enum_go].
  - rewrite app_nil_r in Ea. subst pre. rewrite (Hp H0). reflexivity.
  - destruct (nocase_eq v w) eqn:Q; [apply nocase_same in Q; exfalso; apply (Nv w y (or_introl eq_refl) Q)|].
    replace (S (length pre)) with (length (pre ++ [(w, y)])) by (rewrite app_length; cbn [length]; lia).
    apply IH; auto; [rewrite <- app_assoc; exact Ea | intros ? ? H'; apply (Nv _ x); right; exact H' |].
    intros H'. apply in_app_or in H' as [H'|[H'|[]]].
    + destruct (nocase_eq def w) eqn:Q2; [|exact (Hp H')]. exfalso. apply nocase_same in Q2. subst all. unfold distinct in D. rewrite map_app in D.
      cbn [map fst] in D. apply NoDup_remove_2 in D. apply D. apply in_or_app. left. replace (map lc w) with (map lc w0) by (unfold same in *; congruence).
      exact (in_map (fun p : list Z * Z => map lc (fst p)) pre (w0, x0) H').
    + injection H' as -> ->. rewrite (proj2 (nocase_same def w0) Hd). subst all. rewrite nth_error_app2 by lia. rewrite Nat.sub_diag. reflexivity.
Qed.

Definition proper (w : words) : Prop := w_count w = length (w_names w) /\ distinct (w_names w).
Theorem word_ok : forall w t n v word x, proper w -> get t n = Some v -> In (word, x) (w_names w) -> same v word ->
  exists t' w', parse_enum w t n = Some (x, t', []) /\ first_with (w_names w) x w' /\ get t' n = Some w' /\ (forall m, ~ same m n -> get t' m = get t m).
Proof.
  intros w t n v word x (C & D) G H E. apply get_find in G as ([en ev ed] & F & Ev). cbn [e_value] in Ev. subst ev. unfold parse_enum. rewrite F, C.
  rewrite (enum_found t n v _ _ _ _ _ x word D H E). destruct (first_with_ex _ _ _ H) as (w' & Hw). rewrite (first_word_ok _ _ _ Hw).
  exists (put t n w'), w'. split; [reflexivity|]. split; [exact Hw|]. assert (P : find_opt n t <> None) by congruence. split.
  - rewrite get_put by exact P. rewrite (proj2 (nocase_same n n) (same_refl n)). reflexivity.
  - intros m Hm. rewrite get_put by exact P. destruct (nocase_eq n m) eqn:Q; [|reflexivity]. apply nocase_same in Q. exfalso. apply Hm, same_sym, Q.
Qed.
Theorem no_word_ok : forall w t n e v d word x, proper w -> find_opt n t = Some e -> e_value e = Some v -> e_def e = Some d ->
  (forall u y, In (u, y) (w_names w) -> ~ same v u) -> In (word, x) (w_names w) -> same d word ->
  exists t', parse_enum w t n = Some (x, t', [n]) /\ get t' n = Some word /\ (forall m, ~ same m n -> get t' m = get t m).
Proof.
  intros w t n e v d word x (C & D) F Ev Ed N H E. destruct e as [en ev ed]. cbn [e_value e_def] in *. subst ev ed. unfold parse_enum. rewrite F, C.
  pose proof (enum_missing t n v d (w_names w) (w_names w) [] 0 eq_refl N word x D H E ltac:(intros [])) as X.
  cbn [length] in X. rewrite X.
  exists (put t n word). split; [reflexivity|]. assert (P : find_opt n t <> None) by congruence. split.
  - rewrite get_put by exact P. rewrite (proj2 (nocase_same n n) (same_refl n)). reflexivity.
  - intros m Hm. rewrite get_put by exact P. destruct (nocase_eq n m) eqn:Q; [|reflexivity]. apply nocase_same in Q. exfalso. apply Hm, same_sym, Q.
Qed.

(** ** Lines of the configuration file *)

Lemma take_lf r : forall l n, ~ In 10 l -> (length l < n)%nat -> LineModel.take_line n (l ++ 10 :: r) = (l ++ [10], r).
Proof.
  induction l as [|c l IH]; intros [|n] H Hn; cbn [length] in Hn; try lia; cbn [app LineModel.take_line]; [reflexivity|].
  destruct (Z.eqb_spec c 10) as [->|]; [exfalso; apply H; left; reflexivity|]. rewrite IH; [reflexivity| |lia]. intros X. apply H. right. exact X.
Qed.
Lemma take_part r : forall l n, ~ In 10 l -> n = length l -> LineModel.take_line n (l ++ r) = (l, r).
Proof.
  induction l as [|c l IH]; intros n H ->; [destruct r; reflexivity|]. cbn [app LineModel.take_line length].
  destruct (Z.eqb_spec c 10) as [->|]; [exfalso; apply H; left; reflexivity|]. rewrite IH; [reflexivity| |reflexivity]. intros X. apply H. right. exact X.
Qed.
Lemma take_last : forall l n, ~ In 10 l -> (length l <= n)%nat -> LineModel.take_line n l = (l, []).
Proof.
  induction l as [|c l IH]; intros [|n] H Hn; cbn [length] in Hn; try lia; cbn [app LineModel.take_line]; try reflexivity.
  destruct (Z.eqb_spec c 10) as [->|]; [exfalso; apply H; left; reflexivity|]. rewrite IH; [reflexivity| |lia]. intros X. apply H. right. exact X.
Qed.
Lemma cstr_all l : ~ In 0 l -> cstr l = l.
Proof.
  induction l as [|c l IH]; intros H; [reflexivity|]. cbn [cstr]. destruct (Z.eqb_spec c 0) as [->|]; [exfalso; apply H; left; reflexivity|].
  rewrite IH; [reflexivity|]. intros X. apply H. right. exact X.
Qed.
Lemma chop_end c s : chop c (s ++ [c]) = s.
Proof. unfold chop. rewrite rev_app_distr. cbn [rev app]. rewrite Z.eqb_refl. apply rev_involutive. Qed.
Lemma chop_other c s : (forall a, s <> a ++ [c]) -> chop c s = s.
Proof.
  intros H. unfold chop. destruct (rev s) as [|x r] eqn:E; [reflexivity|]. destruct (Z.eqb_spec x c) as [->|]; [|reflexivity].
  exfalso. apply (H (rev r)). rewrite <- (rev_involutive s), E. reflexivity.
Qed.
Lemma not_end (c : Z) (s : list Z) : ~ In c s -> forall a, s <> a ++ [c].
Proof. intros H a ->. apply H. apply in_or_app. right. left. reflexivity. Qed.
Lemma config_line_eol l b : line_ok l -> config_line (l ++ eol b) = l.
Proof.
  intros (H10 & H0 & H13). unfold config_line. destruct b; cbn [eol].
  - change (l ++ [13; 10]) with (l ++ [13] ++ [10]). rewrite app_assoc, chop_end, chop_end. reflexivity.
  - rewrite chop_end. apply chop_other, H13.
Qed.
Lemma config_line_bare l : line_ok l -> config_line l = l.
Proof. intros (H10 & H0 & H13). unfold config_line. rewrite (chop_other 10) by (apply not_end, H10). apply chop_other, H13. Qed.
Lemma config_line_cr l : line_ok l -> config_line (l ++ [13]) = l.
Proof.
  intros (H10 & H0 & H13). unfold config_line. rewrite (chop_other 10); [apply chop_end|]. apply not_end. rewrite in_app_iff. intros [X|[X|[]]]; [contradiction|lia].
Qed.

Lemma eol_split l b r : exists x, l ++ eol b ++ r = (l ++ x) ++ 10 :: r /\ l ++ eol b = (l ++ x) ++ [10] /\ (~ In 10 l -> ~ In 10 (l ++ x)) /\ (length x <= 1)%nat /\ (~ In 0 l -> ~ In 0 (l ++ x)).
Proof.
  destruct b; cbn [eol]; [exists [13]|exists []]; rewrite <- !app_assoc; repeat split; auto; rewrite ?app_nil_r, ?in_app_iff; auto;
    intros H [X|[X|[]]]; auto; lia.
Qed.
Lemma lines_go size last : forall ls f, Forall (fun p => line_ok (fst p) /\ (length (fst p ++ eol (snd p)) < size)%nat) ls ->
  line_ok last -> (length last < size)%nat -> (length (file_of ls last) < f)%nat ->
  file_lines f size (file_of ls last) = Some (map (fun p => fst p ++ eol (snd p)) ls ++ match last with [] => [] | _ => [last] end).
Proof.
  induction ls as [|(l & b) ls IH]; intros f H L Hl Hf.
  - unfold file_of in *. cbn [flat_map app map] in *. destruct f as [|f]; [lia|]. cbn [file_lines fgets].
    destruct last as [|c last]; [reflexivity|]. remember (c :: last) as m eqn:Em. unfold fgets. rewrite Em at 1. rewrite take_last; [|apply L|lia].
    rewrite cstr_all by apply L. destruct f as [|f]; [subst m; cbn [length] in Hf; lia|]. cbn [file_lines fgets option_map]. reflexivity.
  - inversion H as [|? ? (Hok & Hs) H']; subst. cbn [fst snd] in *. unfold file_of in *. cbn [flat_map map fst snd] in *. rewrite <- !app_assoc in *.
    destruct (eol_split l b (flat_map (fun p => fst p ++ eol (snd p)) ls ++ last)) as (x & E1 & E2 & E3 & E4 & E5). rewrite E1 in *.
    destruct f as [|f]; [lia|]. cbn [file_lines]. rewrite E2 in *. rewrite app_length in Hs. cbn [length] in Hs.
    assert (R : fgets size ((l ++ x) ++ 10 :: flat_map (fun p => fst p ++ eol (snd p)) ls ++ last) =
      Some ((l ++ x) ++ [10], flat_map (fun p => fst p ++ eol (snd p)) ls ++ last)).
    { unfold fgets. destruct ((l ++ x) ++ 10 :: flat_map (fun p => fst p ++ eol (snd p)) ls ++ last) eqn:Q; [destruct (l ++ x); discriminate|].
      rewrite <- Q. rewrite take_lf; [reflexivity|apply E3, Hok|lia]. }
    rewrite R. rewrite cstr_all.
    2: { rewrite in_app_iff. intros [X|[X|[]]]; [apply E5 in X; [exact X|apply Hok]|lia]. }
    rewrite IH; auto.
    rewrite app_length in Hf. cbn [length] in Hf. lia.
Qed.

Lemma says_ok s : negb (skipped s) = says s.
Proof. unfold skipped, says. destruct s as [|c s]; [reflexivity|]. destruct (c =? 35), (forallb (Z.eqb 32) (c :: s)); reflexivity. Qed.
Lemma map_config ls : Forall (fun p => line_ok (fst p)) ls -> map config_line (map (fun p => fst p ++ eol (snd p)) ls) = map fst ls.
Proof. induction 1 as [|(l & b) ls H Hs IH]; [reflexivity|]. cbn [map fst snd]. rewrite config_line_eol by exact H. rewrite IH. reflexivity. Qed.
Lemma filter_says l : filter (fun s => negb (skipped s)) l = filter says l.
Proof. apply filter_ext. intros a. apply says_ok. Qed.
Lemma file_len ls last : length (file_of ls last) = (list_sum (map (fun p => length (fst p ++ eol (snd p))) ls) + length last)%nat.
Proof. unfold file_of. rewrite app_length. f_equal. induction ls as [|p ls IH]; [reflexivity|]. cbn [flat_map map list_sum fold_right]. rewrite app_length, IH. reflexivity. Qed.
Lemma eol_pos b : (1 <= length (eol b))%nat.
Proof. destruct b; cbn [eol length]; lia. Qed.
Lemma sum_in (l : list nat) x : In x l -> (x <= list_sum l)%nat.
Proof. induction l as [|y l IH]; intros H; [contradiction|]. cbn [list_sum fold_right] in *. destruct H as [->|H]; [lia|]. specialize (IH H). unfold list_sum in IH. lia. Qed.
Lemma sum_two (l : list nat) x : Forall (fun y => 1 <= y)%nat l -> (2 <= length l)%nat -> In x l -> (x < list_sum l)%nat.
Proof.
  intros F L H. destruct l as [|a [|b l]]; cbn [length] in L; try lia. inversion F as [|? ? Fa F']; subst. inversion F' as [|? ? Fb F'']; subst.
  cbn [list_sum fold_right]. destruct H as [->|H]; [lia|]. pose proof (sum_in (b :: l) x H) as S1. cbn [list_sum fold_right] in S1. lia.
Qed.

Theorem config_ok : forall home f t ls last, Forall (fun p => line_ok (fst p)) ls -> line_ok last -> (last = [] \/ ls <> []) ->
  (2 <= length (file_of ls last))%nat -> (length (file_of ls last) + 1 < f)%nat ->
  load_config_file home f t (file_of ls last) = set_strings home f true t (filter says (map fst ls ++ [last])).
Proof.
  intros home f t ls last H L C Two Hf. unfold load_config_file.
  assert (A : (length ls = 1%nat /\ last = []) \/
              (Forall (fun p => line_ok (fst p) /\ (length (fst p ++ eol (snd p)) < length (file_of ls last))%nat) ls /\ (length last < length (file_of ls last))%nat)).
  { destruct ls as [|p0 [|p1 ls]].
    - right. destruct C as [->|C]; [|contradiction]. split; [constructor|]. rewrite file_len. cbn in Two. lia.
    - destruct last as [|c last]; [left; auto|]. right. rewrite file_len. cbn [map list_sum fold_right length]. inversion H; subst.
      pose proof (eol_pos (snd p0)). rewrite !app_length. split; [constructor; [split; [assumption|rewrite app_length; lia]|constructor]|lia].
    - right. assert (P : Forall (fun y => 1 <= y)%nat (map (fun p => length (fst p ++ eol (snd p))) (p0 :: p1 :: ls))).
      { apply Forall_map, Forall_forall. intros p _. rewrite app_length. pose proof (eol_pos (snd p)). lia. }
      split.
      + apply Forall_forall. intros p Hp. split; [rewrite Forall_forall in H; apply H, Hp|]. rewrite file_len.
        pose proof (sum_two _ (length (fst p ++ eol (snd p))) P ltac:(rewrite map_length; cbn [length]; lia) (in_map (fun p => length (fst p ++ eol (snd p))) _ p Hp)). lia.
      + rewrite file_len. inversion P as [|? ? P0 _]; subst. pose proof (sum_in (map (fun p => length (fst p ++ eol (snd p))) (p0 :: p1 :: ls)) _ (or_introl eq_refl)). cbv beta in *. lia. }
  destruct A as [(E1 & ->)|(A1 & A2)].
  - destruct ls as [|(l & b) [|? ?]]; try discriminate. inversion H as [|? ? Hl _]; subst. cbn [fst] in Hl.
    assert (E : exists x, (x = [] \/ x = [13]) /\ file_of [(l, b)] [] = (l ++ x) ++ [10] /\ (length (l ++ x) = length (file_of [(l, b)] []) - 1)%nat).
    { unfold file_of. cbn [flat_map app fst snd]. rewrite !app_nil_r. destruct b; cbn [eol]; [exists [13]|exists []]; (split; [auto|]);
        rewrite <- ?app_assoc, ?app_nil_r; (split; [reflexivity|]); rewrite ?app_length; cbn [length]; lia. }
    destruct E as (x & Hx & E & Len). set (n := length (file_of [(l, b)] [])) in *.
    assert (N10 : ~ In 10 (l ++ x)). { rewrite in_app_iff. destruct Hl as (X & _). destruct Hx as [-> | ->]; intros [Y|Y]; auto; destruct Y as [Y|[]]; lia. }
    assert (N0 : ~ In 0 (l ++ x)). { rewrite in_app_iff. destruct Hl as (_ & X & _). destruct Hx as [-> | ->]; intros [Y|Y]; auto; destruct Y as [Y|[]]; lia. }
    assert (F : file_lines f n (file_of [(l, b)] []) = Some [l ++ x; [10]]).
    { destruct f as [|[|[|f]]]; try lia. rewrite E. cbn [file_lines].
      assert (R : fgets n ((l ++ x) ++ [10]) = Some (l ++ x, [10])).
      { unfold fgets. destruct ((l ++ x) ++ [10]) eqn:Q; [destruct (l ++ x); discriminate|]. rewrite <- Q. rewrite take_part; auto. }
      rewrite R. rewrite cstr_all by exact N0. cbn [fgets]. destruct (n - 1)%nat eqn:Q; [lia|]. cbn [LineModel.take_line].
      change (10 =? 10) with true. cbv iota. cbn [cstr option_map fgets]. change (10 =? 0) with false. cbv iota. reflexivity. }
    rewrite F. unfold config_strings. cbn [map]. replace (config_line (l ++ x)) with l.
    2: { destruct Hx as [-> | ->]; [rewrite app_nil_r; symmetry; apply config_line_bare, Hl|symmetry; apply config_line_cr, Hl]. }
    rewrite filter_says. reflexivity.
  - rewrite (lines_go _ last ls f A1 L A2) by lia. unfold config_strings. rewrite filter_says. f_equal.
    rewrite map_app, map_config by exact H. rewrite !filter_app. f_equal. destruct last as [|c last]; [reflexivity|].
    cbn [map]. rewrite config_line_bare by exact L. reflexivity.
Qed.
