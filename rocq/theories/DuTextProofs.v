From Coq Require Import String.
From Verif Require Import Base NumFmt WildModel CodecModel NzbModel RarSetModel RarSetProofs RarSetProofs2 InfoModel ScrModel ScrSpec ScrProofs DuModel DuTextModel DuTextSpec DRenProofs2 DRenProofs3.
Open Scope list_scope. Open Scope Z_scope.

Lemma value_pdigits d : Forall (fun c => 48 <= c <= 57) d -> forall a, pdigits a d = fold_left (fun v c => v * 10 + (c - 48)) d a.
Proof.
  induction 1 as [|c d H F IH]; intros a; [reflexivity|]. cbn [pdigits fold_left]. replace (is_digit c) with true by (unfold is_digit; lia). apply IH.
Qed.
Lemma value_bound d : Forall (fun c => 48 <= c <= 57) d -> forall a, 0 <= a -> 0 <= fold_left (fun v c => v * 10 + (c - 48)) d a < (a + 1) * 10 ^ Z.of_nat (length d).
Proof.
  induction 1 as [|c d H F IH]; intros a A; [cbn; lia|]. cbn [fold_left length]. specialize (IH (a * 10 + (c - 48)) ltac:(lia)).
  rewrite Nat2Z.inj_succ, Z.pow_succ_r by lia. pose proof (Z.pow_pos_nonneg 10 (Z.of_nat (length d)) ltac:(lia) ltac:(lia)). nia.
Qed.
Lemma atoi_value d : digits d -> (length d <= 9)%nat -> atoi_u d = value_of d.
Proof.
  intros (_ & D) L. unfold atoi_u. rewrite (value_pdigits d D 0). fold (value_of d). pose proof (value_bound d D 0 ltac:(lia)) as B. fold (value_of d) in B.
  pose proof (Z.pow_le_mono_r 10 (Z.of_nat (length d)) 9 ltac:(lia) ltac:(lia)) as P. rewrite Z.min_l by lia. apply Z.mod_small. lia.
Qed.
Lemma ends_ok n e : ends_nocase n e = true <-> exists b r, n = b ++ r /\ like r e.
Proof.
  unfold ends_nocase, like. rewrite andb_true_iff, Nat.leb_le, beqb_eq. split.
  - intros (L & H). exists (firstn (length n - length e) n), (skipn (length n - length e) n). split; [symmetry; apply firstn_skipn | auto].
  - intros (b & r & -> & H). assert (length r = length e) by (apply (f_equal (@length Z)) in H; rewrite !map_length in H; exact H).
    rewrite app_length. split; [lia|]. replace (length b + length r - length e)%nat with (length b) by lia. rewrite skipn_app, skipn_all, Nat.sub_diag. cbn [skipn app]. auto.
Qed.
Lemma volume_ok n d : volume_number n = Some d <-> numbered n d.
Proof.
  unfold volume_number, numbered, like, digits. split.
  - destruct (_ || _) eqn:E1; [discriminate|]. apply orb_false_iff in E1 as [L R]. rewrite negb_false_iff in R. apply beqb_eq in R. apply Nat.ltb_ge in L.
    set (m := (length n - 4)%nat) in *. set (stem := firstn m n). destruct (digits_back_split (rev stem)) as (q & Eq & F). set (d0 := digits_back (rev stem)) in *.
    set (x := (length stem - length (rev d0))%nat). destruct (_ || _) eqn:E2; [discriminate|]. rewrite !orb_false_iff in E2. destruct E2 as [[D K] P]. rewrite negb_false_iff in P. apply beqb_eq in P.
    apply Nat.eqb_neq in D. apply Nat.ltb_ge in K. intros H. injection H as <-.
    assert (Es : stem = rev q ++ rev d0). { rewrite <- rev_app_distr, <- Eq, rev_involutive. reflexivity. }
    assert (Lq : x = length (rev q)). { unfold x. rewrite Es, app_length. lia. }
    assert (Fq : firstn x stem = rev q). { rewrite Es. apply firstn_app_len. exact Lq. }
    rewrite Fq in P. exists (firstn (x - 5) (rev q)), (skipn (x - 5) (rev q)), (skipn m n). repeat apply conj.
    + rewrite app_assoc, firstn_skipn, app_assoc, <- Es. unfold stem. symmetry. apply firstn_skipn.
    + exact P.
    + exact R.
    + intros Q. rewrite Q in D. cbn in D. lia.
    + apply (proj2 (isd_digit _)). apply Forall_forall. intros c C. apply in_rev in C. rewrite Forall_forall in F. exact (F c C).
  - intros (b & p & r & -> & P & R & D & F).
    assert (Lp : length p = 5%nat) by (apply (f_equal (@length Z)) in P; rewrite map_length in P; exact P).
    assert (Lr : length r = 4%nat) by (apply (f_equal (@length Z)) in R; rewrite map_length in R; exact R).
    assert (W : b ++ p ++ d ++ r = (b ++ p ++ d) ++ r) by (rewrite <- !app_assoc; reflexivity). rewrite W. set (stem := b ++ p ++ d).
    assert (Lm : (length (stem ++ r) - 4)%nat = length stem) by (rewrite app_length; lia). rewrite Lm.
    rewrite firstn_app_len by reflexivity. rewrite skipn_app, skipn_all, Nat.sub_diag. cbn [skipn app]. rewrite R.
    change (map lower (str ".rar")) with (str ".rar"). rewrite beqb_refl.
    replace (length (stem ++ r) <? 4)%nat with false by (symmetry; apply Nat.ltb_ge; rewrite app_length; lia). cbn [negb orb].
    assert (Ed : digits_back (rev stem) = rev d).
    { unfold stem. rewrite !rev_app_distr. rewrite <- app_assoc. apply digits_back_app.
      - apply (proj1 (isd_digit d)) in F. apply Forall_forall. intros c C. apply in_rev in C. rewrite Forall_forall in F. exact (F c C).
      - do 5 (destruct p as [|? p]; [discriminate Lp|]). destruct p; [|discriminate Lp]. cbn [rev app]. injection P as _ _ _ _ P. unfold lower in P. destruct (_ && _) eqn:Q in P; unfold is_digit; cbn in P; lia. }
    rewrite Ed, rev_involutive. assert (Lk : (length stem - length d)%nat = (length b + 5)%nat) by (unfold stem; rewrite !app_length; lia). rewrite Lk.
    assert (Fk : firstn (length b + 5) stem = b ++ p). { unfold stem. rewrite app_assoc. apply firstn_app_len. rewrite app_length. lia. }
    rewrite Fk. replace (length b + 5 - 5)%nat with (length b) by lia. rewrite skipn_app, skipn_all, Nat.sub_diag. cbn [skipn app]. rewrite P.
    change (map lower (str ".part")) with (str ".part"). rewrite beqb_refl. cbn [negb].
    destruct d as [|? d]; [congruence|]. cbn [length]. replace (length b + 5 <? 5)%nat with false by (symmetry; apply Nat.ltb_ge; lia). reflexivity.
Qed.
Lemma main_ok n : (forall d, numbered n d -> (length d <= 9)%nat) -> (main_archive n = true <-> first_volume n).
Proof.
  intros L. unfold main_archive, first_volume. rewrite andb_true_iff, ends_ok. split; intros (A & B); split; auto.
  - intros d D. pose proof D as D1. apply (proj2 (volume_ok n d)) in D1. rewrite D1 in B. apply Z.eqb_eq in B. rewrite atoi_value in B; auto. destruct D as (? & ? & ? & _ & _ & _ & D). exact D.
  - destruct (volume_number n) as [d|] eqn:E; [|reflexivity]. apply (proj1 (volume_ok n d)) in E. apply Z.eqb_eq. rewrite atoi_value; auto. destruct E as (? & ? & ? & _ & _ & _ & E). exact E.
Qed.
Lemma archive_ok n : archive_name n = true <-> rar_file n.
Proof.
  unfold archive_name, rar_file. rewrite orb_true_iff, ends_ok. split; (intros [H|H]; [left; exact H | right]).
  - destruct (rev n) as [|b [|a [|l [|c r]]]] eqn:E; try discriminate. exists (rev r), l, a, b. rewrite <- (rev_involutive n), E. cbn [rev]. rewrite <- !app_assoc.
    rewrite !andb_true_iff in H. unfold is_digit in H. destruct H as ((((H1 & H2) & H3) & H4) & H5). apply Z.eqb_eq in H5. subst c. split; [reflexivity|]. lia.
  - destruct H as (b & l & x & y & -> & L & X & Y). rewrite rev_app_distr. cbn [rev app]. unfold is_digit. rewrite !andb_true_iff. repeat split; lia.
Qed.

(** ** Reading *)
Lemma strstr_intro p : forall s a y, s = a ++ p ++ y -> (forall u w, s = u ++ p ++ w -> (length a <= length u)%nat) -> strstr s p = Some (p ++ y).
Proof.
  induction s as [|c s IH]; intros a y E M.
  - destruct a; [|discriminate]. cbn [app] in E. cbn [strstr]. destruct p; [destruct y; [reflexivity|discriminate] | discriminate].
  - cbn [strstr]. destruct (prefixb p (c :: s)) eqn:P.
    + apply prefixb_iff in P as (w & P). specialize (M [] w). cbn [app length] in M. specialize (M P). destruct a; [|cbn in M; lia]. cbn [app] in E. rewrite E. reflexivity.
    + destruct a as [|c0 a]; [exfalso; cbn [app] in E; rewrite E, prefixb_app in P; discriminate|]. injection E as <- E. apply (IH a y E).
      intros u w K. specialize (M (c :: u) w). cbn [app length] in M. rewrite K in M. specialize (M eq_refl). lia.
Qed.
Lemma c_string_nonul l : ~ In 0 l -> c_string l = l.
Proof. apply c_string_id. Qed.
Lemma read_plain prev : forall l n acc i r, ~ In 10 l -> ~ In 8 l -> (length l < n)%nat ->
  (forall q z, l = q ++ z -> prefixb insert_text (c_string (acc ++ q)) && contains (c_string (acc ++ q)) continue_text = false) ->
  read_go n prev acc i false (l ++ 10 :: r) = ((i + length l + 1)%nat, acc ++ l ++ [10], r).
Proof.
  induction l as [|c l IH]; intros n acc i r N B L H; (destruct n as [|n]; [cbn in L; lia|]); cbn [app read_go length].
  - change (10 =? 8) with false. change (10 =? 10) with true. cbn [orb]. replace (i + 0 + 1)%nat with (S i) by lia.
    destruct acc; reflexivity.
  - destruct (Z.eqb_spec c 8); [exfalso; apply B; left; auto|]. destruct (Z.eqb_spec c 10); [exfalso; apply N; left; auto|]. cbn [orb].
    assert (Eb : buffer prev (acc ++ [c]) false = acc ++ [c]) by (destruct acc; reflexivity). rewrite Eb.
    specialize (H [c] l eq_refl) as H0. rewrite <- andb_assoc, H0, andb_false_r.
    rewrite IH; [| intros Q; apply N; right; exact Q | intros Q; apply B; right; exact Q | cbn in L; lia |].
    + f_equal; [f_equal; [lia | rewrite <- app_assoc; reflexivity]].
    + intros q z Q. rewrite <- app_assoc. apply (H (c :: q) z). cbn. f_equal. exact Q.
Qed.
Lemma line_ok prev l r : ~ In 10 l -> ~ In 8 l -> ~ In 0 l -> (length l < out_room)%nat -> prefixb (str "...") l = false -> prefixb (str "Insert disk with") l = false ->
  read_line prev (l ++ 10 :: r) = (Some (l ++ [10]), r).
Proof.
  intros N B U L D I. unfold read_line. rewrite (read_plain prev l out_room [] 0 r N B L).
  - replace (0 + length l + 1)%nat with (S (length l)) by lia. cbn [Nat.eqb app].
    assert (D1 : prefixb (str "...") (l ++ [10]) = false).
    { change (str "...") with [46; 46; 46] in *. destruct l as [|x [|y [|z l]]]; cbn [app prefixb] in *; auto;
      repeat match goal with |- context [?a =? ?b] => destruct (Z.eqb_spec a b); cbn [andb] in *; try reflexivity; try discriminate end; auto. }
    rewrite D1. rewrite firstn_all2 by (rewrite app_length; cbn; lia). rewrite c_string_nonul; [reflexivity|]. intros Q. apply in_app_iff in Q. destruct Q as [Q|[Q|[]]]; [auto | discriminate].
  - intros q z Q. cbn [app]. destruct (prefixb insert_text (c_string q)) eqn:P; [|reflexivity]. exfalso.
    rewrite c_string_nonul in P by (intros K; apply U; rewrite Q; apply in_or_app; auto). apply prefixb_iff in P as (w & ->). rewrite Q, <- app_assoc in I. unfold insert_text in I. rewrite prefixb_app in I. discriminate.
Qed.
Lemma read_ask prev : forall l n acc i r, ~ In 10 l -> ~ In 8 l -> (length l < n)%nat ->
  (forall q z, l = q ++ z -> prefixb insert_text (c_string (acc ++ q)) && contains (c_string (acc ++ q)) continue_text = false) ->
  prefixb insert_text (c_string (acc ++ l ++ [32])) && contains (c_string (acc ++ l ++ [32])) continue_text = true -> (35 < i + length l)%nat ->
  read_go n prev acc i false (l ++ 32 :: r) = ((i + length l + 1)%nat, acc ++ l ++ [32], r).
Proof.
  induction l as [|c l IH]; intros n acc i r N B L H T I; (destruct n as [|n]; [cbn in L; lia|]); cbn [app read_go length].
  - change (32 =? 8) with false. change (32 =? 10) with false. change (32 =? 32) with true. cbn [orb]. replace (i + 0 + 1)%nat with (S i) by lia.
    assert (Eb : buffer prev (acc ++ [32]) false = acc ++ [32]) by (destruct acc; reflexivity). rewrite Eb.
    cbn [length] in I. assert ((35 <? i)%nat = true) as -> by (apply Nat.ltb_lt; lia). cbn [app] in T. cbn [andb]. rewrite T. reflexivity.
  - destruct (Z.eqb_spec c 8); [exfalso; apply B; left; auto|]. destruct (Z.eqb_spec c 10); [exfalso; apply N; left; auto|]. cbn [orb].
    assert (Eb : buffer prev (acc ++ [c]) false = acc ++ [c]) by (destruct acc; reflexivity). rewrite Eb.
    specialize (H [c] l eq_refl) as H0. rewrite <- andb_assoc, H0, andb_false_r.
    rewrite IH; [| intros Q; apply N; right; exact Q | intros Q; apply B; right; exact Q | cbn in L; lia | | | cbn [length] in I; lia].
    + f_equal; [f_equal; [lia | rewrite <- app_assoc; reflexivity]].
    + intros q z Q. rewrite <- app_assoc. apply (H (c :: q) z). cbn. f_equal. exact Q.
    + rewrite <- app_assoc. exact T.
Qed.
Definition stop_text : list Z := str " [C]ontinue, [Q]uit".
Lemma contains_in s p : contains s p = true -> exists x y, s = x ++ p ++ y.
Proof. unfold contains. destruct (strstr s p) as [w|] eqn:E; [|discriminate]. intros _. destruct (strstr_first _ _ _ E) as (a & y & -> & _). eauto. Qed.
Lemma strstr_some p : forall s a y, s = a ++ p ++ y -> exists w, strstr s p = Some w.
Proof.
  induction s as [|c s IH]; intros a y E; cbn [strstr].
  - destruct a; [|discriminate]. destruct p; [eexists; reflexivity | discriminate].
  - destruct (prefixb p (c :: s)) eqn:P; [eexists; reflexivity|]. destruct a as [|c0 a]; [exfalso; cbn [app] in E; rewrite E, prefixb_app in P; discriminate|]. injection E as <- E. exact (IH a y E).
Qed.
Lemma question_form v : question v = (str "Insert disk with " ++ v ++ stop_text) ++ [32].
Proof. unfold question, stop_text. rewrite <- !app_assoc. reflexivity. Qed.
Lemma ask_ok prev v r : ~ In 10 v -> ~ In 8 v -> ~ In 0 v -> (length v <= 900)%nat -> v <> [] ->
  strstr (question v) (str " [C]ontinue, [Q]uit") = Some (str " [C]ontinue, [Q]uit ") ->
  read_line prev (question v ++ r) = (Some (question v), r) /\ heard_line (question v) = Some (MAsk v).
Proof.
  intros N B U L V F.
  assert (First : forall u w, question v = u ++ stop_text ++ w -> (17 + length v <= length u)%nat).
  { destruct (strstr_first _ _ _ F) as (a & y & Ea & Ey & M). intros u w K. specialize (M u w K). assert (Y : length y = 1%nat).
    { apply (f_equal (@length Z)) in Ey. rewrite app_length in Ey. cbn [length] in Ey. change (length (str " [C]ontinue, [Q]uit ")) with 20%nat in Ey. change (length (str " [C]ontinue, [Q]uit")) with 19%nat in Ey. lia. }
    apply (f_equal (@length Z)) in Ea. unfold question in Ea. rewrite !app_length, Y in Ea. change (length (str " [C]ontinue, [Q]uit ")) with 20%nat in Ea. change (length (str " [C]ontinue, [Q]uit")) with 19%nat in Ea.
    change (length (str "Insert disk with ")) with 17%nat in Ea. lia. }
  set (l := str "Insert disk with " ++ v ++ stop_text).
  assert (Ll : length l = (36 + length v)%nat) by (unfold l; rewrite !app_length; change (length stop_text) with 19%nat; change (length (str "Insert disk with ")) with 17%nat; lia).
  assert (In_l : forall c, In c l -> In c v \/ 32 <= c).
  { intros c C. unfold l in C. rewrite !in_app_iff in C. destruct C as [C|[C|C]]; auto; right; cbn in C; intuition lia. }
  assert (Nl : ~ In 10 l) by (intros C; apply In_l in C; destruct C; [auto | lia]).
  assert (Bl : ~ In 8 l) by (intros C; apply In_l in C; destruct C; [auto | lia]).
  assert (Ul : ~ In 0 l) by (intros C; apply In_l in C; destruct C; [auto | lia]).
  assert (Uq : ~ In 0 (question v)) by (rewrite question_form; fold l; intros C; apply in_app_iff in C; destruct C as [C|[C|[]]]; [auto | discriminate]).
  split.
  - unfold read_line. rewrite question_form at 1. fold l. rewrite <- app_assoc. cbn [app].
    rewrite (read_ask prev l out_room [] 0 r Nl Bl).
    + replace (0 + length l + 1)%nat with (S (length l)) by lia. cbn [Nat.eqb app].
      replace (l ++ [32]) with (question v) by (rewrite question_form; reflexivity).
      replace (prefixb (str "...") (question v)) with false by reflexivity.
      rewrite firstn_all2 by (rewrite question_form; fold l; rewrite app_length; cbn; lia). rewrite c_string_nonul by exact Uq. reflexivity.
    + rewrite Ll. unfold out_room. lia.
    + intros q z Q. cbn [app]. rewrite c_string_nonul by (intros C; apply Ul; rewrite Q; apply in_or_app; auto).
      destruct (contains q continue_text) eqn:C; [|apply andb_false_r]. exfalso. apply contains_in in C. destruct C as (x & y & ->).
      assert (K : question v = x ++ stop_text ++ [32] ++ y ++ z ++ [32]).
      { rewrite question_form. fold l. rewrite Q. unfold continue_text. change (str " [C]ontinue, [Q]uit ") with (stop_text ++ [32]). rewrite <- !app_assoc. reflexivity. }
      apply First in K. apply (f_equal (@length Z)) in Q. rewrite Ll, !app_length in Q. change (length continue_text) with 20%nat in Q. lia.
    + cbn [app]. replace (l ++ [32]) with (question v) by (rewrite question_form; reflexivity). rewrite c_string_nonul by exact Uq.
      apply andb_true_iff. split; [unfold question; change (str "Insert disk with ") with (insert_text ++ [32]); rewrite <- app_assoc; apply prefixb_app|].
      assert (K : question v = (str "Insert disk with " ++ v) ++ continue_text ++ []) by (unfold question, continue_text; rewrite app_nil_r, <- app_assoc; reflexivity).
      unfold contains. destruct (strstr_some _ _ _ _ K) as (w & ->). reflexivity.
    + cbn [Nat.add]. lia.
  - assert (St : strip_end (question v) = l).
    { apply (text_unique (question v)); [apply strip_text|]. rewrite question_form. fold l. exists [32]. split; [reflexivity|]. split; [constructor; [right; right; reflexivity | constructor]|].
      right. exists (str "Insert disk with " ++ v ++ str " [C]ontinue, [Q]ui"), 116. split; [unfold l, stop_text; rewrite <- !app_assoc; reflexivity | unfold blank; lia]. }
    unfold heard_line, process_output. cbv zeta. rewrite St.
    assert (Hl : exists t, l = 73 :: t) by (unfold l; eexists; reflexivity). destruct Hl as (t & Ht). rewrite Ht.
    replace (prefixb (str "[INFO] ") (73 :: t)) with false by reflexivity. replace (prefixb (str "[WARNING] ") (73 :: t)) with false by reflexivity.
    replace (prefixb (str "[ERROR] ") (73 :: t)) with false by reflexivity. replace (prefixb (str "[DETAIL] ") (73 :: t)) with false by reflexivity.
    replace (prefixb (str "[DEBUG] ") (73 :: t)) with false by reflexivity. rewrite <- Ht. f_equal.
    assert (Em : message (Some (str "Unrar")) l = str "Unrar: " ++ l).
    { unfold message, cut. rewrite (firstn_all2 (n := Z.to_nat 1023) l) by (rewrite Ll; lia). rewrite firstn_all2; [reflexivity|]. rewrite !app_length, Ll. cbn [length str]. change (length (str "Unrar")) with 5%nat. change (length (str ": ")) with 2%nat. lia. }
    rewrite Em. clear Em.
    assert (Es : strstr (str "Unrar: " ++ l) stop_text = Some stop_text).
    { rewrite <- (app_nil_r stop_text) at 2. apply (strstr_intro _ _ (str "Unrar: Insert disk with " ++ v)).
      - unfold l. rewrite app_nil_r, <- !app_assoc. reflexivity.
      - intros u w K. rewrite app_length. change (length (str "Unrar: Insert disk with ")) with 24%nat.
        change (str "Unrar: ") with [85; 110; 114; 97; 114; 58; 32] in K. rewrite Ht in K. change stop_text with (32 :: 91 :: str "C]ontinue, [Q]uit") in K.
        do 7 (destruct u as [|? u]; [exfalso; cbn [app] in K; discriminate K | cbn [app] in K; injection K as _ K]).
        rewrite <- Ht in K. cbn [length]. specialize (First u (w ++ [32])). assert (17 + length v <= length u)%nat; [|lia]. apply First. rewrite question_form. fold l. rewrite K.
        change (32 :: 91 :: str "C]ontinue, [Q]uit") with stop_text. rewrite <- !app_assoc. reflexivity. }
    unfold meaning. cbv zeta. unfold contains. fold stop_text. rewrite Es.
    replace (prefixb (str "Unrar: Insert disk with") (str "Unrar: " ++ l)) with true by reflexivity. cbn [andb]. f_equal.
    assert (Ln : (length (str "Unrar: " ++ l) - length stop_text - 24)%nat = length v).
    { rewrite app_length, Ll. change (length (str "Unrar: ")) with 7%nat. change (length stop_text) with 19%nat. lia. }
    rewrite Ln. destruct (length v =? 0)%nat eqn:E0; [apply Nat.eqb_eq in E0; destruct v; [congruence | discriminate]|].
    replace (skipn 24 (str "Unrar: " ++ l)) with (v ++ stop_text) by reflexivity. rewrite firstn_app_len by reflexivity. unfold cut. apply firstn_all2. lia.
Qed.
