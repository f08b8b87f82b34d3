(** Tokenizer and command-line splitting. *)
From Verif Require Import Base NumFmt WildModel WildSpec.

Definition ne (l : list Z) : bool := match l with [] => false | _ => true end.

Lemma drop_blank_spec l : exists a, l = a ++ drop_blank l /\ Forall blank a /\
  (forall c r, drop_blank l = c :: r -> ~ blank c).
Proof.
  induction l as [|c t (a & E & Ha & Hh)]; cbn [drop_blank].
  - exists []. repeat split; auto; discriminate.
  - destruct (is_blank c) eqn:B.
    + exists (c :: a). split; [simpl; congruence|]. split; [|exact Hh].
      constructor; [unfold is_blank in B; unfold blank; lia | exact Ha].
    + exists []. repeat split; auto. intros d r H. inversion H; subst. unfold is_blank in B. unfold blank. lia.
Qed.

Lemma trim_ok s : trimmed s (trim s).
Proof.
  unfold trimmed, trim.
  destruct (drop_blank_spec (rev s)) as (b & Eb & Hb & Hlast).
  set (m := drop_blank (rev s)) in *.
  destruct (drop_blank_spec (rev m)) as (a & Ea & Ha & Hfirst).
  exists a, (rev b). split.
  - rewrite app_assoc, <- Ea. rewrite <- (rev_involutive s), Eb, rev_app_distr. reflexivity.
  - split; [exact Ha|]. split; [apply Forall_rev, Hb|]. split; [exact Hfirst|].
    intros c r E. rewrite E in Ea.
    assert (m = c :: rev (a ++ r)).
    { rewrite <- (rev_involutive m), Ea, app_assoc, rev_app_distr. reflexivity. }
    apply (Hlast _ _ H).
Qed.

Lemma trimmed_unique s t1 t2 : trimmed s t1 -> trimmed s t2 -> t1 = t2.
Proof.
  intros (a1 & b1 & E1 & Ha1 & Hb1 & F1 & L1) (a2 & b2 & E2 & Ha2 & Hb2 & F2 & L2).
  (* compare the heads *)
  assert (Head : forall a1 a2 x1 x2, a1 ++ x1 = a2 ++ x2 -> Forall blank a1 -> Forall blank a2 ->
     (forall c r, x1 = c :: r -> ~ blank c) -> (forall c r, x2 = c :: r -> ~ blank c) -> a1 = a2 /\ x1 = x2).
  { clear. induction a1 as [|c a1 IH]; intros [|d a2] x1 x2 E H1 H2 N1 N2; simpl in E; auto.
    - subst x1. inversion H2; subst. exfalso. eapply N1; [reflexivity|assumption].
    - subst x2. inversion H1; subst. exfalso. eapply N2; [reflexivity|assumption].
    - inversion E; inversion H1; inversion H2; subst. destruct (IH a2 x1 x2) as [-> ->]; auto. }
  destruct t1 as [|c1 t1], t2 as [|c2 t2]; auto.
  - exfalso. simpl in E1. assert (blank c2); [|apply (F2 c2 t2 eq_refl); assumption].
    assert (A : Forall blank s) by (rewrite E1; apply Forall_app; auto).
    rewrite E2 in A. apply Forall_app in A as [_ A]. inversion A. assumption.
  - exfalso. simpl in E2. assert (blank c1); [|apply (F1 c1 t1 eq_refl); assumption].
    assert (A : Forall blank s) by (rewrite E2; apply Forall_app; auto).
    rewrite E1 in A. apply Forall_app in A as [_ A]. inversion A. assumption.
  - rewrite E1 in E2. apply Head in E2 as [_ E2]; auto.
    2:{ intros c r E. inversion E; subst. apply (F1 c t1 eq_refl). }
    2:{ intros c r E. inversion E; subst. apply (F2 c t2 eq_refl). }
    assert (E3 : rev b1 ++ rev (c1 :: t1) = rev b2 ++ rev (c2 :: t2)) by (rewrite <- !rev_app_distr, E2; reflexivity).
    apply Head in E3 as [_ E3]; try (apply Forall_rev; assumption).
    + rewrite <- (rev_involutive (c1 :: t1)), E3, rev_involutive. reflexivity.
    + intros c r E. apply (L1 c (rev r)). rewrite <- (rev_involutive (c1 :: t1)), E. reflexivity.
    + intros c r E. apply (L2 c (rev r)). rewrite <- (rev_involutive (c2 :: t2)), E. reflexivity.
Qed.

(** Tokens. *)
Definition kept (seps s : list Z) : list (list Z) := filter ne (map trim (fields (in_set seps) s)).

Lemma kept_skip seps s : kept seps s = kept seps (skip_sep seps s).
Proof.
  induction s as [|c t IH]; [reflexivity|]. cbn [skip_sep]. destruct (in_set seps c) eqn:E; [|reflexivity].
  rewrite <- IH. unfold kept. cbn [fields]. rewrite E. reflexivity.
Qed.

Lemma take_fields seps s : let '(a, r) := take_tok seps s in
  kept seps s = filter ne [trim a] ++ kept seps r /\ (length r <= length s)%nat /\
  (s <> [] -> length r < length s)%nat.
Proof.
  induction s as [|c t IH]; cbn [take_tok]; [repeat split; auto; congruence|].
  destruct (in_set seps c) eqn:E.
  - unfold kept. cbn [fields]. rewrite E. cbn [map filter length]. repeat split; lia.
  - destruct (take_tok seps t) as [a r] eqn:Et. destruct IH as (_ & L & _).
    split; [|cbn [length]; split; lia].
    (* structure of the fields *)
    assert (S : forall s a r, take_tok seps s = (a, r) ->
       (fields (in_set seps) s = a :: fields (in_set seps) r) \/ (r = [] /\ fields (in_set seps) s = [a])).
    { clear. induction s as [|c t IH]; intros a r H; cbn [take_tok] in H.
      - inversion H; subst. right. auto.
      - cbn [fields]. destruct (in_set seps c); [inversion H; subst; auto|].
        destruct (take_tok seps t) as [a' r'] eqn:Et. inversion H; subst.
        destruct (IH _ _ eq_refl) as [->|[-> ->]]; auto. }
    assert (Et2 : take_tok seps (c :: t) = (c :: a, r)) by (cbn [take_tok]; rewrite E, Et; reflexivity).
    unfold kept. destruct (S _ _ _ Et2) as [->|[-> ->]].
    + cbn [map filter]. destruct (ne (trim (c :: a))); reflexivity.
    + cbn [fields map filter]. rewrite app_nil_r. reflexivity.
Qed.

Lemma skip_len seps s : (length (skip_sep seps s) <= length s)%nat.
Proof. induction s as [|c t IH]; cbn [skip_sep length]; [lia|]. destruct (in_set seps c); cbn [length]; lia. Qed.

Lemma tokens_go_ok seps : forall fuel s, (length s < fuel)%nat -> tokens_go fuel seps s = Some (kept seps s).
Proof.
  induction fuel as [|f IH]; intros s H; [lia|]. cbn [tokens_go]. unfold strtok.
  rewrite kept_skip. assert (L := skip_len seps s). destruct (skip_sep seps s) as [|c t] eqn:E; [reflexivity|].
  assert (T := take_fields seps (c :: t)). destruct (take_tok seps (c :: t)) as [a r].
  destruct T as (Ek & _ & Lr). specialize (Lr ltac:(discriminate)). rewrite IH by lia. rewrite Ek. cbn [filter].
  destruct (trim a); reflexivity.
Qed.

Lemma tokens_ok seps s : tokens seps s = Some (kept seps s).
Proof. apply tokens_go_ok. lia. Qed.

Lemma fields_no_sep sep s : Forall (Forall (fun c => sep c = false)) (fields sep s).
Proof.
  induction s as [|c t IH]; cbn [fields]; [repeat constructor|].
  destruct (sep c) eqn:E; [constructor; [constructor|exact IH]|].
  destruct (fields sep t) as [|f l]; [repeat constructor; assumption|].
  inversion IH; subst. constructor; [constructor|]; assumption.
Qed.

(** The fields joined by separators give the text back. *)
Fixpoint joined (sep : Z -> bool) (fs : list (list Z)) (s : list Z) : Prop :=
  match fs with
  | [] => False
  | [f] => s = f
  | f :: r => exists c t, s = f ++ c :: t /\ sep c = true /\ joined sep r t
  end.
Lemma fields_joined sep s : joined sep (fields sep s) s.
Proof.
  induction s as [|c t IH]; [reflexivity|]. cbn [fields]. destruct (sep c) eqn:E.
  - destruct (fields sep t) as [|f l] eqn:Ef; [elim IH|]. simpl. exists c, t. auto.
  - destruct (fields sep t) as [|f [|f2 l]]; [elim IH| |].
    + simpl in *. congruence.
    + cbn [joined] in *. destruct IH as (d & u & -> & Hd & J). exists d, u. auto.
Qed.

Lemma kept_no_sep seps s : Forall (Forall (fun c => ~ In c seps)) (kept seps s).
Proof.
  unfold kept. apply Forall_forall. intros x Hx. apply filter_In in Hx as [Hx _].
  apply in_map_iff in Hx as (f & <- & Hf).
  assert (A := fields_no_sep (in_set seps) s). rewrite Forall_forall in A. specialize (A f Hf).
  destruct (trim_ok f) as (a & b & E & _). rewrite E in A. apply Forall_app in A as [_ A]. apply Forall_app in A as [A _].
  eapply Forall_impl; [|exact A]. intros c Hc Hin. unfold in_set in Hc.
  assert (existsb (Z.eqb c) seps = true) by (apply existsb_exists; exists c; split; [assumption|apply Z.eqb_refl]).
  congruence.
Qed.

(** ** Command line *)

Lemma split_bare w : forall buf len rest, ~ In 32 w -> 0 < len -> len + Z.of_nat (length w) <= 1023 ->
  split_go (w ++ 32 :: rest) buf len false false = (rev buf ++ w) :: split_go rest [] 0 false true
  /\ split_go w buf len false false = [rev buf ++ w].
Proof.
  induction w as [|c w IH]; intros buf len rest Hin Hlen Hle.
  - cbn [app split_go]. simpl (32 =? 32). cbv iota. unfold sc_flush. cbn [andb].
    replace (0 <? len) with true by lia. rewrite app_nil_r. auto.
  - cbn [app split_go]. replace (c =? 32) with false by (simpl in Hin; lia).
    rewrite andb_false_r. cbn [length] in Hle. unfold sc_add. replace (len <? 1023) with true by lia.
    unfold sc_flush. cbn [andb]. cbv iota. cbn [app].
    assert (E : rev buf ++ c :: w = rev (c :: buf) ++ w) by (cbn [rev]; rewrite <- app_assoc; reflexivity).
    rewrite E. apply IH; [simpl in Hin; tauto|lia|lia].
Qed.

Definition dbl (c : Z) : list Z := if c =? 39 then [39; 39] else [c].

Lemma split_quoted a : forall buf len rest, 0 <= len -> 0 < len + Z.of_nat (length a) <= 1023 ->
  hd 0 rest <> 39 ->
  split_go (flat_map dbl a ++ 39 :: rest) buf len true false = (rev buf ++ a) :: split_go rest [] 0 false true.
Proof.
  induction a as [|c a IH]; intros buf len rest Hlen Hle Hr.
  - cbn [flat_map app split_go]. simpl (39 =? 39). cbv iota. cbn [length] in Hle. unfold sc_flush. cbn [andb].
    replace (0 <? len) with true by lia. cbv iota. rewrite app_nil_r.
    destruct rest as [|d r]; [reflexivity|]. cbn [hd] in Hr. replace (d =? 39) with false by lia. reflexivity.
  - cbn [length] in Hle.
    assert (E : rev buf ++ c :: a = rev (c :: buf) ++ a) by (cbn [rev]; rewrite <- app_assoc; reflexivity).
    cbn [flat_map]. unfold dbl at 1. destruct (Z.eqb_spec c 39) as [->|Hc].
    + cbn [app split_go]. simpl (39 =? 39). replace (len <? 1023) with true by lia. cbn [andb].
      unfold sc_flush. cbn [andb]. cbn [app]. rewrite E. apply IH; [lia|lia|assumption].
    + cbn [app split_go]. replace (c =? 39) with false by lia. unfold sc_add. replace (len <? 1023) with true by lia.
      unfold sc_flush. cbn [andb app]. rewrite E. apply IH; [lia|lia|assumption].
Qed.

Lemma split_blanks bl rest : Forall (eq 32) bl -> split_go (bl ++ rest) [] 0 false true = split_go rest [] 0 false true.
Proof. induction 1 as [|c bl <- H IH]; [reflexivity|]. cbn [app split_go]. exact IH. Qed.

Lemma split_written a w : written a w -> Z.of_nat (length a) <= 1023 -> forall rest,
  split_go (w ++ 32 :: rest) [] 0 false true = a :: split_go rest [] 0 false true /\
  split_go w [] 0 false true = [a].
Proof.
  intros H Hlen rest. inversion H as [a' Hne Hb Hq|a' Hne]; subst.
  - destruct w as [|c w]; [congruence|]. cbn [hd] in Hq. cbn [app split_go length] in *.
    replace (c =? 32) with false by (simpl in Hb; lia). replace (c =? 39) with false by lia. cbn [andb].
    unfold sc_add. simpl (0 <? 1023). cbv iota. unfold sc_flush. cbn [andb app].
    destruct (split_bare w [c] (0 + 1) rest ltac:(simpl in Hb; tauto) ltac:(lia) ltac:(lia)) as [E1 E2].
    split; [exact E1|exact E2].
  - unfold quote. change (fun c : Z => if c =? 39 then [39; 39] else [c]) with dbl.
    assert (0 < Z.of_nat (length a)) by (destruct a; [congruence|cbn [length]; lia]).
    assert (Q : forall r, hd 0 r <> 39 -> split_go (39 :: flat_map dbl a ++ 39 :: r) [] 0 false true
                 = a :: split_go r [] 0 false true).
    { intros r Hr. cbn [split_go]. simpl (39 =? 32). simpl (39 =? 39). cbn [andb]. unfold sc_flush. cbn [andb app].
      rewrite split_quoted; [reflexivity|lia|lia|assumption]. }
    split.
    + cbn [app]. rewrite <- app_assoc. cbn [app]. rewrite (Q (32 :: rest)) by (cbn [hd]; lia). reflexivity.
    + rewrite (Q []) by (cbn [hd]; lia). reflexivity.
Qed.

Lemma split_cmdline args line : cmdline args line -> Forall (fun a => Z.of_nat (length a) <= 1023) args ->
  split_cmd line = args.
Proof.
  unfold split_cmd. intros H. induction H as [bl Hb|bl a w Hb Hw|bl a w args rest Hb Hw H IH]; intros F.
  - rewrite <- (app_nil_r bl). rewrite split_blanks by assumption. reflexivity.
  - inversion F; subst. rewrite split_blanks by assumption. apply (split_written a w Hw H1 []).
  - inversion F; subst. rewrite split_blanks by assumption.
    rewrite (proj1 (split_written a w Hw H2 rest)). f_equal. apply IH. assumption.
Qed.

(** No argument is ever longer than the buffer, whatever the input. *)
Lemma split_bounded s : forall buf len e sp, len = Z.of_nat (length buf) -> len <= 1023 ->
  Forall (fun a => Z.of_nat (length a) <= 1023 /\ a <> []) (split_go s buf len e sp).
Proof.
  assert (Fl : forall sp buf len, len = Z.of_nat (length buf) -> len <= 1023 ->
     let '(o, b, n) := sc_flush sp buf len in
     Forall (fun a => Z.of_nat (length a) <= 1023 /\ a <> []) o /\ n = Z.of_nat (length b) /\ n <= 1023).
  { intros sp buf len E L. unfold sc_flush. destruct (sp && (0 <? len)) eqn:B; [|auto].
    split; [|cbn; lia]. constructor; [|constructor]. rewrite rev_length. split; [lia|].
    intros R. apply (f_equal (@length Z)) in R. rewrite rev_length in R. cbn [length] in R. lia. }
  assert (Ad : forall c buf len, len = Z.of_nat (length buf) -> len <= 1023 ->
     let '(b, n) := sc_add c buf len in n = Z.of_nat (length b) /\ n <= 1023).
  { intros c buf len E L. unfold sc_add. destruct (Z.ltb_spec len 1023); [|auto]. cbn [length]. lia. }
  assert (G : forall m s, (length s <= m)%nat -> forall buf len e sp, len = Z.of_nat (length buf) -> len <= 1023 ->
    Forall (fun a => Z.of_nat (length a) <= 1023 /\ a <> []) (split_go s buf len e sp)).
  { induction m as [|m IH]; intros l Hm buf len e sp E L; (destruct l as [|c t]; [|cbn [length] in Hm]);
      try lia; cbn [split_go].
    1,2: destruct (Z.ltb_spec 0 len); [|constructor]; constructor; [|constructor]; rewrite rev_length; split; [lia|];
      intros R; apply (f_equal (@length Z)) in R; rewrite rev_length in R; cbn [length] in R; lia.
    assert (Go : forall sp1 b1 n1 r e2 sp2, n1 = Z.of_nat (length b1) -> n1 <= 1023 -> (length r <= m)%nat ->
      Forall (fun a => Z.of_nat (length a) <= 1023 /\ a <> [])
        (let '(o, b, n) := sc_flush sp1 b1 n1 in o ++ split_go r b n e2 sp2)).
    { intros sp1 b1 n1 r e2 sp2 E1 L1 Hr. specialize (Fl sp1 b1 n1 E1 L1).
      destruct (sc_flush sp1 b1 n1) as [[o b] n]. destruct Fl as (Fo & En & Ln).
      apply Forall_app. split; [exact Fo|]. apply IH; assumption. }
    destruct e.
    - destruct (c =? 39).
      + destruct t as [|d t2]; [apply Go; auto; cbn [length]; lia|]. cbn [length] in Hm.
        destruct (Z.eqb_spec d 39); destruct (Z.ltb_spec len 1023); cbn [andb]; apply Go; cbn [length]; lia.
      + specialize (Ad c buf len E L). destruct (sc_add c buf len) as [b1 n1]. apply Go; tauto || lia.
    - destruct (c =? 32); [apply Go; auto; lia|]. destruct ((c =? 39) && sp); [apply Go; auto; lia|].
      specialize (Ad c buf len E L). destruct (sc_add c buf len) as [b1 n1]. apply Go; tauto || lia. }
  intros buf len e sp. apply (G (length s)). lia.
Qed.
