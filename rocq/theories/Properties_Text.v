(** C12-C14: wildcard masks, separated lists, command lines. *)
From Coq Require Import String.
From Verif Require Import Base NumFmt WildModel WildSpec WildProofs WildPosProofs TextProofs.

(** ** C12 *)

(** The matcher always terminates without indexing outside its arrays, with or without
    positions, and says yes exactly when the text can be divided according to the mask. *)
Theorem C12_match_iff : forall wants mask text, ~ In 0 text ->
  exists b g, wild_match wants mask text = Some (b, g) /\ (b = true <-> glob wild_char mask text).
Proof. exact wild_match_ok. Qed.
Print Assumptions C12_match_iff.

(** For texts without '#', '#' in the mask means a digit and nothing else. *)
Theorem C12_match_iff_strict : forall wants mask text, ~ In 0 text -> ~ In 35 text ->
  exists b g, wild_match wants mask text = Some (b, g) /\ (b = true <-> glob wild_char_strict mask text).
Proof.
  intros wants mask text H H2. destruct (wild_match_ok wants mask text H) as (b & g & E & Hb).
  exists b, g. split; [exact E|]. rewrite Hb. clear - H2. split.
  - intros G. induction G as [| | |m p c t Hm Hc G IH]; [constructor| | |].
    + apply g_skip. auto.
    + apply g_star. apply IHG. simpl in H2. tauto.
    + apply g_char; [assumption| |apply IH; simpl in H2; tauto].
      unfold wild_char in Hc. unfold wild_char_strict. destruct (Z.eq_dec m 63), (Z.eq_dec m 35); auto.
      * right. left. split; [assumption|]. subst m. destruct Hc as [?|[[_ ?]|?]]; [lia|assumption|].
        exfalso. apply H2. left. unfold lc in *. simpl in *. destruct ((65 <=? c) && (c <=? 90)) eqn:E; lia.
      * right. right. destruct Hc as [?|[[? _]|?]]; try lia; auto.
  - intros G. induction G as [| | |m p c t Hm Hc G IH]; [constructor| | |].
    + apply g_skip. auto.
    + apply g_star. apply IHG. simpl in H2. tauto.
    + apply g_char; [assumption| |apply IH; simpl in H2; tauto].
      unfold wild_char_strict in Hc. unfold wild_char. tauto.
Qed.
Print Assumptions C12_match_iff_strict.

(** '#' in the mask also matches the character '#', which is not a digit. *)
Theorem C12_hash_refuted : exists mask text g,
  wild_match false mask text = Some (true, g) /\ ~ glob wild_char_strict mask text.
Proof.
  exists (str "#"), (str "#"), []. split; [reflexivity|]. change (str "#") with [35]. intros H.
  inversion H as [| | |m p c t Hm Hc G]; subst. unfold wild_char_strict, digit in Hc. lia.
Qed.
Print Assumptions C12_hash_refuted.

(** Positions: right for masks in which no '?' or '#' comes after a '*'. Missing from
    the full statement: the other masks, for which it is false (next theorem). *)
Theorem C12_positions_partial : forall mask text g, ~ In 0 text -> q_before_star mask ->
  wild_match true mask text = Some (true, g) -> division 0 (items mask) text g.
Proof. exact wild_positions. Qed.
Print Assumptions C12_positions_partial.

(** "*?x" on "abx" reports an empty star group and the second character; the first
    character belongs to no group. *)
Theorem C12_positions_refuted : exists mask text g, ~ In 0 text /\
  wild_match true mask text = Some (true, g) /\ g = [(0, 0); (1, 1)] /\ ~ division 0 (items mask) text g.
Proof.
  exists (str "*?x"), (str "abx"), [(0, 0); (1, 1)].
  split; [vm_compute; intuition discriminate|]. split; [vm_compute; reflexivity|]. split; [reflexivity|].
  change (items (str "*?x")) with [IStar; IQ [63]; ILit 120]. intros D. inversion D; subst.
  match goal with H : division _ (IQ _ :: _) _ _ |- _ => inversion H; subst end.
  destruct u as [|? u]; cbn [length] in *; lia.
Qed.
Print Assumptions C12_positions_refuted.

Example C12_nonvacuous :
  wild_match true (str "a??*b*.r##") (str "AxyQQb.b.R01") = Some (true, [(1, 2); (3, 2); (6, 2); (10, 2)])
  /\ wild_match true (str "??-*b*") (str "xy-aabbq") = Some (true, [(0, 2); (3, 2); (6, 2)])
  /\ q_before_star (str "??-*b*").
Proof.
  split; [vm_compute; reflexivity|]. split; [vm_compute; reflexivity|].
  intros a b E. change (str "??-*b*") with [63; 63; 45; 42; 98; 42] in E.
  destruct a as [|? [|? [|? [|? [|? [|? a]]]]]]; cbn [app] in E; inversion E; subst;
    try (destruct a; discriminate); unfold no_q; repeat (apply Forall_nil || apply Forall_cons); lia.
Qed.

(** ** C13 *)

(** Spec of the result: fields between separators, trimmed, empty ones left out. *)
Theorem C13_tokens : forall seps s, exists l, tokens seps s = Some l /\
  exists ts, Forall2 trimmed (fields (fun c => existsb (Z.eqb c) seps) s) ts /\
    l = filter (fun t => match t with [] => false | _ => true end) ts.
Proof.
  intros seps s. exists (kept seps s). split; [apply tokens_ok|].
  exists (map trim (fields (in_set seps) s)). split; [|reflexivity].
  unfold in_set. induction (fields (fun c => existsb (Z.eqb c) seps) s); cbn [map]; constructor; [apply trim_ok|assumption].
Qed.
Print Assumptions C13_tokens.

(** The two notions used are determined: fields give the text back when joined by
    separators and contain none; the trimmed text is unique. *)
Theorem C13_fields : forall sep s, joined sep (fields sep s) s /\
  Forall (Forall (fun c => sep c = false)) (fields sep s).
Proof. intros sep s. split; [apply fields_joined | apply fields_no_sep]. Qed.
Print Assumptions C13_fields.

Theorem C13_trim_unique : forall s t1 t2, trimmed s t1 -> trimmed s t2 -> t1 = t2.
Proof. exact trimmed_unique. Qed.
Print Assumptions C13_trim_unique.

Theorem C13_no_separator : forall seps s l, tokens seps s = Some l ->
  Forall (fun t => t <> [] /\ Forall (fun c => ~ In c seps) t) l.
Proof.
  intros seps s l H. rewrite tokens_ok in H. inversion H; subst.
  assert (A := kept_no_sep seps s). rewrite Forall_forall in *. intros t Ht. split; [|apply A, Ht].
  unfold kept in Ht. apply filter_In in Ht as [_ Ht]. destruct t; [discriminate Ht|discriminate].
Qed.
Print Assumptions C13_no_separator.

Example C13_nonvacuous : tokens (str ",;") (str " a b ,, c;  ;d") = Some [str "a b"; str "c"; str "d"].
Proof. vm_compute. reflexivity. Qed.

(** ** C14 *)

(** Arguments of at most 1023 bytes, bare or quoted, come back exactly. The limit and
    the exclusion of empty arguments are part of the statement: both are real (below). *)
Theorem C14_split_partial : forall args line, cmdline args line ->
  Forall (fun a => Z.of_nat (length a) <= 1023) args -> split_cmd line = args.
Proof. exact split_cmdline. Qed.
Print Assumptions C14_split_partial.

(** Whatever the input, no argument is empty or exceeds the 1024-byte buffer. *)
Theorem C14_buffer : forall line,
  Forall (fun a => Z.of_nat (length a) <= 1023 /\ a <> []) (split_cmd line).
Proof. intros line. apply split_bounded; cbn; lia. Qed.
Print Assumptions C14_buffer.

(** An empty quoted argument is lost. *)
Theorem C14_empty_argument_refuted : exists args, split_cmd (flat_map (fun a => quote a ++ [32]) args) <> args.
Proof. exists [str "a"; []; str "b"]. vm_compute. discriminate. Qed.
Print Assumptions C14_empty_argument_refuted.

(** An argument longer than 1023 bytes is cut. *)
Theorem C14_long_argument_refuted : exists a, a <> [] /\ Forall (eq 97) a /\ split_cmd (quote a) <> [a].
Proof.
  assert (L : Z.of_nat (length (repeat 97 (Z.to_nat 1024))) = 1024) by (rewrite repeat_length; lia).
  assert (F : Forall (eq 97) (repeat 97 (Z.to_nat 1024)))
    by (apply Forall_forall; intros x Hx; symmetry; eapply repeat_spec, Hx).
  revert L F. generalize (repeat 97 (Z.to_nat 1024)). intros a L F. exists a.
  split; [intros ->; discriminate|]. split; [exact F|].
  intros E. assert (B := C14_buffer (quote a)). rewrite E in B. inversion B as [|? ? [H _] _]; subst. lia.
Qed.
Print Assumptions C14_long_argument_refuted.

Example C14_nonvacuous :
  cmdline [str "7z"; str "it's a"; str "-x"] (str "7z 'it''s a'  -x") /\
  split_cmd (str "7z 'it''s a'  -x") = [str "7z"; str "it's a"; str "-x"].
Proof.
  split; [|vm_compute; reflexivity].
  apply (c_more [] (str "7z") (str "7z") [str "it's a"; str "-x"] (str "'it''s a'  -x")); [constructor| |].
  - apply w_bare; vm_compute; intuition discriminate.
  - apply (c_more [] (str "it's a") (quote (str "it's a")) [str "-x"] (str " -x")); [constructor| |].
    + apply w_quoted. discriminate.
    + apply (c_last [32] (str "-x") (str "-x")); [repeat constructor|].
      apply w_bare; vm_compute; intuition discriminate.
Qed.
