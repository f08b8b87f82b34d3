(** Formulas written as rule text. *)
From Coq Require Import String.
From Verif Require Import Base NumFmt WildSpec WildModel InfoModel FeedModel FeedSpec FeedProofs.

(** ** Induction on formulas *)
Definition all_of (P : fexp -> Prop) : list fexp -> Prop :=
  fix all l := match l with [] => True | x :: r => P x /\ all r end.
Lemma fexp_rec2 (P : fexp -> Prop) :
  (forall w, P (FWord w)) -> (forall l, all_of P l -> P (FAll l)) -> (forall l, all_of P l -> P (FAny l)) ->
  forall e, P e.
Proof.
  intros HW HA HO. fix IH 1. intros [w|l|l].
  - apply HW.
  - apply HA. induction l as [|x l IHl]; cbn [all_of]; [exact I|]. split; [apply IH|exact IHl].
  - apply HO. induction l as [|x l IHl]; cbn [all_of]; [exact I|]. split; [apply IH|exact IHl].
Qed.

(** ** The letters of a formula *)
Definition tf (b : bool) : Z := if b then 84 else 70.
Definition letter (v : list Z -> bool) (tok : list Z) : Z :=
  if beqb tok (str "(") then 40 else if beqb tok (str ")") then 41 else if beqb tok (str "|") then 124 else tf (v tok).

Lemma letter_word v w : plain_word w -> letter v w = tf (v w).
Proof. intros (A & B & C). unfold letter. apply beqb_neq in A, B, C. rewrite A, B, C. reflexivity. Qed.

Definition good (v : list Z -> bool) (e : fexp) : Prop :=
  fwell e -> Forall plain_word (fwords e) ->
  (forall k, exists g, run (Start, k) (map (letter v) (ftexts e)) = Some (g, k) /\
     g_close g = Some (feval v e) /\ (forall b, g <> Pend b)).

Lemma step_tf g k b : step (g, k) (tf b) = match g_item g b with Some g' => Some (g', k) | None => None end.
Proof. destruct b; reflexivity. Qed.

Lemma run_item v e g k : good v e -> fwell e -> Forall plain_word (fwords e) ->
  run (g, k) (map (letter v) (in_parens e (ftexts e))) =
  match g_item g (feval v e) with Some g' => Some (g', k) | None => None end.
Proof.
  intros G W P. destruct e as [w|l|l].
  - cbn [in_parens ftexts map feval fwords] in *. inversion P; subst. rewrite letter_word by assumption.
    cbn [run]. rewrite step_tf. destruct (g_item g (v w)); reflexivity.
  - destruct (G W P (g :: k)) as (g' & R & C & _). unfold in_parens. cbn [map]. rewrite map_app.
    change (letter v (str "(")) with 40. cbn [run]. change (step (g, k) 40) with (Some (Start, g :: k)). cbn iota.
    rewrite run_app, R. cbn [map run]. change (letter v (str ")")) with 41.
    unfold step. change (41 =? 84) with false. change (41 =? 70) with false. change (41 =? 124) with false.
    change (41 =? 40) with false. change (41 =? 41) with true. cbn iota. rewrite C.
    destruct (g_item g _); reflexivity.
  - destruct (G W P (g :: k)) as (g' & R & C & _). unfold in_parens. cbn [map]. rewrite map_app.
    change (letter v (str "(")) with 40. cbn [run]. change (step (g, k) 40) with (Some (Start, g :: k)). cbn iota.
    rewrite run_app, R. cbn [map run]. change (letter v (str ")")) with 41.
    unfold step. change (41 =? 84) with false. change (41 =? 70) with false. change (41 =? 124) with false.
    change (41 =? 40) with false. change (41 =? 41) with true. cbn iota. rewrite C.
    destruct (g_item g _); reflexivity.
Qed.

Lemma run_and v l : all_of (good v) l -> all_of fwell l -> Forall plain_word (flat_map fwords l) ->
  forall g b k, (g = Single b \/ g = AndS b) ->
  exists g', run (g, k) (map (letter v) (flat_map (fun x => in_parens x (ftexts x)) l)) = Some (g', k) /\
    g_close g' = Some (b && forallb (feval v) l) /\ (forall c, g' <> Pend c).
Proof.
  induction l as [|x l IH]; intros G W P g b k Hg; cbn [all_of flat_map] in *.
  - exists g. split; [reflexivity|]. cbn [forallb]. rewrite andb_true_r.
    destruct Hg as [->| ->]; split; try reflexivity; intros c E; discriminate E.
  - destruct G as [G1 G2], W as [W1 W2]. apply Forall_app in P as [P1 P2].
    rewrite map_app, run_app, run_item by assumption.
    assert (E : g_item g (feval v x) = Some (AndS (b && feval v x))) by (destruct Hg as [->| ->]; reflexivity).
    rewrite E. destruct (IH G2 W2 P2 (AndS (b && feval v x)) (b && feval v x) k) as (g' & R & C & N); [auto|].
    exists g'. split; [exact R|]. split; [|exact N]. rewrite C. cbn [forallb]. rewrite andb_assoc. reflexivity.
Qed.

Lemma run_or v l : all_of (good v) l -> all_of fwell l -> Forall plain_word (flat_map fwords l) ->
  forall g b k, (g = Single b \/ g = OrS b) -> l <> [] ->
  exists g', run (g, k) (124 :: map (letter v) (bars (map (fun x => in_parens x (ftexts x)) l))) = Some (g', k) /\
    g_close g' = Some (b || existsb (feval v) l) /\ (forall c, g' <> Pend c).
Proof.
  induction l as [|x l IH]; intros G W P g b k Hg Hl; [congruence|]. cbn [all_of flat_map] in *.
  destruct G as [G1 G2], W as [W1 W2]. apply Forall_app in P as [P1 P2].
  assert (E0 : step (g, k) 124 = Some (Pend b, k)) by (destruct Hg as [->| ->]; reflexivity).
  destruct l as [|y l].
  - cbn [map bars run]. rewrite E0. rewrite run_item by assumption. cbn [g_item].
    eexists; split; [reflexivity|]. cbn [existsb]. rewrite orb_false_r. split; [reflexivity|]. intros c E; discriminate E.
  - change (bars (map (fun x => in_parens x (ftexts x)) (x :: y :: l)))
      with (in_parens x (ftexts x) ++ str "|" :: bars (map (fun x => in_parens x (ftexts x)) (y :: l))).
    rewrite map_app. cbn [map]. change (letter v (str "|")) with 124.
    cbn [run]. rewrite E0. rewrite run_app, run_item by assumption. cbn [g_item].
    destruct (IH G2 W2 P2 (OrS (b || feval v x)) (b || feval v x) k) as (g' & R & C & N); [auto|discriminate|].
    exists g'. split; [exact R|]. split; [|exact N]. rewrite C.
    change (existsb (feval v) (x :: y :: l)) with (feval v x || existsb (feval v) (y :: l)). rewrite orb_assoc. reflexivity.
Qed.

Lemma all_good v e : good v e.
Proof.
  induction e as [w|l IH|l IH] using fexp_rec2; intros W P k.
  - cbn [ftexts map feval fwords] in *. inversion P; subst. rewrite letter_word by assumption.
    cbn [run]. rewrite step_tf. cbn [g_item]. eexists; split; [reflexivity|]. split; [reflexivity|]. intros b E; discriminate E.
  - destruct W as [Hl W]. change (all_of fwell l) in W. destruct l as [|x l]; [congruence|].
    cbn [all_of ftexts fwords flat_map feval forallb] in *. destruct IH as [G1 G2], W as [W1 W2]. apply Forall_app in P as [P1 P2].
    rewrite map_app, run_app, run_item by assumption. cbn [g_item].
    apply run_and; auto.
  - destruct W as [Hl W]. change (all_of fwell l) in W. destruct l as [|x l]; [congruence|].
    cbn [all_of ftexts fwords flat_map feval existsb] in *. destruct IH as [G1 G2], W as [W1 W2]. apply Forall_app in P as [P1 P2].
    destruct l as [|y l].
    + cbn [map bars]. rewrite run_item by assumption. cbn [g_item existsb]. rewrite orb_false_r.
      eexists; split; [reflexivity|]. split; [reflexivity|]. intros b E; discriminate E.
    + change (bars (map (fun x => in_parens x (ftexts x)) (x :: y :: l)))
        with (in_parens x (ftexts x) ++ str "|" :: bars (map (fun x => in_parens x (ftexts x)) (y :: l))).
      rewrite map_app. cbn [map]. change (letter v (str "|")) with 124.
      rewrite run_app, run_item by assumption. cbn [g_item].
      apply (run_or v (y :: l) G2 W2 P2 (Single (feval v x)) (feval v x) k); [auto|discriminate].
Qed.

Lemma formula_verdict v e : fwell e -> Forall plain_word (fwords e) ->
  expr_verdict (map (letter v) (ftexts e)) = Some (feval v e).
Proof.
  intros W P. apply verdict_value. destruct (all_good v e W P []) as (g & R & C & N).
  unfold value. rewrite R. destruct g; cbn [g_close] in C; try exact C; try discriminate.
  exfalso. eapply N. reflexivity.
Qed.

(** ** From text to terms *)
Lemma split_blank_word w r : ~ In 32 w -> split_blank (w ++ 32 :: r) = w :: split_blank r.
Proof.
  induction w as [|c w IH]; intros N; cbn [app split_blank].
  - change (32 =? 32) with true. reflexivity.
  - cbn [In] in N. replace (c =? 32) with false by lia. rewrite IH by tauto. reflexivity.
Qed.
Lemma split_blank_last w : ~ In 32 w -> split_blank w = [w].
Proof.
  induction w as [|c w IH]; intros N; cbn [split_blank]; [reflexivity|].
  cbn [In] in N. replace (c =? 32) with false by lia. rewrite IH by tauto. reflexivity.
Qed.
Lemma term_texts_spaced l : l <> [] -> Forall visible l -> term_texts (spaced l) = l.
Proof.
  intros Hl F. unfold term_texts.
  assert (A : filter (fun t => match t with [] => false | _ => true end) (split_blank (spaced l)) = l).
  { clear Hl. induction l as [|x l IH]; [reflexivity|]. inversion F as [|? ? [H1 H2] F2]; subst.
    destruct l as [|y l].
    - cbn [spaced]. rewrite split_blank_last by assumption. cbn [filter]. destruct x; [congruence|reflexivity].
    - change (spaced (x :: y :: l)) with (x ++ 32 :: spaced (y :: l)). rewrite split_blank_word by assumption.
      cbn [filter]. destruct x; [congruence|]. f_equal. apply IH, F2. }
  rewrite A. destruct l; [congruence|reflexivity].
Qed.

Lemma in_bars t l : In t (bars l) -> t = str "|" \/ exists x, In x l /\ In t x.
Proof.
  induction l as [|x l IH]; [intros []|]. destruct l as [|y l].
  - cbn [bars]. intros H. right. exists x. split; [left; reflexivity|exact H].
  - change (bars (x :: y :: l)) with (x ++ str "|" :: bars (y :: l)). intros H.
    apply in_app_or in H as [H|[H|H]].
    + right. exists x. split; [left; reflexivity|exact H].
    + left. auto.
    + destruct (IH H) as [->|(z & Hz & Ht)]; [left; reflexivity|]. right. exists z. split; [right; exact Hz|exact Ht].
Qed.
Lemma in_wrapped t e : In t (in_parens e (ftexts e)) -> In t (ftexts e) \/ t = str "(" \/ t = str ")".
Proof.
  destruct e; cbn [in_parens]; intros H; [left; exact H| |];
    (destruct H as [H|H]; [auto|]; apply in_app_or in H as [H|[H|[]]]; auto).
Qed.
Lemma ftexts_in e t : In t (ftexts e) -> In t (fwords e) \/ t = str "(" \/ t = str ")" \/ t = str "|".
Proof.
  induction e as [w|l IH|l IH] using fexp_rec2.
  - cbn [ftexts fwords In]. tauto.
  - cbn [ftexts fwords]. intros H. apply in_flat_map in H as (x & Hx & H).
    assert (A : In t (ftexts x) -> In t (flat_map fwords l) \/ t = str "(" \/ t = str ")" \/ t = str "|").
    { intros Ht. clear H. induction l as [|y l IHl]; [destruct Hx|]. cbn [all_of flat_map] in *. destruct IH as [I1 I2].
      destruct Hx as [->|Hx].
      - destruct (I1 Ht) as [K|K]; [left; apply in_or_app; auto|right; exact K].
      - destruct (IHl I2 Hx) as [K|K]; [left; apply in_or_app; auto|right; exact K]. }
    apply in_wrapped in H as [H|H]; [auto|tauto].
  - cbn [ftexts fwords]. intros H. apply in_bars in H as [->|(x & Hx & H)]; [tauto|].
    apply in_map_iff in Hx as (y & <- & Hy).
    assert (A : In t (ftexts y) -> In t (flat_map fwords l) \/ t = str "(" \/ t = str ")" \/ t = str "|").
    { intros Ht. clear H. induction l as [|z l IHl]; [destruct Hy|]. cbn [all_of flat_map] in *. destruct IH as [I1 I2].
      destruct Hy as [->|Hx].
      - destruct (I1 Ht) as [K|K]; [left; apply in_or_app; auto|right; exact K].
      - destruct (IHl I2 Hx) as [K|K]; [left; apply in_or_app; auto|right; exact K]. }
    apply in_wrapped in H as [H|H]; [auto|tauto].
Qed.
Lemma in_parens_nonempty x : in_parens x (ftexts x) <> [].
Proof. destruct x; cbn [in_parens ftexts]; discriminate. Qed.
Lemma ftexts_nonempty e : fwell e -> ftexts e <> [].
Proof.
  destruct e as [w|l|l]; cbn [fwell ftexts]; intros W E.
  - discriminate E.
  - destruct W as [Hl _]. destruct l as [|x l]; [congruence|]. cbn [flat_map] in E.
    apply app_eq_nil in E as [E _]. exact (in_parens_nonempty x E).
  - destruct W as [Hl _]. destruct l as [|x l]; [congruence|]. cbn [map] in E.
    destruct l; cbn [bars map] in E; [exact (in_parens_nonempty x E)|].
    apply app_eq_nil in E as [E _]. exact (in_parens_nonempty x E).
Qed.

Lemma compile_room e r r' w t : compile_term e r w = COk t -> compile_term e r' w = COk t.
Proof.
  unfold compile_term. destruct (if _ || _ then tl w else w) as [|c rest]; [|auto].
  destruct (r <=? 0); discriminate.
Qed.

Lemma compile_all e room i o want v toks :
  (forall w, In w toks -> (w = str "(" \/ w = str ")" \/ w = str "|") \/ (plain_word w /\ word_means e want i o w (v w))) ->
  exists l refs, compile_terms e room toks = COk l /\ expr_text e want l i o = Some (map (letter v) toks, refs).
Proof.
  induction toks as [|w toks IH]; intros H.
  - exists [], []. split; reflexivity.
  - destruct IH as (l & refs & C & X). { intros w' Hw. apply H. right. exact Hw. }
    cbn [compile_terms].
    assert (E : exists t r0, compile_term e (match toks with [] => room | _ => 1 end) w = COk t /\
      (match t_cmd t with
       | fcOpeningBrace => Some (40, []) | fcClosingBrace => Some (41, []) | fcOrOperator => Some (124, [])
       | _ => obind (term_match e want t i o) (fun '(b, refs) => Some (if b then 84 else 70, refs))
       end) = Some (letter v w, r0)).
    { destruct (H w (or_introl eq_refl)) as [[->|[->| ->]]|[P (t & r0 & T & B & M)]].
      - exists (mkTerm true None fcOpeningBrace [] 0 false), []. split; reflexivity.
      - exists (mkTerm true None fcClosingBrace [] 0 false), []. split; reflexivity.
      - exists (mkTerm true None fcOrOperator [] 0 false), []. split; reflexivity.
      - exists t, r0. split; [eapply compile_room, T|]. rewrite M. cbn [obind].
        rewrite letter_word by assumption. unfold tf. destruct (t_cmd t); try discriminate B; reflexivity. }
    destruct E as (t & r0 & -> & E2). rewrite C. exists (t :: l), (r0 ++ refs). split; [reflexivity|].
    cbn [expr_text]. rewrite E2. cbn [obind]. rewrite X. reflexivity.
Qed.

Lemma rule_formula e room s c r rest f i o v :
  compile_command (trim s) = Some (c, r, rest) -> c <> frComment -> trim rest = ftext f -> fwell f ->
  Forall (fun w => visible w /\ plain_word w /\ word_means e (wants_refs r) i o w (v w)) (fwords f) ->
  exists u r', compile_rule e room s = COk u /\ u_cmd u = c /\ rule_match e u i o = Some (feval v f, r').
Proof.
  intros Hc Nc Hr W F. unfold compile_rule. rewrite Hc, Hr. unfold ftext.
  assert (Vis : Forall visible (ftexts f)).
  { apply Forall_forall. intros t Ht. destruct (ftexts_in f t Ht) as [K|[->|[->| ->]]].
    - rewrite Forall_forall in F. apply F, K.
    - split; [discriminate|]. cbn. intuition discriminate.
    - split; [discriminate|]. cbn. intuition discriminate.
    - split; [discriminate|]. cbn. intuition discriminate. }
  rewrite term_texts_spaced by (try exact Vis; apply ftexts_nonempty, W).
  destruct (compile_all e (room + trailing s) i o (wants_refs r) v (ftexts f)) as (l & refs & C & X).
  { intros w Hw. destruct (ftexts_in f w Hw) as [K|K]; [right|left; exact K].
    rewrite Forall_forall in F. destruct (F _ K) as (_ & P & M). auto. }
  assert (P : Forall plain_word (fwords f)) by (eapply Forall_impl; [|exact F]; cbn; tauto).
  assert (V := formula_verdict v f W P).
  rewrite C. eexists; eexists. split; [destruct c; try congruence; reflexivity|].
  split; [destruct c; reflexivity|]. unfold rule_match. cbn [u_opts u_terms]. rewrite X. cbn [obind].
  rewrite V. cbn [obind]. reflexivity.
Qed.

(** ** Negation *)
Lemma negated_word e w t : hd 0 w <> 45 -> hd 0 w <> 43 -> compile_term e 1 w = COk t ->
  compile_term e 1 (45 :: w) = COk (mkTerm false (t_field t) (t_cmd t) (t_param t) (t_int t) (t_float t)) /\ t_pos t = true.
Proof.
  intros H1 H2. unfold compile_term. cbn [hd tl]. change (45 =? 45) with true. cbn [orb negb].
  replace (hd 0 w =? 45) with false by lia. replace (hd 0 w =? 43) with false by lia. cbn [orb negb].
  destruct w as [|ch rest]; [discriminate|].
  set (brace := match rest with [] => true | c :: _ => c =? 32 end).
  destruct (brace && (ch =? 40)); [intros E; inversion E; split; reflexivity|].
  destruct (brace && (ch =? 41)); [intros E; inversion E; split; reflexivity|].
  destruct (brace && (ch =? 124)); [intros E; inversion E; split; reflexivity|].
  destruct (match (if (ch =? 64) || (ch =? 36) || (ch =? 60) || (ch =? 62) || (ch =? 61) then None else split_colon (ch :: rest)) with Some (f, p) => (Some f, p) | None => (None, ch :: rest) end) as [field tok1].
  destruct tok1; [discriminate|]. destruct (term_cmd _) as [c param].
  destruct (negb (field_known field)); [discriminate|].
  destruct field as [f|]; [|intros E; inversion E; split; reflexivity].
  destruct (parse_param e f c param) as [[n fl]|]; [|discriminate]. intros E; inversion E; split; reflexivity.
Qed.

Lemma negated_match e want i o t b refs : t_pos t = true -> field_data e (t_field t) i o <> None ->
  term_match e want t i o = Some (b, refs) ->
  term_match e want (mkTerm false (t_field t) (t_cmd t) (t_param t) (t_int t) (t_float t)) i o = Some (negb b, refs).
Proof.
  intros P F. unfold term_match. cbn [t_field t_pos]. rewrite P.
  destruct (field_data e (t_field t) i o) as [[sv iv]|]; [|congruence].
  change (match_value e want (mkTerm false (t_field t) (t_cmd t) (t_param t) (t_int t) (t_float t)) sv iv)
    with (match_value e want t sv iv).
  destruct (match_value e want t sv iv) as [[b' refs']|]; [|discriminate]. cbn [obind].
  intros E. inversion E; subst. destruct b'; reflexivity.
Qed.

(** Known fields have data. *)
Lemma known_data e f i o : field_known f = true -> field_data e f i o <> None.
Proof.
  destruct f as [f|]; [|discriminate]. unfold field_known, field_data. cbn [existsb]. intros H.
  repeat match goal with |- context [if ?c then _ else _] => destruct c eqn:?; [discriminate|] end.
  repeat match goal with
         | E : (_ || _) = false |- _ => apply orb_false_iff in E as [? ?]
         end.
  repeat match goal with
         | E : same_nocase _ _ = false |- _ => rewrite E in H; clear E
         | E : starts_nocase _ _ = false |- _ => rewrite E in H; clear E
         end. discriminate H.
Qed.
Lemma compiled_known e r w t : compile_term e r w = COk t -> field_known (t_field t) = true.
Proof.
  unfold compile_term. destruct (if _ || _ then tl w else w) as [|ch rest]; [destruct (r <=? 0); discriminate|].
  set (brace := match rest with [] => true | c :: _ => c =? 32 end).
  destruct (brace && (ch =? 40)); [intros E; inversion E; reflexivity|].
  destruct (brace && (ch =? 41)); [intros E; inversion E; reflexivity|].
  destruct (brace && (ch =? 124)); [intros E; inversion E; reflexivity|].
  destruct (match (if (ch =? 64) || (ch =? 36) || (ch =? 60) || (ch =? 62) || (ch =? 61) then None else split_colon (ch :: rest)) with Some (f, p) => (Some f, p) | None => (None, ch :: rest) end) as [field tok1].
  destruct tok1; [discriminate|]. destruct (term_cmd _) as [c param].
  destruct (field_known field) eqn:K; [|discriminate]. cbn [negb].
  destruct field as [f|]; [|intros E; inversion E; reflexivity].
  destruct (parse_param e f c param) as [[n fl]|]; [|discriminate]. intros E; inversion E; exact K.
Qed.

Lemma negation e want i o w b : hd 0 w <> 45 -> hd 0 w <> 43 ->
  word_means e want i o w b -> word_means e want i o (45 :: w) (negb b).
Proof.
  intros H1 H2 (t & refs & C & B & M).
  destruct (negated_word e w t H1 H2 C) as [C2 P].
  eexists; exists refs. split; [exact C2|]. split; [exact B|].
  apply negated_match; [exact P| |exact M]. apply known_data. eapply compiled_known, C.
Qed.
