(** Proofs about the last setting, loops of references, tables of options and tasks. *)
From Coq Require Import String.
From Verif Require Import Base NumFmt LineModel WildSpec WildModel WebModel WebSpec WebProofs OptModel OptSpec OptProofs OptProofs2 OptProofs3 OptProofs4 OptProofs5 OptProofs6 OptProofs7.
Open Scope list_scope. Open Scope Z_scope.

Lemma split_of s n v : sets s n v -> split_option s = Some (convert_old (n, v)).
Proof.
  intros (-> & Hn & H61). unfold split_option. change ([61] ++ v) with (61 :: v). rewrite index_here by exact H61. destruct (length n) as [|k] eqn:E; [destruct n; [contradiction|discriminate]|].
  rewrite <- E. rewrite firstn_app, firstn_all, Nat.sub_diag. cbn [firstn]. rewrite app_nil_r. change (n ++ 61 :: v) with (n ++ [61] ++ v). rewrite app_assoc.
  replace (S (length n)) with (length (n ++ [61])) by (rewrite app_length; cbn [length]; lia). rewrite skipn_app, skipn_all, Nat.sub_diag. reflexivity.
Qed.
Lemma set_plain home f hf t s n v t' e : set_string home f hf t s = Some (t', e) -> sets s n v -> modern n v -> plain v -> valid_name (get t) n ->
  get t' n = Some v.
Proof.
  intros H Hs M (P1 & P2) V. apply split_of in Hs. rewrite modern_same in Hs by exact M.
  apply set_string_ok in H as [(n' & v' & x & E & _ & X & G & _)|(N & _)]; [|exfalso; apply (N n v Hs V)].
  rewrite Hs in E. injection E as <- <-. rewrite G, (proj2 (nocase_same n n) eq_refl). f_equal.
  assert (Hp : home_path home v = v).
  { unfold home_path. destruct v as [|a [|b r]]; try reflexivity. destruct ((a =? 126) && (b =? 47)) eqn:Q; [|reflexivity].
    exfalso. apply (P2 r). apply andb_true_iff in Q as (Qa & Qb). apply Z.eqb_eq in Qa, Qb. subst. reflexivity. }
  rewrite Hp in X. destruct f as [|f]; [discriminate|]. rewrite expand_plain in X by exact P1. injection X as <-. reflexivity.
Qed.
Theorem last_ok : forall home f hf t l1 s l2 t' e n v, set_strings home f hf t (l1 ++ s :: l2) = Some (t', e) ->
  sets s n v -> modern n v -> plain v -> valid_name (get t) n ->
  (forall s' m w, In s' l2 -> sets s' m w -> modern m w /\ ~ same m n) -> get t' n = Some v.
Proof.
  intros home f hf t l1 s l2 t' e n v H Hs M P V N. apply set_strings_app in H as (t1 & e1 & e2 & H1 & H2 & _).
  cbn [set_strings] in H2. destruct (set_string home f hf t1 s) as [(t2 & e3)|] eqn:E; [|discriminate].
  destruct (set_strings home f hf t2 l2) as [(t3 & e4)|] eqn:F; [|discriminate]. cbn [option_map] in H2. injection H2 as <- _.
  rewrite (kept_ok home f hf n l2 t2 t3 e4 F).
  - eapply set_plain; try eassumption. eapply valid_stays; eassumption.
  - intros s' m w Hi Hm. apply split_sets in Hm as (m' & w' & S1 & E1). destruct (N s' m' w' Hi S1) as (M1 & D1).
    rewrite modern_same in E1 by exact M1. injection E1 as <- <-. exact D1.
Qed.

(** ** A reference to itself *)

Definition loop_lines : list (list Z) := [str "a:x=${a:x}"; str "b:x=${a:x}"].
Lemma loop_expand t : get t (str "a:x") = Some (str "${a:x}") -> forall f, expand f t (str "${a:x}") = None.
Proof.
  intros G. induction f as [|f IH]; [reflexivity|].
  assert (E : expand (S f) t (str "${a:x}") = match get t (str "a:x") with Some v => expand f t (v ++ []) | None => Some (str "${a:x}") end) by reflexivity.
  rewrite E, G, app_nil_r. exact IH.
Qed.
Lemma loop_ok : forall f, set_strings (fun v => v) f true [] loop_lines = None.
Proof.
  intros [|f]; [reflexivity|]. unfold loop_lines. cbn [set_strings].
  assert (E : set_string (fun v => v) (S f) true [] (str "a:x=${a:x}") = Some ([mkE (str "a:x") (Some (str "${a:x}")) (Some (str "${a:x}"))], [])) by reflexivity.
  rewrite E. remember [mkE (str "a:x") (Some (str "${a:x}")) (Some (str "${a:x}"))] as t eqn:Et.
  assert (F : set_string (fun v => v) (S f) true t (str "b:x=${a:x}") = None); [|rewrite F; reflexivity].
  unfold set_string. assert (Sp : split_option (str "b:x=${a:x}") = Some (str "b:x", str "${a:x}")) by reflexivity. rewrite Sp.
  assert (Va : validate true t (str "b:x") (str "${a:x}") = Some (true, [])) by (subst t; reflexivity). rewrite Va.
  unfold set_option. cbv zeta. rewrite loop_expand by (subst t; reflexivity). reflexivity.
Qed.

(** ** Tables *)

Fixpoint nodupb (l : list (list Z)) : bool := match l with [] => true | x :: r => negb (existsb (beqb x) r) && nodupb r end.
Lemma nodupb_ok l : nodupb l = true -> NoDup l.
Proof.
  induction l as [|x l IH]; intros H; [constructor|]. cbn [nodupb] in H. apply andb_true_iff in H as (H1 & H2). constructor; [|apply IH, H2].
  intros X. apply negb_true_iff in H1. assert (T : existsb (beqb x) l = true) by (apply existsb_exists; exists x; split; [exact X|apply beqb_refl]). congruence.
Qed.
Definition default_word (n : list Z) (w : words) : bool :=
  existsb (fun p => beqb (fst p) n && existsb (fun u => sameb (snd p) (fst u)) (w_names w)) defaults.
Lemma default_word_ok n w : default_word n w = true -> exists d word x, In (n, d) defaults /\ In (word, x) (w_names w) /\ same d word.
Proof.
  unfold default_word. rewrite existsb_exists. intros ((m & d) & H & Q). apply andb_true_iff in Q as (Q1 & Q2). cbn [fst snd] in *. apply beqb_eq in Q1. subst m.
  apply existsb_exists in Q2 as ((word & x) & H2 & Q). exists d, word, x. repeat split; auto. unfold sameb in Q. apply beqb_eq in Q. exact Q.
Qed.
Definition proper_b (w : words) : bool := Nat.eqb (w_count w) (length (w_names w)) && nodupb (map (fun p => map lc (fst p)) (w_names w)).
Lemma proper_b_ok w : proper_b w = true -> w_count w = length (w_names w) /\ distinct (w_names w).
Proof. unfold proper_b. rewrite andb_true_iff. intros (H1 & H2). split; [apply Nat.eqb_eq, H1|apply nodupb_ok, H2]. Qed.
Theorem enum_tables : forall n w, In (n, w) enum_options -> n <> str "ParCheck" -> n <> str "FileNaming" ->
  (w_count w = length (w_names w) /\ distinct (w_names w)) /\ exists d word x, In (n, d) defaults /\ In (word, x) (w_names w) /\ same d word.
Proof.
  assert (S1 : forallb (fun p => beqb (fst p) (str "ParCheck") || beqb (fst p) (str "FileNaming") || (proper_b (snd p) && default_word (fst p) (snd p))) enum_options = true) by (vm_compute; reflexivity).
  intros n w H N1 N2. rewrite forallb_forall in S1. specialize (S1 (n, w) H). cbn [fst snd] in S1.
  apply beqb_neq in N1, N2. rewrite N1, N2 in S1. apply andb_true_iff in S1 as (A & B). split; [apply proper_b_ok, A|apply default_word_ok, B].
Qed.
Theorem bool_tables : (w_count bool_words = length (w_names bool_words) /\ distinct (w_names bool_words)) /\
  forall n, In n bool_options -> exists d word x, In (n, d) defaults /\ In (word, x) (w_names bool_words) /\ same d word.
Proof.
  split; [apply proper_b_ok; vm_compute; reflexivity|].
  assert (S1 : forallb (fun n => default_word n bool_words) bool_options = true) by (vm_compute; reflexivity).
  intros n H. rewrite forallb_forall in S1. apply default_word_ok, S1, H.
Qed.
Definition default_number (n : list Z) (base : Z) : bool :=
  existsb (fun p => beqb (fst p) n && negb (match snd p with [] => true | _ => false end) && forallb (fun c => (48 <=? c) && (c <? 48 + base)) (snd p) && (dvalue base (snd p) <? 2 ^ 31)) defaults.
Lemma dvalue_pos base : 0 <= base -> forall ds a, 0 <= a -> Forall (fun c => 48 <= c < 48 + base) ds -> 0 <= fold_left (fun a c => a * base + (c - 48)) ds a.
Proof.
  intros Hb ds. induction ds as [|c ds IH]; intros a Ha H; [exact Ha|]. inversion H; subst. cbn [fold_left]. apply IH; [|assumption].
  assert (0 <= a * base) by (apply Z.mul_nonneg_nonneg; lia). lia.
Qed.
Theorem int_tables : forall n base, In (n, base) int_options -> (base = 8 \/ base = 10) /\ exists d x, In (n, d) defaults /\ numeral base d x /\ int32 x.
Proof.
  assert (S1 : forallb (fun p => ((snd p =? 8) || (snd p =? 10)) && default_number (fst p) (snd p)) int_options = true) by (vm_compute; reflexivity).
  intros n base H. rewrite forallb_forall in S1. specialize (S1 (n, base) H). cbn [fst snd] in S1. apply andb_true_iff in S1 as (A & B).
  assert (Hb : base = 8 \/ base = 10) by lia. split; [exact Hb|]. unfold default_number in B. apply existsb_exists in B as ((m & d) & Hd & Q). cbn [fst snd] in Q.
  rewrite !andb_true_iff in Q. destruct Q as (((Q1 & Q2) & Q3) & Q4). apply beqb_eq in Q1. subst m. exists d, (dvalue base d).
  assert (F : Forall (fun c => 48 <= c < 48 + base) d). { apply Forall_forall. intros c Hc. rewrite forallb_forall in Q3. specialize (Q3 c Hc). lia. }
  split; [exact Hd|]. split.
  - exists [], [], d. split; [reflexivity|]. split; [constructor|]. split; [destruct d; [discriminate|discriminate]|]. split; [exact F|]. left. split; [left; reflexivity|reflexivity].
  - unfold int32. assert (0 <= dvalue base d) by (apply dvalue_pos; [lia|lia|exact F]). lia.
Qed.

(** ** Tasks *)

Lemma empty_filled v : empty v = false <-> filled v.
Proof. unfold empty, filled. destruct v as [[|c r]|]; split; try discriminate; try (intros (c' & r' & E); discriminate). intros _. eauto. reflexivity. Qed.
Lemma empty_not v : empty v = true <-> ~ filled v.
Proof. rewrite <- empty_filled. destruct (empty v); intuition congruence. Qed.
Lemma task_param_some t n p : task_value (get t) n p -> task_param t n = Some p.
Proof.
  unfold task_value. cbv zeta. change (field "Task" n) with (numbered_name "Task" n). intros (Hp & H). unfold task_param. cbv zeta.
  assert (F : forall v, v = Some p -> empty v = false) by (intros v ->; destruct p; [contradiction|reflexivity]).
  destruct H as [H|(H1 & [H|(H2 & H)])].
  - rewrite (F _ H). cbn [andb]. rewrite (F _ H). exact H.
  - apply empty_not in H1. rewrite H1, (F _ H). cbn [andb negb]. rewrite (F _ H). exact H.
  - apply empty_not in H1, H2. rewrite H1, H2. cbn [andb negb]. rewrite H1, (F _ H). cbn [andb negb]. exact H.
Qed.
Lemma task_param_none t n : no_task_value (get t) n -> empty (task_param t n) = true.
Proof.
  unfold no_task_value. cbv zeta. change (field "Task" n) with (numbered_name "Task" n). intros (H1 & H2 & H3). apply empty_not in H1, H2, H3.
  unfold task_param. cbv zeta. rewrite H1, H2. cbn [andb negb]. rewrite H1, H3. cbn [andb negb]. exact H1.
Qed.
Lemma command_proper : proper command_words.
Proof. apply proper_b_ok. vm_compute. reflexivity. Qed.
Lemma one_task_word t n tm v word x : get t (field "Task" n ".Time") = Some tm -> get t (field "Task" n ".Command") = Some v ->
  In (word, x) (w_names command_words) -> same v word ->
  exists t' , one_task t n = Some (Some (if (if x =? 4 then match task_param t n with
      | Some p => let '(y, rest) := strtol 10 p in negb (match rest with [] => true | _ => false end) || (to_i32 y <? 0) | None => true end
      else ((x =? 5) || (x =? 6) || (9 <=? x)) && empty (task_param t n)) then (t', [str "Task" ++ zdec n], None)
      else (t', [], Some (mkT n x tm (get t (field "Task" n ".WeekDays")) (task_param t n))))).
Proof.
  intros Ht Hc Hw S1. destruct (word_ok command_words t _ v word x command_proper Hc Hw S1) as (t' & w' & E & _ & _ & _).
  exists t'. unfold one_task. cbv zeta. change (numbered_name "Task" n) with (field "Task" n).
  assert (D : defined t "Task" n [".Time"; ".WeekDays"; ".Command"; ".DownloadRate"]%string = true).
  { unfold defined. cbn [existsb]. unfold given at 1. change (numbered_name "Task" n ".Time") with (field "Task" n ".Time"). rewrite Ht. reflexivity. }
  rewrite D. cbn [orb negb]. rewrite Ht. unfold given. rewrite Hc, E.
  destruct (if x =? 4 then _ else _); reflexivity.
Qed.
Theorem tasks_ok : forall t n tm v word x, get t (field "Task" n ".Time") = Some tm -> get t (field "Task" n ".Command") = Some v ->
  In (word, x) (w_names command_words) -> same v word ->
  exists t', (forall p, task_value (get t) n p -> x <> 4 \/ (exists y, numeral 10 p y /\ int32 y /\ 0 <= y) ->
      one_task t n = Some (Some (t', [], Some (mkT n x tm (get t (field "Task" n ".WeekDays")) (Some p))))) /\
    (forall p, task_value (get t) n p -> x = 4 -> ((exists y, numeral 10 p y /\ int32 y /\ y < 0) \/ (forall y, ~ numeral 10 p y)) ->
      one_task t n = Some (Some (t', [str "Task" ++ zdec n], None))) /\
    (no_task_value (get t) n -> needs_param x -> one_task t n = Some (Some (t', [str "Task" ++ zdec n], None))) /\
    (no_task_value (get t) n -> ~ needs_param x -> x <> 4 ->
      exists p, one_task t n = Some (Some (t', [], Some (mkT n x tm (get t (field "Task" n ".WeekDays")) p))) /\ ~ filled p).
Proof.
  intros t n tm v word x Ht Hc Hw S1. destruct (one_task_word t n tm v word x Ht Hc Hw S1) as (t' & ->). exists t'. split; [|split; [|split]].
  - intros p Hp C. rewrite (task_param_some t n p Hp). destruct (Z.eqb_spec x 4) as [->|N4].
    + destruct C as [C|(y & Hy & I1 & P0)]; [lia|]. rewrite (strtol_numeral 10 p y ltac:(lia) Hy). cbn [negb orb]. rewrite clamp_i32 by exact I1.
      destruct (y <? 0) eqn:Q; [lia|]. reflexivity.
    + assert (Em : empty (Some p) = false). { destruct Hp as (Hp & _). destruct p; [contradiction|reflexivity]. }
      rewrite Em, andb_false_r. reflexivity.
  - intros p Hp -> C. rewrite (task_param_some t n p Hp). change (4 =? 4) with true. cbv iota. destruct C as [(y & Hy & I1 & P0)|C].
    + rewrite (strtol_numeral 10 p y ltac:(lia) Hy). cbn [negb orb]. rewrite clamp_i32 by exact I1. destruct (y <? 0) eqn:Q; [|lia]. reflexivity.
    + destruct (strtol 10 p) as (y & rest) eqn:E. destruct rest as [|c r]; [|reflexivity]. exfalso.
      destruct Hp as (Hp & _). destruct (strtol_rest 10 p ltac:(lia) ltac:(rewrite E; reflexivity)) as [R|(z & R)]; [contradiction|apply (C z R)].
  - intros Hn Hx. assert (Em := task_param_none t n Hn). rewrite Em, andb_true_r. unfold needs_param in Hx.
    destruct (x =? 4) eqn:Q; [lia|]. assert (T : (x =? 5) || (x =? 6) || (9 <=? x) = true) by lia. rewrite T. reflexivity.
  - intros Hn Hx N4. assert (Em := task_param_none t n Hn). unfold needs_param in Hx. destruct (x =? 4) eqn:Q; [lia|].
    assert (T : (x =? 5) || (x =? 6) || (9 <=? x) = false) by lia. rewrite T. cbn [andb]. exists (task_param t n). split; [reflexivity|]. apply empty_not, Em.
Qed.

(** ** Default values *)

Definition default_of (t : list entry) (m : list Z) : option (list Z) :=
  match find_opt m t with Some e => e_def e | None => None end.
Lemma default_put t n v m d : default_of t m = Some d -> default_of (put t n v) m = Some d.
Proof.
  unfold default_of. rewrite find_put. destruct (find_opt m t) as [e|]; [|discriminate]. intros H.
  destruct (nocase_eq n m); [|exact H]. cbn [set_value e_def]. now rewrite H.
Qed.
Lemma default_add t n m d : default_of t m = Some d -> default_of (add_entry t n) m = Some d.
Proof.
  unfold default_of, add_entry. destruct (find_opt n t); [auto|]. rewrite find_app. now destruct (find_opt m t).
Qed.
Lemma defaults_kept home f hf m d : forall l t t' e, set_strings home f hf t l = Some (t', e) ->
  default_of t m = Some d -> default_of t' m = Some d.
Proof.
  induction l as [|s l IH]; intros t t' e H D; cbn [set_strings] in H; [injection H as <- _; exact D|].
  destruct (set_string home f hf t s) as [(t1 & e1)|] eqn:E; [|discriminate].
  destruct (set_strings home f hf t1 l) as [(t2 & e2)|] eqn:E2; [|discriminate]. cbn [option_map] in H. injection H as <- _.
  eapply IH; [exact E2|]. unfold set_string in E. destruct (split_option s) as [(n & v)|]; [|injection E as <- _; exact D].
  destruct (validate hf t n v) as [([] & er)|]; [| |discriminate].
  - unfold set_option in E. cbv zeta in E. destruct (expand _ _ _); [|discriminate]. cbn [option_map] in E. injection E as <- _.
    apply default_put, default_add, D.
  - injection E as <- _. exact D.
Qed.
Lemma default_option home f t n v t' m d : set_option home f t n v = Some t' -> default_of t m = Some d -> default_of t' m = Some d.
Proof.
  unfold set_option. cbv zeta. destruct (expand _ _ _); [|discriminate]. intros E D. injection E as <-. apply default_put, default_add, D.
Qed.
Lemma default_options home f m d : forall l t t', set_options home f t l = Some t' -> default_of t m = Some d -> default_of t' m = Some d.
Proof.
  induction l as [|(n & v) l IH]; intros t t' E D; cbn [set_options] in E; [injection E as <-; exact D|].
  destruct (set_option home f t n v) as [t1|] eqn:E1; [|discriminate]. eapply IH; [exact E|]. eapply default_option; eassumption.
Qed.
Lemma default_new home f t n v t' : set_option home f t n v = Some t' -> plain v -> find_opt n t = None -> default_of t' n = Some v.
Proof.
  unfold set_option. cbv zeta. intros E (P1 & P2) F. rewrite home_plain in E by exact P2. destruct f as [|f]; [discriminate|].
  rewrite expand_plain in E by exact P1. injection E as <-. unfold default_of. rewrite find_put. unfold add_entry. rewrite F, find_app, F. cbn [e_name].
  rewrite (proj2 (nocase_same n n) (same_refl n)). reflexivity.
Qed.
Lemma find_other home f t n v t' m : set_option home f t n v = Some t' -> ~ same n m -> find_opt m t = None -> find_opt m t' = None.
Proof.
  unfold set_option. cbv zeta. destruct (expand _ _ _); [|discriminate]. intros E D F. injection E as <-. rewrite find_put.
  assert (X : find_opt m (add_entry t n) = None).
  { unfold add_entry. destruct (find_opt n t); [exact F|]. rewrite find_app, F. cbn [e_name]. now rewrite (proj2 (nocase_diff n m) D). }
  now rewrite X.
Qed.
Lemma defaults_set home f n d : plain d -> forall l t t', set_options home f t l = Some t' -> NoDup (map (fun p => map lc (fst p)) l) ->
  (forall p, In p l -> find_opt (fst p) t = None) -> In (n, d) l -> default_of t' n = Some d.
Proof.
  intros P. induction l as [|(m & v) l IH]; intros t t' E N F H; cbn [In set_options] in *; [contradiction|].
  destruct (set_option home f t m v) as [t1|] eqn:E1; [|discriminate]. cbn [map fst] in N. apply NoDup_cons_iff in N as [N1 N2].
  destruct H as [H|H].
  - injection H as -> ->. eapply default_options; [exact E|]. eapply default_new; [exact E1|exact P|]. apply (F (n, d)). auto.
  - eapply IH; [exact E|exact N2| |exact H]. intros p Hp. eapply find_other; [exact E1| |apply F; auto].
    intros Q. apply N1. unfold same in Q. rewrite Q. change (map lc (fst p)) with ((fun p : list Z * list Z => map lc (fst p)) p). apply in_map, Hp.
Qed.
Lemma load_defaults home f bin dir ver file cmd t e n d : load home f bin dir ver file cmd = Some (t, e) ->
  In (n, d) defaults -> plain d -> exists en, find_opt n t = Some en /\ e_def en = Some d.
Proof.
  intros L H P. assert (X : default_of t n = Some d).
  { unfold load in L. destruct (set_options _ _ _ _) as [t0|] eqn:E0; [|discriminate].
    assert (D0 : default_of t0 n = Some d).
    { eapply defaults_set; [exact P|exact E0| | |do 4 right; exact H].
      - cbn [map fst]. apply nodupb_ok. vm_compute. reflexivity.
      - reflexivity. }
    destruct file as [(name & g)|]; [|eapply defaults_kept; eassumption].
    destruct (set_option home f t0 (str "ConfigFile") name) as [t1|] eqn:E1; [|discriminate].
    destruct (set_option home f t1 (str "ConfigFile") name) as [t2|] eqn:E2; [|discriminate].
    unfold load_config_file in L. destruct (file_lines _ _ _); [|discriminate].
    destruct (set_strings home f true t2 _) as [(t3 & e3)|] eqn:E3; [|discriminate].
    destruct (set_strings home f true t3 cmd) as [(t4 & e4)|] eqn:E4; [|discriminate]. cbn [option_map] in L. injection L as <- _.
    eapply defaults_kept; [exact E4|]. eapply defaults_kept; [exact E3|]. eapply default_option; [exact E2|]. eapply default_option; [exact E1|exact D0]. }
  unfold default_of in X. destruct (find_opt n t) as [en|]; [|discriminate]. eauto.
Qed.
