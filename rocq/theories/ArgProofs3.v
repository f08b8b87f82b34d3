(** Proofs about the command line: adding and editing. *)
From Coq Require Import String.
From Verif Require Import Base NumFmt WildModel WebModel RpProofs LineProofs ArgModel ArgSpec ArgProofs ArgProofs2.
Open Scope list_scope. Open Scope Z_scope.

(** Evaluates comparisons of a word known up to its letter case with literal words. *)
Ltac known H :=
  repeat rewrite (is_like _ _ _ H);
  repeat match goal with |- context [is (str ?x) ?y] => let b := eval vm_compute in (is (str x) y) in change (is (str x) y) with b end;
  cbv beta iota delta [orb andb negb].

(** ** -A *)
Definition eff (a : added) (o : aopt) : added :=
  match o with
  | OCompat => a
  | OTop => Added true (a_paused a) (a_priority a) (a_category a) (a_name a) (a_key a) (a_score a) (a_mode a)
  | OPaused => Added (a_top a) true (a_priority a) (a_category a) (a_name a) (a_key a) (a_score a) (a_mode a)
  | OPriority z => Added (a_top a) (a_paused a) z (a_category a) (a_name a) (a_key a) (a_score a) (a_mode a)
  | OCategory t => Added (a_top a) (a_paused a) (a_priority a) (Some t) (a_name a) (a_key a) (a_score a) (a_mode a)
  | OName t => Added (a_top a) (a_paused a) (a_priority a) (a_category a) (Some t) (a_key a) (a_score a) (a_mode a)
  | OKey t => Added (a_top a) (a_paused a) (a_priority a) (a_category a) (a_name a) (Some t) (a_score a) (a_mode a)
  | OScore z => Added (a_top a) (a_paused a) (a_priority a) (a_category a) (a_name a) (a_key a) z (a_mode a)
  | OMode m => Added (a_top a) (a_paused a) (a_priority a) (a_category a) (a_name a) (a_key a) (a_score a) m
  end.
Lemma atoi_int z : int32 z -> atoi (zdec z) = z.
Proof. intros H. rewrite <- (app_nil_r (zdec z)). apply atoi_zdec; [exact H|exact Logic.I]. Qed.
Lemma append_steps os ows rest : Forall2 aopt_words os ows -> forall fuel a, (length (concat ows ++ rest) < fuel)%nat ->
  exists fuel', (length rest < fuel')%nat /\ append_words fuel (concat ows ++ rest) a = append_words fuel' rest (fold_left eff os a).
Proof.
  intros H. induction H as [|o ws os ows H _ IH]; intros fuel a L.
  - exists fuel. split; [exact L|reflexivity].
  - destruct fuel as [|fuel]; [lia|]. cbn [concat fold_left]. cbn [concat] in L. rewrite <- app_assoc in L |- *. destruct o as [| | |z|t|t|t|z|m]; cbn [aopt_words] in H.
    + destruct H as (w & -> & [K | K]); cbn [app length] in *; cbn [append_words]; known K; apply IH; lia.
    + destruct H as (w & -> & K); cbn [app length] in *; cbn [append_words]; known K; apply IH; lia.
    + destruct H as (w & -> & K); cbn [app length] in *; cbn [append_words]; known K; apply IH; lia.
    + destruct H as (w & -> & K & B); cbn [app length] in *; cbn [append_words]; known K. rewrite (atoi_int z B). apply IH; lia.
    + destruct H as (w & -> & K); cbn [app length] in *; cbn [append_words]; known K; apply IH; lia.
    + destruct H as (w & -> & K); cbn [app length] in *; cbn [append_words]; known K; apply IH; lia.
    + destruct H as (w & -> & K); cbn [app length] in *; cbn [append_words]; known K; apply IH; lia.
    + destruct H as (w & -> & K & B); cbn [app length] in *; cbn [append_words]; known K. rewrite (atoi_int z B). apply IH; lia.
    + destruct H as (w & v & -> & K & M); cbn [app length] in *; cbn [append_words]; known K. destruct m; cbn [mode_word] in M; known M; apply IH; lia.
Qed.
Lemma append_ok os ows f : Forall2 aopt_words os ows -> file_word f -> forall fuel a, (length (concat ows ++ [f]) < fuel)%nat ->
  append_words fuel (concat ows ++ [f]) a = Some (fold_left eff os a, [f]).
Proof.
  intros H [_ F] fuel a L. destruct (append_steps os ows [f] H fuel a L) as (fuel' & L' & ->). destruct fuel' as [|fuel']; [lia|]. cbn [append_words].
  repeat (rewrite (is_false f) by (apply F; cbv [aopt_names In]; tauto)). reflexivity.
Qed.
Lemma eff_is os : forall a, let b := fold_left eff os a in
  (a_top b = true <-> a_top a = true \/ In OTop os) /\ (a_paused b = true <-> a_paused a = true \/ In OPaused os) /\
  a_priority b = latest (fun o => match o with OPriority z => Some z | _ => None end) os (a_priority a) /\
  a_category b = latest (fun o => match o with OCategory t => Some (Some t) | _ => None end) os (a_category a) /\
  a_name b = latest (fun o => match o with OName t => Some (Some t) | _ => None end) os (a_name a) /\
  a_key b = latest (fun o => match o with OKey t => Some (Some t) | _ => None end) os (a_key a) /\
  a_score b = latest (fun o => match o with OScore z => Some z | _ => None end) os (a_score a) /\
  a_mode b = latest (fun o => match o with OMode m => Some m | _ => None end) os (a_mode a).
Proof.
  induction os as [|o os IH]; intros a; cbv zeta; [cbn [fold_left latest In]; unfold latest; cbn [fold_left]; tauto|].
  cbn [fold_left]. specialize (IH (eff a o)). cbv zeta in IH. unfold latest in *. cbn [fold_left]. destruct IH as (A & B & C & D & E0 & F & G & H).
  rewrite A, B, C, D, E0, F, G, H. cbn [In].
  destruct o; cbn [eff a_top a_paused a_priority a_category a_name a_key a_score a_mode]; (split; [intuition congruence|]); (split; [intuition congruence|]); repeat split; reflexivity.
Qed.
Lemma full_ok cwd f g : full_name cwd f g -> file_name cwd f = g.
Proof.
  assert (B : forall p, begins p f -> nocase_prefix p f = true).
  { intros p (a & r & -> & L). unfold nocase_prefix. rewrite map_app, L. apply prefixb_app. }
  assert (N : forall p, ~ begins p f -> nocase_prefix p f = false).
  { intros p K. destruct (nocase_prefix p f) eqn:Q; [|reflexivity]. destruct K. unfold nocase_prefix in Q. apply prefixb_iff in Q. destruct Q as (r & Q).
    exists (firstn (length p) f), (skipn (length p) f). split; [now rewrite firstn_skipn|]. unfold like. rewrite <- firstn_map, Q, firstn_app. rewrite map_length, Nat.sub_diag, firstn_O, app_nil_r. rewrite <- (map_length lower p). apply firstn_all. }
  assert (S1 : prefixb (str "/") f = nocase_prefix (str "/") f).
  { destruct f as [|c f]; [reflexivity|]. unfold nocase_prefix. change (str "/") with [47]. cbn [map prefixb]. f_equal. change (lower 47) with 47. unfold lower. destruct ((65 <=? c) && (c <=? 90)) eqn:Q; lia. }
  assert (W : forall p q, nocase_prefix (p ++ q) f = true -> nocase_prefix p f = true).
  { intros p q. unfold nocase_prefix. rewrite !prefixb_iff. intros (r & Q). rewrite map_app, <- app_assoc in Q. eexists. exact Q. }
  unfold file_name. rewrite S1. intros [[K ->] | (K1 & K2 & K3 & ->)].
  - destruct K as [K | [K | K]]; apply B in K.
    + rewrite K. reflexivity.
    + rewrite (W (str "http:/") (str "/") K), orb_true_r. reflexivity.
    + rewrite (W (str "https:/") (str "/") K), !orb_true_r. reflexivity.
  - rewrite (N _ K1), (N _ K2), (N _ K3). reflexivity.
Qed.
Lemma append_parse cwd gs pws sw os ows f g : Forall2 given_words gs pws -> (sw = str "-A" \/ sw = str "--append") -> Forall2 aopt_words os ows -> file_word f -> full_name cwd f g ->
  exists s, parse cwd (concat pws ++ sw :: concat ows ++ [f]) = Parsed s /\ c_op s = RequestDownload /\ c_file s = Some g /\ added_is os (c_add s) /\ settings gs s.
Proof.
  intros P W H F G. destruct (run_pre gs pws P false None [] (sw :: concat ows ++ [f]) 0%nat) as (nc & R). cbn [app] in R.
  assert (WA : word_of "A" sw) by (destruct W as [-> | ->]; (split; [|split]; vm_compute; reflexivity)).
  rewrite (run_switch "A" sw _ _ _ WA) in R.
  match type of R with context [switch (str "A") ?r ?s] =>
    assert (SW : switch (str "A") r s = match append_words (S (length r)) r (c_add s) with Some (a, r') => SGo (with_add a (with_op RequestDownload s)) r' | None => SWrong end) by reflexivity end.
  rewrite SW in R. clear SW. cbn [c_add pre] in R. rewrite (append_ok os ows f H F) in R by lia.
  rewrite (run_other f [] _ _ (proj1 F)), run_nil in R. change (pre false None []) with cl0 in R.
  eexists. split; [|split; [|split; [|split]]].
  - rewrite (parse_run _ _ _ _ _ _ R) by reflexivity.
    change (concat pws ++ sw :: concat ows ++ [f]) with (concat pws ++ (sw :: concat ows) ++ [f]). rewrite app_assoc.
    change 1%nat with (length [f]). rewrite skipn_end. cbn [init_file_arg]. cbn [c_op with_add with_op]. unfold wants_file. cbn [c_server c_remote c_op with_add with_op pre negb andb]. reflexivity.
  - reflexivity.
  - cbn [c_file with_files]. rewrite (full_ok _ _ _ G). reflexivity.
  - cbn [c_add with_files with_add]. destruct (eff_is os added0) as (A & B & C). cbn [added0 a_top a_paused a_priority a_category a_name a_key a_score a_mode] in A, B, C. split; [rewrite A; intuition discriminate|]. split; [rewrite B; intuition discriminate|]. exact C.
  - split; reflexivity.
Qed.

Lemma append_refused cwd gs pws sw os ows rest : Forall2 given_words gs pws -> (sw = str "-A" \/ sw = str "--append") -> Forall2 aopt_words os ows -> append_wrong rest ->
  parse cwd (concat pws ++ sw :: concat ows ++ rest) = Wrong.
Proof.
  intros P W H B. destruct (run_pre gs pws P false None [] (sw :: concat ows ++ rest) 0%nat) as (nc & R). cbn [app] in R.
  assert (WA : word_of "A" sw) by (destruct W as [-> | ->]; (split; [|split]; vm_compute; reflexivity)).
  rewrite (run_switch "A" sw _ _ _ WA) in R.
  match type of R with context [switch (str "A") ?r ?s] =>
    assert (SW : switch (str "A") r s = match append_words (S (length r)) r (c_add s) with Some (a, r') => SGo (with_add a (with_op RequestDownload s)) r' | None => SWrong end) by reflexivity end.
  rewrite SW in R. clear SW. cbn [c_add pre] in R. destruct (append_steps os ows rest H (S (length (concat ows ++ rest))) added0 ltac:(lia)) as (fuel & L & Q). rewrite Q in R. clear Q. destruct fuel as [|fuel]; [lia|].
  change (pre false None []) with cl0 in R. destruct B as [-> | [(w & n & -> & I0 & K) | (w & v & r & -> & K & M)]].
  - cbn [append_words] in R. rewrite run_nil in R. rewrite (parse_run _ _ _ _ _ _ R) by reflexivity. rewrite Nat.sub_0_r, skipn_all. reflexivity.
  - apply parse_wrong. rewrite R. cbn [append_words]. cbv [In] in I0. repeat (destruct I0 as [<- | I0]; [known K; reflexivity|]). destruct I0.
  - apply parse_wrong. rewrite R. cbn [append_words]. known K. rewrite (is_false v "score" (M DScore)), (is_false v "all" (M DAll)), (is_false v "force" (M DForce)). reflexivity.
Qed.
