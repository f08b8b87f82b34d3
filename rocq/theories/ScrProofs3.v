(** Proofs about scan-scripts one after another, the effects of commands, the environment and the arguments. *)
From Coq Require Import String.
From Verif Require Import Base NumFmt WildModel WildSpec CodecModel NameModel InfoModel WebModel OptModel QScrModel QScrSpec ScrModel ScrSpec.
From Verif Require Import ScrProofs ScrProofs2.
From Verif Require QScrProofs TextProofs OptProofs6 InfoProofs.
Open Scope list_scope. Open Scope Z_scope.

(** ** Scan-scripts one after another *)

Lemma announce_ok g scripts skip name file n c p pr tp ps dk ds dm lg : announced skip name file ->
  scan_message g scripts skip KInfo (message None (start_message name file)) (SState n c p pr tp ps dk ds dm lg) =
  Fine (SState n c p pr tp ps dk ds dm (lg ++ [Said KInfo (start_message name file)])).
Proof.
  intros (L & S1 & N). unfold message. rewrite (cut_id _ L). cbn [scan_message]. replace (length (start_message name file) <? skip)%nat with false by (symmetry; apply Nat.ltb_ge; exact S1).
  destruct (prefixb (str "[NZB] ") (skipn skip (start_message name file))) eqn:P; [|reflexivity]. exfalso. apply N. apply prefixb_iff in P as (t & Q).
  exists (firstn skip (start_message name file)), t. rewrite <- Q, firstn_skipn. reflexivity.
Qed.
Lemma run_scan_ok g scripts file : forall l skip x, scan_fits file skip l ->
  exists y, run_scan g scripts file skip (map (fun e => (fst e, written (snd e))) l) x = Fine y /\ scanned g scripts file l x y.
Proof.
  induction l as [|((name, disp), ls) l IH]; intros skip x F; [exists x; split; [reflexivity|constructor]|]. cbn [scan_fits] in F. destruct F as (A & Fi & F).
  destruct x as [n c p pr tp ps dk ds dm lg]. cbn [map run_scan fst snd]. pose proof (announce_ok g scripts skip name file n c p pr tp ps dk ds dm lg A) as E. unfold start_message at 1 in E. rewrite E.
  apply fit_lines in Fi as (F1 & F2). unfold output. rewrite (out_lines_ok ls _ F1 (le_n _)).
  destruct (scan_lines_ok g scripts disp ls (SState n c p pr tp ps dk ds dm (lg ++ [Said KInfo (start_message name file)])) F2) as (y & -> & H).
  destruct (IH _ y F) as (z & -> & Hz). exists z. split; [reflexivity|]. exact (sc_next _ _ _ _ _ _ _ _ _ _ _ _ _ _ _ _ _ _ _ H Hz).
Qed.

(** ** The effects are determined *)

Lemma words_apart k w k1 w1 (m m1 : list Z) : In (k, w) words -> In (k1, w1) words -> w ++ m = w1 ++ m1 -> k = k1 /\ m = m1.
Proof.
  intros H H1 E. unfold words in H, H1.
  repeat (destruct H as [H|H]; [injection H as <- <-; repeat (destruct H1 as [H1|H1]; [injection H1 as <- <-; cbn in E; first [discriminate E|injection E as ->; auto]|]); destruct H1|]). destruct H.
Qed.
Lemma speaks_unique l k m k1 m1 : speaks l k m -> speaks l k1 m1 -> k = k1 /\ m = m1.
Proof.
  intros (t & T & _ & D) (t1 & T1 & _ & D1). pose proof (text_unique l t t1 T T1) as <-.
  destruct D as [(w & I & Q)|(-> & -> & N)], D1 as [(w1 & I1 & Q1)|(-> & -> & N1)].
  - apply (words_apart k w k1 w1 m m1 I I1). congruence.
  - destruct (N1 k w m I Q).
  - destruct (N k1 w1 m1 I1 Q1).
  - auto.
Qed.
Lemma silent_not l k m : text_of l [] -> ~ speaks l k m.
Proof. intros T (t & T1 & N & _). apply N. symmetry. exact (text_unique l [] t T T1). Qed.
Lemma heard_fun {A} (effect : kind -> list Z -> A -> A -> Prop) : (forall k m x y z, effect k m x y -> effect k m x z -> y = z) ->
  forall ls x y z, heard effect ls x y -> heard effect ls x z -> y = z.
Proof.
  intros F ls x y z H. revert z. induction H as [x|l r x y T H IH|l k m r x y w Sp Ef H IH]; intros z K.
  - inversion K. reflexivity.
  - inversion K as [|? ? ? ? T1 K1|? k1 m1 ? ? y1 ? Sp1 Ef1 K1]; subst; [apply IH, K1|]. destruct (silent_not _ _ _ T Sp1).
  - inversion K as [|? ? ? ? T1 K1|? k1 m1 ? ? y1 ? Sp1 Ef1 K1]; subst; [destruct (silent_not _ _ _ T1 Sp)|].
    destruct (speaks_unique _ _ _ _ _ Sp Sp1) as (<- & <-). pose proof (F _ _ _ _ _ Ef Ef1) as <-. apply IH, K1.
Qed.
Ltac cmd_clash := match goal with
  | Q : ?m = str _ ++ _, R : ?m = str _ ++ _ |- _ => rewrite Q in R; cbn in R; first [discriminate R | injection R as R; subst]
  end.
Lemma post_fun name disp k m x y z : post_effect name disp k m x y -> post_effect name disp k m x z -> y = z.
Proof.
  assert (C1 : forall d, m = str "[NZB] FINALDIR=" ++ d -> post_command m) by (intros d Q; left; eauto).
  assert (C2 : forall d, m = str "[NZB] DIRECTORY=" ++ d -> post_command m) by (intros d Q; right; left; eauto).
  assert (C3 : forall a v, m = str "[NZB] NZBPR_" ++ a ++ 61 :: v -> post_command m) by (intros a v Q; right; right; left; eauto).
  assert (C4 : forall d, m = str "[NZB] MARK=BAD" ++ d -> post_command m) by (intros d Q; right; right; right; eauto).
  assert (C : post_command m -> exists r, m = str "[NZB] " ++ r).
  { intros [(d & ->)|[(d & ->)|[(a & v & ->)|(r & ->)]]]; [exists (str "FINALDIR=" ++ d)|exists (str "DIRECTORY=" ++ d)|exists (str "NZBPR_" ++ a ++ 61 :: v)|exists (str "MARK=BAD" ++ r)]; reflexivity. }
  intros H K. destruct H as [d Q|d Q|a v Q N|r Q|r Q N|N]; destruct K as [d1 Q1|d1 Q1|a1 v1 Q1 N1|r1 Q1|r1 Q1 N1|N1]; try reflexivity;
    try (exfalso; apply N1; eauto; fail); try (exfalso; apply N; eauto; fail);
    try (destruct (C ltac:(eauto)) as (r0 & R0); first [destruct (N1 _ R0)|destruct (N _ R0)]; fail);
    try (destruct (N1 _ Q)); try (destruct (N _ Q1));
    try (rewrite Q in Q1; cbn in Q1; first [discriminate Q1|injection Q1 as Q1; subst; reflexivity]).
  rewrite Q in Q1. assert (E : a ++ 61 :: v = a1 ++ 61 :: v1) by (cbn in Q1; injection Q1; auto). apply eq_split in E as (-> & ->); auto.
Qed.
Lemma run_post_unique f name disp ls x y z : quiet name disp -> fitting disp ls -> run_post (S (S f)) name disp (written ls) x = Fine y -> heard (post_effect name disp) ls x z -> y = z.
Proof.
  intros Q F R H. destruct (run_post_ok f name disp ls x Q F) as (w & E & K). rewrite E in R. injection R as ->. exact (heard_fun _ (post_fun name disp) _ _ _ _ K H).
Qed.

(** ** A new category *)

Lemma find_reset scripts n : forall params, NoDup (InfoProofs.keys params) -> Forall (fun s : pscript => (length (fst s) <= Z.to_nat 1000)%nat) scripts ->
  let p1 := fold_left (fun p s => set_parameter p (cut (fst s ++ [58])) []) scripts params in
  NoDup (InfoProofs.keys p1) /\ (of_script scripts n -> find_parameter p1 n = None) /\ (~ of_script scripts n -> find_parameter p1 n = find_parameter params n).
Proof.
  cbv zeta. induction scripts as [|s scripts IH] using rev_ind; intros params H F; cbn [fold_left].
  - split; [exact H|]. split; [intros (s & b & [] & _)|reflexivity].
  - apply Forall_app in F as (F & Fs). inversion Fs as [|? ? Ls _]; subst. rewrite fold_left_app. cbn [fold_left]. destruct (IH params H F) as (K & A & B). split; [apply InfoProofs.set_NoDup, K|].
    rewrite (InfoProofs.find_set _ _ _ n K), cut_id by (rewrite app_length; cbn; lia).
    assert (Sn : same_nocase (fst s ++ [58]) n = true <-> same_name n (fst s ++ [58])) by (rewrite same_sym; apply beqb_eq).
    split.
    + intros (t & b & I & Q). destruct (same_nocase (fst s ++ [58]) n) eqn:E; [reflexivity|]. apply A. exists t, b. split; [|exact Q]. apply in_app_or in I as [I|[Es|[]]]; [exact I|].
      subst s. cbn [fst] in Sn. apply Sn in Q. discriminate Q.
    + intros N. destruct (same_nocase (fst s ++ [58]) n) eqn:E.
      * destruct N. exists (fst s), (snd s). split; [apply in_or_app; right; left; destruct s; reflexivity|apply Sn; reflexivity].
      * apply B. intros (t & b & I & Q). apply N. exists t, b. split; [apply in_or_app; left; exact I|exact Q].
Qed.
Lemma category_ok g scripts cat params n : NoDup (InfoProofs.keys params) -> Forall (fun s : pscript => (length (fst s) <= Z.to_nat 1000)%nat) scripts ->
  (of_script scripts n \/ find_parameter params n = None -> forall v, find_parameter (init_params g scripts cat true params) n = Some v <-> default_value g scripts cat n v) /\
  (~ of_script scripts n -> forall v, find_parameter params n = Some v -> find_parameter (init_params g scripts cat true params) n = Some v).
Proof.
  intros H F. destruct (find_reset scripts n params H F) as (K & A & B). cbv zeta in *. set (p1 := fold_left (fun (p : list param) (s : list Z * bool) => set_parameter p (cut (fst s ++ [58])) []) scripts params) in *.
  assert (E : init_params g scripts cat true params = init_params g scripts cat false p1) by reflexivity. rewrite E.
  pose proof (init_ok g scripts cat p1 n K F) as R. split.
  - intros D. assert (N : find_parameter p1 n = None).
    { destruct D as [D|D]; [exact (A D)|]. destruct (find_parameter p1 n) as [v|] eqn:Q; [|reflexivity]. exfalso.
      assert (NN : ~ ~ of_script scripts n) by (intros No; specialize (B No); congruence). apply NN. intros Y. specialize (A Y). discriminate A. }
    rewrite N in R. exact R.
  - intros No v Q. rewrite <- (B No) in Q. rewrite Q in R. exact R.
Qed.

(** ** Environment *)

Lemma set_env_eq n v n1 v1 : ~ In 61 n -> ~ In 61 n1 -> set_env n v = set_env n1 v1 <-> n = n1 /\ v = v1.
Proof.
  intros N N1. unfold set_env. split; [intros E; exact (eq_split _ _ _ _ E N N1)|intros (-> & ->); reflexivity].
Qed.
Lemma norm_plain s : ~ In 61 (norm s).
Proof.
  unfold norm. intros I. apply in_map_iff in I as (c & Q & _). destruct (existsb (Z.eqb c) special) eqn:E.
  - cbn in Q. discriminate Q.
  - unfold upper in Q. destruct ((97 <=? c) && (c <=? 122)) eqn:R; [rewrite andb_true_iff, !Z.leb_le in R; lia|]. subst c. discriminate E.
Qed.
Lemma env_special_ok (prefix a v n w : list Z) : (length prefix = 5)%nat -> ~ In 61 prefix -> ~ In 61 a -> (length a <= Z.to_nat 1000)%nat -> ~ In 61 n ->
  In (set_env n w) (env_special prefix a v) <-> w = v /\ (n = prefix ++ 95 :: a \/ n = norm (prefix ++ 95 :: a)).
Proof.
  intros Lp Np Na La Nn. unfold env_special. rewrite cut_id by (rewrite app_length; cbn; lia). set (m := prefix ++ 95 :: a).
  assert (Nm : ~ In 61 m) by (intros I; apply in_app_or in I as [I|[Q|I]]; [exact (Np I)|discriminate Q|exact (Na I)]). cbn [In].
  destruct (beqb m (norm m)) eqn:E.
  - apply beqb_eq in E. rewrite (set_env_eq m v n w Nm Nn). split; [intros [(<- & <-)|[]]; auto|]. intros (-> & [->| ->]); left; split; auto.
  - cbn [In]. rewrite (set_env_eq m v n w Nm Nn), (set_env_eq (norm m) v n w (norm_plain m) Nn). split.
    + intros [(<- & <-)|[(<- & <-)|[]]]; auto.
    + intros (-> & [->| ->]); auto.
Qed.
Lemma env_all_ok (prefix : list Z) l n w : (length prefix = 5)%nat -> ~ In 61 prefix -> named_well l -> ~ In 61 n -> In (set_env n w) (env_list prefix None l) <-> told prefix [] l n w.
Proof.
  intros Lp Np W Nn. unfold env_list, told. rewrite in_concat. split.
  - intros (e & I & J). apply in_map_iff in I as ((a, v) & <- & I). cbn [fst snd] in J. destruct (proj1 (Forall_forall _ _) W _ I) as (Na & La). cbn [fst] in *.
    apply (env_special_ok prefix a v n w Lp Np Na La Nn) in J as (-> & D). exists a. auto.
  - intros (a & I & _ & D). exists (env_special prefix a w). split; [apply in_map_iff; exists (a, w); auto|]. destruct (proj1 (Forall_forall _ _) W _ I) as (Na & La). cbn [fst app] in *.
    apply env_special_ok; auto.
Qed.
Lemma env_strip_ok (prefix s : list Z) l n w : (length prefix = 5)%nat -> ~ In 61 prefix -> named_well l -> s <> [] -> ~ In 61 n -> In (set_env n w) (env_list prefix (Some s) l) <-> told prefix s l n w.
Proof.
  intros Lp Np W Ns Nn. unfold env_list, told. rewrite in_concat. split.
  - intros (e & I & J). apply in_map_iff in I as ((a, v) & <- & I). cbn [fst snd] in J. destruct (proj1 (Forall_forall _ _) W _ I) as (Na & La). cbn [fst] in *.
    destruct (prefixb s a && (length s <? length a)%nat) eqn:B; [|destruct J]. apply andb_true_iff in B as (B1 & B2). apply prefixb_iff in B1 as (t & ->). apply Nat.ltb_lt in B2. rewrite app_length in B2, La.
    rewrite (skip_pre s t _ eq_refl) in J. apply env_special_ok in J as (-> & D); auto; [|intros I1; apply Na, in_or_app; auto|lia].
    exists t. split; [exact I|]. split; [right; intros ->; cbn in B2; lia|exact D].
  - intros (a & I & D1 & D). exists (env_special prefix a w). destruct D1 as [D1|D1]; [congruence|]. destruct (proj1 (Forall_forall _ _) W _ I) as (Na & La). cbn [fst] in *. rewrite app_length in La. split.
    + apply in_map_iff. exists (s ++ a, w). split; [|exact I]. cbn [fst snd]. rewrite prefixb_app. replace (length s <? length (s ++ a))%nat with true; [rewrite (skip_pre s a _ eq_refl); reflexivity|].
      symmetry. apply Nat.ltb_lt. rewrite app_length. destruct a; [congruence|cbn; lia].
    + apply env_special_ok; auto; [|lia]. intros I1. apply Na, in_or_app. auto.
Qed.
Lemma inherited_ok env e : In e (inherited env) <-> In e env /\ ~ ours e.
Proof.
  unfold inherited. rewrite filter_In, negb_true_iff. assert (Q : prefixb (str "NZB") e && (5 <? length e)%nat && (nth 5 e 0 =? 95) = true <-> ours e).
  { rewrite !andb_true_iff, Nat.ltb_lt, Z.eqb_eq. unfold ours. split.
    - intros ((P & L) & E). apply prefixb_iff in P as (t & ->). cbn in L, E. destruct t as [|x [|y [|u r]]]; try (cbn in L; lia). cbn in E. exists x, y, r. rewrite E. reflexivity.
    - intros (x & y & r & ->). split; [split; [apply prefixb_app|cbn; lia]|reflexivity]. }
  rewrite <- Q. rewrite not_true_iff_false. reflexivity.
Qed.
Lemma script_env_ok env own params options script n w : named_well own -> named_well params -> named_well options -> (length script <= Z.to_nat 1000)%nat -> ~ In 61 n ->
  In (set_env n w) (script_env env own params options script) <->
  (In (set_env n w) env /\ ~ ours (set_env n w)) \/ In (n, w) own \/ told (str "NZBPR") [] params n w \/ told (str "NZBPR") (script ++ [58]) params n w \/
  told (str "NZBPO") (script ++ [58]) options n w \/ told (str "NZBOP") [] options n w.
Proof.
  intros Wo Wp Wq Ls Nn. unfold script_env. rewrite !in_app_iff, inherited_ok, cut_id by (rewrite app_length; cbn; lia).
  assert (Z1 : ~ In 61 (str "NZBPR") /\ ~ In 61 (str "NZBPO") /\ ~ In 61 (str "NZBOP")) by (cbn; lia). destruct Z1 as (Z1 & Z2 & Z3).
  assert (Ns : script ++ [58] <> []) by (destruct script; discriminate).
  rewrite (env_all_ok (str "NZBPR") params n w eq_refl Z1 Wp Nn), (env_strip_ok (str "NZBPR") _ params n w eq_refl Z1 Wp Ns Nn), (env_strip_ok (str "NZBPO") _ options n w eq_refl Z2 Wq Ns Nn), (env_all_ok (str "NZBOP") options n w eq_refl Z3 Wq Nn).
  assert (O1 : In (set_env n w) (map (fun p => set_env (fst p) (snd p)) own) <-> In (n, w) own).
  { rewrite in_map_iff. split.
    - intros ((a, v) & Q & I). destruct (proj1 (Forall_forall _ _) Wo _ I) as (Na & _). cbn [fst snd] in *. apply set_env_eq in Q as (-> & ->); auto.
    - intros I. exists (n, w). auto. }
  rewrite O1. tauto.
Qed.

(** ** Arguments *)

Lemma from_dot_none : forall s, from_dot s = None <-> ~ In 46 s.
Proof.
  induction s as [|c s IH]; cbn [from_dot]; [split; [intros _ []|reflexivity]|]. destruct (from_dot s).
  - split; [discriminate|]. intros N. exfalso. assert (Q : ~ In 46 s) by (intros I; apply N; right; exact I). apply IH in Q. discriminate Q.
  - destruct (c =? 46) eqn:E; [split; [discriminate|]; apply Z.eqb_eq in E; intros N; destruct N; left; exact E|]. split; [|reflexivity]. intros _ [Q|I]; [apply Z.eqb_neq in E; congruence|]. apply (proj1 IH eq_refl I).
Qed.
Lemma from_dot_ok path ext : extension path ext -> from_dot path = Some ext.
Proof.
  intros (a & r & -> & -> & N). assert (R : from_dot r = None) by (apply from_dot_none, N). induction a as [|c a IH]; cbn [app from_dot]; [rewrite R; reflexivity|]. rewrite IH. reflexivity.
Qed.
Lemma split_app e c : ~ In 61 e -> split_eq (e ++ 61 :: c) = Some (e, c).
Proof.
  induction e as [|x e IH]; intros N; [reflexivity|]. cbn [app split_eq]. replace (x =? 61) with false by (symmetry; apply Z.eqb_neq; intros ->; apply N; left; reflexivity).
  rewrite IH; [reflexivity|]. intros I. apply N. right. exact I.
Qed.
Lemma override_ok ext : forall l, match override (Some ext) l with Fine (Some c) => overrides l ext c | Fine None => forall c, ~ overrides l ext c | _ => False end.
Proof.
  induction l as [|t l IH]; cbn [override]; [intros c (a & e & b & Q & _); destruct a; discriminate Q|].
  assert (Step : (forall e1 c1, t = e1 ++ 61 :: c1 -> ~ In 61 e1 -> ~ same_name ext e1) -> match override (Some ext) l with Fine (Some c) => overrides (t :: l) ext c | Fine None => forall c, ~ overrides (t :: l) ext c | _ => False end).
  { intros Nt. destruct (override (Some ext) l) as [[c|]| |]; try exact IH.
    - destruct IH as (a & e & b & -> & N & Sn & F). exists (t :: a), e, b. split; [reflexivity|]. split; [exact N|]. split; [exact Sn|]. constructor; [exact Nt|exact F].
    - intros c (a & e & b & Q & N & Sn & F). destruct a as [|d a]; injection Q as -> ->; [exact (Nt e c eq_refl N Sn)|]. inversion F; subst. apply (IH c). exists a, e, b. auto. }
  destruct (split_eq t) as [(e, cmd)|] eqn:E.
  - apply split_some in E as (-> & N). destruct (nocase_eq ext e) eqn:B.
    + exists [], e, l. split; [reflexivity|]. split; [exact N|]. split; [apply beqb_eq, B|constructor].
    + apply Step. intros e1 c1 Q N1 Sn. apply eq_split in Q as (-> & ->); auto. apply (proj2 (beqb_eq _ _)) in Sn. unfold nocase_eq in B. congruence.
  - apply split_none in E. apply Step. intros e1 c1 -> N1 _. apply E. apply in_elt.
Qed.
Lemma overrides_unique l ext c d : overrides l ext c -> overrides l ext d -> c = d.
Proof.
  intros (a & e & b & Q & N & Sn & F) (a1 & e1 & b1 & Q1 & N1 & Sn1 & F1). rewrite Q in Q1. clear Q. revert a1 Q1 F F1. induction a as [|t a IH]; intros a1 Q1 F F1; destruct a1 as [|t1 a1]; cbn in Q1.
  - injection Q1 as Q _. apply eq_split in Q as (_ & ->); auto.
  - injection Q1 as <- _. inversion F1 as [|? ? G _]; subst. destruct (G e c eq_refl N Sn).
  - injection Q1 as -> _. inversion F as [|? ? G _]; subst. destruct (G e1 d eq_refl N1 Sn1).
  - injection Q1 as <- Q1. inversion F; inversion F1; subst. eapply IH; eauto.
Qed.
Lemma prepare_ok shell path ext : extension path ext ->
  (forall c, overrides (entries shell) ext c -> prepare_args shell [path] = Fine [c; path]) /\ ((forall c, ~ overrides (entries shell) ext c) -> prepare_args shell [path] = Fine [path]).
Proof.
  intros X. unfold prepare_args. destruct shell as [|h r] eqn:E; [split; [intros c (a & e & b & Q & _); destruct a; discriminate Q|reflexivity]|]. rewrite <- E. clear E h r.
  rewrite TextProofs.tokens_ok. change (TextProofs.kept (str ",;") shell) with (entries shell). rewrite (from_dot_ok path ext X). pose proof (override_ok ext (entries shell)) as R.
  destruct (override (Some ext) (entries shell)) as [[c|]| |]; try (destruct R; fail).
  - split; [intros d D; rewrite (overrides_unique _ _ _ _ R D); reflexivity|]. intros N. destruct (N c R).
  - split; [intros d D; destruct (R d D)|reflexivity].
Qed.
