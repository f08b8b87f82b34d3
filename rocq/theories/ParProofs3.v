(** Names of par2-files. *)
From Coq Require Import String.
From Verif Require Import Base NumFmt WildModel NameModel NameProofs WebModel WebProofs WebGetProofs ParModel ParSpec.
Open Scope list_scope. Open Scope Z_scope.

Definition inner (f : list Z) : nat * Z :=
  match strrchr 46 f with
  | Some (a, p) =>
    if prefixb (str ".vol") p then
      match index 43 p with
      | Some i => (length a, atoi (skipn (S i) p))
      | None => match index 45 p with Some i => (length a, atoi (skipn (S i) p)) | None => (length f, 0) end
      end
    else (length f, 0)
  | None => (length f, 0)
  end.

Lemma par2_len : length (str ".par2") = 5%nat. Proof. reflexivity. Qed.

Lemma stem_app b : b <> [] -> parse_stem (b ++ str ".par2") = Some (inner b).
Proof.
  intros N. unfold parse_stem. rewrite app_length, par2_len.
  replace (length b + 5 <? 6)%nat with false by (destruct b; [contradiction|]; cbn [length]; symmetry; apply Nat.ltb_ge; lia).
  replace (length b + 5 - 5)%nat with (length b) by lia. rewrite skipn_exact, firstn_exact, beqb_refl. cbn [negb]. cbv zeta.
  unfold inner. destruct (strrchr 46 b) as [[a p]|]; [|reflexivity]. destruct (prefixb _ p); [|reflexivity].
  destruct (index 43 p); [reflexivity|]. destruct (index 45 p); reflexivity.
Qed.
Lemma stem_some f r : parse_stem f = Some r -> exists b, b <> [] /\ f = b ++ str ".par2" /\ r = inner b.
Proof.
  intros H. assert (E : exists b, b <> [] /\ f = b ++ str ".par2").
  { unfold parse_stem in H. destruct (length f <? 6)%nat eqn:L; [discriminate|]. destruct (beqb _ _) eqn:B; [|discriminate]. apply beqb_eq in B.
    exists (firstn (length f - 5) f). split.
    - intros X. apply (f_equal (@length Z)) in X. rewrite firstn_length in X. cbn [length] in X. apply Nat.ltb_ge in L. lia.
    - rewrite <- B. symmetry. apply firstn_skipn. }
  destruct E as (b & N & ->). exists b. split; [exact N|]. split; [reflexivity|]. rewrite stem_app in H by exact N. congruence.
Qed.
Lemma stem_none f : parse_stem f = None <-> ~ exists b, b <> [] /\ f = b ++ str ".par2".
Proof.
  split.
  - intros H (b & N & ->). rewrite stem_app in H by exact N. discriminate.
  - intros H. destruct (parse_stem f) as [r|] eqn:E; [|reflexivity]. exfalso. apply H. apply stem_some in E as (b & N & X & _). eauto.
Qed.

(** ** The inner part *)
Definition a_volume (v : list Z) : bool := match index 43 v with Some _ => true | None => match index 45 v with Some _ => true | None => false end end.
Lemma a_volume_ok v : a_volume v = true <-> In 43 v \/ In 45 v.
Proof.
  unfold a_volume. destruct (index 43 v) as [i|] eqn:E.
  - apply index_some in E as [E _]. split; [intros _; left|reflexivity]. rewrite E. apply in_or_app. right. left. reflexivity.
  - apply index_none in E. destruct (index 45 v) as [i|] eqn:F.
    + apply index_some in F as [F _]. split; [intros _; right|reflexivity]. rewrite F. apply in_or_app. right. left. reflexivity.
    + apply index_none in F. split; [discriminate|intros [X | X]; contradiction].
Qed.
Lemma vol_free c : (c = 43 \/ c = 45) -> ~ In c (str ".vol").
Proof. intros [-> | ->]; vm_compute; intuition discriminate. Qed.

Definition cut (v : list Z) : list Z := match index 43 v with Some i => skipn (S i) v | None => match index 45 v with Some i => skipn (S i) v | None => [] end end.
Lemma inner_vol a v : ~ In 46 v -> a_volume v = true -> inner (a ++ str ".vol" ++ v) = (length a, atoi (cut v)).
Proof.
  intros D V. unfold inner. assert (DV : ~ In 46 (str "vol" ++ v)) by (intros I; apply in_app_or in I as [I | I]; [revert I; vm_compute; intuition discriminate|exact (D I)]).
  change (str ".vol" ++ v) with (46 :: (str "vol" ++ v)). rewrite (strrchr_app 46 a _ DV).
  change (46 :: str "vol" ++ v) with (str ".vol" ++ v). rewrite prefixb_app.
  rewrite !index_skip by (apply vol_free; auto). change (length (str ".vol")) with 4%nat. unfold a_volume in V. unfold cut.
  destruct (index 43 v) as [i|]; [reflexivity|]. destruct (index 45 v) as [i|]; [reflexivity|discriminate].
Qed.
Lemma inner_cases b : (exists a v, b = a ++ str ".vol" ++ v /\ ~ In 46 v /\ a_volume v = true) \/
  (inner b = (length b, 0) /\ forall a v, b = a ++ str ".vol" ++ v -> ~ In 46 v -> a_volume v = false).
Proof.
  destruct (strrchr 46 b) as [[a p]|] eqn:E.
  - assert (E0 := E). apply strrchr_some in E as (-> & r & -> & N). destruct (prefixb (str ".vol") (46 :: r)) eqn:P.
    + apply prefixb_iff in P as (v & P). assert (NV : ~ In 46 v).
      { change (str ".vol" ++ v) with (46 :: (str "vol" ++ v)) in P. injection P as P. intros I. apply N. rewrite P. right. right. right. exact I. }
      destruct (a_volume v) eqn:V; [left; exists a, v; rewrite P; auto|]. right. split.
      * unfold inner. rewrite E0, P, prefixb_app. rewrite !index_skip by (apply vol_free; auto). unfold a_volume in V.
        destruct (index 43 v); [discriminate|]. destruct (index 45 v); [discriminate|]. reflexivity.
      * intros a' v' X NV'. assert (DV : ~ In 46 (str "vol" ++ v')) by (intros I; apply in_app_or in I as [I | I]; [revert I; vm_compute; intuition discriminate|exact (NV' I)]).
        assert (Y := strrchr_app 46 a' _ DV). change (46 :: str "vol" ++ v') with (str ".vol" ++ v') in Y. rewrite <- X, E0, P in Y.
        injection Y as _ Y. rewrite <- Y. exact V.
    + right. split; [unfold inner; rewrite E0, P; reflexivity|]. intros a' v' X NV'.
      assert (DV : ~ In 46 (str "vol" ++ v')) by (intros I; apply in_app_or in I as [I | I]; [revert I; vm_compute; intuition discriminate|exact (NV' I)]).
      assert (Y := strrchr_app 46 a' _ DV). change (46 :: str "vol" ++ v') with (str ".vol" ++ v') in Y. rewrite <- X, E0 in Y.
      injection Y as _ Y. exfalso. rewrite Y in P. discriminate P.
  - right. split; [unfold inner; rewrite E; reflexivity|]. apply strrchr_none in E. intros a v -> _. exfalso. apply E. apply in_or_app. right. left. reflexivity.
Qed.

(** ** Upper and lower case *)
Lemma lower_is x c : (c = 43 \/ c = 45 \/ c = 46) -> (lower x = c <-> x = c).
Proof. unfold lower. intros H. destruct ((65 <=? x) && (x <=? 90)) eqn:E; lia. Qed.
Lemma in_lower c v : (c = 43 \/ c = 45 \/ c = 46) -> (In c (map lower v) <-> In c v).
Proof.
  intros H. rewrite in_map_iff. split.
  - intros (x & E & I). rewrite <- (proj1 (lower_is x c H) E). exact I.
  - intros I. exists c. split; [apply lower_is; auto|exact I].
Qed.
Lemma in_lower1 c v : In c (map lower v) -> (c = 43 \/ c = 45 \/ c = 46) -> In c v.
Proof. intros I H. exact (proj1 (in_lower c v H) I). Qed.
Lemma volume_lower v : volume (map lower v) <-> volume v.
Proof. unfold volume. rewrite !in_lower by auto. reflexivity. Qed.
Lemma volume_bool v : volume v <-> ~ In 46 v /\ a_volume v = true.
Proof. unfold volume. rewrite a_volume_ok. reflexivity. Qed.
Lemma lower_lower x : lower (lower x) = lower x.
Proof. unfold lower. destruct ((65 <=? x) && (x <=? 90)) eqn:E; [|rewrite E; reflexivity]. replace ((65 <=? x + 32) && (x + 32 <=? 90)) with false by lia. reflexivity. Qed.
Lemma lower_lowers s : map lower (map lower s) = map lower s.
Proof. rewrite map_map. apply map_ext. apply lower_lower. Qed.

Lemma fits_buf name : fits name -> buf1k name = name.
Proof. unfold fits, buf1k. intros H. apply firstn_all2. lia. Qed.

Lemma parse_app (name f b : list Z) (conf : bool) : fits name -> map lower name = f -> (if conf then f else upto_par2 f) = b ++ str ".par2" -> b <> [] ->
  parse_par name conf = Some (inner b).
Proof.
  intros Fi E U N. unfold parse_par. rewrite (fits_buf _ Fi), E. cbv zeta. rewrite U.
  replace (length f <? 6)%nat with false; [apply stem_app; exact N|]. symmetry. apply Nat.ltb_ge.
  assert (L : (length (b ++ str ".par2") >= 6)%nat) by (rewrite app_length, par2_len; destruct b; [contradiction|cbn [length]; lia]).
  rewrite <- U in L. destruct conf; [exact L|]. assert (K : forall s, (length (upto_par2 s) <= length s)%nat).
  { clear. induction s as [|c s IH]; [cbn; lia|]. cbn [upto_par2]. destruct (upto_par2 s); [destruct (prefixb _ _); [rewrite firstn_length; lia|cbn; lia]|cbn [length] in *; lia]. }
  specialize (K f). lia.
Qed.
Lemma parse_some name r : fits name -> parse_par name true = Some r -> exists b, b <> [] /\ map lower name = b ++ str ".par2" /\ r = inner b.
Proof.
  intros Fi H. unfold parse_par in H. rewrite (fits_buf _ Fi) in H. cbv zeta in H. destruct (length (map lower name) <? 6)%nat; [discriminate|].
  exact (stem_some _ _ H).
Qed.

Lemma split_lower name a b : map lower name = a ++ b -> exists na nb, name = na ++ nb /\ map lower na = a /\ map lower nb = b.
Proof.
  intros H. exists (firstn (length a) name), (skipn (length a) name). split; [symmetry; apply firstn_skipn|].
  rewrite <- firstn_map, <- skipn_map, H. rewrite firstn_exact, skipn_exact. auto.
Qed.

Theorem base_parsed name base : fits name -> par_base name base -> exists n, parse_par name true = Some (length base, n).
Proof.
  intros Fi [ext v E X V | ext E X N NV].
  - unfold same_text in X. rewrite !map_app in X. change (map lower (str ".vol")) with (str ".vol") in X. change (map lower (str ".par2")) with (str ".par2") in X.
    apply volume_lower in V. apply volume_bool in V as [V1 V2].
    assert (Y : map lower name = (map lower base ++ str ".vol" ++ map lower v) ++ str ".par2") by (rewrite E, map_app, X, <- !app_assoc; reflexivity).
    exists (atoi (cut (map lower v))). rewrite (parse_app name _ (map lower base ++ str ".vol" ++ map lower v) true Fi Y eq_refl).
    + rewrite inner_vol by assumption. rewrite map_length. reflexivity.
    + intros Q. apply app_eq_nil in Q as [_ Q]. discriminate.
  - assert (Y : map lower name = map lower base ++ str ".par2") by (rewrite E, map_app; f_equal; exact X).
    exists 0. rewrite (parse_app name _ (map lower base) true Fi Y eq_refl); [|intros Q; apply map_eq_nil in Q; contradiction]. f_equal.
    destruct (inner_cases (map lower base)) as [(a & v & Q & V1 & V2) | [Q _]].
    + exfalso. apply (NV a v); [|apply volume_bool; auto]. unfold same_text. rewrite <- Q, lower_lowers. reflexivity.
    + rewrite Q, map_length. reflexivity.
Qed.

Theorem parsed_base name n c : fits name -> parse_par name true = Some (n, c) -> exists base, par_base name base /\ length base = n.
Proof.
  intros Fi H. apply (parse_some _ _ Fi) in H as (b & N & E & R). apply split_lower in E as (nb & ne & -> & <- & E).
  destruct (inner_cases (map lower nb)) as [(a & v & Q & V1 & V2) | [Q NV]].
  - rewrite Q, inner_vol in R by assumption. injection R as -> _. apply split_lower in Q as (na & nv & -> & <- & Q). exists na. split; [|rewrite map_length; reflexivity].
    apply (pb_volume _ _ (nv ++ ne) (skipn 4 nv)); [rewrite app_assoc; reflexivity| |].
    + unfold same_text. rewrite !map_app, Q, E, <- skipn_map, Q. change (skipn 4 (str ".vol" ++ v)) with v. rewrite <- app_assoc. reflexivity.
    + apply volume_lower. rewrite <- skipn_map, Q. change (skipn 4 (str ".vol" ++ v)) with v. apply volume_bool. auto.
  - rewrite Q in R. injection R as -> _. exists nb. split; [|rewrite map_length; reflexivity]. apply (pb_main _ _ ne); [reflexivity|exact E| |].
    + intros X. apply N. rewrite X. reflexivity.
    + intros a v X V. apply volume_lower in V. apply volume_bool in V as [V1 V2]. unfold same_text in X. rewrite !map_app in X.
      rewrite (NV _ _ X V1) in V2. discriminate.
Qed.

(** ** Numbers of blocks *)
Lemma digits_value ds acc : Forall (fun c => 48 <= c <= 57) ds -> pdigits acc ds = fold_left (fun a c => a * 10 + (c - 48)) ds acc.
Proof. intros F. revert acc. induction F as [|c ds C F IH]; intros acc; [reflexivity|]. cbn [pdigits fold_left]. replace (is_digit c) with true by (unfold is_digit; lia). apply IH. Qed.
Lemma numeral_atoi ds : numeral ds -> value ds < 2 ^ 31 -> atoi ds = value ds.
Proof.
  intros [N F] L. destruct ds as [|c ds]; [contradiction|]. inversion F as [|? ? C F']; subst. unfold atoi. rewrite atoll_digit by (unfold is_digit; lia).
  rewrite digits_value by exact F. fold (value (c :: ds)). assert (P : 0 <= value (c :: ds)).
  { unfold value. clear - F. cut (forall a, 0 <= a -> 0 <= fold_left (fun a c => a * 10 + (c - 48)) (c :: ds) a); [intros H; apply H; lia|].
    induction F as [|x l X F IH]; intros a A; [exact A|]. cbn [fold_left]. apply IH. lia. }
  unfold to_i32. rewrite Z.mod_small by lia. lia.
Qed.
Lemma numeral_free ds c : numeral ds -> c < 48 -> ~ In c ds.
Proof. intros [_ F] C I. rewrite Forall_forall in F. specialize (F _ I). cbv beta in F. lia. Qed.
Lemma numeral_lower ds : numeral ds -> map lower ds = ds.
Proof. intros [_ F]. induction F as [|c l C F IH]; [reflexivity|]. cbn [map]. rewrite IH. unfold lower. replace ((65 <=? c) && (c <=? 90)) with false by lia. reflexivity. Qed.

Lemma blocks_shape name base k : par_blocks name base k -> exists b, b <> [] /\ map lower name = b ++ str ".par2" /\ (k < 2 ^ 31 -> inner b = (length base, k)).
Proof.
  intros [ext f ds E X F1 F2 N | ext f ds E X F1 F2 F3 N | ext E X Nb NV].
  - exists (map lower base ++ str ".vol" ++ map lower f ++ str "+" ++ ds). split; [intros Q; apply app_eq_nil in Q as [_ Q]; discriminate|].
    split; [rewrite E, map_app; unfold same_text in X; rewrite X, !map_app, (numeral_lower _ N), <- !app_assoc; reflexivity|]. intros K.
    assert (C : index 43 (map lower f ++ str "+" ++ ds) = Some (length (map lower f))) by (change (str "+" ++ ds) with (43 :: ds); apply index_app; rewrite in_lower; auto).
    rewrite inner_vol; [| |unfold a_volume; rewrite C; reflexivity].
    + rewrite map_length. f_equal. unfold cut. rewrite C. replace (skipn (S (length (map lower f))) (map lower f ++ str "+" ++ ds)) with ds; [apply numeral_atoi; assumption|].
      change (str "+" ++ ds) with ([43] ++ ds). rewrite app_assoc. replace (S (length (map lower f))) with (length (map lower f ++ [43])) by (rewrite app_length; cbn; lia). rewrite skipn_exact. reflexivity.
    + intros I. apply in_app_or in I as [I | I]; [apply in_lower1 in I; auto|]. apply in_app_or in I as [I | I]; [destruct I as [I | []]; discriminate|]. revert I. apply numeral_free; [exact N|lia].
  - exists (map lower base ++ str ".vol" ++ map lower f ++ str "-" ++ ds). split; [intros Q; apply app_eq_nil in Q as [_ Q]; discriminate|].
    split; [rewrite E, map_app; unfold same_text in X; rewrite X, !map_app, (numeral_lower _ N), <- !app_assoc; reflexivity|]. intros K.
    assert (C0 : index 43 (map lower f ++ str "-" ++ ds) = None).
    { apply index_not. intros I. apply in_app_or in I as [I | I]; [apply in_lower1 in I; auto|]. apply in_app_or in I as [I | I]; [destruct I as [I | []]; discriminate|]. revert I. apply numeral_free; [exact N|lia]. }
    assert (C : index 45 (map lower f ++ str "-" ++ ds) = Some (length (map lower f))) by (change (str "-" ++ ds) with (45 :: ds); apply index_app; rewrite in_lower; auto).
    rewrite inner_vol; [| |unfold a_volume; rewrite C0, C; reflexivity].
    + rewrite map_length. f_equal. unfold cut. rewrite C0, C. replace (skipn (S (length (map lower f))) (map lower f ++ str "-" ++ ds)) with ds; [apply numeral_atoi; assumption|].
      change (str "-" ++ ds) with ([45] ++ ds). rewrite app_assoc. replace (S (length (map lower f))) with (length (map lower f ++ [45])) by (rewrite app_length; cbn; lia). rewrite skipn_exact. reflexivity.
    + intros I. apply in_app_or in I as [I | I]; [apply in_lower1 in I; auto|]. apply in_app_or in I as [I | I]; [destruct I as [I | []]; discriminate|]. revert I. apply numeral_free; [exact N|lia].
  - exists (map lower base). split; [intros Q; apply map_eq_nil in Q; contradiction|]. split; [rewrite E, map_app; f_equal; exact X|]. intros _.
    destruct (inner_cases (map lower base)) as [(a & v & Q & V1 & V2) | [Q _]]; [|rewrite Q, map_length; reflexivity].
    exfalso. apply (NV a v); [|apply volume_bool; auto]. unfold same_text. rewrite <- Q, lower_lowers. reflexivity.
Qed.

(** ** Text after the name *)
Lemma upto_nil s : ~ (exists a b, s = a ++ str ".par2" ++ b) -> upto_par2 s = [].
Proof.
  induction s as [|c s IH]; intros N; [reflexivity|]. cbn [upto_par2]. rewrite IH; [|intros (a & b & ->); apply N; exists (c :: a), b; reflexivity].
  destruct (prefixb (str ".par2") (c :: s)) eqn:P; [|reflexivity]. apply prefixb_iff in P as (r & P). exfalso. apply N. exists [], r. exact P.
Qed.
Lemma upto_app b t : ~ (exists a c, t = a ++ str ".par2" ++ c) -> upto_par2 (b ++ str ".par2" ++ t) = b ++ str ".par2".
Proof.
  intros N. induction b as [|c b IH].
  - cbn [app]. change (str ".par2" ++ t) with (46 :: (str "par2" ++ t)). cbn [upto_par2].
    assert (Q : upto_par2 (str "par2" ++ t) = []).
    { change (str "par2" ++ t) with (112 :: 97 :: 114 :: 50 :: t). cbn [upto_par2]. rewrite (upto_nil t N). reflexivity. }
    rewrite Q. change (46 :: str "par2" ++ t) with (str ".par2" ++ t). rewrite prefixb_app. exact (firstn_exact (str ".par2") t).
  - cbn [app upto_par2]. rewrite IH. destruct (b ++ str ".par2") eqn:E; [apply app_eq_nil in E as [_ E]; discriminate|]. reflexivity.
Qed.

Theorem blocks_ok name base k : par_blocks name base k -> k < 2 ^ 31 -> fits name -> parse_par name true = Some (length base, k).
Proof.
  intros B K Fi. destruct (blocks_shape _ _ _ B) as (b & N & E & I). rewrite <- (I K). apply (parse_app name _ b true Fi eq_refl E N).
Qed.
Theorem blocks_tail name base k tail : par_blocks name base k -> k < 2 ^ 31 -> no_par2 tail -> fits (name ++ tail) ->
  parse_par (name ++ tail) false = Some (length base, k).
Proof.
  intros B K NT Fi. destruct (blocks_shape _ _ _ B) as (b & N & E & I). rewrite <- (I K). refine (parse_app (name ++ tail) _ b false Fi eq_refl _ N).
  rewrite map_app, E, <- app_assoc. apply upto_app. intros (x & y & Q). apply (NT x y). unfold same_text. rewrite <- Q, lower_lowers. reflexivity.
Qed.

Theorem not_par name : fits name -> (parse_par name true = None <-> ~ exists base, par_base name base).
Proof.
  intros Fi. split.
  - intros H (base & B). destruct (base_parsed _ _ Fi B) as (n & E). congruence.
  - intros H. destruct (parse_par name true) as [[n c]|] eqn:E; [|reflexivity]. exfalso. apply H. destruct (parsed_base _ _ _ Fi E) as (b & B & _). eauto.
Qed.

(** ** Collections *)
Lemma base_prefix name base : par_base name base -> firstn (length base) name = base.
Proof. intros [ext v E _ _ | ext E _ _ _]; rewrite E; apply firstn_exact. Qed.

Theorem same_ok a b ba bb : fits a -> fits b -> par_base a ba -> par_base b bb -> (same_collection a b true = true <-> same_text ba bb).
Proof.
  intros Fa Fb A B. unfold same_collection. destruct (base_parsed _ _ Fa A) as (n & ->). destruct (base_parsed _ _ Fb B) as (m & ->).
  rewrite andb_true_iff, Nat.eqb_eq. unfold same_text. split.
  - intros [L E]. apply beqb_eq in E. rewrite (base_prefix _ _ A) in E. rewrite L in E. rewrite (base_prefix _ _ B) in E. exact E.
  - intros E. assert (L : length ba = length bb) by (rewrite <- (map_length lower ba), E, map_length; reflexivity). split; [exact L|].
    rewrite (base_prefix _ _ A). rewrite L. rewrite (base_prefix _ _ B), E. apply beqb_refl.
Qed.

Theorem base_unique name b1 b2 : fits name -> par_base name b1 -> par_base name b2 -> b1 = b2.
Proof.
  intros Fi A B. destruct (base_parsed _ _ Fi A) as (n & E1). destruct (base_parsed _ _ Fi B) as (m & E2). rewrite E1 in E2. injection E2 as L _.
  rewrite <- (base_prefix _ _ A), L. apply base_prefix. exact B.
Qed.

Definition together (a b : list Z) : Prop := exists ba bb, par_base a ba /\ par_base b bb /\ same_text ba bb.
Lemma together_ok a b : fits a -> fits b -> (same_collection a b true = true <-> together a b).
Proof.
  intros Fa Fb. split.
  - intros H. assert (H0 := H). unfold same_collection in H0. destruct (parse_par a true) as [[n c]|] eqn:Ea; [|discriminate]. destruct (parse_par b true) as [[m d]|] eqn:Eb; [|discriminate].
    destruct (parsed_base _ _ _ Fa Ea) as (ba & A & _). destruct (parsed_base _ _ _ Fb Eb) as (bb & B & _). exists ba, bb. split; [exact A|]. split; [exact B|]. apply (same_ok a b); assumption.
  - intros (ba & bb & A & B & E). apply (same_ok a b ba bb); assumption.
Qed.

Theorem mains_ok dir : Forall fits dir -> forall g, In g (find_mains dir []) <->
  exists before after base, dir = before ++ g :: after /\ par_base g base /\ forall f b, In f before -> par_base f b -> ~ same_text b base.
Proof.
  assert (G : forall dir seen found, Forall fits (seen ++ dir) ->
    (forall g, In g found <-> exists before after base, seen = before ++ g :: after /\ par_base g base /\ forall f b, In f before -> par_base f b -> ~ same_text b base) ->
    (forall f b, In f seen -> par_base f b -> exists g bg, In g found /\ par_base g bg /\ same_text b bg) ->
    forall g, In g (find_mains dir found) <-> exists before after base, seen ++ dir = before ++ g :: after /\ par_base g base /\ forall f b, In f before -> par_base f b -> ~ same_text b base).
  { clear. induction dir as [|x r IH]; intros seen found Fi H1 H2 g; [rewrite app_nil_r; apply H1|]. cbn [find_mains].
    change (seen ++ x :: r) with (seen ++ [x] ++ r) in *. rewrite app_assoc in *.
    assert (Fx : fits x) by (rewrite Forall_forall in Fi; apply Fi; apply in_or_app; left; apply in_or_app; right; left; reflexivity).
    assert (Fs : forall y, In y seen -> fits y) by (intros y I; rewrite Forall_forall in Fi; apply Fi; apply in_or_app; left; apply in_or_app; left; exact I).
    assert (Old : forall h, (exists before after base, seen = before ++ h :: after /\ par_base h base /\ forall f b, In f before -> par_base f b -> ~ same_text b base) ->
       exists before after base, seen ++ [x] = before ++ h :: after /\ par_base h base /\ forall f b, In f before -> par_base f b -> ~ same_text b base).
    { intros h (be & af & ba & -> & P & Q). exists be, (af ++ [x]), ba. split; [rewrite <- app_assoc; reflexivity|auto]. }
    assert (New : forall h before after base, seen ++ [x] = before ++ h :: after -> par_base h base -> (forall f b, In f before -> par_base f b -> ~ same_text b base) ->
       (h = x /\ before = seen) \/ In h found).
    { intros h be af ba E P Q. destruct (rev af) as [|z af'] eqn:Ra.
      - assert (X : af = []) by (rewrite <- (rev_involutive af), Ra; reflexivity). subst af. apply app_inj_tail in E as [-> ->]. left. auto.
      - assert (X : af = rev af' ++ [z]) by (rewrite <- (rev_involutive af), Ra; reflexivity). subst af. right. apply H1. rewrite app_comm_cons, app_assoc in E.
        apply app_inj_tail in E as [-> _]. exists be, (rev af'), ba. auto. }
    destruct (parse_par x true) as [[n c]|] eqn:P.
    - destruct (parsed_base _ _ _ Fx P) as (bx & Bx & _). destruct (existsb (fun g0 => same_collection x g0 true) found) eqn:X.
      + apply existsb_exists in X as (h & I & S). assert (Fh : fits h) by (apply H1 in I as (be & af & ba & -> & _); apply Fs; apply in_or_app; right; left; reflexivity).
        apply together_ok in S as (b1 & bh & B1 & Bh & S); [|exact Fx|exact Fh]. rewrite (base_unique _ _ _ Fx B1 Bx) in S.
        apply (IH _ _ Fi).
        * intros k. split; [intros K; apply Old; apply H1; exact K|]. intros (be & af & ba & E & P' & Q). destruct (New _ _ _ _ E P' Q) as [[-> ->] | K]; [|exact K].
          exfalso. rewrite (base_unique _ _ _ Fx P' Bx) in Q. apply H1 in I as (be' & af' & ba' & E' & Ph & _).
          apply (Q h bh); [rewrite E'; apply in_or_app; right; left; reflexivity|exact Bh|]. unfold same_text in *. congruence.
        * intros f b J Bf. apply in_app_or in J as [J | [<- | []]]; [exact (H2 _ _ J Bf)|]. exists h, bh. split; [exact I|]. split; [exact Bh|]. rewrite (base_unique _ _ _ Fx Bf Bx). exact S.
      + assert (NX : forall h, In h found -> ~ together x h).
        { intros h I T. assert (Fh : fits h) by (apply H1 in I as (be & af & ba & -> & _); apply Fs; apply in_or_app; right; left; reflexivity).
          apply (together_ok x h Fx Fh) in T. assert (Y : existsb (fun g0 => same_collection x g0 true) found = true) by (apply existsb_exists; eauto). congruence. }
        apply (IH _ _ Fi).
        * intros k. split.
          -- intros K. apply in_app_or in K as [K | [<- | []]]; [apply Old; apply H1; exact K|]. exists seen, [], bx. split; [reflexivity|]. split; [exact Bx|].
             intros f b J Bf S. destruct (H2 _ _ J Bf) as (h & bh & I & Bh & S'). apply (NX h I). exists bx, bh. split; [exact Bx|]. split; [exact Bh|]. unfold same_text in *. congruence.
          -- intros (be & af & ba & E & P' & Q). apply in_or_app. destruct (New _ _ _ _ E P' Q) as [[-> _] | K]; [right; left; reflexivity|left; exact K].
        * intros f b J Bf. apply in_app_or in J as [J | [<- | []]].
          -- destruct (H2 _ _ J Bf) as (h & bh & I & R). exists h, bh. split; [apply in_or_app; left; exact I|exact R].
          -- exists x, b. split; [apply in_or_app; right; left; reflexivity|]. split; [exact Bf|reflexivity].
    - apply (not_par x Fx) in P. apply (IH _ _ Fi).
      + intros k. split; [intros K; apply Old; apply H1; exact K|]. intros (be & af & ba & E & P' & Q). destruct (New _ _ _ _ E P' Q) as [[-> _] | K]; [|exact K]. exfalso. apply P. eauto.
      + intros f b J Bf. apply in_app_or in J as [J | [<- | []]]; [exact (H2 _ _ J Bf)|]. exfalso. apply P. eauto. }
  intros F. apply (G dir [] []); [exact F| |intros f b []].
  intros g. split; [intros []|]. intros (be & af & ba & E & _). destruct be; discriminate.
Qed.

Theorem mains_once dir : Forall fits dir -> NoDup (find_mains dir []) /\
  (forall g h bg bh, In g (find_mains dir []) -> In h (find_mains dir []) -> par_base g bg -> par_base h bh -> same_text bg bh -> g = h).
Proof.
  intros F. assert (K : forall g, In g (find_mains dir []) -> fits g).
  { intros g I. apply (mains_ok _ F) in I as (be & af & ba & -> & _). rewrite Forall_forall in F. apply F. apply in_or_app. right. left. reflexivity. }
  assert (U : forall d found, (forall g, In g found -> together g g) -> NoDup found -> (forall x, In x d -> fits x) -> (forall x, In x found -> fits x) -> NoDup (find_mains d found)).
  { clear. induction d as [|x r IH]; intros found T N Fd Ff; [exact N|]. cbn [find_mains]. assert (Fx := Fd x (or_introl eq_refl)).
    assert (Fr : forall y, In y r -> fits y) by (intros y I; apply Fd; right; exact I).
    destruct (parse_par x true) as [[n c]|] eqn:P; [|apply IH; assumption]. destruct (existsb _ found) eqn:E; [apply IH; assumption|].
    assert (Tx : together x x) by (destruct (parsed_base _ _ _ Fx P) as (b & B & _); exists b, b; split; [exact B|split; [exact B|reflexivity]]).
    apply IH; [intros g I; apply in_app_or in I as [I | [<- | []]]; auto| |exact Fr|intros g I; apply in_app_or in I as [I | [<- | []]]; auto].
    assert (Q : ~ In x found).
    { intros I. assert (Y : existsb (fun g => same_collection x g true) found = true) by (apply existsb_exists; exists x; split; [exact I|apply together_ok; auto]). congruence. }
    clear - N Q. induction N as [|y l N1 N2 IH]; [repeat constructor; intros []|]. cbn [app]. constructor; [intros I; apply in_app_or in I as [I | [-> | []]]; [exact (N1 I)|apply Q; left; reflexivity]|apply IH; intros I; apply Q; right; exact I]. }
  split; [apply U; [intros g []|constructor|intros x I; rewrite Forall_forall in F; exact (F x I)|intros x []]|].
  intros g h bg bh I J Bg Bh S. assert (Fg := K g I). assert (Fh := K h J).
  apply (mains_ok _ F) in I as (b1 & a1 & c1 & E1 & P1 & Q1). apply (mains_ok _ F) in J as (b2 & a2 & c2 & E2 & P2 & Q2).
  rewrite (base_unique _ _ _ Fg P1 Bg) in Q1. rewrite (base_unique _ _ _ Fh P2 Bh) in Q2.
  rewrite E1 in E2. clear - E2 Q1 Q2 Bg Bh S. revert b2 E2 Q2. induction b1 as [|x b1 IH]; intros b2 E2 Q2.
  - destruct b2 as [|y b2]; [injection E2 as -> _; reflexivity|]. injection E2 as <- E2. exfalso. apply (Q2 g bg (or_introl eq_refl) Bg). exact S.
  - destruct b2 as [|y b2]; cbn [app] in E2.
    + injection E2 as -> E2. exfalso. apply (Q1 h bh (or_introl eq_refl) Bh). unfold same_text in *. congruence.
    + injection E2 as -> E2. apply (IH (fun f b I => Q1 f b (or_intror I)) b2 E2 (fun f b I => Q2 f b (or_intror I))).
Qed.
