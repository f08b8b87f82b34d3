(** Proofs about names. *)
From Coq Require Import String FinFun.
From Verif Require Import Base NumFmt ArticleProofs LineProofs WildModel InfoModel FeedModel BufModel BufSpec NameModel NameSpec.
Open Scope list_scope. Open Scope Z_scope.

Lemma strrchr_some c s a b : strrchr c s = Some (a, b) -> s = a ++ b /\ exists r, b = c :: r /\ ~ In c r.
Proof.
  revert a b. induction s as [|x s IH]; intros a b H; [discriminate|]. cbn [strrchr] in H.
  destruct (strrchr c s) as [[a' b']|] eqn:E.
  - injection H as <- <-. destruct (IH _ _ eq_refl) as [-> R]. split; [reflexivity|exact R].
  - destruct (Z.eqb_spec x c) as [->|N]; [|discriminate]. injection H as <- <-. split; [reflexivity|]. exists s. split; [reflexivity|].
    clear IH. intros I. revert E. clear -I. induction s as [|y s IH]; [destruct I|]. cbn [strrchr]. destruct (strrchr c s) as [[? ?]|] eqn:E; [discriminate|].
    destruct I as [->|I]; [rewrite Z.eqb_refl; discriminate|]. intros _. exact (IH I eq_refl).
Qed.
Lemma strrchr_none c s : strrchr c s = None -> ~ In c s.
Proof.
  induction s as [|x s IH]; intros H; [intros []|]. cbn [strrchr] in H. destruct (strrchr c s) as [[? ?]|]; [discriminate|].
  destruct (Z.eqb_spec x c); [discriminate|]. intros [E|I]; [contradiction|]. exact (IH eq_refl I).
Qed.
Lemma strrchr_app c a r : ~ In c r -> strrchr c (a ++ c :: r) = Some (a, c :: r).
Proof.
  intros N. induction a as [|x a IH].
  - cbn [app strrchr]. destruct (strrchr c r) as [[p q]|] eqn:E.
    + apply strrchr_some in E as [-> (r' & -> & _)]. exfalso. apply N. apply in_or_app. right. left. reflexivity.
    + rewrite Z.eqb_refl. reflexivity.
  - change ((x :: a) ++ c :: r) with (x :: a ++ c :: r). cbn [strrchr]. rewrite IH. reflexivity.
Qed.

Lemma reserved_iff c : reserved_char c = true <-> bad_char c.
Proof. unfold reserved_char, bad_char. cbn [In]. lia. Qed.

Lemma drop_spec s : exists b, s = drop_trailing s ++ b /\ Forall dot_or_blank b /\
  (forall t c, drop_trailing s = t ++ [c] -> ~ dot_or_blank c).
Proof.
  induction s as [|c s (b & E & F & L)].
  - exists []. split; [reflexivity|]. split; [constructor|]. intros [|? ?] ?; discriminate.
  - cbn [drop_trailing]. destruct (drop_trailing s) as [|x r] eqn:D.
    + destruct ((c =? 46) || (c =? 32)) eqn:B.
      * exists (c :: s). split; [reflexivity|]. split; [|intros [|? ?] ?; discriminate]. constructor; [unfold dot_or_blank; lia|]. rewrite E. exact F.
      * exists b. split; [rewrite E at 1; reflexivity|]. split; [exact F|]. intros [|y t] d H; [|destruct t; discriminate].
        injection H as <-. unfold dot_or_blank. lia.
    + exists b. split; [rewrite E at 1; reflexivity|]. split; [exact F|]. intros [|y t] d H; [discriminate|].
      injection H as -> H. exact (L t d H).
Qed.
Lemma drop_same s : (forall t c, s = t ++ [c] -> ~ dot_or_blank c) -> drop_trailing s = s.
Proof.
  induction s as [|c s IH]; intros H; [reflexivity|]. cbn [drop_trailing]. destruct s as [|x s].
  - cbn [drop_trailing]. specialize (H [] c eq_refl). unfold dot_or_blank in H. replace (_ || _) with false by lia. reflexivity.
  - rewrite IH; [reflexivity|]. intros t d E. apply (H (c :: t) d). rewrite E. reflexivity.
Qed.

Lemma devices_eq : devices = map (map lower) device_names.
Proof. vm_compute. reflexivity. Qed.
Lemma starts_iff s : existsb (starts_device s) device_names = true <-> device s.
Proof.
  rewrite existsb_exists. split.
  - intros (d & I & H). apply andb_true_iff in H as [P Q]. apply prefixb_iff in P as [t P].
    exists (firstn (length d) s), (skipn (length d) s). split; [symmetry; apply firstn_skipn|]. split.
    + rewrite <- firstn_map, P, firstn_app, map_length, Nat.sub_diag, firstn_O, app_nil_r.
      rewrite firstn_all2 by (rewrite map_length; lia). rewrite devices_eq. apply in_map, I.
    + destruct (skipn (length d) s) as [|c r]; [left; reflexivity|]. right. apply Z.eqb_eq in Q. subst c. exists r. reflexivity.
  - intros (d & r & -> & I & R). rewrite devices_eq in I. apply in_map_iff in I as (d0 & E & I). exists d0. split; [exact I|].
    assert (L : length d0 = length d) by (rewrite <- (map_length lower d0), E, map_length; reflexivity).
    apply andb_true_iff. split; [apply prefixb_iff; exists (map lower r); rewrite map_app, E; reflexivity|].
    rewrite L, skipn_app, skipn_all, Nat.sub_diag. cbn [app skipn]. destruct R as [-> |[r' ->]]; reflexivity.
Qed.
Lemma lower_95 c : lower c = 95 -> c = 95.
Proof. unfold lower. destruct ((65 <=? c) && (c <=? 90)) eqn:B; lia. Qed.
Lemma device_prefixed r : ~ device (95 :: r).
Proof.
  intros (d & t & E & I & _). destruct d as [|c d].
  - assert (X : existsb (beqb []) devices = true) by (apply existsb_exists; exists []; split; [exact I|reflexivity]). vm_compute in X. discriminate.
  - injection E as <- _. assert (X : existsb (fun w => match w with x :: _ => x =? 95 | [] => false end) devices = true).
    { apply existsb_exists. exists (map lower (95 :: d)). split; [exact I|reflexivity]. }
    vm_compute in X. discriminate.
Qed.

Theorem make_valid_safe : forall s, safe_name (make_valid false s).
Proof.
  intros s. unfold make_valid. destruct (drop_spec (map (valid_char false) s)) as (b & E & F & L).
  set (r := drop_trailing _) in *. assert (C : Forall (fun c => ~ bad_char c) r).
  { assert (X : Forall (fun c => ~ bad_char c) (map (valid_char false) s)).
    { apply Forall_map, Forall_forall. intros c _. unfold valid_char. cbn [andb]. destruct (reserved_char c) eqn:R.
      - unfold bad_char. cbn [In]. lia.
      - rewrite <- reserved_iff. congruence. }
    rewrite E in X. apply Forall_app in X. tauto. }
  destruct (existsb (starts_device r) device_names) eqn:D.
  - split; [constructor; [unfold bad_char; cbn [In]; lia|exact C]|]. split; [|apply device_prefixed].
    intros [|y t] c H.
    + injection H as <- _. unfold dot_or_blank. lia.
    + injection H as _ H. exact (L t c H).
  - split; [exact C|]. split; [exact L|]. rewrite <- starts_iff. congruence.
Qed.
Theorem make_valid_same : forall s, safe_name s -> make_valid false s = s.
Proof.
  intros s (C & L & D). unfold make_valid. replace (map (valid_char false) s) with s.
  2:{ symmetry. erewrite map_ext_in; [apply map_id|]. intros c I. rewrite Forall_forall in C. specialize (C c I). cbv beta.
      unfold valid_char. rewrite <- reserved_iff in C. destruct (reserved_char c); [exfalso; apply C; reflexivity|reflexivity]. }
  rewrite drop_same by exact L. destruct (existsb (starts_device s) device_names) eqn:E; [|reflexivity].
  apply starts_iff in E. contradiction.
Qed.
(** What is left of a name. *)
Theorem make_valid_rest : forall s, exists u t b,
  make_valid false s = u ++ t /\ (u = [] /\ ~ device t \/ u = [95] /\ device t) /\
  Forall dot_or_blank b /\ Forall2 replaced_char s (t ++ b).
Proof.
  intros s. unfold make_valid. destruct (drop_spec (map (valid_char false) s)) as (b & E & F & L).
  set (r := drop_trailing _) in *.
  assert (X : Forall2 replaced_char s (r ++ b)).
  { rewrite <- E. clear. induction s as [|c s IH]; [constructor|]. constructor; [|exact IH].
    unfold valid_char, replaced_char. cbn [andb]. destruct (reserved_char c) eqn:R.
    - left. split; [apply reserved_iff, R|reflexivity].
    - right. split; [rewrite <- reserved_iff; congruence|reflexivity]. }
  destruct (existsb (starts_device r) device_names) eqn:D.
  - exists [95], r, b. split; [reflexivity|]. split; [right; split; [reflexivity|apply starts_iff, D]|]. split; assumption.
  - exists [], r, b. split; [reflexivity|]. split; [left; split; [reflexivity|rewrite <- starts_iff; congruence]|]. split; assumption.
Qed.

(** ** Directories *)
Lemma comps_app a b : comps (a ++ 47 :: b) = comps a ++ comps b.
Proof.
  induction a as [|c a IH]; [reflexivity|]. change ((c :: a) ++ 47 :: b) with (c :: a ++ 47 :: b). cbn [comps]. rewrite IH.
  destruct (c =? 47); [reflexivity|]. destruct (comps a) as [|h t] eqn:E; [|reflexivity].
  destruct a as [|x a]; [discriminate|]. cbn [comps] in E. destruct (x =? 47); [discriminate|]. destruct (comps a); discriminate.
Qed.
Lemma comps_single s : ~ In 47 s -> comps s = [s].
Proof.
  induction s as [|c s IH]; intros H; [reflexivity|]. cbn [comps]. replace (c =? 47) with false.
  - rewrite IH by (intros I; apply H; right; exact I). reflexivity.
  - symmetry. apply Z.eqb_neq. intros ->. apply H. left. reflexivity.
Qed.
Lemma enter_down cs : ~ In (str "..") cs -> forall d, exists r, fold_left enter cs d = d ++ r.
Proof.
  induction cs as [|c cs IH]; intros N d; [exists []; cbn; rewrite app_nil_r; reflexivity|]. cbn [fold_left].
  assert (N' : ~ In (str "..") cs) by (intros I; apply N; right; exact I).
  assert (E : exists r, enter d c = d ++ r).
  { unfold enter. destruct (beqb c [] || beqb c (str ".")); [exists []; rewrite app_nil_r; reflexivity|].
    destruct (beqb c (str "..")) eqn:B; [|exists [c]; reflexivity]. apply beqb_eq in B. exfalso. apply N. left. exact B. }
  destruct E as [r ->]. destruct (IH N' (d ++ r)) as [r' ->]. exists (r ++ r'). rewrite app_assoc. reflexivity.
Qed.
Lemma place_app d rest : ~ In (str "..") (comps rest) -> exists r, place (d ++ 47 :: rest) = place d ++ r.
Proof. intros N. unfold place. rewrite comps_app, fold_left_app. apply enter_down, N. Qed.
Lemma place_name d name : ~ In 47 name -> name <> [] -> name <> str "." -> name <> str ".." -> place (d ++ 47 :: name) = place d ++ [name].
Proof.
  intros N E1 E2 E3. unfold place. rewrite comps_app, fold_left_app, comps_single by exact N. cbn [fold_left]. unfold enter at 1.
  assert (B : forall x, name <> x -> beqb name x = false) by (intros x; apply beqb_neq). rewrite !B by assumption. reflexivity.
Qed.
Lemma safe_component name : safe_name name -> name <> [] -> ~ In 47 name /\ name <> str "." /\ name <> str "..".
Proof.
  intros (C & L & _) N. split; [|split].
  - intros I. rewrite Forall_forall in C. apply (C 47 I). unfold bad_char. cbn [In]. lia.
  - intros ->. apply (L [] 46 eq_refl). unfold dot_or_blank. lia.
  - intros ->. apply (L [46] 46 eq_refl). unfold dot_or_blank. lia.
Qed.

(** Components of a category directory. *)
Lemma comps_ne s : comps s <> [].
Proof. destruct s as [|c r]; [discriminate|]. cbn [comps]. destruct (c =? 47); [discriminate|]. destruct (comps r); discriminate. Qed.
Definition starts (c : list Z) (s : list Z) : Prop := exists b, s = c ++ b /\ (b = [] \/ exists b', b = 47 :: b').
Lemma comps_parts s : forall h t, comps s = h :: t ->
  starts h s /\ forall c, In c t -> exists a s', s = a ++ 47 :: s' /\ starts c s'.
Proof.
  induction s as [|x s IH]; intros h t H; cbn [comps] in H.
  - injection H as <- <-. split; [exists []; split; [reflexivity|left; reflexivity]|intros c []].
  - destruct (comps s) as [|g m] eqn:E; [destruct (comps_ne s E)|]. destruct (IH _ _ eq_refl) as [S P].
    destruct (Z.eqb_spec x 47) as [->|N]; injection H as <- <-.
    + split; [exists (47 :: s); split; [reflexivity|right; exists s; reflexivity]|]. intros c [<-|I].
      * exists [], s. split; [reflexivity|exact S].
      * destruct (P c I) as (a & s' & -> & S'). exists (47 :: a), s'. split; [reflexivity|exact S'].
    + split.
      * destruct S as (b & -> & B). exists b. split; [reflexivity|exact B].
      * intros c I. destruct (P c I) as (a & s' & -> & S'). exists (x :: a), s'. split; [reflexivity|exact S'].
Qed.
Lemma in_comps c s : In c (comps s) -> exists a s', s = a ++ s' /\ (a = [] \/ exists a', a = a' ++ [47]) /\ starts c s'.
Proof.
  intros I. destruct (comps s) as [|h t] eqn:E; [destruct I|]. destruct (comps_parts _ _ _ E) as [S P]. destruct I as [->|I].
  - exists [], s. split; [reflexivity|]. split; [left; reflexivity|exact S].
  - destruct (P c I) as (a & s' & -> & S'). exists (a ++ [47]), s'. split; [rewrite <- app_assoc; reflexivity|]. split; [right; exists a; reflexivity|exact S'].
Qed.
Lemma starts_comps c s : ~ In 47 c -> starts c s -> In c (comps s).
Proof.
  intros N (b & -> & [-> |[b' ->]]).
  - rewrite app_nil_r, comps_single by exact N. left. reflexivity.
  - rewrite comps_app, comps_single by exact N. left. reflexivity.
Qed.

Definition to_slash (c : Z) : Z := if c =? 92 then 47 else c.
Lemma vchar_dot c : valid_char true c = 46 -> c = 46.
Proof. unfold valid_char, slash, backslash. destruct (reserved_char c) eqn:B; [|auto]. cbn [andb]. destruct ((c =? 47) || (c =? 92)); lia. Qed.
Lemma vchar_slash c : valid_char true c = 47 -> to_slash c = 47.
Proof. unfold valid_char, slash, backslash, to_slash. destruct (reserved_char c) eqn:B; cbn [andb]; [destruct ((c =? 47) || (c =? 92)) eqn:E|]; destruct (Z.eqb_spec c 92); lia. Qed.
Lemma map_split {A B} (f : A -> B) l a b : map f l = a ++ b -> exists a' b', l = a' ++ b' /\ map f a' = a /\ map f b' = b.
Proof.
  revert l. induction a as [|x a IH]; intros l E; [exists [], l; repeat split; exact E|]. destruct l as [|y l]; [discriminate|].
  injection E as E1 E2. destruct (IH _ E2) as (a' & b' & -> & <- & <-). exists (y :: a'), b'. rewrite <- E1. repeat split; reflexivity.
Qed.
Lemma category_down category : no_parent category -> ~ In (str "..") (comps (make_valid true category)).
Proof.
  intros N I. unfold no_parent in N. change (fun c : Z => if c =? 92 then 47 else c) with to_slash in N.
  unfold make_valid in I. destruct (drop_spec (map (valid_char true) category)) as (tail & E & F & L). set (r := drop_trailing _) in *.
  assert (X : exists a b', r = a ++ [46; 46; 47] ++ b' /\ (a = [] \/ exists a', a = a' ++ [47])).
  { assert (Y : forall s, (forall t c, s = t ++ [c] -> ~ dot_or_blank c) -> In (str "..") (comps s) ->
              exists a b', s = a ++ [46; 46; 47] ++ b' /\ (a = [] \/ exists a', a = a' ++ [47])).
    { intros s LS IS. apply in_comps in IS as (a & s' & -> & A & b & -> & [-> |[b' ->]]).
      - exfalso. apply (LS (a ++ [46]) 46); [rewrite <- app_assoc; reflexivity|unfold dot_or_blank; lia].
      - exists a, b'. split; [reflexivity|exact A]. }
    destruct (existsb (starts_device r) device_names); [|exact (Y r L I)].
    destruct (Y (95 :: r)) as (a & b' & Q & A); [|exact I|].
    { intros [|y t] c H; [injection H as <- _; unfold dot_or_blank; lia|]. injection H as _ H. exact (L t c H). }
    destruct a as [|x a]; [discriminate|]. injection Q as <- Q. exists a, b'. split; [exact Q|]. right.
    destruct A as [A|[a' A]]; [discriminate|]. destruct a' as [|y a']; [injection A as A _; discriminate|]. injection A as _ A. exists a'. exact A. }
  destruct X as (a & b' & R & A). apply N.
  assert (M : map (valid_char true) category = a ++ [46; 46; 47] ++ b' ++ tail) by (rewrite E, R, <- !app_assoc; reflexivity).
  apply map_split in M as (a0 & c0 & -> & MA & M). apply map_split in M as (p0 & b0 & -> & MP & MB).
  destruct p0 as [|x [|y [|z [|w p0]]]]; try discriminate MP. injection MP as M1 M2 M3.
  apply vchar_dot in M1, M2. apply vchar_slash in M3. subst x y. rewrite !map_app. cbn [map]. rewrite M3. change (to_slash 46) with 46.
  assert (S : In (str "..") (comps ([46; 46; 47] ++ map to_slash b0))).
  { apply starts_comps; [vm_compute; lia|]. exists (47 :: map to_slash b0). split; [reflexivity|right; eexists; reflexivity]. }
  destruct A as [-> |[a' ->]].
  - apply map_eq_nil in MA. subst a0. exact S.
  - apply map_split in MA as (a1 & s1 & -> & _ & MS). destruct s1 as [|q [|? ?]]; try discriminate MS. injection MS as MS. apply vchar_slash in MS.
    rewrite map_app. cbn [map]. rewrite MS, <- app_assoc. change ([47] ++ ?x) with (47 :: x). rewrite comps_app. apply in_or_app. right. exact S.
Qed.

Theorem final_dir_inside : forall dest cat_dir append category filename ext,
  no_parent category -> make_nice filename ext <> [] ->
  inside (home dest cat_dir category) (final_dir dest cat_dir append category (make_nice filename ext)).
Proof.
  intros dest cat_dir append category filename ext NP NE. set (name := make_nice filename ext) in *.
  assert (S : safe_name name) by (unfold name, make_nice; apply make_valid_safe).
  destruct (safe_component name S NE) as (N1 & N2 & N3). clearbody name.
  unfold final_dir, slash. set (base := match cat_dir with Some (c :: d) => if negb (match category with [] => true | _ => false end) then c :: d else dest | _ => dest end).
  assert (B : base = home dest cat_dir category).
  { unfold base, home. destruct cat_dir as [[|c d]|]; try reflexivity; destruct category; reflexivity. }
  rewrite B. clear B base. set (h := home _ _ _). cbv zeta. destruct (append && _ && _).
  - destruct (place_app h (make_valid true category) (category_down category NP)) as [r E].
    exists (r ++ [name]). split; [destruct r; discriminate|]. rewrite place_name by assumption. rewrite E, app_assoc. reflexivity.
  - exists [name]. split; [discriminate|]. apply place_name; assumption.
Qed.
Theorem inter_dir_inside : forall inter id dest cat_dir append category filename ext, inter <> [] -> 0 < id ->
  inside inter (dest_dir inter id dest cat_dir append category (make_nice filename ext)).
Proof.
  intros inter id dest cat_dir append category filename ext NE ID. unfold dest_dir. destruct inter as [|c i]; [contradiction|].
  set (inter := c :: i) in *. clearbody inter. set (name := make_nice _ _).
  assert (S : safe_name name) by (unfold name, make_nice; apply make_valid_safe).
  exists [name ++ str ".#" ++ zdec id]. split; [discriminate|]. unfold slash. apply place_name.
  - intros I. apply in_app_or in I as [I|I].
    + destruct S as (C & _ & _). rewrite Forall_forall in C. apply (C 47 I). unfold bad_char. cbn [In]. lia.
    + apply in_app_or in I as [I|I]; [vm_compute in I; lia|]. assert (Z := zdec_no id 47 ltac:(lia) eq_refl). rewrite Forall_forall in Z. exact (Z 47 I eq_refl).
  - destruct name; discriminate.
  - intros H. apply (f_equal (@length Z)) in H. rewrite !app_length in H. cbn in H. lia.
  - intros H. assert (I : In 35 (str "..")) by (rewrite <- H; apply in_or_app; right; right; left; reflexivity). vm_compute in I. lia.
Qed.

(** ** New names *)
Lemma exists_in_iff files p : exists_in files p = true <-> In p files.
Proof.
  unfold exists_in. rewrite existsb_exists. split.
  - intros (x & I & E). apply beqb_eq in E. subst. exact I.
  - intros I. exists p. split; [exact I|apply beqb_refl].
Qed.
Lemma loop_some files cand : forall fuel cur n r, unique_loop fuel files cand cur n = Some r -> 0 <= n ->
  ~ In r files /\ (r = cur \/ In cur files /\ exists m, n < m /\ r = cand m /\ forall k, n < k < m -> In (cand k) files).
Proof.
  induction fuel as [|fuel IH]; intros cur n r H P; [discriminate|]. cbn [unique_loop] in H. destruct (exists_in files cur) eqn:E.
  - destruct (IH _ _ _ H ltac:(lia)) as [NI [-> |(C & m & L & -> & A)]]; (split; [exact NI|right]); (split; [apply exists_in_iff, E|]).
    + exists (n + 1). split; [lia|]. split; [reflexivity|]. intros k K. lia.
    + exists m. split; [lia|]. split; [reflexivity|]. intros k K. destruct (Z.eq_dec k (n + 1)) as [->|NK]; [exact C|]. apply A. lia.
  - injection H as <-. split; [intros I; apply exists_in_iff in I; congruence|left; reflexivity].
Qed.
Lemma loop_none files cand : forall fuel cur n, unique_loop fuel files cand cur n = None ->
  forall k, n < k < n + Z.of_nat fuel -> In (cand k) files.
Proof.
  induction fuel as [|fuel IH]; intros cur n H k K; [lia|]. cbn [unique_loop] in H. destruct (exists_in files cur) eqn:E; [|discriminate].
  destruct (Z.eq_dec k (n + 1)) as [->|NK].
  - destruct fuel as [|fuel]; [lia|]. cbn [unique_loop] in H. destruct (exists_in files (cand (n + 1))) eqn:E'; [apply exists_in_iff, E'|discriminate].
  - apply (IH _ _ H). lia.
Qed.
Lemma loop_ends files cand cur n : (forall i j, n < i -> n < j -> cand i = cand j -> i = j) ->
  exists r, unique_loop (S (S (length files))) files cand cur n = Some r.
Proof.
  intros INJ. destruct (unique_loop (S (S (length files))) files cand cur n) as [r|] eqn:E; [exists r; reflexivity|]. exfalso.
  set (l := map (fun i => cand (n + 1 + Z.of_nat i)) (seq 0 (S (length files)))).
  assert (ND : NoDup l).
  { unfold l. apply FinFun.Injective_map_NoDup; [|apply seq_NoDup]. intros i j Q. apply INJ in Q; lia. }
  assert (IN : incl l files).
  { intros x I. unfold l in I. apply in_map_iff in I as (i & <- & I). apply in_seq in I. apply (loop_none _ _ _ _ _ E). lia. }
  assert (L := NoDup_incl_length ND IN). unfold l in L. rewrite map_length, seq_length in L. lia.
Qed.
Lemma zdec_inj i j : zdec i = zdec j -> i = j.
Proof. intros H. rewrite <- (atoll_zdec i [] I), <- (atoll_zdec j [] I), H. reflexivity. Qed.

Lemma parts_ok base : (length base < 1024)%nat -> let '(stem, ext) := unique_parts base in name_parts base stem ext.
Proof.
  intros L. unfold unique_parts. destruct (strrchr dot base) as [[[|c a] ext]|] eqn:E.
  - apply strrchr_some in E as [E (r & -> & N)]. cbn [app] in E. apply np_none. intros a e Q (r' & -> & N').
    destruct a as [|x a]; [reflexivity|]. exfalso. rewrite E in Q. injection Q as <- Q. apply N. rewrite Q. apply in_or_app. right. left. reflexivity.
  - apply strrchr_some in E as [E (r & -> & N)]. rewrite firstn_all2 by (rewrite E, app_length in L; lia).
    assert (X : extension (46 :: r)) by (exists r; split; [reflexivity|exact N]). unfold dot in *.
    assert (SN : forall t : list Z, same_nocase t (str ".par2") = true <-> map lower t = str ".par2").
    { intros t. unfold same_nocase. rewrite beqb_eq. reflexivity. }
    destruct (same_nocase (46 :: r) (str ".par2")) eqn:P.
    + destruct (strrchr 46 (c :: a)) as [[[|d v] vol]|] eqn:E2.
      * apply strrchr_some in E2 as [E2 (q & -> & NQ)]. rewrite E. apply np_ext; [discriminate|exact X|].
        intros _ a' v' Q NA (q' & -> & NQ') _. cbn [app] in E2. rewrite E2 in Q. destruct a' as [|y a']; [contradiction|]. injection Q as _ Q.
        apply NQ. rewrite Q. apply in_or_app. right. left. reflexivity.
      * apply strrchr_some in E2 as [E2 (q & -> & NQ)]. destruct (prefixb (str ".vol") (map lower (46 :: q))) eqn:PV.
        -- rewrite E, E2. rewrite <- app_assoc.
           replace (skipn (length (d :: v)) ((d :: v) ++ (46 :: q) ++ 46 :: r)) with ((46 :: q) ++ 46 :: r).
           2:{ rewrite skipn_app, skipn_all, Nat.sub_diag. reflexivity. }
           apply np_vol; [discriminate|exact X|apply SN, P|exists q; split; [reflexivity|exact NQ]|].
           apply prefixb_iff in PV as [t PV]. rewrite PV. reflexivity.
        -- rewrite E. apply np_ext; [discriminate|exact X|]. intros _ a' v' Q NA (q' & -> & NQ') FV.
           rewrite E2 in Q. assert (Y := strrchr_app 46 (d :: v) q NQ). rewrite Q, (strrchr_app 46 a' q' NQ') in Y. injection Y as _ ->.
           assert (Z : prefixb (str ".vol") (map lower (46 :: q)) = true).
           { apply prefixb_iff. exists (skipn 4 (map lower (46 :: q))). rewrite <- FV. symmetry. apply firstn_skipn. }
           congruence.
      * apply strrchr_none in E2. rewrite E. apply np_ext; [discriminate|exact X|]. intros _ a' v' Q NA (q' & -> & NQ') _.
        apply E2. rewrite Q. apply in_or_app. right. left. reflexivity.
    + rewrite E. apply np_ext; [discriminate|exact X|]. intros Q. exfalso. apply SN in Q. congruence.
  - apply strrchr_none in E. apply np_none. intros a e Q (r' & -> & N'). exfalso. apply E. rewrite Q. apply in_or_app. right. left. reflexivity.
Qed.

Theorem make_unique_ok : forall files dir base, (length base < 1024)%nat ->
  exists r, make_unique (S (S (length files))) files dir base = Some r /\ ~ In r files /\
    (r = dir ++ 47 :: base \/
     In (dir ++ 47 :: base) files /\ exists stem ext n, name_parts base stem ext /\ 0 < n /\
       r = dir ++ 47 :: stem ++ str ".duplicate" ++ zdec n ++ ext /\
       forall k, 0 < k < n -> In (dir ++ 47 :: stem ++ str ".duplicate" ++ zdec k ++ ext) files).
Proof.
  intros files dir base L. unfold make_unique. assert (P := parts_ok base L). unfold unique_candidate. destruct (unique_parts base) as [stem ext].
  set (cand := fun n => dir ++ slash :: stem ++ str ".duplicate" ++ zdec n ++ ext).
  change (fun n : Z => dir ++ slash :: stem ++ str ".duplicate" ++ zdec n ++ ext) with cand.
  destruct (loop_ends files cand (dir ++ slash :: base) 0) as [r E].
  { intros i j _ _ Q. unfold cand in Q. apply app_inv_head in Q. injection Q as Q. apply app_inv_head in Q. injection Q as Q.
    apply app_inv_tail in Q. exact (zdec_inj _ _ Q). }
  exists r. split; [exact E|]. destruct (loop_some _ _ _ _ _ _ E ltac:(lia)) as [NI [-> |(I & m & M & -> & A)]]; (split; [exact NI|]); [left; reflexivity|].
  right. split; [exact I|]. exists stem, ext, m. split; [exact P|]. split; [exact M|]. split; [reflexivity|exact A].
Qed.
Theorem rename_bak_ok : forall used filename part, 
  exists r, rename_bak (S (S (length used))) used filename part false = Some r /\ ~ In r used /\
    (r = filename ++ 46 :: part \/ In (filename ++ 46 :: part) used /\ exists n, 1 < n /\ r = filename ++ 46 :: zdec n ++ 46 :: part /\
       forall k, 1 < k < n -> In (filename ++ 46 :: zdec k ++ 46 :: part) used).
Proof.
  intros used filename part. unfold rename_bak, bak_stem. set (cand := fun i => filename ++ dot :: zdec i ++ dot :: part).
  destruct (loop_ends used cand (filename ++ dot :: part) 1) as [r E].
  { intros i j _ _ Q. unfold cand in Q. apply app_inv_head in Q. injection Q as Q. apply app_inv_tail in Q. exact (zdec_inj _ _ Q). }
  exists r. split; [exact E|]. destruct (loop_some _ _ _ _ _ _ E ltac:(lia)) as [NI [-> |(I & m & M & -> & A)]]; (split; [exact NI|]); [left; reflexivity|].
  right. split; [exact I|]. exists m. split; [exact M|]. split; [reflexivity|exact A].
Qed.

Lemma base_name_ok s : last_part s (base_name s).
Proof.
  unfold base_name, last_part, slash, backslash.
  assert (T : forall (c : Z) (a r r' : list Z), s = a ++ c :: r -> separator c -> ~ In 47 r -> ~ In 92 r -> tl (c :: r) = r' ->
    exists dir, s = dir ++ r' /\ (dir = [] \/ exists d c, dir = d ++ [c] /\ separator c) /\ Forall (fun c => ~ separator c) r').
  { intros c a r r' E S N1 N2 <-. exists (a ++ [c]). cbn [tl]. split; [rewrite <- app_assoc; exact E|]. split; [right; exists a, c; auto|].
    apply Forall_forall. intros x I [-> | ->]; contradiction. }
  assert (Cut : forall (x y : Z) (a1 r1 a2 r2 : list Z), x <> y -> a1 ++ x :: r1 = a2 ++ y :: r2 -> (length a1 < length a2)%nat -> In y r1).
  { intros x y a1. induction a1 as [|z a1 IH]; intros r1 [|w a2] r2 N E L; cbn [length] in L; try lia.
    - cbn [app] in E. injection E as _ ->. apply in_or_app. right. left. reflexivity.
    - cbn [app] in E. injection E as -> E. apply (IH r1 a2 r2 N E). lia. }
  destruct (strrchr 47 s) as [[a b]|] eqn:E1; destruct (strrchr 92 s) as [[a' b']|] eqn:E2.
  - apply strrchr_some in E1 as [E1 (r & -> & N1)]. apply strrchr_some in E2 as [E2 (r' & -> & N2)].
    assert (Q : a ++ 47 :: r = a' ++ 92 :: r') by congruence.
    assert (D : length a <> length a').
    { intros D. assert (X := f_equal (skipn (length a)) Q). rewrite skipn_app, skipn_all, Nat.sub_diag, D, skipn_app, skipn_all, Nat.sub_diag in X. discriminate. }
    destruct (Nat.ltb_spec (length a) (length a')) as [L | L].
    + refine (T _ _ _ _ E2 (or_intror eq_refl) _ N2 eq_refl). intros I. apply N1.
      assert (X := f_equal (skipn (S (length a))) Q). replace (a ++ 47 :: r) with ((a ++ [47]) ++ r) in X by (rewrite <- app_assoc; reflexivity).
      rewrite skipn_app in X. rewrite skipn_all2 in X by (rewrite app_length; cbn; lia). rewrite app_length in X. cbn [length] in X.
      replace (S (length a) - (length a + 1))%nat with 0%nat in X by lia. cbn [app skipn] in X. change (r = skipn (S (length a)) (a' ++ 92 :: r')) in X.
      rewrite X, skipn_app. replace (S (length a) - length a')%nat with 0%nat by lia. apply in_or_app. right. right. exact I.
    + refine (T _ _ _ _ E1 (or_introl eq_refl) N1 _ eq_refl). intros I. apply N2.
      assert (X := f_equal (skipn (S (length a'))) Q). replace (a' ++ 92 :: r') with ((a' ++ [92]) ++ r') in X by (rewrite <- app_assoc; reflexivity).
      rewrite (skipn_app _ (a' ++ [92])) in X. rewrite (skipn_all2 (a' ++ [92])) in X by (rewrite app_length; cbn; lia). rewrite app_length in X. cbn [length] in X.
      replace (S (length a') - (length a' + 1))%nat with 0%nat in X by lia. cbn [app] in X. change (skipn (S (length a')) (a ++ 47 :: r) = r') in X.
      rewrite <- X, skipn_app. replace (S (length a') - length a)%nat with 0%nat by lia. apply in_or_app. right. right. exact I.
  - apply strrchr_some in E1 as [E1 (r & -> & N1)]. refine (T _ _ _ _ E1 (or_introl eq_refl) N1 _ eq_refl).
    apply strrchr_none in E2. intros I. apply E2. rewrite E1. apply in_or_app. right. right. exact I.
  - apply strrchr_some in E2 as [E2 (r & -> & N2)]. refine (T _ _ _ _ E2 (or_intror eq_refl) _ N2 eq_refl).
    apply strrchr_none in E1. intros I. apply E1. rewrite E2. apply in_or_app. right. right. exact I.
  - apply strrchr_none in E1. apply strrchr_none in E2. exists []. split; [reflexivity|]. split; [left; reflexivity|].
    apply Forall_forall. intros x I [-> | ->]; contradiction.
Qed.

Lemma dots_lower e : In 46 e <-> In 46 (map lower e).
Proof.
  rewrite in_map_iff. split; [intros I; exists 46; split; [reflexivity|exact I]|]. intros (x & E & I). enough (x = 46) by congruence.
  revert E. unfold lower. destruct ((65 <=? x) && (x <=? 90)) eqn:B; lia.
Qed.

Lemma nice_ok filename ext : exists name stem, last_part filename name /\ make_nice filename ext = make_valid false stem /\
  (if ext then without_nzb (firstn 1023 name) stem else stem = firstn 1023 name).
Proof.
  exists (base_name filename). unfold make_nice. cbv zeta. destruct ext; [|eexists; split; [apply base_name_ok|]; split; reflexivity].
  set (n := firstn 1023 (base_name filename)). eexists. split; [apply base_name_ok|]. split; [reflexivity|]. clearbody n. unfold without_nzb.
  assert (U : forall a e, n = a ++ e -> map lower e = str ".nzb" -> strrchr dot n = Some (a, e)).
  { intros a e -> E. destruct e as [|c e]; [discriminate|]. cbn [map] in E. change (str ".nzb") with (46 :: str "nzb") in E. injection E as E E'.
    assert (C : c = 46) by (revert E; unfold lower; destruct ((65 <=? c) && (c <=? 90)) eqn:B; lia).
    subst c. apply strrchr_app. rewrite dots_lower.
    rewrite E'. vm_compute. intuition discriminate. }
  destruct (strrchr dot n) as [[a b]|] eqn:R.
  - destruct (same_nocase b (str ".nzb")) eqn:Sm; unfold same_nocase in Sm.
    + left. exists b. apply strrchr_some in R as [R _]. split; [exact R|]. apply beqb_eq in Sm. exact Sm.
    + right. split; [|reflexivity]. intros a' e E X. assert (Y := U _ _ E X). injection Y as <- <-. rewrite X in Sm. discriminate.
  - right. split; [|reflexivity]. intros a' e E X. assert (Y := U _ _ E X). discriminate.
Qed.
