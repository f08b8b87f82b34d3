(** Lemmas about the reading of nzb-files: content hashes, password, the whole. *)
From Coq Require Import String.
From Coq Require Import Permutation Sorted.
From Verif Require Import Base NumFmt WildModel WildSpec WildProofs TextProofs CodecModel CodecProofs2 NameModel NameSpec NameProofs
  MoveModel MoveSpec SortProofs WebSpec WebProofs LineProofs NzbModel NzbSpec NzbProofs NzbProofs2 NzbProofs3 NzbProofs4.
Open Scope list_scope. Open Scope Z_scope.

(** ** Ignored extensions *)

Lemma ends_iff name e : ends_nocase name e = true <-> exists a b, name = a ++ b /\ same_nocase e b.
Proof.
  unfold ends_nocase, same_nocase. split.
  - intros H. apply andb_true_iff in H as [L E]. apply Nat.leb_le in L. apply beqb_eq in E.
    exists (firstn (length name - length e) name), (skipn (length name - length e) name). split; [symmetry; apply firstn_skipn|exact E].
  - intros (a & b & -> & E). assert (LE : length e = length b) by (apply (f_equal (@length Z)) in E; rewrite !map_length in E; exact E).
    rewrite app_length. apply andb_true_iff. split; [apply Nat.leb_le; lia|].
    replace (length a + length b - length e)%nat with (length a) by lia. rewrite skipn_app, skipn_all, Nat.sub_diag. cbn [app skipn].
    rewrite E. apply beqb_refl.
Qed.
Lemma existsb_eq c l : existsb (Z.eqb c) l = true <-> In c l.
Proof.
  rewrite existsb_exists. split; [intros (x & I & E); apply Z.eqb_eq in E; subst; exact I|]. intros I. exists c. split; [exact I|apply Z.eqb_refl].
Qed.
Definition hits (m name : list Z) : Prop :=
  (exists a b, name = a ++ b /\ same_nocase m b) \/ ((In 42 m \/ In 63 m) /\ glob wild_char m name).
Lemma match_any_ok name : nonul name -> forall l, exists b, match_any l name = Some b /\ (b = true <-> exists m, In m l /\ hits m name).
Proof.
  intros N. induction l as [|m l (b & E & H)]; cbn [match_any].
  - exists false. split; [reflexivity|]. split; [discriminate|]. intros (m & [] & _).
  - destruct (ends_nocase name m) eqn:EN.
    { exists true. split; [reflexivity|]. split; [|reflexivity]. intros _. exists m. split; [left; reflexivity|]. left. apply ends_iff, EN. }
    assert (NE : ~ exists a b, name = a ++ b /\ same_nocase m b) by (rewrite <- ends_iff; congruence).
    destruct (existsb (Z.eqb 42) m || existsb (Z.eqb 63) m) eqn:W.
    + apply orb_true_iff in W. rewrite !existsb_eq in W.
      destruct (wild_match_ok false m name N) as (w & g & EW & HW). rewrite EW. destruct w.
      * exists true. split; [reflexivity|]. split; [|reflexivity]. intros _. exists m. split; [left; reflexivity|]. right. split; [exact W|apply HW; reflexivity].
      * exists b. split; [exact E|]. rewrite H. split.
        -- intros (x & I & G). exists x. split; [right; exact I|exact G].
        -- intros (x & [<- | I] & G); [|exists x; auto]. destruct G as [G | [_ G]]; [contradiction|]. apply HW in G. discriminate.
    + exists b. split; [exact E|]. rewrite H. split.
      * intros (x & I & G). exists x. split; [right; exact I|exact G].
      * intros (x & [<- | I] & G); [|exists x; auto]. exfalso. destruct G as [G | [G _]]; [contradiction|].
        apply orb_false_iff in W as [W1 W2]. destruct G as [G | G]; apply existsb_eq in G; congruence.
Qed.
Lemma match_ext_ok name exts : nonul name -> exists b, match_ext name exts = Some b /\ (b = true <-> ignored exts name).
Proof.
  intros N. unfold match_ext. rewrite tokens_ok.
  destruct (match_any_ok name N (TextProofs.kept (str ",;") exts)) as (b & E & H). exists b. split; [exact E|]. rewrite H.
  unfold ignored. split.
  - intros (m & I & G). unfold TextProofs.kept in I. apply filter_In in I as [I Ne]. apply in_map_iff in I as (f & <- & I).
    rewrite (fields_ext _ list_sep) in I by apply sep_same. exists f, (WildModel.trim f). split; [exact I|]. split; [apply trim_ok|].
    split; [|exact G]. intros X. rewrite X in Ne. discriminate.
  - intros (f & m & I & T & Ne & G). exists m. split; [|exact G]. unfold TextProofs.kept. apply filter_In. split.
    + apply in_map_iff. exists f. split; [apply (trimmed_unique f); [apply trim_ok|exact T]|].
      rewrite (fields_ext _ list_sep) by apply sep_same. exact I.
    + destruct m; [congruence|reflexivity].
Qed.

(** ** Content hashes *)

Definition count_b (ignore : list Z) (f : dfile) : bool :=
  d_par f || match match_ext (d_name f) ignore with Some true => false | _ => true end.
Lemma count_b_iff ignore f : nonul (d_name f) -> (count_b ignore f = true <-> counts ignore f).
Proof.
  intros N. unfold count_b, counts. destruct (match_ext_ok (d_name f) ignore N) as (b & E & H). rewrite E, orb_true_iff.
  destruct b; split; intros [G | G]; auto; try discriminate.
  - exfalso. apply G, H. reflexivity.
  - right. intros X. apply H in X. discriminate.
Qed.
Lemma ids_ok f : Forall (fun x => na_id (snd x) <> None) (kept (d_src f)) -> ids_of f = Some (message_ids [f]).
Proof.
  intros F. unfold ids_of, message_ids. cbn [flat_map]. rewrite app_nil_r. apply all_some_ok.
  induction F as [|[n a] l H F IH]; [reflexivity|]. cbn [map flat_map snd] in *. destruct (na_id a) as [i|]; [|contradiction].
  cbn [app map]. rewrite IH. reflexivity.
Qed.
Lemma message_ids_cons f l : message_ids (f :: l) = message_ids [f] ++ message_ids l.
Proof. unfold message_ids. cbn [flat_map]. rewrite app_nil_r. reflexivity. Qed.
Lemma hash_files_ok ignore l : Forall usable l -> forall full filt count,
  hash_files ignore l full filt count =
  Some (hash_ids (message_ids l) full, hash_ids (message_ids (filter (count_b ignore) l)) filt,
        count + Z.of_nat (length (message_ids (filter (count_b ignore) l)))).
Proof.
  induction 1 as [|f l [N I] F IH]; intros full filt count.
  - cbn [hash_files filter]. unfold hash_ids. cbn [message_ids flat_map fold_left length]. rewrite Z.add_0_r. reflexivity.
  - cbn [hash_files filter]. rewrite (ids_ok f I).
    destruct (match_ext_ok (d_name f) ignore N) as (b & E & _).
    assert (X : (if d_par f then Some false else match_ext (d_name f) ignore) = Some (negb (count_b ignore f))).
    { unfold count_b. rewrite E. destruct (d_par f), b; reflexivity. }
    rewrite X. rewrite (message_ids_cons f l). unfold hash_ids at 3 4. rewrite fold_left_app. fold (hash_ids (message_ids [f]) full).
    destruct (count_b ignore f); cbn [negb]; rewrite IH.
    + rewrite (message_ids_cons f (filter _ l)), app_length. unfold hash_ids. rewrite fold_left_app. do 2 f_equal. lia.
    + reflexivity.
Qed.

Lemma str_lt_total a : forall b, str_lt a b = false -> str_lt b a = false -> a = b.
Proof.
  induction a as [|x a IH]; intros [|y b] H1 H2; cbn [str_lt] in *; try discriminate; [reflexivity|].
  destruct (Z.ltb_spec x y); [discriminate|]. destruct (Z.ltb_spec y x); [discriminate|]. assert (x = y) by lia. subst y.
  f_equal. apply IH; assumption.
Qed.
Lemma name_gt_sw : strict_weak name_gt.
Proof. apply (sw_flip (fun a b => str_lt (d_name a) (d_name b)) (str_lt_sw d_name)). Qed.
Lemma same_name_one l : NoDup (map d_name l) -> forall n, (length (filter (fun f => beqb n (d_name f)) l) <= 1)%nat.
Proof.
  intros ND n. induction l as [|f l IH]; [cbn; lia|]. cbn [map] in ND. apply NoDup_cons_iff in ND as [NI ND]. specialize (IH ND).
  cbn [filter]. destruct (beqb n (d_name f)) eqn:E; [|exact IH]. apply beqb_eq in E. subst n. cbn [length].
  assert (Z0 : filter (fun g => beqb (d_name f) (d_name g)) l = []).
  { clear -NI. induction l as [|g l IH]; [reflexivity|]. cbn [map] in NI. cbn [filter]. destruct (beqb (d_name f) (d_name g)) eqn:E.
    - apply beqb_eq in E. exfalso. apply NI. left. symmetry. exact E.
    - apply IH. intros I. apply NI. right. exact I. }
  rewrite Z0. cbn. lia.
Qed.
Lemma filter_perm {A} (p : A -> bool) l l' : Permutation l l' -> Permutation (filter p l) (filter p l').
Proof.
  induction 1 as [|x l l' P IH|x y l|l1 l2 l3 P1 IH1 P2 IH2]; cbn [filter].
  - constructor.
  - destruct (p x); [constructor|]; exact IH.
  - destruct (p x), (p y); try reflexivity. apply perm_swap.
  - eapply Permutation_trans; eassumption.
Qed.
Lemma filter_one {A} (p : A -> bool) l l' : Permutation l l' -> (length (filter p l) <= 1)%nat -> filter p l' = filter p l.
Proof.
  intros P L. apply (filter_perm p) in P. destruct (filter p l) as [|x [|y r]].
  - apply Permutation_nil in P. exact P.
  - apply Permutation_length_1_inv in P. exact P.
  - cbn [length] in L. lia.
Qed.
Lemma eqv_name x y : (negb (name_gt x y) && negb (name_gt y x)) = beqb (d_name x) (d_name y).
Proof.
  unfold name_gt. destruct (beqb (d_name x) (d_name y)) eqn:E.
  - apply beqb_eq in E. rewrite E, str_lt_irrefl. reflexivity.
  - apply beqb_neq in E. destruct (str_lt (d_name y) (d_name x)) eqn:A; [reflexivity|]. destruct (str_lt (d_name x) (d_name y)) eqn:B; [reflexivity|].
    exfalso. apply E. apply str_lt_total; assumption.
Qed.
Lemma filter_ext_eq {A} (p q : A -> bool) l : (forall x, p x = q x) -> filter p l = filter q l.
Proof. intros H. induction l as [|x l IH]; [reflexivity|]. cbn [filter]. rewrite H, IH. reflexivity. Qed.
(** Any list in the right order is the sorted one. *)
Lemma descending_sort l l' : NoDup (map d_name l) -> descending l' -> Permutation l l' -> l' = stable_sort name_gt l.
Proof.
  intros ND D P. apply (stable_sorted_unique name_gt l); [apply name_gt_sw| |apply stable_sort_ok, name_gt_sw].
  split; [exact P|]. split.
  - eapply StronglySorted_ind with (P := StronglySorted (fun a b => name_gt b a = false)); [constructor| |exact D].
    intros a r _ IH F. constructor; [exact IH|]. eapply Forall_impl; [|exact F]. cbv beta. intros b B.
    apply str_lt_meaning in B. unfold name_gt. apply (sw_asym _ _ _ (str_lt_sw (fun x => x)) B).
  - intros x. rewrite !(filter_ext_eq _ _ _ (eqv_name x)). apply filter_one; [exact P|]. apply same_name_one, ND.
Qed.
Lemma sort_same l l' : NoDup (map d_name l) -> Permutation l l' -> stable_sort name_gt l = stable_sort name_gt l'.
Proof.
  intros ND P. apply (stable_sorted_unique name_gt l); [apply name_gt_sw|apply stable_sort_ok, name_gt_sw|].
  destruct (stable_sort_ok name_gt l' name_gt_sw) as (P2 & S2 & F2).
  split; [exact (Permutation_trans P P2)|]. split; [exact S2|]. intros x. rewrite F2.
  rewrite !(filter_ext_eq _ _ _ (eqv_name x)). apply filter_one; [exact P|]. apply same_name_one, ND.
Qed.
Lemma hashes_order ignore l l' : NoDup (map d_name l) -> Permutation l l' -> calc_hashes ignore l = calc_hashes ignore l'.
Proof.
  intros ND P. unfold calc_hashes. rewrite (sort_same l l' ND P), (Permutation_length P). reflexivity.
Qed.
Lemma nodup_names l : NoDup (map d_name l) -> NoDup l.
Proof. apply NoDup_map_inv. Qed.
Lemma descending_nodup l : descending l -> NoDup l.
Proof.
  induction 1 as [|a r S IH F]; constructor; [|exact IH]. intros I. rewrite Forall_forall in F. specialize (F a I). apply str_lt_meaning in F.
  rewrite str_lt_irrefl in F. discriminate.
Qed.
Lemma nodup_filter_names (p : dfile -> bool) l : NoDup (map d_name l) -> NoDup (map d_name (filter p l)).
Proof.
  induction l as [|f l IH]; intros ND; [constructor|]. cbn [map] in ND. apply NoDup_cons_iff in ND as [NI ND]. cbn [filter].
  destruct (p f); [|exact (IH ND)]. cbn [map]. constructor; [|exact (IH ND)]. intros I. apply NI.
  apply in_map_iff in I as (g & E & I). apply filter_In in I as [I _]. rewrite <- E. apply in_map, I.
Qed.
Lemma sorted_filter {A} (R : A -> A -> Prop) p l : StronglySorted R l -> StronglySorted R (filter p l).
Proof.
  induction 1 as [|a l S IH F]; [constructor|]. cbn [filter]. destruct (p a); [|exact IH]. constructor; [exact IH|].
  apply Forall_forall. intros x I. apply filter_In in I as [I _]. rewrite Forall_forall in F. exact (F x I).
Qed.
Lemma sort_filter p l : NoDup (map d_name l) -> stable_sort name_gt (filter p l) = filter p (stable_sort name_gt l).
Proof.
  intros ND. destruct (stable_sort_ok name_gt l name_gt_sw) as (P2 & S2 & F2).
  apply (stable_sorted_unique name_gt (filter p l)); [apply name_gt_sw|apply stable_sort_ok, name_gt_sw|].
  split; [apply filter_perm, P2|]. split; [apply sorted_filter, S2|]. intros x.
  rewrite !(filter_ext_eq _ _ _ (eqv_name x)). apply filter_one; [apply filter_perm, P2|]. apply same_name_one, nodup_filter_names, ND.
Qed.
Lemma hashes_ok ignore l : NoDup (map d_name l) -> Forall usable l ->
  exists full filt, calc_hashes ignore l = Some (full, filt) /\
    (forall l', descending l' -> (forall f, In f l' <-> In f l) -> full = chain (message_ids l')) /\
    (forall l', descending l' -> (forall f, In f l' <-> In f l /\ counts ignore f) ->
       filt = if Z.of_nat (length (message_ids l')) <? Z.of_nat (length l) / 2 then 0 else chain (message_ids l')).
Proof.
  intros ND U. unfold calc_hashes.
  assert (US : Forall usable (stable_sort name_gt l)).
  { apply Forall_forall. intros f I. rewrite Forall_forall in U. apply U. apply (Permutation_in f (Permutation_sym (sort_perm name_gt l)) I). }
  rewrite (hash_files_ok ignore _ US). eexists. eexists. split; [reflexivity|]. rewrite Z.add_0_l. split.
  - intros l' D H. assert (P : Permutation l l').
    { apply NoDup_Permutation; [apply nodup_names, ND|apply descending_nodup, D|]. intros f. symmetry. apply H. }
    rewrite <- (descending_sort l l' ND D P). reflexivity.
  - intros l' D H. assert (P : Permutation (filter (count_b ignore) l) l').
    { apply NoDup_Permutation; [apply NoDup_filter, nodup_names, ND|apply descending_nodup, D|]. intros f. rewrite filter_In, H. split.
      - intros [I C]. split; [exact I|]. apply count_b_iff; [|exact C]. rewrite Forall_forall in U. apply (U f I).
      - intros [I C]. split; [exact I|]. apply count_b_iff; [|exact C]. rewrite Forall_forall in U. apply (U f I). }
    rewrite <- (sort_filter (count_b ignore) l ND). rewrite <- (descending_sort _ l' (nodup_filter_names _ _ ND) D P). reflexivity.
Qed.

(** ** Password *)

Lemma prefix_app_short p x y : (length p <= length x)%nat -> prefixb p (x ++ y) = true -> exists z, x = p ++ z.
Proof.
  revert x. induction p as [|c p IH]; intros x L H; [exists x; reflexivity|]. destruct x as [|d x]; [cbn [length] in L; lia|].
  cbn [app prefixb] in H. apply andb_true_iff in H as [E H]. apply Z.eqb_eq in E. subst d. cbn [length] in L.
  destruct (IH x ltac:(lia) H) as (z & ->). exists z. reflexivity.
Qed.
Lemma strstr_first a p r : p <> [] -> (forall x y, a ++ p = x ++ p ++ y -> y = []) -> strstr (a ++ p ++ r) p = Some (p ++ r).
Proof.
  intros NE. induction a as [|c a IH]; intros H.
  - cbn [app]. assert (E : prefixb p (p ++ r) = true) by apply prefixb_app. destruct (p ++ r) eqn:X.
    + destruct p; [contradiction|discriminate].
    + cbn [strstr]. rewrite E. reflexivity.
  - cbn [app strstr]. destruct (prefixb p (c :: a ++ p ++ r)) eqn:E.
    + exfalso. change (c :: a ++ p ++ r) with ((c :: a) ++ p ++ r) in E. rewrite app_assoc in E.
      apply prefix_app_short in E as (z & E); [|rewrite app_length; lia].
      assert (Z0 := H [] z E). subst z. apply (f_equal (@length Z)) in E. rewrite !app_length in E. cbn [length] in E. lia.
    + apply IH. intros x y E2. apply (H (c :: x) y). cbn [app]. f_equal. exact E2.
Qed.
Lemma escaped_chars e w : escaped e w -> Forall (fun c => c <> 60) e /\ nonul e.
Proof.
  induction 1 as [|c e w C1 C2 C3 E [IH1 IH2]|n c e w I E [IH1 IH2]].
  - split; [constructor|intros []].
  - split; [constructor; assumption|]. intros [J | J]; [congruence|exact (IH2 J)].
  - assert (N : Forall (fun c => c <> 60) n /\ nonul n).
    { unfold entities in I. cbn [In] in I. repeat (destruct I as [I | I]); try contradiction; injection I as <- <-;
        (split; [repeat (constructor; [lia|]); constructor|intros J; cbn in J; lia]). }
    split.
    + constructor; [lia|]. apply Forall_app. split; [apply N|]. constructor; [lia|exact IH1].
    + intros [J | J]; [lia|]. apply in_app_or in J as [J | [J | J]]; [exact (proj2 N J)|lia|exact (IH2 J)].
Qed.
Lemma escaped_decode e w : escaped e w -> forall fuel, (length e < fuel)%nat -> decode xml_step fuel e = Some w.
Proof.
  induction 1 as [|c e w C1 C2 C3 E IH|n c e w I E IH]; intros fuel F.
  - destruct fuel as [|fuel]; [lia|]. reflexivity.
  - destruct fuel as [|fuel]; [lia|]. cbn [length] in F. change (c :: w) with ([c] ++ w).
    eapply (decode_out _ _ _ [c] 1%nat); [|reflexivity|apply IH; lia]. cbn [xml_step]. replace (c =? 38) with false by lia. reflexivity.
  - destruct fuel as [|fuel]; [lia|]. cbn [length] in F. rewrite app_length in F. cbn [length] in F. change (c :: w) with ([c] ++ w).
    unfold entities in I. cbn [In] in I.
    repeat (destruct I as [I | I]); try contradiction; injection I as <- <-; (eapply decode_out; [reflexivity|reflexivity|apply IH; lia]).
Qed.
Lemma password_ok a e w rest : nonul a -> (forall x y, a ++ pw_tag = x ++ pw_tag ++ y -> y = []) -> escaped e w -> rest <> [] ->
  Z.of_nat (length (a ++ pw_tag ++ e ++ str "</meta>")) <= 4095 ->
  read_password (a ++ pw_tag ++ e ++ str "</meta>" ++ rest) = Some (Some w).
Proof.
  intros Na First Es Nr L. destruct (escaped_chars e w Es) as [E60 E0].
  set (head := a ++ pw_tag ++ e ++ str "</meta>") in *. set (file := a ++ pw_tag ++ e ++ str "</meta>" ++ rest).
  assert (EF : file = head ++ rest) by (unfold file, head; rewrite <- !app_assoc; reflexivity).
  assert (LR : (1 <= length rest)%nat) by (destruct rest; [contradiction|cbn [length]; lia]).
  assert (LF : length file = (length head + length rest)%nat) by (rewrite EF; apply app_length).
  unfold read_password. destruct (Nat.min (length file) (Z.to_nat 4096)) as [|m] eqn:M; [lia|].
  assert (LM : (length head <= m)%nat) by lia.
  assert (ND : nonul head).
  { unfold head. apply nonul_app. split; [exact Na|]. apply nonul_app. split; [intros I; cbn in I; lia|]. apply nonul_app.
    split; [exact E0|intros I; cbn in I; lia]. }
  assert (CS : forall x y, nonul x -> exists z, c_string (x ++ y) = x ++ z).
  { clear. intros x y. induction x as [|c x IHx]; intros N; [exists (c_string y); reflexivity|]. destruct IHx as (z & E); [intros I; apply N; right; exact I|]. exists z.
    cbn [app c_string]. destruct (Z.eqb_spec c 0) as [->|]; [exfalso; apply N; left; reflexivity|]. rewrite E. reflexivity. }
  rewrite EF, firstn_app, firstn_all2 by lia. destruct (CS head (firstn (m - length head) rest) ND) as (z & ->).
  unfold head. rewrite <- !app_assoc. rewrite strstr_first; [|discriminate|exact First].
  assert (SK : skipn 22 (pw_tag ++ e ++ str "</meta>" ++ z) = e ++ str "</meta>" ++ z).
  { rewrite skipn_app. change (length pw_tag) with 22%nat. rewrite skipn_all2 by (change (length pw_tag) with 22%nat; lia). reflexivity. }
  rewrite SK.
  assert (SM : strstr (e ++ str "</meta>" ++ z) (str "</meta>") = Some (str "</meta>" ++ z)).
  { change (str "</meta>") with (60 :: str "/meta>") at 2. rewrite ArticleProofs.strstr_skip by exact E60. reflexivity. }
  rewrite SM. rewrite app_length. replace (length e + length (str "</meta>" ++ z) - length (str "</meta>" ++ z))%nat with (length e) by lia.
  rewrite firstn_app, firstn_all, Nat.sub_diag. cbn [firstn]. rewrite app_nil_r.
  unfold xml_decode. rewrite (escaped_decode e w Es) by lia. reflexivity.
Qed.
Lemma strstr_some s p t : strstr s p = Some t -> exists a, s = a ++ t /\ exists r, t = p ++ r.
Proof.
  revert t. induction s as [|c s IH]; intros t E; cbn [strstr] in E.
  - destruct (prefixb p []) eqn:P; [|discriminate]. injection E as <-. exists []. split; [reflexivity|]. apply prefixb_iff in P. exact P.
  - destruct (prefixb p (c :: s)) eqn:P.
    + injection E as <-. exists []. split; [reflexivity|]. apply prefixb_iff in P. exact P.
    + destruct (IH t E) as (a & -> & R). exists (c :: a). auto.
Qed.
Lemma c_string_prefix s : exists z, s = c_string s ++ z.
Proof.
  induction s as [|c s (z & E)]; [exists []; reflexivity|]. cbn [c_string]. destruct (c =? 0); [exists (c :: s); reflexivity|].
  exists z. cbn [app]. rewrite <- E. reflexivity.
Qed.
Lemma password_defined file : file <> [] -> amps_fine file -> read_password file <> None.
Proof.
  intros NE A. unfold read_password. destruct (Nat.min (length file) (Z.to_nat 4096)) as [|m] eqn:M.
  { destruct file; [contradiction|cbn [length] in M; lia]. }
  destruct (strstr (c_string (firstn m file)) pw_tag) as [t|] eqn:S1; [|discriminate].
  destruct (strstr (skipn 22 t) (str "</meta>")) as [u|] eqn:S2; [|discriminate].
  apply strstr_some in S1 as (a & E1 & t' & Et). apply strstr_some in S2 as (b & E2 & u' & Eu).
  assert (B : firstn (length (skipn 22 t) - length u) (skipn 22 t) = b).
  { rewrite E2, app_length. replace (length b + length u - length u)%nat with (length b) by lia.
    rewrite firstn_app, firstn_all, Nat.sub_diag. cbn [firstn]. apply app_nil_r. }
  rewrite B.
  assert (EF : exists x y, file = x ++ b ++ 60 :: y).
  { destruct (c_string_prefix (firstn m file)) as (z & Z1). exists (a ++ pw_tag), (str "/meta>" ++ u' ++ z ++ skipn m file).
    rewrite <- (firstn_skipn m file) at 1. rewrite Z1, E1. rewrite Et in E2.
    rewrite skipn_app in E2. change (length pw_tag) with 22%nat in E2. rewrite skipn_all2 in E2 by (change (length pw_tag) with 22%nat; lia).
    cbn [app skipn Nat.sub] in E2. rewrite Et, E2, Eu, <- !app_assoc. reflexivity. }
  destruct EF as (x & y & EF).
  destruct (xml_decode b) eqn:XD; [discriminate|]. exfalso. revert XD. apply xml_safe. intros p q Eb.
  rewrite Eb in EF. rewrite <- app_assoc in EF. cbn [app] in EF. rewrite app_assoc in EF.
  destruct (A _ _ EF) as (c & r & Ec & C1 & C2 & C3). split.
  - intros ->. cbn [app] in Ec. congruence.
  - intros w ->. cbn [app] in Ec. congruence.
Qed.

(** ** The whole *)

Lemma attr_in n v atts : forall d, attr n atts d = Some v -> In (n, v) atts \/ d = Some v.
Proof.
  induction atts as [|[m u] atts IH]; intros d E; cbn [attr] in E; [auto|]. destruct (IH _ E) as [I | I]; [left; right; exact I|].
  destruct (beqb n m) eqn:B; [|auto]. apply beqb_eq in B. injection I as ->. subst m. left. left. reflexivity.
Qed.
Lemma number_fine n : 0 <= n < 2 ^ 31 -> subject_fine (zdec n).
Proof.
  intros H. split; [|split].
  - intros I. assert (F := ArticleProofs.zdec_no n 0 ltac:(lia) eq_refl). rewrite Forall_forall in F. exact (F 0 I eq_refl).
  - assert (L := zdec_len n ltac:(lia)). lia.
  - destruct (ArticleProofs.zdec_pos n ltac:(lia)) as (c & t & E & D). rewrite E. unfold is_digit in D.
    intros [X | [X | (d & _ & X)]]; [discriminate|injection X as -> _; discriminate|injection X as -> _; discriminate].
Qed.
Definition fine_state (left : nat) (p : np) : Prop :=
  0 <= p_next p /\ p_next p + Z.of_nat left < 2 ^ 31 /\ Forall (fun f => subject_fine (subject_of f)) (p_files p) /\
  (forall f, p_cur p = Some f -> subject_fine (subject_of f)).
Lemma fine_step k e p p' : (forall n atts v, e = EStart n (Some atts) -> In (str "subject", v) atts -> subject_fine v) ->
  fine_state (S k) p -> ev_step p e = Some p' -> fine_state k p'.
Proof.
  intros HE (N0 & N1 & F & C) E. destruct e as [n a|n|s]; cbn [ev_step] in E.
  - injection E as <-. unfold start_element. cbv zeta. cbn [p_files p_cur p_art p_text p_pw p_haspw p_next].
    destruct (beqb n (str "file")).
    { split; [cbn; lia|]. split; [cbn [p_next]; lia|]. split; [exact F|]. intros f EF. cbn [p_cur] in EF. injection EF as <-.
      destruct a as [a|]; [|change (subject_fine (zdec (p_next p))); apply number_fine; lia].
      change (subject_fine (match attr (str "subject") a None with Some s => s | None => zdec (p_next p) end)).
      destruct (attr (str "subject") a None) as [v|] eqn:EV; [|apply number_fine; lia].
      apply attr_in in EV as [EV | EV]; [|discriminate]. exact (HE n a v eq_refl EV). }
    destruct (beqb n (str "segment")).
    { destruct (p_cur p) as [f0|] eqn:EC.
      - destruct a as [a|]; [|split; [cbn; lia|]; split; [cbn [p_next]; lia|]; split; [exact F|]; intros f EF; cbn [p_cur] in EF; injection EF as <-; apply C; reflexivity].
        destruct (0 <? _); (split; [cbn; lia|]; split; [cbn [p_next]; lia|]; split; [exact F|]; intros f EF; cbn [p_cur] in EF; injection EF as <-; apply (C f0 eq_refl)).
      - destruct a; (split; [cbn; lia|]; split; [cbn [p_next]; lia|]; split; [exact F|]; intros f EF; discriminate). }
    destruct (beqb n (str "meta")); [destruct a|]; (split; [cbn; lia|]; split; [cbn [p_next]; lia|]; split; [exact F|exact C]).
  - unfold end_element in E. destruct (beqb n (str "file")).
    { destruct (p_cur p) as [f0|] eqn:EC; [|discriminate]. injection E as <-. split; [cbn; lia|]. split; [cbn [p_next]; lia|]. split; [|intros f EF; discriminate].
      cbn [p_files]. unfold add_file. destruct (has_article f0); [|exact F]. apply Forall_app. split; [exact F|]. constructor; [apply C; reflexivity|constructor]. }
    destruct (beqb n (str "group")).
    { destruct (p_cur p) as [f0|] eqn:EC; injection E as <-; (split; [cbn; lia|]; split; [cbn [p_next]; lia|]; split; [exact F|]; intros f EF).
      - cbn [p_cur] in EF. injection EF as <-. apply (C f0 eq_refl).
      - congruence. }
    destruct (beqb n (str "segment")).
    { assert (SAME : fine_state k p) by (split; [cbn; lia|]; split; [cbn [p_next]; lia|]; split; [exact F|exact C]).
      destruct (p_cur p) as [f0|] eqn:EC; [|injection E as <-; exact SAME]. destruct (p_art p); [injection E as <-; exact SAME| |discriminate].
      destruct (p_text p); [|discriminate]. injection E as <-. (split; [cbn; lia|]; split; [cbn [p_next]; lia|]; split; [exact F|]; intros f EF).
      cbn [p_cur] in EF. injection EF as <-. apply (C f0 eq_refl). }
    destruct (beqb n (str "meta") && p_haspw p); injection E as <-; (split; [cbn; lia|]; split; [cbn [p_next]; lia|]; split; [exact F|exact C]).
  - injection E as <-. unfold characters. destruct (WildModel.trim s); (split; [cbn; lia|]; split; [cbn [p_next]; lia|]; split; [exact F|exact C]).
Qed.
Lemma fine_run es : subjects_fine es -> forall p p', fine_state (length es) p -> ev_run p es = Some p' -> fine_state 0 p'.
Proof.
  induction es as [|e es IH]; intros H p p' S E.
  - injection E as <-. exact S.
  - cbn [ev_run] in E. destruct (ev_step p e) as [q|] eqn:EQ; [|discriminate]. apply (IH ltac:(intros n a v I; apply (H n a v); right; exact I) q p'); [|exact E].
    apply (fine_step _ e p q); [|exact S|exact EQ]. intros n a v -> I. apply (H n a v); [left; reflexivity|exact I].
Qed.
Lemma valid_nonul s : nonul (make_valid false s).
Proof.
  intros I. destruct (make_valid_safe s) as (F & _). rewrite Forall_forall in F. apply (F 0 I). left. lia.
Qed.
Lemma with_ids_kept f : with_ids f -> Forall (fun x => na_id (snd x) <> None) (kept f).
Proof.
  intros W. apply Forall_forall. intros [n a] I. apply kept_from_in in I as (k & _ & E). exact (W k a E).
Qed.
Lemma parse_ok ignore id file es ok : tame Outside es -> subjects_fine es -> 0 <= id -> id + Z.of_nat (length es) < 2 ^ 31 ->
  file <> [] -> amps_fine file ->
  exists r, parse_nzb ignore id file es ok = Some r /\
    forall d, r = Some d -> Forall usable (dl_files d).
Proof.
  intros T SF I0 I1 NE AF. destruct (tame_ok es id T) as (p & E & W). unfold parse_nzb. rewrite E.
  assert (FS : fine_state 0 p).
  { apply (fine_run es SF (np0 id) p); [|exact E]. split; [exact I0|]. split; [exact I1|]. split; [constructor|]. intros f H. discriminate. }
  destruct FS as (_ & _ & F & _). destruct (p_files p) as [|f0 fs0] eqn:PF; [exists None; split; [reflexivity|discriminate]|].
  rewrite <- PF in *. set (fs := p_files p) in *. destruct (negb ok); [exists None; split; [reflexivity|discriminate]|].
  destruct (build_names_defined (map subject_of fs)) as (names & many & -> & FN); [apply Forall_map, F|].
  set (ds := map (fun x => d_make (fst x) (snd x)) (combine fs names)).
  assert (U : Forall usable ds).
  { apply Forall_forall. intros d I. apply in_map_iff in I as ([f n] & <- & I). apply in_combine_l in I. split; cbn [d_make d_name d_src fst snd].
    - apply valid_nonul.
    - apply with_ids_kept. rewrite Forall_forall in W. exact (W f I). }
  assert (US : Forall usable (stable_sort name_gt ds)).
  { apply Forall_forall. intros f I. rewrite Forall_forall in U. apply U. apply (Permutation_in f (Permutation_sym (sort_perm name_gt ds)) I). }
  unfold calc_hashes. rewrite (hash_files_ok ignore _ US).
  destruct (p_pw p) as [w|].
  - destruct (read_password file) as [r|] eqn:RP; [|exfalso; exact (password_defined file NE AF RP)].
    eexists. split; [reflexivity|]. intros d ED. injection ED as <-. exact U.
  - eexists. split; [reflexivity|]. intros d ED. injection ED as <-. exact U.
Qed.

(** ** Documents in good order *)

Lemma blank_dec c : blank c \/ ~ blank c.
Proof. unfold blank. lia. Qed.
Lemma blanks_or s : Forall blank s \/ nonblank s.
Proof.
  induction s as [|c s [IH | IH]]; [left; constructor| |right; right; exact IH].
  destruct (blank_dec c) as [B | B]; [left; constructor; assumption|right; left; exact B].
Qed.
Lemma chunks_tame chunks : forall b rest, (b = true \/ nonblank (concat chunks)) -> tame InFile rest ->
  tame (InSeg b) (map EText chunks ++ EEnd (str "segment") :: rest).
Proof.
  induction chunks as [|s chunks IH]; intros b rest H T; cbn [map app].
  - destruct H as [-> | H]; [apply t_seg_end, T|]. inversion H.
  - destruct (blanks_or s) as [B | B].
    + apply t_blank; [exact B|]. apply IH; [|exact T]. destruct H as [H | H]; [left; exact H|]. right. cbn [concat] in H.
      apply Exists_app in H as [H | H]; [|exact H]. exfalso. apply Exists_exists in H as (c & I & N). rewrite Forall_forall in B. exact (N (B c I)).
    + apply t_word; [exact B|]. apply IH; [left; reflexivity|exact T].
Qed.
Lemma texts_tame chunks : forall rest, tame InFile rest -> tame InFile (map EText chunks ++ rest).
Proof. induction chunks as [|s chunks IH]; intros rest T; cbn [map app]; [exact T|]. apply t_text; [discriminate|]. apply IH, T. Qed.
Lemma body_tame b gs ss : body b gs ss -> Forall seg_ok ss -> forall rest, tame InFile rest -> tame InFile (b ++ rest).
Proof.
  induction 1 as [|e es gs ss F B IH|s e1 es gs ss S B IH|g e1 es gs ss G B IH]; intros OK rest T; cbn [app].
  - exact T.
  - specialize (IH OK rest T). destruct e as [n a|n|t]; cbn [filler] in F.
    + apply t_start; [exact F|discriminate|exact IH].
    + apply t_end; [exact F|exact IH].
    + apply t_text; [discriminate|exact IH].
  - inversion OK as [|? ? O1 O2]; subst. specialize (IH O2 rest T). destruct S as (atts & chunks & -> & _ & _ & (b1 & b2 & EC & _ & _)).
    destruct O1 as (_ & _ & (NE & W) & _). rewrite <- app_assoc. cbn [app]. apply t_seg. rewrite <- app_assoc. apply chunks_tame; [|exact IH].
    right. rewrite EC. apply Exists_app. right. apply Exists_app. left. destruct (s_msg s) as [|c r]; [contradiction|]. inversion W; subst. left. assumption.
  - specialize (IH OK rest T). destruct G as (atts & chunks & -> & _). rewrite <- app_assoc. cbn [app]. apply t_group; [discriminate|].
    rewrite <- app_assoc. apply texts_tame. cbn [app]. apply t_group_end; [discriminate|exact IH].
Qed.
Lemma doc_tame es fs : doc es fs -> Forall file_ok fs -> tame Outside es.
Proof.
  induction 1 as [|e es fs F D IH|atts b f es fs A1 A2 B D IH]; intros OK.
  - constructor.
  - specialize (IH OK). destruct e as [n a|n|t]; cbn [filler] in F.
    + apply t_start; [exact F|discriminate|exact IH].
    + apply t_end; [exact F|exact IH].
    + apply t_text; [discriminate|exact IH].
  - inversion OK as [|? ? O1 O2]; subst. apply t_file. apply (body_tame b _ _ B); [apply O1|]. apply t_file_end. apply IH, O2.
Qed.
Lemma combine_fst {A B} (l : list A) (r : list B) : length l = length r -> map fst (combine l r) = l.
Proof. revert r. induction l as [|x l IH]; intros [|y r] E; try discriminate; [reflexivity|]. cbn [combine map fst]. f_equal. apply IH. cbn [length] in E. lia. Qed.
Lemma combine_snd {A B} (l : list A) (r : list B) : length l = length r -> map snd (combine l r) = r.
Proof. revert r. induction l as [|x l IH]; intros [|y r] E; try discriminate; [reflexivity|]. cbn [combine map snd]. f_equal. apply IH. cbn [length] in E. lia. Qed.
Lemma whole_ok ignore id file es fs : doc es fs -> Forall file_ok fs ->
  (exists f, In f fs /\ s_segs f <> []) -> subjects_fine es -> 0 <= id -> id + Z.of_nat (length es) < 2 ^ 31 -> file <> [] -> amps_fine file ->
  exists d names, parse_nzb ignore id file es true = Some (Some d) /\
    let kf := filter (fun f => nonempty (s_segs f)) fs in
    Forall2 entry kf (map d_src (dl_files d)) /\ map d_name (dl_files d) = map (make_valid false) names /\
    names_told_apart names (map s_subject kf) /\ names_from names (map s_subject kf) (dl_many d).
Proof.
  intros D OK (f1 & If1 & Sf1) SE I0 I1 NE AF. assert (T := doc_tame es fs D OK).
  destruct (parse_ok ignore id file es true T SE I0 I1 NE AF) as (r & E & _). assert (E0 := E).
  destruct (read_ok es fs id D OK) as (p & EP & F2). set (kf := filter _ fs) in *.
  unfold parse_nzb in E. rewrite EP in E. destruct (p_files p) as [|g gs] eqn:PF.
  { exfalso. assert (I : In f1 kf) by (apply filter_In; split; [exact If1|destruct (s_segs f1); [contradiction|reflexivity]]).
    inversion F2 as [K|]. rewrite <- K in I. contradiction. }
  rewrite <- PF in *. change (negb true) with false in E. cbv iota in E.
  assert (SU : map subject_of (p_files p) = map s_subject kf).
  { clear -F2. induction F2 as [|s f l r H F2 IH]; [reflexivity|]. cbn [map]. f_equal; [|exact IH]. destruct H as (H & _). unfold subject_of. rewrite H. reflexivity. }
  rewrite SU in E. destruct (build_names (map s_subject kf)) as [[names many]|] eqn:BN; [|discriminate].
  destruct (build_names_ok _ _ _ BN) as (L & TA & NF). rewrite map_length in L.
  assert (LP : length (p_files p) = length names) by (rewrite L; symmetry; exact (forall2_len _ _ _ F2)).
  set (ds := map (fun x => d_make (fst x) (snd x)) (combine (p_files p) names)) in *.
  destruct (calc_hashes ignore ds) as [[h1 h2]|]; [|discriminate].
  assert (S1 : map d_src ds = p_files p) by (unfold ds; rewrite map_map; cbn [d_make d_src]; apply combine_fst, LP).
  assert (S2 : map d_name ds = map (make_valid false) names).
  { unfold ds. rewrite map_map. cbn [d_make d_name]. rewrite <- (combine_snd (p_files p) names LP) at 2. rewrite map_map. reflexivity. }
  assert (FIN : exists pw, r = Some (Dl ds many h1 h2 pw)).
  { destruct (p_pw p) as [w|]; [destruct (read_password file); [|discriminate]|]; injection E as <-; eauto. }
  destruct FIN as (pw & FIN). exists (Dl ds many h1 h2 pw), names. split; [rewrite <- FIN; exact E0|]. cbn [dl_files dl_many]. rewrite S1. auto.
Qed.
