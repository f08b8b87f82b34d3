(** Sets of volumes: what is found and what is a set. *)
From Coq Require Import String.
From Verif Require Import Base NumFmt InfoModel NameModel NameProofs WildModel RarModel RarSetModel RarSetSpec.
Open Scope list_scope. Open Scope Z_scope.

Lemma len_eqb {A B} (a : list A) (b : list B) : (length a =? length b)%nat = true <-> length a = length b.
Proof. apply Nat.eqb_eq. Qed.
Lemma firstn_app_len {A} (a b : list A) n : n = length a -> firstn n (a ++ b) = a.
Proof. intros ->. rewrite firstn_app, firstn_all, Nat.sub_diag. apply app_nil_r. Qed.
Lemma app_eq_len {A} (a b c d : list A) : length a = length c -> a ++ b = c ++ d -> a = c /\ b = d.
Proof.
  revert c. induction a as [|x a IH]; intros [|y c] L E; cbn in L; try lia; [auto|]. injection E as -> E.
  destruct (IH c) as [-> ->]; [lia|exact E|auto].
Qed.

Lemma same_archive_ok n1 n2 new : same_archive n1 n2 new = true <-> same_name new n1 n2.
Proof.
  unfold same_archive, same_name. change (str "." : list Z) with [46]. unfold dot. split.
  - intros H. apply andb_true_iff in H as [H1 H]. apply len_eqb in H1.
    destruct (strrchr 46 n1) as [[a1 e1]|] eqn:R1; [|discriminate]. destruct (strrchr 46 n2) as [[a2 e2]|] eqn:R2; [|discriminate].
    apply andb_true_iff in H as [H2 H]. apply len_eqb in H2.
    apply strrchr_some in R1 as (-> & r1 & -> & N1). apply strrchr_some in R2 as (-> & r2 & -> & N2).
    rewrite !app_length in H1. cbn [length] in H1, H2. destruct new.
    + apply andb_true_iff in H as [_ H].
      destruct (strrchr 46 a1) as [[b1 x1]|] eqn:S1; [|discriminate]. destruct (strrchr 46 a2) as [[b2 x2]|] eqn:S2; [|discriminate].
      rewrite !andb_true_iff in H. destruct H as (((H3 & H4) & H5) & H6). apply len_eqb in H3. apply prefixb_iff in H4 as [y1 ->]. apply prefixb_iff in H5 as [y2 ->]. apply beqb_eq in H6.
      apply strrchr_some in S1 as (-> & q1 & E1 & M1). apply strrchr_some in S2 as (-> & q2 & E2 & M2).
      rewrite !app_length in *. rewrite firstn_app_len in H6 by lia. subst b2.
      exists b1, y1, y2, r1, r2. cbn [str] in *. injection E1 as <-. injection E2 as <-.
      assert (K : forall y : list Z, ~ In 46 ([112; 97; 114; 116] ++ y) -> ~ In 46 y) by (intros y K I; apply K; apply in_or_app; auto).
      repeat apply conj; try (rewrite <- !app_assoc; reflexivity); try assumption; try lia; auto.
    + exists a1, r1, r2. apply beqb_eq in H. rewrite firstn_app_len in H by lia. subst a2. repeat apply conj; try reflexivity; try assumption; lia.
  - intros H. destruct new.
    + destruct H as (b & x1 & x2 & e1 & e2 & -> & -> & Lx & Le & X1 & X2 & N1 & N2).
      assert (W : forall x e, b ++ str ".part" ++ x ++ [46] ++ e = (b ++ str ".part" ++ x) ++ 46 :: e) by (intros; rewrite <- !app_assoc; reflexivity). rewrite !W.
      rewrite !strrchr_app by assumption.
      assert (W2 : forall x, b ++ str ".part" ++ x = b ++ 46 :: str "part" ++ x) by reflexivity.
      assert (K : forall x, ~ In 46 x -> ~ In 46 (str "part" ++ x)). { intros x N I. apply in_app_or in I as [I|I]; [vm_compute in I; intuition discriminate|contradiction]. }
      rewrite !W2. rewrite !(strrchr_app 46 b) by (apply K; assumption).
      rewrite !app_length. cbn [length]. rewrite !app_length, Lx, Le, !Nat.eqb_refl.
      destruct (b ++ 46 :: str "part" ++ x1) eqn:Q1; [destruct b; discriminate|]. destruct (b ++ 46 :: str "part" ++ x2) eqn:Q2; [destruct b; discriminate|]. rewrite <- Q2.
      rewrite firstn_app_len by reflexivity. rewrite beqb_refl. change (46 :: str "part" ++ x1) with (str ".part" ++ x1). change (46 :: str "part" ++ x2) with (str ".part" ++ x2). rewrite !prefixb_app. reflexivity.
    + destruct H as (b & e1 & e2 & -> & -> & Le & N1 & N2). cbn [app]. rewrite !strrchr_app by assumption. rewrite !app_length. cbn [length]. rewrite Le, !Nat.eqb_refl.
      rewrite firstn_app_len by reflexivity. rewrite beqb_refl. reflexivity.
Qed.

(** ** Last parts *)
Lemma base_name_part p : last_part p (base_name p).
Proof.
  destruct (base_name_ok p) as (d & E & D & F). rewrite Forall_forall in F. unfold NameSpec.separator in *. repeat apply conj.
  - intros I. apply (F _ I). auto.
  - intros I. apply (F _ I). auto.
  - destruct D as [-> | (d' & c & -> & [C | C])]; [left; exact E| |]; right; exists d', c; (split; [auto|]); rewrite <- app_assoc in E; exact E.
Qed.
Lemma split_last (P : Z -> Prop) : forall (a a' r r' : list Z) c c', P c -> P c' -> (forall x, In x r -> ~ P x) -> (forall x, In x r' -> ~ P x) -> a ++ c :: r = a' ++ c' :: r' -> r = r'.
Proof.
  induction a as [|x a IH]; intros [|y a'] r r' c c' C C' F F' E; cbn [app] in E.
  - injection E as _ E. exact E.
  - injection E as _ ->. exfalso. apply (F c'); [apply in_or_app; right; left; reflexivity|exact C'].
  - injection E as _ <-. exfalso. apply (F' c); [apply in_or_app; right; left; reflexivity|exact C].
  - injection E as _ E. exact (IH _ _ _ _ _ C C' F F' E).
Qed.
Lemma last_part_fun p n m : last_part p n -> last_part p m -> n = m.
Proof.
  intros (A1 & A2 & A) (B1 & B2 & B).
  assert (Fn : forall x, In x n -> ~ (x = 47 \/ x = 92)) by (intros x I [-> | ->]; contradiction).
  assert (Fm : forall x, In x m -> ~ (x = 47 \/ x = 92)) by (intros x I [-> | ->]; contradiction).
  destruct A as [-> | (d & c & C & ->)]; destruct B as [E | (d' & c' & C' & E)].
  - exact E.
  - exfalso. apply (Fn c'); [rewrite E; apply in_or_app; right; left; reflexivity|exact C'].
  - exfalso. apply (Fm c); [rewrite <- E; apply in_or_app; right; left; reflexivity|exact C].
  - exact (split_last (fun x => x = 47 \/ x = 92) _ _ _ _ _ _ C C' Fn Fm E).
Qed.
Lemma last_part_base p n : last_part p n -> base_name p = n.
Proof. intros H. exact (last_part_fun _ _ _ (base_name_part p) H). Qed.

(** ** Following volumes *)
Definition small (v : vol) : Prop := 0 <= v_no v < 2 ^ 32.

Lemma last_app {A} (i : list A) l d : last (i ++ [l]) d = l.
Proof. apply last_last. Qed.
Lemma follows_ok l v : 0 <= v_no l < 2 ^ 32 - 1 -> v_files l <> [] -> follows l v = true <-> joins l v.
Proof.
  intros S N. unfold follows, joins, first_file, last_file. rewrite Z.mod_small by lia. split.
  - intros H. destruct (v_files v) as [|f r]; [discriminate|]. cbn [negb hd andb] in H. rewrite !andb_true_iff, !orb_true_iff, !andb_true_iff, !negb_true_iff in H.
    destruct H as ((((H1 & H2) & H3) & H4) & H5). destruct (exists_last N) as (i & x & E). rewrite E, last_app in H5.
    repeat apply conj; try assumption; try discriminate; try lia. exists i, x, f, r. repeat apply conj; auto.
    + destruct H5 as [[[-> ->] _]|[-> ->]]; reflexivity.
    + intros B. destruct H5 as [[_ H5]|[H5 _]]; [apply beqb_eq in H5; exact H5|congruence].
  - intros (_ & _ & M & H & E & V & i & x & f & r & El & Ev & B & Q). rewrite El, Ev, M, H, E, V, last_app. cbn [hd negb]. rewrite !Z.eqb_refl. cbn [andb].
    rewrite <- B. destruct (rf_before f); [rewrite (Q eq_refl), beqb_refl|]; reflexivity.
Qed.

Lemma choose_in h cands v : choose h cands = Some v -> In v cands.
Proof.
  unfold choose. destruct cands as [|x [|y r]]; [discriminate|intros H; injection H as ->; left; reflexivity|].
  destruct (find _ _) eqn:E; intros H; injection H as ->; [apply find_some in E as [E _]; exact E|left; reflexivity].
Qed.
Lemma choose_none h cands : choose h cands = None -> cands = [].
Proof. unfold choose. destruct cands as [|x [|y r]]; [auto|discriminate|]. destruct (find _ _); discriminate. Qed.

(** What is built: a chain of volumes from [l] on. *)
Lemma build_ok vols h : Forall small vols -> forall f l s, v_files l <> [] -> In l vols -> build f vols h l = Some s ->
  Z.of_nat f + v_no l < 2 ^ 32 ->
  (exists r, s = l :: r) /\ chain s /\ incl s vols.
Proof.
  intros S. induction f as [|f IH]; intros l s N I H B; [discriminate|]. cbn [build] in H. pose proof (proj1 (Forall_forall _ _) S _ I) as Sl. unfold small in Sl.
  destruct (choose h (filter (follows l) vols)) as [v|] eqn:C.
  - apply choose_in in C. apply filter_In in C as [Iv C]. apply (follows_ok l v) in C; [|lia|exact N].
    destruct (build f vols h v) as [t|] eqn:E; [|discriminate]. injection H as <-.
    pose proof C as (_ & Nv & _ & _ & En & _). destruct (IH v t Nv Iv E ltac:(lia)) as ((r & ->) & Ch & In_). repeat apply conj.
    + exists (v :: r). reflexivity.
    + constructor; assumption.
    + intros x [<- | X]; [exact I|apply In_; exact X].
  - injection H as <-. repeat apply conj; [exists []; reflexivity|constructor|]. intros x [<- | []]. exact I.
Qed.
Lemma joins_files v w : joins v w -> v_files v <> [] /\ v_files w <> []. Proof. intros (A & B & _). auto. Qed.

(** The numbers of a chain go up by one. *)
Lemma chain_no s : chain s -> forall i v h r, s = h :: r -> nth_error s i = Some v -> v_no v = v_no h + Z.of_nat i.
Proof.
  induction 1 as [v|v w l J Ch IH]; intros i x h r E N; injection E as <- <-.
  - destruct i as [|[|i]]; [injection N as <-; lia|discriminate|discriminate].
  - destruct i as [|i]; [injection N as <-; lia|]. cbn [nth_error] in N. rewrite (IH i x w l eq_refl N). destruct J as (_ & _ & _ & _ & -> & _). lia.
Qed.
Lemma chain_nos s h r : chain s -> s = h :: r -> NoDup (map v_no s).
Proof.
  intros Ch E. apply NoDup_nth_error. intros i j L Q. rewrite map_length in L. rewrite !nth_error_map in Q.
  destruct (nth_error s i) as [v|] eqn:Ei; [|apply nth_error_None in Ei; lia]. cbn [option_map] in Q.
  destruct (nth_error s j) as [w|] eqn:Ej; [|discriminate]. cbn in Q. injection Q as Q.
  rewrite (chain_no _ Ch _ _ _ _ E Ei), (chain_no _ Ch _ _ _ _ E Ej) in Q. lia.
Qed.
Lemma chain_short s h r vols : chain s -> s = h :: r -> incl s vols -> (length s <= length vols)%nat.
Proof.
  intros Ch E I. rewrite <- (map_length v_no s), <- (map_length v_no vols). apply NoDup_incl_length; [exact (chain_nos _ _ _ Ch E)|].
  intros x X. apply in_map_iff in X as (v & <- & V). apply in_map, I, V.
Qed.
Lemma chain_app a l v : chain (a ++ [l]) -> joins l v -> chain ((a ++ [l]) ++ [v]).
Proof.
  induction a as [|x a IH]; intros C J; [constructor; [exact J|constructor]|]. cbn [app] in *. destruct a as [|y a]; cbn [app] in *.
  - inversion C; subst. constructor; [assumption|]. apply IH; [constructor|exact J].
  - inversion C; subst. constructor; [assumption|]. apply IH; assumption.
Qed.

(** The bound is never reached. *)
Lemma build_ends vols h : Forall small vols -> zlen vols < 2 ^ 32 - 1 -> forall f a l, chain (a ++ [l]) -> (exists h' r, a ++ [l] = h' :: r /\ v_no h' = 0) -> incl (a ++ [l]) vols -> v_files l <> [] ->
  (length vols < f + length a)%nat -> build f vols h l <> None.
Proof.
  intros S Z. induction f as [|f IH]; intros a l C (h' & r' & E & E0) I N L.
  - pose proof (chain_short _ _ _ _ C E I) as K. rewrite app_length in K. cbn in K. lia.
  - cbn [build]. destruct (choose h (filter (follows l) vols)) as [v|] eqn:Ch; [|discriminate].
    assert (Nl : v_no l = Z.of_nat (length a)).
    { assert (X : nth_error (a ++ [l]) (length a) = Some l) by (rewrite nth_error_app2, Nat.sub_diag by lia; reflexivity). rewrite (chain_no _ C _ _ _ _ E X), E0. lia. }
    pose proof (chain_short _ _ _ _ C E I) as K. rewrite app_length in K. cbn in K. unfold zlen in Z.
    apply choose_in in Ch. apply filter_In in Ch as [Iv Ch]. apply follows_ok in Ch; [|lia|exact N].
    specialize (IH (a ++ [l]) v (chain_app _ _ _ C Ch)).
    assert (IH' : build f vols h v <> None).
    { apply IH.
      - exists h', (r' ++ [v]). rewrite E. split; [reflexivity|exact E0].
      - intros x X. apply in_app_or in X as [X|[<- | []]]; [apply I; exact X|exact Iv].
      - apply joins_files in Ch. tauto.
      - rewrite app_length. cbn. lia. }
    destruct (build f vols h v); [discriminate|congruence].
Qed.
Lemma starts_ok v : starts v = true <-> exists f fs, v_files v = f :: fs /\ v_no v = 0 /\ rf_before f = false.
Proof.
  unfold starts, first_file. destruct (v_files v) as [|f r]; cbn [negb andb hd]; split.
  - discriminate.
  - intros (f & fs & X & _). discriminate.
  - intros H. apply andb_true_iff in H as [H1 H2]. rewrite negb_true_iff in H2. exists f, r. repeat apply conj; [reflexivity|lia|exact H2].
  - intros (f' & fs & X & -> & B). injection X as -> ->. rewrite B. reflexivity.
Qed.
Lemma all_sets_some f vols hs : (forall h, In h hs -> build f vols h h <> None) -> exists sets, all_sets f vols hs = Some sets.
Proof.
  induction hs as [|h hs IH]; intros H; [exists []; reflexivity|]. cbn [all_sets].
  destruct (build f vols h h) eqn:E; [|exfalso; apply (H h (or_introl eq_refl) E)]. destruct IH as [t ->]; [intros x X; apply H; right; exact X|]. eexists. reflexivity.
Qed.
Lemma all_sets_in f vols hs sets : all_sets f vols hs = Some sets -> forall s, In s sets <-> exists h, In h hs /\ build f vols h h = Some s /\ complete s = true.
Proof.
  revert sets. induction hs as [|h hs IH]; intros sets H s; cbn [all_sets] in H.
  - injection H as <-. split; [intros []|intros (h & [] & _)].
  - destruct (build f vols h h) as [u|] eqn:E; [|discriminate]. destruct (all_sets f vols hs) as [t|]; [|discriminate]. injection H as <-. specialize (IH t eq_refl s).
    split.
    + intros I. assert (D : In s t \/ (s = u /\ complete u = true)). { destruct (complete u) eqn:Cu; [destruct I as [<- | I]; auto|auto]. }
      destruct D as [D|[-> Cu]]; [apply IH in D as (x & X & Y); exists x; split; [right; exact X|exact Y]|exists h; auto using in_eq].
    + intros (x & [<- | X] & B & Cs).
      * rewrite E in B. injection B as ->. rewrite Cs. left. reflexivity.
      * assert (I : In s t) by (apply IH; exists x; auto). destruct (complete u); [right; exact I|exact I].
Qed.

Theorem sets_total vols : Forall small vols -> zlen vols < 2 ^ 32 - 1 -> exists sets, make_sets vols = Some sets.
Proof.
  intros Sm Z. unfold make_sets. apply all_sets_some. intros h H. apply filter_In in H as [I H]. apply starts_ok in H as (f & fs & E & E0 & _).
  apply (build_ends vols h Sm Z (S (length vols)) [] h).
  - constructor.
  - exists h, []. split; [reflexivity|exact E0].
  - intros x [<- | []]. exact I.
  - rewrite E. discriminate.
  - cbn. lia.
Qed.
Lemma chain_files s h r : chain s -> s = h :: r -> v_files h <> [] -> forall v, In v s -> v_files v <> [].
Proof.
  intros C. revert h r. induction C as [v|v w l J C IH]; intros h r E N x X; injection E as <- <-.
  - destruct X as [<- | []]. exact N.
  - destruct X as [<- | X]; [exact N|]. apply (IH w l eq_refl); [|exact X]. apply joins_files in J. tauto.
Qed.
Lemma complete_ok s l i : s = i ++ [l] -> v_files l <> [] -> complete s = true <-> v_has l = false /\ exists fs f, v_files l = fs ++ [f] /\ rf_after f = false.
Proof.
  intros -> N. unfold complete, last_file. rewrite last_app. destruct (exists_last N) as (fs & f & E). rewrite E, last_app. split.
  - intros H. apply andb_true_iff in H as [H1 H2]. rewrite negb_true_iff in H1. split; [exact H1|]. exists fs, f. split; [reflexivity|].
    destruct (fs ++ [f]) eqn:Q; [destruct fs; discriminate|]. cbn in H2. rewrite negb_true_iff in H2. exact H2.
  - intros (-> & fs' & f' & E2 & A). apply app_inj_tail in E2 as [_ <-]. rewrite A. apply andb_true_iff. split; [reflexivity|]. apply orb_true_r.
Qed.
Theorem sets_sound vols sets : Forall small vols -> zlen vols < 2 ^ 32 - 1 -> make_sets vols = Some sets ->
  forall s, In s sets -> is_set s /\ incl s vols.
Proof.
  intros Sm Z H s I. unfold make_sets in H. apply (all_sets_in _ _ _ _ H) in I as (h & Hh & B & C). apply filter_In in Hh as [Ih Hh]. apply starts_ok in Hh as (f & fs & E & E0 & Bf).
  unfold zlen in Z. destruct (build_ok vols h Sm _ h s ltac:(rewrite E; discriminate) Ih B ltac:(lia)) as ((r & ->) & Ch & In_). split; [|exact In_].
  split; [exact Ch|]. split; [exists h, r, f, fs; auto|].
  destruct (@exists_last _ (h :: r) ltac:(discriminate)) as (i & l & El). rewrite El in *.
  assert (Nl : v_files l <> []). { apply (chain_files _ h r Ch (eq_sym El)); [rewrite E; discriminate|apply in_or_app; right; left; reflexivity]. }
  apply (complete_ok _ l i eq_refl Nl) in C as (Hl & gs & g & Eg & Ag). exists i, l, gs, g. auto.
Qed.

(** ** Sets that are found *)
Lemma choose_only vols h l w : 0 <= v_no l < 2 ^ 32 - 1 -> v_files l <> [] -> only_next vols h l w -> choose h (filter (follows l) vols) = Some w.
Proof.
  intros S N (Iw & J & O). unfold choose.
  assert (In_ : forall x, In x (filter (follows l) vols) <-> In x vols /\ joins l x). { intros x. rewrite filter_In, follows_ok by assumption. reflexivity. }
  assert (Iw2 : In w (filter (follows l) vols)) by (apply In_; auto).
  destruct O as [O|(n & m & Ln & Lm & Sn & O)].
  - assert (A : forall x, In x (filter (follows l) vols) -> x = w) by (intros x X; apply In_ in X as [X1 X2]; auto).
    destruct (filter (follows l) vols) as [|x [|y r]]; [destruct Iw2|f_equal; apply A; left; reflexivity|].
    destruct (find _ _) eqn:F; f_equal; [apply A; apply find_some in F as [F _]; exact F|apply A; left; reflexivity].
  - set (c := filter (follows l) vols) in *.
    assert (F : find (fun v => same_archive (base_name (v_name h)) (base_name (v_name v)) (v_new h)) c = Some w).
    { destruct (find _ c) as [x|] eqn:F.
      - apply find_some in F as [Fx F]. apply In_ in Fx as [X1 X2]. apply same_archive_ok in F. f_equal. rewrite (last_part_base _ _ Ln) in F. exact (O x _ X1 X2 (base_name_part _) F).
      - exfalso. apply (find_none _ _ F) in Iw2. apply Bool.not_true_iff_false in Iw2. apply Iw2. apply same_archive_ok. rewrite (last_part_base _ _ Ln), (last_part_base _ _ Lm). exact Sn. }
    destruct c as [|x [|y r]] eqn:Ec; [destruct Iw2|destruct Iw2 as [<- | []]; reflexivity|]. rewrite F. reflexivity.
Qed.
Lemma choose_stop vols h l : v_has l = false -> choose h (filter (follows l) vols) = None.
Proof.
  intros H. assert (E : filter (follows l) vols = []).
  { induction vols as [|v vols IH]; [reflexivity|]. cbn [filter]. unfold follows at 1. rewrite H, andb_false_r. exact IH. }
  rewrite E. reflexivity.
Qed.
Lemma build_found vols h : forall f s l r, s = l :: r -> chain s -> v_files l <> [] -> 0 <= v_no l -> v_no l + zlen s < 2 ^ 32 ->
  (forall i x w, nth_error s i = Some x -> nth_error s (S i) = Some w -> only_next vols h x w) ->
  (exists i z, s = i ++ [z] /\ v_has z = false) -> (length s <= f)%nat -> build f vols h l = Some s.
Proof.
  induction f as [|f IH]; intros s l r E C N P B O L K; [subst s; cbn in K; lia|]. cbn [build]. subst s. destruct r as [|w r].
  - destruct L as (i & z & L & Hz). destruct i as [|? [|? i]]; try discriminate. injection L as <-. rewrite choose_stop by exact Hz. reflexivity.
  - inversion C as [|? ? ? J C']; subst. pose proof J as (_ & Nw & _ & _ & En & _). unfold zlen in *. cbn [length] in *.
    rewrite (choose_only vols h l w) by (try lia; try assumption; apply (O 0%nat); reflexivity).
    rewrite (IH (w :: r) w r); try assumption; try reflexivity; try lia.
    + cbn [length]. lia.
    + intros i x y X Y. apply (O (S i) x y X Y).
    + destruct L as (i & z & L & Hz). destruct i as [|x i]; [discriminate|]. injection L as _ L. exists i, z. auto.
    + cbn [length]. lia.
Qed.
Theorem sets_found vols sets s h r : Forall small vols -> zlen vols < 2 ^ 32 - 1 -> make_sets vols = Some sets ->
  s = h :: r -> is_set s -> In h vols ->
  (forall i x w, nth_error s i = Some x -> nth_error s (S i) = Some w -> only_next vols h x w) -> In s sets.
Proof.
  intros Sm Z H E (C & (h' & r' & f & fs & E' & E0 & Ef & Bf) & (i & l & gs & g & El & Hl & Eg & Ag)) Ih O.
  rewrite E in E'. injection E' as <- <-. unfold make_sets in H. apply (all_sets_in _ _ _ _ H).
  assert (In_ : incl s vols).
  { intros x X. apply In_nth_error in X as [n X]. destruct n as [|n]; [rewrite E in X; injection X as <-; exact Ih|].
    destruct (nth_error s n) as [y|] eqn:Y; [|apply nth_error_None in Y; assert (Q : nth_error s (S n) <> None) by congruence; apply nth_error_Some in Q; lia].
    exact (proj1 (O n y x Y X)). }
  pose proof (chain_short _ _ _ _ C E In_) as K. exists h. repeat apply conj.
  - apply filter_In. split; [exact Ih|]. apply starts_ok. exists f, fs. auto.
  - apply (build_found vols h _ s h r E C); try assumption; try lia.
    + rewrite Ef. discriminate.
    + unfold zlen in *. lia.
    + exists i, l. auto.
  - apply (complete_ok s l i El); [rewrite Eg; destruct gs; discriminate|]. split; [exact Hl|]. exists gs, g. auto.
Qed.
