From Verif Require Import Base InfoModel InfoSpec StatsModel StatsSpec HistModel HistSpec.
From Coq Require Import Permutation.
Open Scope list_scope.
Open Scope Z_scope.

Lemma kind_iff : forall a b, is_kind a b = true <-> a = b.
Proof. intros [] []; cbn; split; congruence. Qed.
Lemma kind_false : forall a b, is_kind a b = false <-> a <> b.
Proof. intros [] []; cbn; split; congruence. Qed.

(** ** Cleaning *)

Definition fate_of (dupe_check : bool) (min : Z) (h : hitem) : list hitem :=
  if negb (is_kind (h_kind h) hkDup) && (h_time h <? min) then
    if dupe_check && is_kind (h_kind h) hkNzb then [hide h] else []
  else [h].
Definition wipe (nzb_cleanup : bool) (min : Z) (h : hitem) (d : disk) : disk :=
  if is_kind (h_kind h) hkNzb && (h_time h <? min) then delete_disk_files nzb_cleanup h d else d.

Lemma nth_end : forall (a b : list hitem) h,
  nth_error ((a ++ [h]) ++ b) (length ((a ++ [h]) ++ b) - 1 - length b) = Some h /\
  firstn (length ((a ++ [h]) ++ b) - 1 - length b) ((a ++ [h]) ++ b) = a /\
  skipn (S (length ((a ++ [h]) ++ b) - 1 - length b)) ((a ++ [h]) ++ b) = b.
Proof.
  intros a b h.
  assert (E : (length ((a ++ [h]) ++ b) - 1 - length b)%nat = length a)
    by (rewrite !app_length; cbn [length]; lia).
  rewrite E, <- app_assoc. cbn [app]. repeat split.
  - rewrite nth_error_app2 by lia. now rewrite Nat.sub_diag.
  - rewrite firstn_app, Nat.sub_diag, firstn_all. cbn [firstn]. now rewrite app_nil_r.
  - change (a ++ h :: b) with (a ++ [h] ++ b). rewrite app_assoc, skipn_app, app_length. cbn [length].
    replace (S (length a) - (length a + 1))%nat with O by lia.
    rewrite skipn_all2 by (rewrite app_length; cbn; lia). reflexivity.
Qed.

Lemma expire_ok : forall nc dc min a b d,
  expire nc dc min (length a) (a ++ b) (length b) d =
  (flat_map (fate_of dc min) a ++ b, fold_left (fun d h => wipe nc min h d) (rev a) d).
Proof.
  intros nc dc min a. induction a as [|h a IH] using rev_ind; intros b d; [reflexivity|].
  rewrite app_length. cbn [length]. rewrite Nat.add_1_r. cbn [expire].
  destruct (nth_end a b h) as (E1 & E2 & E3).
  cbv zeta. rewrite E1, E2, E3, flat_map_app, rev_app_distr. cbn [flat_map app rev fold_left].
  unfold fate_of at 2. unfold wipe at 2.
  assert (EA : (a ++ [h]) ++ b = a ++ h :: b) by now rewrite <- app_assoc.
  destruct (h_kind h) eqn:K; destruct (h_time h <? min) eqn:T; destruct dc; cbn [negb is_kind andb app].
  - change (S (length b)) with (length (hide h :: b)). rewrite IH, ?app_nil_r, <- ?app_assoc. reflexivity.
  - rewrite IH, ?app_nil_r. reflexivity.
  - change (S (length b)) with (length (h :: b)). rewrite EA, IH, <- ?app_assoc. reflexivity.
  - change (S (length b)) with (length (h :: b)). rewrite EA, IH, <- ?app_assoc. reflexivity.
  - rewrite IH, ?app_nil_r. reflexivity.
  - rewrite IH, ?app_nil_r. reflexivity.
  - change (S (length b)) with (length (h :: b)). rewrite EA, IH, <- ?app_assoc. reflexivity.
  - change (S (length b)) with (length (h :: b)). rewrite EA, IH, <- ?app_assoc. reflexivity.
  - change (S (length b)) with (length (h :: b)). rewrite EA, IH, <- ?app_assoc. reflexivity.
  - change (S (length b)) with (length (h :: b)). rewrite EA, IH, <- ?app_assoc. reflexivity.
  - change (S (length b)) with (length (h :: b)). rewrite EA, IH, <- ?app_assoc. reflexivity.
  - change (S (length b)) with (length (h :: b)). rewrite EA, IH, <- ?app_assoc. reflexivity.
Qed.

Lemma fate_cleaned : forall dc min l, cleaned dc min l (flat_map (fate_of dc min) l).
Proof.
  intros dc min l. induction l as [|h l IH]; [constructor|]. cbn [flat_map]. unfold fate_of at 1.
  destruct (h_kind h) eqn:K; destruct (h_time h <? min) eqn:T; destruct dc; cbn [negb is_kind andb app];
    try (apply Z.ltb_lt in T); try (apply Z.ltb_ge in T);
    try (apply cleaned_keep; [tauto|exact IH]);
    try (apply cleaned_gone; [tauto|exact T|exact IH]).
  apply cleaned_hide; auto. repeat split.
Qed.

Lemma cleaned_unique : forall dc min a b, cleaned dc min a b -> forall b', cleaned dc min a b' ->
  Forall2 (fun x y => x = y \/ (h_kind x = hkDup /\ h_kind y = hkDup /\ h_id x = h_id y)) b b'.
Proof.
  intros dc min a b H. induction H; intros b' H'; inversion H'; subst;
    try (exfalso; intuition (congruence || lia); fail); auto.
  constructor; auto. right. unfold hidden_of in *. intuition congruence.
Qed.

Lemma wipe_dirs : forall nc min l d,
  d_dirs (fold_left (fun d h => wipe nc min h d) l d) = d_dirs d.
Proof.
  intros nc min l. induction l as [|h l IH]; intro d; [reflexivity|].
  cbn [fold_left]. rewrite IH. unfold wipe, delete_disk_files.
  destruct (is_kind (h_kind h) hkNzb && (h_time h <? min)), nc; reflexivity.
Qed.

(** ** Names separated with "|" *)

Lemma parts_cons : forall s, parts s <> [].
Proof.
  intros [|c s]; cbn; [discriminate|]. destruct (c =? 124); [discriminate|].
  destruct (parts s); discriminate.
Qed.

Lemma parts_first : forall s x y, parts s = x :: y ->
  ~ In 124 x /\ exists b, s = x ++ b /\ (b = [] \/ exists b', b = 124 :: b').
Proof.
  induction s as [|z s IH]; intros x y P; cbn [parts] in P.
  - injection P as <- <-. split; [tauto|]. exists []. auto.
  - destruct (z =? 124) eqn:C.
    + apply Z.eqb_eq in C. subst z. injection P as <- _. split; [tauto|]. exists (124 :: s). split; auto.
      right. now exists s.
    + destruct (parts s) as [|u v] eqn:Q; [now apply parts_cons in Q|]. injection P as <- <-.
      destruct (IH u v eq_refl) as (N & b & -> & B). split.
      * intros [->|H]; [discriminate|tauto].
      * exists b. auto.
Qed.

(** The part up to the first "|" is unique. *)
Lemma first_part : forall x x' b b', ~ In 124 x -> ~ In 124 x' ->
  (b = [] \/ exists r, b = 124 :: r) -> (b' = [] \/ exists r, b' = 124 :: r) ->
  x ++ b = x' ++ b' -> x = x'.
Proof.
  induction x as [|c x IH]; intros x' b b' N N' B B' E.
  - destruct x' as [|c' x']; auto. cbn in E. destruct B as [->|(r & ->)]; [discriminate|].
    injection E as <- _. destruct N'. now left.
  - destruct x' as [|c' x'].
    + cbn in E. destruct B' as [->|(r & ->)]; [discriminate|]. injection E as -> _. destruct N. now left.
    + cbn in E. injection E as <- E. f_equal. apply (IH x' b b'); auto; intro H; [apply N|apply N']; now right.
Qed.

Lemma parts_later : forall s x y, parts s = x :: y -> forall p,
  In p y <-> exists a b, s = a ++ 124 :: p ++ b /\ ~ In 124 p /\ (b = [] \/ exists b', b = 124 :: b').
Proof.
  induction s as [|c s IH]; intros x y P p; cbn [parts] in P.
  - injection P as <- <-. split; [intros []|]. intros ([|? a] & b & E & _); discriminate.
  - destruct (parts s) as [|u v] eqn:Q; [now apply parts_cons in Q|].
    destruct (parts_first _ _ _ Q) as (NU & bu & EU & BU).
    destruct (c =? 124) eqn:C.
    + apply Z.eqb_eq in C. subst c. injection P as <- <-. split.
      * intros [<-|H].
        { exists [], bu. cbn [app]. rewrite <- EU. auto. }
        { apply (IH u v eq_refl) in H as (a & b & -> & R). exists (124 :: a), b. auto. }
      * intros ([|z a] & b & E & N & B); cbn [app] in E; injection E as E.
        { left. rewrite EU in E. now apply (first_part u p bu b). }
        { subst z. right. apply (IH u v eq_refl). exists a, b. auto. }
    + assert (C' : c <> 124) by (intros ->; discriminate). injection P as <- <-.
      rewrite (IH u v eq_refl p). split.
      * intros (a & b & -> & R). exists (c :: a), b. auto.
      * intros ([|z a] & b & E & R); cbn [app] in E; injection E as E1 E; [congruence|].
        exists a, b. auto.
Qed.

Lemma parts_in : forall s p, In p (parts s) <-> named_in p s.
Proof.
  intros s p. destruct (parts s) as [|x y] eqn:P; [now apply parts_cons in P|].
  destruct (parts_first _ _ _ P) as (NX & bx & EX & BX).
  cbn [In]. rewrite (parts_later _ _ _ P p). split.
  - intros [<-|(a & b & E & N & B)].
    + exists [], bx. auto.
    + exists (a ++ [124]), b. rewrite <- app_assoc. repeat split; auto. right. now exists a.
  - intros (a & b & E & N & A & B). destruct A as [->|(a' & ->)].
    + left. rewrite EX in E. cbn [app] in E. now apply (first_part x p bx b).
    + right. exists a', b. rewrite <- app_assoc in E. auto.
Qed.

(** ** Deleting nzb-files *)

Lemma there_iff : forall p l, there p l = true <-> In p l.
Proof.
  intros p l. unfold there. rewrite existsb_exists. split.
  - intros (x & H & E). apply beqb_eq in E. now subst.
  - intro H. exists p. split; auto. now apply beqb_eq.
Qed.
Lemma gone_in : forall p l x, In x (gone p l) <-> In x l /\ x <> p.
Proof.
  intros p l x. unfold gone. rewrite filter_In, negb_true_iff. split; intros [H E]; split; auto.
  - intros ->. assert (T := proj2 (beqb_eq p p) eq_refl). congruence.
  - destruct (beqb p x) eqn:B; auto. apply beqb_eq in B. congruence.
Qed.
Lemma delete_all : forall ps files x, In x (fold_left delete_one ps files) <-> In x files /\ ~ In x ps.
Proof.
  induction ps as [|p ps IH]; intros files x; cbn [fold_left In]; [tauto|].
  rewrite IH. unfold delete_one. destruct (there p files) eqn:T.
  - rewrite gone_in. intuition congruence.
  - assert (N : ~ In p files) by (intro H; apply there_iff in H; congruence). intuition congruence.
Qed.

Lemma disk_files_ok : forall nc h d x,
  In x (d_files (delete_disk_files nc h d)) <->
  In x (d_files d) /\ ~ (nc = true /\ named_in x (h_nzb h)).
Proof.
  intros nc h d x. unfold delete_disk_files. destruct nc; cbn [d_files].
  - rewrite delete_all, parts_in. tauto.
  - intuition congruence.
Qed.

Lemma wipe_files : forall nc min l d x,
  In x (d_files (fold_left (fun d h => wipe nc min h d) l d)) <->
  In x (d_files d) /\
  ~ (nc = true /\ exists h, In h l /\ h_kind h = hkNzb /\ h_time h < min /\ named_in x (h_nzb h)).
Proof.
  intros nc min l. induction l as [|h l IH]; intros d x; cbn [fold_left].
  - split; [|tauto]. intro H. split; auto. intros (_ & h & [] & _).
  - rewrite IH. unfold wipe.
    destruct (is_kind (h_kind h) hkNzb && (h_time h <? min)) eqn:E.
    + apply andb_true_iff in E as [K T]. apply kind_iff in K. apply Z.ltb_lt in T.
      rewrite disk_files_ok. split.
      * intros ((A & B) & C). split; auto. intros (Hn & h' & [<-|Hh] & K' & T' & N'); [tauto|].
        apply C. split; auto. exists h'. auto.
      * intros (A & B). split; [split; auto|].
        { intros (Hn & N'). apply B. split; auto. exists h. cbn. auto. }
        { intros (Hn & h' & Hh & R). apply B. split; auto. exists h'. cbn. auto. }
    + split.
      * intros (A & C). split; auto. intros (Hn & h' & [<-|Hh] & K' & T' & N').
        { apply kind_iff in K'. apply Z.ltb_lt in T'. rewrite K', T' in E. discriminate. }
        { apply C. split; auto. exists h'. auto. }
      * intros (A & B). split; auto. intros (Hn & h' & Hh & R). apply B. split; auto. exists h'. cbn. auto.
Qed.

Lemma service_ok : forall nc dc keep now l d l' d',
  service_work nc dc keep now l d = Some (l', d') ->
  cleaned dc (now - keep * 86400) l l' /\ d_dirs d' = d_dirs d /\
  (forall x, In x (d_files d') <-> In x (d_files d) /\
     ~ (nc = true /\ exists h, In h l /\ h_kind h = hkNzb /\ h_time h < now - keep * 86400 /\
                               named_in x (h_nzb h))).
Proof.
  intros nc dc keep now l d l' d' H. unfold service_work in H.
  destruct (_ || _); [discriminate|]. injection H as H.
  replace (keep * 60 * 60 * 24) with (keep * 86400) in H by ring.
  pose proof (expire_ok nc dc (now - keep * 86400) l [] d) as E.
  rewrite !app_nil_r in E. cbn [length] in E. rewrite E in H. injection H as <- <-.
  split; [apply fate_cleaned|]. split; [apply wipe_dirs|].
  intro x. rewrite wipe_files. split; intros (A & B); (split; [exact A|]); intros (C & h & Hh & R); apply B;
    (split; [exact C|]); exists h; (split; [|exact R]); now apply in_rev in Hh || (apply in_rev; now rewrite rev_involutive).
Qed.

Lemma service_some : forall nc dc keep now l d, 0 <= keep < 24856 ->
  service_work nc dc keep now l d <> None.
Proof.
  intros nc dc keep now l d H. unfold service_work.
  destruct (keep * 60 * 60 * 24 <? - 2 ^ 31) eqn:A; [apply Z.ltb_lt in A; lia|].
  destruct (2 ^ 31 <=? keep * 60 * 60 * 24) eqn:B; [apply Z.leb_le in B; lia|]. discriminate.
Qed.
