(** Proofs: deleting a directory (C155). *)
From Coq Require Import String.
From Verif Require Import Base NumFmt NameModel NameSpec NzbModel NzbSpec CleanModel CleanSpec.
From Verif Require Import CleanProofs.
Open Scope list_scope. Open Scope Z_scope.

Definition del_entry can (p : list (list Z)) (n : list Z) (y : node) : option node * bool :=
  if is_dir y then delete_all can (p ++ [n]) y else if can (p ++ [n]) then (None, true) else (Some y, false).
Fixpoint del_list can (p : list (list Z)) (l : list (list Z * node)) (ok : bool) : list (list Z * node) * bool :=
  match l with
  | [] => ([], ok)
  | (n, y) :: r => let '(y1, ok1) := del_entry can p n y in
                   let '(r1, ok2) := del_list can p r (ok && ok1) in (match y1 with Some z => (n, z) :: r1 | None => r1 end, ok2)
  end.
Lemma delete_dir can p l : delete_in can p (NDir l) = let '(l1, ok) := del_list can p l true in (NDir l1, ok).
Proof.
  cbn [delete_in]. match goal with |- context [?F l true] => assert (E : forall l ok, F l ok = del_list can p l ok) end.
  { clear l. induction l as [|(n, y) l IH]; intros ok; [reflexivity|]. cbn [del_list]. cbv zeta. unfold del_entry, delete_all.
    destruct (if is_dir y then let '(z, ok0) := delete_in can (p ++ [n]) y in rmdir (can (p ++ [n])) z ok0 else if can (p ++ [n]) then (None, true) else (Some y, false)) as (y1, ok1).
    rewrite IH. reflexivity. }
  rewrite E. reflexivity.
Qed.
Lemma delete_link can p t : delete_in can p (NLink (Some t)) = let '(t1, ok) := delete_in can p t in (NLink (Some t1), ok).
Proof. reflexivity. Qed.

(** The result tells whether something is left. *)
Lemma del_list_ok can p : forall l, (forall n y, In (n, y) l -> is_dir y = true -> forall b, snd (delete_all can b y) = true <-> fst (delete_all can b y) = None) ->
  forall ok, snd (del_list can p l ok) = true <-> ok = true /\ fst (del_list can p l ok) = [].
Proof.
  induction l as [|(n, y) l IH]; intros H ok; [cbn; tauto|]. cbn [del_list].
  assert (D : snd (del_entry can p n y) = true <-> fst (del_entry can p n y) = None).
  { unfold del_entry. destruct (is_dir y) eqn:D; [apply (H n y (or_introl eq_refl) D)|]. destruct (can (p ++ [n])); cbn; split; congruence. }
  destruct (del_entry can p n y) as (y1, ok1). cbn [fst snd] in D. specialize (IH (fun m v I => H m v (or_intror I)) (ok && ok1)).
  destruct (del_list can p l (ok && ok1)) as (r1, ok2). cbn [fst snd] in *. rewrite IH, andb_true_iff. destruct y1 as [z|].
  - split; [intros ((_ & Q) & _); apply D in Q; discriminate|intros (_ & Q); discriminate].
  - split; [tauto|]. intros (-> & ->). repeat split. apply D. reflexivity.
Qed.
Lemma all_result can : forall x, is_dir x = true -> forall b, snd (delete_all can b x) = true <-> fst (delete_all can b x) = None.
Proof.
  apply (node_ind2 (fun x => is_dir x = true -> forall b, snd (delete_all can b x) = true <-> fst (delete_all can b x) = None)); try discriminate.
  - intros l IH _ b. unfold delete_all. rewrite delete_dir. pose proof (del_list_ok can b l IH true) as Q. destruct (del_list can b l true) as (l1, ok). cbn [fst snd] in Q.
    destruct l1 as [|e l1]; cbn [rmdir]; [|cbn; split; discriminate]. destruct (can b); cbn; [|split; discriminate]. split; [reflexivity|]. intros _. apply Q. auto.
  - intros t _ _ b. unfold delete_all. rewrite delete_link. destruct (delete_in can b t) as (t1, ok). cbn. split; discriminate.
Qed.

(** What is left. *)
Lemma del_list_in can p : forall l ok n z, In (n, z) (fst (del_list can p l ok)) <-> exists y, In (n, y) l /\ fst (del_entry can p n y) = Some z.
Proof.
  induction l as [|(m, y) l IH]; intros ok n z; [cbn; split; [intros []|intros (y & [] & _)]|]. cbn [del_list].
  destruct (del_entry can p m y) as (y1, ok1) eqn:E. specialize (IH (ok && ok1) n z). destruct (del_list can p l (ok && ok1)) as (r1, ok2). cbn [fst] in *. split.
  - intros I. destruct y1 as [v|].
    + destruct I as [Q|I]; [injection Q as <- <-; exists y; rewrite E; split; [left; reflexivity|reflexivity]|]. apply IH in I as (u & I & Q). exists u. split; [right; exact I|exact Q].
    + apply IH in I as (u & I & Q). exists u. split; [right; exact I|exact Q].
  - intros (u & [Q|I] & F); [injection Q as <- <-; rewrite E in F; cbn in F; subst y1; left; reflexivity|].
    assert (X : In (n, z) r1) by (apply IH; eauto). destruct y1; [right|]; exact X.
Qed.
Lemma delete_in_dir can : forall x b, is_dir (fst (delete_in can b x)) = is_dir x.
Proof.
  apply (node_ind2 (fun x => forall b, is_dir (fst (delete_in can b x)) = is_dir x)); try reflexivity.
  - intros l _ b. rewrite delete_dir. destruct (del_list can b l true). reflexivity.
  - intros t IH b. rewrite delete_link. specialize (IH b). destruct (delete_in can b t). exact IH.
Qed.
Lemma delete_in_leaf can : forall x b, is_dir x = false -> fst (delete_in can b x) = x.
Proof.
  apply (node_ind2 (fun x => forall b, is_dir x = false -> fst (delete_in can b x) = x)); try reflexivity.
  - intros l _ b Q. discriminate Q.
  - intros t IH b Q. rewrite delete_link. specialize (IH b Q). destruct (delete_in can b t). cbn [fst] in *. congruence.
Qed.
(** Something below the directory is left only if it may not be deleted. *)
Definition left_in (o : option node) (p : list (list Z)) (f : node) : Prop := match o with Some x => reach x p f | None => False end.
Lemma left_rmdir c x ok p f : is_dir f = false -> (left_in (fst (rmdir c x ok)) p f <-> reach x p f).
Proof.
  intros D. destruct x as [e|[|e l]|t]; cbn [rmdir]; try reflexivity. destruct c; [|reflexivity]. cbn [fst left_in]. split; [intros []|]. intros R. apply reach_dir in R as [(_ & ->)|(n & q & y & _ & [] & _)]. discriminate D.
Qed.
Lemma deleted_leaf can : forall x b p f, is_dir f = false -> (reach (fst (delete_in can b x)) p f <-> reach x p f /\ (p = [] \/ can (b ++ p) = false)).
Proof.
  apply (node_ind2 (fun x => forall b p f, is_dir f = false -> (reach (fst (delete_in can b x)) p f <-> reach x p f /\ (p = [] \/ can (b ++ p) = false)))).
  - intros c b p f D. cbn [delete_in fst]. split; [intros R; split; [exact R|left; apply (reach_file c p f R)]|tauto].
  - intros l IH b p f D. rewrite delete_dir. pose proof (del_list_in can b l true) as A. destruct (del_list can b l true) as (l1, ok). cbn [fst] in *. rewrite !reach_dir. split.
    + intros [(-> & ->)|(n & q & z & -> & I & R)]; [discriminate D|]. apply A in I as (y & I & Q). unfold del_entry in Q. destruct (is_dir y) eqn:Dy.
      * assert (L : left_in (fst (delete_all can (b ++ [n]) y)) q f) by (rewrite Q; exact R). unfold delete_all in L. specialize (IH n y I (b ++ [n]) q f D).
        destruct (delete_in can (b ++ [n]) y) as (y1, ok1). apply (left_rmdir _ _ _ _ _ D) in L. apply IH in L as (Ry & C). split; [right; eauto 8|].
        right. destruct C as [-> |C]; [pose proof (reach_dir_top y Dy f Ry); congruence|]. rewrite <- app_assoc in C. exact C.
      * destruct (can (b ++ [n])) eqn:C; [discriminate Q|]. injection Q as <-. destruct (reach_leaf y Dy q f R) as (-> & _). split; [right; eauto 8|]. right. exact C.
    + intros ([(-> & ->)|(n & q & y & -> & I & R)] & C); [discriminate D|]. destruct C as [C|C]; [discriminate C|]. right. destruct (is_dir y) eqn:Dy.
      * specialize (IH n y I (b ++ [n]) q f D). assert (L : left_in (fst (delete_all can (b ++ [n]) y)) q f).
        { unfold delete_all. destruct (delete_in can (b ++ [n]) y) as (y1, ok1). apply (left_rmdir _ _ _ _ _ D). apply IH. split; [exact R|]. right. rewrite <- app_assoc. exact C. }
        destruct (fst (delete_all can (b ++ [n]) y)) as [z|] eqn:E; [|destruct L]. exists n, q, z. split; [reflexivity|]. split; [|exact L]. apply A. exists y. split; [exact I|]. unfold del_entry. rewrite Dy. exact E.
      * destruct (reach_leaf y Dy q f R) as (-> & _). exists n, [], y. split; [reflexivity|]. split; [|exact R]. apply A. exists y. split; [exact I|]. unfold del_entry. rewrite Dy. rewrite C. reflexivity.
  - intros b p f D. cbn [delete_in fst]. split; [intros R; split; [exact R|left; apply (reach_none p f R)]|tauto].
  - intros t IH b p f D. specialize (IH b p f D). rewrite delete_link. pose proof (delete_in_dir can t b) as Dt. pose proof (delete_in_leaf can t b) as Lt. destruct (delete_in can b t) as (t1, ok). cbn [fst] in *. rewrite !reach_link, IH. split.
    + intros [(-> & ->)|(R & C)]; [|auto]. split; [left; split; [reflexivity|]|auto]. cbn [is_dir] in D. rewrite Dt in D. rewrite (Lt D). reflexivity.
    + intros ([(-> & ->)|R] & C); [left; split; [reflexivity|]|auto]. cbn [is_dir] in D. rewrite (Lt D). reflexivity.
Qed.
Theorem deleted can x b p f : is_dir x = true -> is_dir f = false -> (left_in (fst (delete_all can b x)) p f <-> reach x p f /\ can (b ++ p) = false).
Proof.
  intros Dx D. unfold delete_all. pose proof (deleted_leaf can x b p f D) as H. destruct (delete_in can b x) as (x1, ok). cbn [fst] in H. rewrite (left_rmdir _ _ _ _ _ D), H. split; [|tauto].
  intros (R & [-> |C]); [pose proof (reach_dir_top x Dx f R); congruence|auto].
Qed.

(** Everything can be deleted. *)
Lemma no_links_in l n y : no_links (NDir l) -> In (n, y) l -> no_links y.
Proof. intros H I p t R. apply (H (n :: p) t). econstructor; eauto. Qed.
Theorem whole can : forall x, is_dir x = true -> no_links x -> forall b, fst (delete_all can b x) = None <-> forall p y, reach x p y -> can (b ++ p) = true.
Proof.
  apply (node_ind2 (fun x => is_dir x = true -> no_links x -> forall b, fst (delete_all can b x) = None <-> forall p y, reach x p y -> can (b ++ p) = true)); try discriminate.
  - intros l IH _ Nl b. unfold delete_all. rewrite delete_dir. pose proof (del_list_in can b l true) as A. destruct (del_list can b l true) as (l1, ok). cbn [fst] in A.
    assert (E : l1 = [] <-> forall n y, In (n, y) l -> fst (del_entry can b n y) = None).
    { split.
      - intros -> n y I. destruct (fst (del_entry can b n y)) as [z|] eqn:Q; [|reflexivity]. exfalso. apply (proj2 (A n z)). exists y. auto.
      - intros H. destruct l1 as [|(n, z) l1]; [reflexivity|]. exfalso. destruct (proj1 (A n z) (or_introl eq_refl)) as (y & I & Q). rewrite (H n y I) in Q. discriminate Q. }
    assert (F : forall n y, In (n, y) l -> (fst (del_entry can b n y) = None <-> forall p z, reach y p z -> can (b ++ n :: p) = true)).
    { intros n y I. unfold del_entry. destruct (is_dir y) eqn:Dy.
      - rewrite (IH n y I Dy (no_links_in _ _ _ Nl I)). split; intros H p z R; specialize (H p z R); rewrite <- app_assoc in *; exact H.
      - split.
        + destruct (can (b ++ [n])) eqn:C; [|discriminate]. intros _ p z R. destruct (reach_leaf y Dy p z R) as (-> & _). exact C.
        + intros H. rewrite (H [] y (r_here y)). reflexivity. }
    destruct l1 as [|e l1]; cbn [rmdir].
    + destruct (can b) eqn:C; cbn [fst].
      * split; [|reflexivity]. intros _ p y R. apply reach_dir in R as [(-> & _)|(n & q & v & -> & I & R)]; [rewrite app_nil_r; exact C|]. apply (proj1 (F n v I)) with (z := y); [apply (proj1 E eq_refl n v I)|exact R].
      * split; [discriminate|]. intros H. specialize (H [] _ (r_here _)). rewrite app_nil_r in H. congruence.
    + split; [discriminate|]. intros H. exfalso. assert (X : e :: l1 = []); [|discriminate X]. apply E. intros n y I. apply (F n y I). intros p z R. apply (H (n :: p) z). econstructor; eauto.
  - intros t _ _ H. exfalso. exact (H [] (Some t) (r_here _)).
Qed.
