(** Proofs: cleaning up (C153). *)
From Coq Require Import String.
From Verif Require Import Base NumFmt NameModel NameSpec NzbModel NzbSpec CleanModel CleanSpec.
From Verif Require NzbProofs5.
Open Scope list_scope. Open Scope Z_scope.

(** ** Trees *)

Lemma node_ind2 (P : node -> Prop) : (forall c, P (NFile c)) -> (forall l, (forall n y, In (n, y) l -> P y) -> P (NDir l)) ->
  P (NLink None) -> (forall t, P t -> P (NLink (Some t))) -> forall x, P x.
Proof.
  intros Hf Hd Hn Hl. fix IH 1. intros [c|l|[t|]].
  - apply Hf.
  - apply Hd. induction l as [|(m, z) l IHl]; [intros n y []|]. intros n y [E|I]; [injection E as _ <-; apply IH|exact (IHl n y I)].
  - apply Hl, IH.
  - apply Hn.
Qed.

Lemma reach_file c p z : reach (NFile c) p z -> p = [] /\ z = NFile c.
Proof. intros R. inversion R; subst; auto. Qed.
Lemma reach_none p z : reach (NLink None) p z -> p = [] /\ z = NLink None.
Proof. intros R. inversion R; subst; auto. Qed.
Lemma reach_dir l p z : reach (NDir l) p z <-> (p = [] /\ z = NDir l) \/ exists n q y, p = n :: q /\ In (n, y) l /\ reach y q z.
Proof.
  split; [intros R; inversion R; subst; [left; auto|right; eauto 8]|]. intros [(-> & ->)|(n & q & y & -> & I & R)]; [constructor|econstructor; eauto].
Qed.
Lemma reach_link t p z : reach (NLink (Some t)) p z <-> (p = [] /\ z = NLink (Some t)) \/ reach t p z.
Proof. split; [intros R; inversion R; subst; auto|intros [(-> & ->)|R]; constructor; exact R]. Qed.
(** Nothing is below what is no directory. *)
Lemma reach_leaf : forall x, is_dir x = false -> forall p z, reach x p z -> p = [] /\ is_dir z = false.
Proof.
  apply (node_ind2 (fun x => is_dir x = false -> forall p z, reach x p z -> p = [] /\ is_dir z = false)).
  - intros c _ p z R. apply reach_file in R as (-> & ->). auto.
  - intros l _ E. discriminate E.
  - intros _ p z R. apply reach_none in R as (-> & ->). auto.
  - intros t IH E p z R. apply reach_link in R as [(-> & ->)|R]; [auto|]. exact (IH E p z R).
Qed.
Lemma reach_dir_top : forall x, is_dir x = true -> forall z, reach x [] z -> is_dir z = true.
Proof.
  apply (node_ind2 (fun x => is_dir x = true -> forall z, reach x [] z -> is_dir z = true)).
  - intros c E. discriminate E.
  - intros l _ _ z R. inversion R; subst. reflexivity.
  - intros E. discriminate E.
  - intros t IH E z R. apply reach_link in R as [(_ & ->)|R]; [exact E|exact (IH E z R)].
Qed.

(** ** Cleaning up *)

Fixpoint clean_list can exts (p : list (list Z)) (l : list (list Z * node)) (ok d : bool) : list (list Z * node) * bool * bool :=
  match l with
  | [] => ([], ok, d)
  | (n, y) :: r =>
    let q := p ++ [n] in
    let '(y1, ok1, d1) := if is_dir y then clean can exts q y else (y, true, d) in
    if matches exts n && negb (is_dir y) then
      if can q then clean_list can exts p r (ok && ok1) true
      else let '(r1, ok2, d2) := clean_list can exts p r false true in ((n, y1) :: r1, ok2, d2)
    else let '(r1, ok2, d2) := clean_list can exts p r (ok && ok1) d1 in ((n, y1) :: r1, ok2, d2)
  end.
Lemma clean_dir can exts p l : clean can exts p (NDir l) = let '(l1, ok, d) := clean_list can exts p l true false in (NDir l1, ok, d).
Proof.
  cbn [clean]. match goal with |- context [?F l true false] => assert (E : forall l ok d, F l ok d = clean_list can exts p l ok d) end.
  { clear l. induction l as [|(n, y) l IH]; intros ok d; [reflexivity|]. cbn [clean_list]. cbv zeta. destruct (if is_dir y then clean can exts (p ++ [n]) y else (y, true, d)) as ((y1, ok1), d1).
    rewrite !IH. reflexivity. }
  rewrite E. reflexivity.
Qed.

Definition after can exts p x : node := fst (fst (clean can exts p x)).
Definition went can exts p x : bool := snd (fst (clean can exts p x)).
Definition mark can exts p x : bool := snd (clean can exts p x).
Lemma clean_eta can exts p x : clean can exts p x = (after can exts p x, went can exts p x, mark can exts p x).
Proof. unfold after, went, mark. destruct (clean can exts p x) as ((a, b), c). reflexivity. Qed.

Lemma clean_list_ok can exts p : forall l ok d, let '(l1, ok1, d1) := clean_list can exts p l ok d in
  (forall n z, In (n, z) l1 <-> exists y, In (n, y) l /\
     ((is_dir y = true /\ z = after can exts (p ++ [n]) y) \/ (is_dir y = false /\ z = y /\ (matches exts n = false \/ can (p ++ [n]) = false)))) /\
  (ok1 = true <-> ok = true /\ forall n y, In (n, y) l -> (is_dir y = true -> went can exts (p ++ [n]) y = true) /\ (is_dir y = false -> matches exts n = true -> can (p ++ [n]) = true)) /\
  (d1 = true -> d = true \/ exists n y, In (n, y) l /\ ((is_dir y = true /\ mark can exts (p ++ [n]) y = true) \/ (is_dir y = false /\ matches exts n = true))).
Proof.
  induction l as [|(n, y) l IH]; intros ok d.
  - cbn [clean_list]. split; [intros n z; split; [intros []|intros (y & [] & _)]|]. split; [|auto]. split; [intros ->; split; [reflexivity|intros n y []]|tauto].
  - cbn [clean_list]. rewrite clean_eta. destruct (is_dir y) eqn:D; cbn [negb].
    + rewrite andb_false_r. specialize (IH (ok && went can exts (p ++ [n]) y) (mark can exts (p ++ [n]) y)). destruct (clean_list can exts p l _ _) as ((l1, ok1), d1).
      destruct IH as (A & B & C). split; [|split].
      * intros m z. cbn [In]. rewrite A. split.
        -- intros [E|(v & I & Q)]; [injection E as <- <-; exists y; auto|exists v; auto].
        -- intros (v & [E|I] & Q); [injection E as <- <-|right; eauto]. destruct Q as [(_ & ->)|(Q & _)]; [left; reflexivity|congruence].
      * rewrite B, andb_true_iff. split.
        -- intros ((O1 & O2) & F). split; [exact O1|]. intros m v [E|I]; [injection E as <- <-; split; [auto|congruence]|exact (F m v I)].
        -- intros (O1 & F). split; [split; [exact O1|apply (F n y (or_introl eq_refl)), D]|]. intros m v I. exact (F m v (or_intror I)).
      * intros Q. destruct (C Q) as [Q1|(m & v & I & Q1)]; right; [exists n, y|exists m, v]; (split; [cbn [In]; auto|auto]).
    + rewrite andb_true_r. destruct (matches exts n) eqn:M.
      * destruct (can (p ++ [n])) eqn:Cn.
        -- specialize (IH (ok && true) true). destruct (clean_list can exts p l (ok && true) true) as ((l1, ok1), d1). destruct IH as (A & B & C). split; [|split].
           ++ intros m z. rewrite A. split; [intros (v & I & Q); exists v; cbn [In]; auto|]. intros (v & [E|I] & Q); [injection E as <- <-|eauto].
              destruct Q as [(Q & _)|(_ & _ & [Q|Q])]; congruence.
           ++ rewrite B, andb_true_r. split.
              ** intros (O1 & F). split; [exact O1|]. intros m v [E|I]; [injection E as <- <-; split; [congruence|auto]|exact (F m v I)].
              ** intros (O1 & F). split; [exact O1|]. intros m v I. exact (F m v (or_intror I)).
           ++ intros _. right. exists n, y. cbn [In]. auto.
        -- specialize (IH false true). destruct (clean_list can exts p l false true) as ((l1, ok1), d1). destruct IH as (A & B & C). split; [|split].
           ++ intros m z. cbn [In]. rewrite A. split.
              ** intros [E|(v & I & Q)]; [injection E as <- <-; exists y; split; [auto|right; auto]|exists v; auto].
              ** intros (v & [E|I] & Q); [injection E as <- <-|right; eauto]. destruct Q as [(Q & _)|(_ & -> & _)]; [congruence|left; reflexivity].
           ++ rewrite B. split; [intros (Q & _); discriminate Q|]. intros (_ & F). rewrite (proj2 (F n y (or_introl eq_refl)) D M) in Cn. discriminate Cn.
           ++ intros _. right. exists n, y. cbn [In]. auto.
      * specialize (IH (ok && true) d). destruct (clean_list can exts p l (ok && true) d) as ((l1, ok1), d1). destruct IH as (A & B & C). split; [|split].
        -- intros m z. cbn [In]. rewrite A. split.
           ++ intros [E|(v & I & Q)]; [injection E as <- <-; exists y; split; [auto|right; auto]|exists v; auto].
           ++ intros (v & [E|I] & Q); [injection E as <- <-|right; eauto]. destruct Q as [(Q & _)|(_ & -> & _)]; [congruence|left; reflexivity].
        -- rewrite B, andb_true_r. split.
           ++ intros (O1 & F). split; [exact O1|]. intros m v [E|I]; [injection E as <- <-; split; congruence|exact (F m v I)].
           ++ intros (O1 & F). split; [exact O1|]. intros m v I. exact (F m v (or_intror I)).
        -- intros Q. destruct (C Q) as [Q1|(m & v & I & Q1)]; [auto|]. right. exists m, v. cbn [In]. auto.
Qed.

Lemma matches_iff exts n : nonul n -> (matches exts n = true <-> ignored exts n).
Proof. intros N. unfold matches. destruct (NzbProofs5.match_ext_ok n exts N) as (b & -> & H). exact H. Qed.
Lemma after_is_dir can exts : forall x p, is_dir (after can exts p x) = is_dir x.
Proof.
  apply (node_ind2 (fun x => forall p, is_dir (after can exts p x) = is_dir x)); try reflexivity.
  - intros l _ p. unfold after. rewrite clean_dir. destruct (clean_list can exts p l true false) as ((a, b), c). reflexivity.
  - intros t IH p. unfold after in *. specialize (IH p). cbn [clean]. destruct (clean can exts p t) as ((a, b), c). exact IH.
Qed.
Lemma well_in l n y : named_well (NDir l) -> In (n, y) l -> named_well y /\ nonul n.
Proof.
  intros W I. split; [intros p l2 m z R J; apply (W (n :: p) l2 m z); [econstructor; eauto|exact J]|]. apply (W [] l n y); [constructor|exact I].
Qed.
Lemma last_cons {A} (n : A) p d : p <> [] -> last (n :: p) d = last p d.
Proof. destruct p; [congruence|reflexivity]. Qed.

Lemma clean_leaf can exts : forall x, named_well x -> forall base p f, is_dir f = false ->
  (reach (after can exts base x) p f <-> reach x p f /\ (p = [] \/ ~ ignored exts (last p []) \/ can (base ++ p) = false)).
Proof.
  apply (node_ind2 (fun x => named_well x -> forall base p f, is_dir f = false ->
    (reach (after can exts base x) p f <-> reach x p f /\ (p = [] \/ ~ ignored exts (last p []) \/ can (base ++ p) = false)))).
  - intros c _ base p f D. change (after can exts base (NFile c)) with (NFile c). split; [intros R; split; [exact R|left; apply (reach_file c p f R)]|tauto].
  - intros l IH W base p f D. unfold after. rewrite clean_dir. pose proof (clean_list_ok can exts base l true false) as A.
    destruct (clean_list can exts base l true false) as ((l1, ok1), d1). destruct A as (A & _).
    cbn [fst]. rewrite !reach_dir. split.
    + intros [(-> & ->)|(n & q & z & -> & I & R)]; [discriminate D|]. apply A in I as (y & I & Q). destruct (well_in _ _ _ W I) as (Wy & Nn).
      destruct Q as [(Dy & ->)|(Dy & -> & Q)].
      * apply (IH n y I Wy) in R; [|exact D]. destruct R as (R & Q). split; [right; eauto 8|].
        assert (Nq : q <> []). { intros ->. pose proof (reach_dir_top y Dy f R) as X. congruence. }
        right. rewrite last_cons by exact Nq. destruct Q as [Q|Q]; [contradiction|]. rewrite <- app_assoc in Q. exact Q.
      * split; [right; eauto 8|]. destruct (reach_leaf y Dy q f R) as (-> & _). right. cbn [last]. destruct Q as [Q|Q]; [left|right; exact Q].
        intros G. apply (matches_iff exts n Nn) in G. congruence.
    + intros ([(-> & ->)|(n & q & y & -> & I & R)] & Q); [discriminate D|]. destruct Q as [Q|Q]; [discriminate Q|]. right. destruct (well_in _ _ _ W I) as (Wy & Nn).
      destruct (is_dir y) eqn:Dy.
      * assert (Nq : q <> []). { intros ->. pose proof (reach_dir_top y Dy f R) as X. congruence. }
        rewrite last_cons in Q by exact Nq. exists n, q, (after can exts (base ++ [n]) y). split; [reflexivity|]. split; [apply A; exists y; auto|].
        apply (IH n y I Wy); [exact D|]. split; [exact R|]. right. rewrite <- app_assoc. exact Q.
      * destruct (reach_leaf y Dy q f R) as (-> & _). exists n, [], y. split; [reflexivity|]. split; [|exact R]. apply A. exists y. split; [exact I|]. right. split; [exact Dy|]. split; [reflexivity|].
        cbn [last] in Q. destruct Q as [Q|Q]; [left|right; exact Q]. apply not_true_is_false. intros G. apply Q. apply (matches_iff exts n Nn), G.
  - intros _ base p f D. change (after can exts base (NLink None)) with (NLink None). split; [intros R; split; [exact R|left; apply (reach_none p f R)]|tauto].
  - intros t IH W base p f D. assert (Wt : named_well t) by (intros q l n y R I; apply (W q l n y); [constructor; exact R|exact I]).
    assert (E : after can exts base (NLink (Some t)) = NLink (Some (after can exts base t))).
    { unfold after. cbn [clean]. destruct (clean can exts base t) as ((a, b), c). reflexivity. }
    rewrite E, !reach_link, (IH Wt base p f D). split.
    + intros [(-> & ->)|(R & Q)]; [|auto]. split; [left; split; [reflexivity|]|auto]. cbn [is_dir] in D. rewrite after_is_dir in D.
      f_equal. f_equal. clear - D. revert D. revert base. revert t.
      apply (node_ind2 (fun t => forall base, is_dir t = false -> after can exts base t = t)); try reflexivity; [intros l _ base Q; discriminate Q|].
      intros t IHt base Q. unfold after in *. cbn [clean is_dir] in *. specialize (IHt base Q). destruct (clean can exts base t) as ((a, b), c). cbn [fst] in *. congruence.
    + intros ([(-> & ->)|R] & Q); [left; split; [reflexivity|]|auto]. cbn [is_dir] in D.
      f_equal. f_equal. symmetry. clear - D. revert D. revert base. revert t.
      apply (node_ind2 (fun t => forall base, is_dir t = false -> after can exts base t = t)); try reflexivity; [intros l _ base Q; discriminate Q|].
      intros t IHt base Q. unfold after in *. cbn [clean is_dir] in *. specialize (IHt base Q). destruct (clean can exts base t) as ((a, b), c). cbn [fst] in *. congruence.
Qed.

(** Directories stay. *)
Lemma clean_dirs can exts : forall x base p, (exists y, reach (after can exts base x) p y /\ is_dir y = true) <-> (exists y, reach x p y /\ is_dir y = true).
Proof.
  apply (node_ind2 (fun x => forall base p, (exists y, reach (after can exts base x) p y /\ is_dir y = true) <-> (exists y, reach x p y /\ is_dir y = true))); try (intros; reflexivity).
  - intros l IH base p. unfold after. rewrite clean_dir. pose proof (clean_list_ok can exts base l true false) as A. destruct (clean_list can exts base l true false) as ((l1, ok1), d1). destruct A as (A & _). cbn [fst]. split.
    + intros (v & R & D). apply reach_dir in R as [(-> & ->)|(n & q & z & -> & I & R)]; [exists (NDir l); split; [constructor|reflexivity]|].
      apply A in I as (y & I & Q). destruct Q as [(Dy & ->)|(Dy & -> & Q)]; [|destruct (reach_leaf y Dy q v R); congruence].
      destruct (proj1 (IH n y I (base ++ [n]) q)) as (u & Ru & Du); [eauto|]. exists u. split; [econstructor; eauto|exact Du].
    + intros (v & R & D). apply reach_dir in R as [(-> & ->)|(n & q & y & -> & I & R)]; [exists (NDir l1); split; [constructor|reflexivity]|].
      destruct (is_dir y) eqn:Dy; [|destruct (reach_leaf y Dy q v R); congruence].
      destruct (proj2 (IH n y I (base ++ [n]) q)) as (u & Ru & Du); [eauto|]. exists u. split; [econstructor; [apply A; exists y; split; [exact I|left; split; [exact Dy|reflexivity]]|exact Ru]|exact Du].
  - intros t IH base p. assert (E : after can exts base (NLink (Some t)) = NLink (Some (after can exts base t))).
    { unfold after. cbn [clean]. destruct (clean can exts base t) as ((a, b), c). reflexivity. }
    rewrite E. specialize (IH base p). split.
    + intros (v & R & D). apply reach_link in R as [(-> & ->)|R].
      * cbn [is_dir] in D. rewrite after_is_dir in D. exists (NLink (Some t)). split; [constructor|exact D].
      * destruct (proj1 IH) as (u & Ru & Du); [eauto|]. exists u. split; [constructor; exact Ru|exact Du].
    + intros (v & R & D). apply reach_link in R as [(-> & ->)|R].
      * exists (NLink (Some (after can exts base t))). split; [constructor|]. cbn [is_dir] in *. rewrite after_is_dir. exact D.
      * destruct (proj2 IH) as (u & Ru & Du); [eauto|]. exists u. split; [constructor; exact Ru|exact Du].
Qed.

(** The result. *)
Lemma clean_went can exts : forall x, named_well x -> forall base, went can exts base x = true <-> forall p f, to_clean exts x p f -> can (base ++ p) = true.
Proof.
  apply (node_ind2 (fun x => named_well x -> forall base, went can exts base x = true <-> forall p f, to_clean exts x p f -> can (base ++ p) = true)).
  - intros c _ base. split; [|reflexivity]. intros _ p f (R & _ & N & _). destruct (reach_file _ _ _ R); contradiction.
  - intros l IH W base. unfold went. rewrite clean_dir. pose proof (clean_list_ok can exts base l true false) as A. destruct (clean_list can exts base l true false) as ((l1, ok1), d1). destruct A as (_ & B & _). cbn [fst snd].
    rewrite B. split.
    + intros (_ & F) p f (R & D & N & G). apply reach_dir in R as [(-> & _)|(n & q & y & -> & I & R)]; [contradiction|]. destruct (well_in _ _ _ W I) as (Wy & Nn). destruct (F n y I) as (F1 & F2).
      destruct (is_dir y) eqn:Dy.
      * assert (Nq : q <> []). { intros ->. pose proof (reach_dir_top y Dy f R) as X. congruence. }
        rewrite last_cons in G by exact Nq. pose proof (proj1 (IH n y I Wy (base ++ [n])) (F1 eq_refl) q f) as X. rewrite <- app_assoc in X. apply X. split; [exact R|]. auto.
      * destruct (reach_leaf y Dy q f R) as (-> & _). apply F2; [reflexivity|]. apply (matches_iff exts n Nn). exact G.
    + intros F. split; [reflexivity|]. intros n y I. destruct (well_in _ _ _ W I) as (Wy & Nn). split.
      * intros Dy. apply (IH n y I Wy). intros q f (R & D & N & G). rewrite <- app_assoc. apply (F (n :: q) f). split; [econstructor; eauto|]. split; [exact D|]. split; [discriminate|]. rewrite last_cons by exact N. exact G.
      * intros Dy M. apply (F [n] y). split; [econstructor; [exact I|constructor]|]. split; [exact Dy|]. split; [discriminate|]. apply (matches_iff exts n Nn), M.
  - intros _ base. split; [|reflexivity]. intros _ p f (R & _ & N & _). destruct (reach_none _ _ R); contradiction.
  - intros t IH W base. assert (Wt : named_well t) by (intros q l n y R I; apply (W q l n y); [constructor; exact R|exact I]).
    assert (E : went can exts base (NLink (Some t)) = went can exts base t).
    { unfold went. cbn [clean]. destruct (clean can exts base t) as ((a, b), c). reflexivity. }
    rewrite E, (IH Wt base). split.
    + intros F p f (R & D & N & G). apply reach_link in R as [(-> & _)|R]; [contradiction|]. apply (F p f). split; auto.
    + intros F p f (R & Q). apply (F p f). split; [constructor; exact R|exact Q].
Qed.
Lemma clean_mark can exts : forall x, named_well x -> forall base, mark can exts base x = true -> exists p f, to_clean exts x p f.
Proof.
  apply (node_ind2 (fun x => named_well x -> forall base, mark can exts base x = true -> exists p f, to_clean exts x p f)).
  - intros c _ base E. discriminate E.
  - intros l IH W base. unfold mark. rewrite clean_dir. pose proof (clean_list_ok can exts base l true false) as A. destruct (clean_list can exts base l true false) as ((l1, ok1), d1). destruct A as (_ & _ & C). cbn [snd].
    intros Q. destruct (C Q) as [X|(n & y & I & X)]; [discriminate X|]. destruct (well_in _ _ _ W I) as (Wy & Nn). destruct X as [(Dy & M)|(Dy & M)].
    + destruct (IH n y I Wy _ M) as (p & f & R & D & N & G). exists (n :: p), f. split; [econstructor; eauto|]. split; [exact D|]. split; [discriminate|]. rewrite last_cons by exact N. exact G.
    + exists [n], y. split; [econstructor; [exact I|constructor]|]. split; [exact Dy|]. split; [discriminate|]. apply (matches_iff exts n Nn), M.
  - intros _ base E. discriminate E.
  - intros t IH W base Q. assert (Wt : named_well t) by (intros q l n y R I; apply (W q l n y); [constructor; exact R|exact I]).
    assert (E : mark can exts base (NLink (Some t)) = mark can exts base t).
    { unfold mark. cbn [clean]. destruct (clean can exts base t) as ((a, b), c). reflexivity. }
    rewrite E in Q. destruct (IH Wt base Q) as (p & f & R & X). exists p, f. split; [constructor; exact R|exact X].
Qed.
