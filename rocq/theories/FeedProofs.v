(** The expression reducer of feed filters. *)
From Coq Require Import String.
From Verif Require Import Base WildSpec WildModel FeedModel FeedSpec.

(** ** A left-to-right reading of expressions, used only in proofs *)
Inductive gst := Start | Single (b : bool) | AndS (b : bool) | OrS (b : bool) | Pend (b : bool).

Definition g_item (g : gst) (v : bool) : option gst :=
  match g with
  | Start => Some (Single v)
  | Single b | AndS b => Some (AndS (b && v))
  | OrS _ => None
  | Pend b => Some (OrS (b || v))
  end.
Definition g_bar (deep : bool) (g : gst) : option gst :=
  match g with
  | Start => if deep then Some Start else None
  | Single b | OrS b | Pend b => Some (Pend b)
  | AndS _ => None
  end.
Definition g_close (g : gst) : option bool :=
  match g with Start => None | Single b | AndS b | OrS b | Pend b => Some b end.

Definition state := (gst * list gst)%type.
Definition step (st : state) (c : Z) : option state :=
  let '(g, k) := st in
  if c =? 84 then match g_item g true with Some g' => Some (g', k) | None => None end
  else if c =? 70 then match g_item g false with Some g' => Some (g', k) | None => None end
  else if c =? 124 then match g_bar (match k with [] => false | _ => true end) g with Some g' => Some (g', k) | None => None end
  else if c =? 40 then Some (Start, g :: k)
  else if c =? 41 then
    match k with
    | [] => None
    | g0 :: k' => match g_close g with
                  | Some b => match g_item g0 b with Some g' => Some (g', k') | None => None end
                  | None => None
                  end
    end
  else None.
Fixpoint run (st : state) (s : list Z) : option state :=
  match s with
  | [] => Some st
  | c :: t => match step st c with Some st' => run st' t | None => None end
  end.
Definition value (s : list Z) : option bool :=
  match run (Start, []) s with
  | Some (Single b, []) | Some (AndS b, []) | Some (OrS b, []) => Some b
  | _ => None
  end.

Lemma run_app st a b : run st (a ++ b) = match run st a with Some st' => run st' b | None => None end.
Proof. revert st. induction a as [|c a IH]; intros st; cbn [app run]; [reflexivity|]. destruct (step st c); auto. Qed.

(** ** Simulation *)
Definition gsim (a b : gst) : Prop :=
  a = b \/ (exists v, (a = AndS v \/ a = OrS v) /\ b = Single v).
Definition sim (a b : state) : Prop := gsim (fst a) (fst b) /\ Forall2 gsim (snd a) (snd b).

Lemma gsim_refl a : gsim a a. Proof. left. reflexivity. Qed.
Lemma gsims_refl k : Forall2 gsim k k. Proof. induction k; constructor; auto using gsim_refl. Qed.

Lemma gsim_item a b v a' : gsim a b -> g_item a v = Some a' -> exists b', g_item b v = Some b' /\ gsim a' b'.
Proof.
  intros [->|(w & [->| ->] & ->)] H; cbn [g_item] in *.
  - exists a'. split; [exact H|apply gsim_refl].
  - inversion H; subst. eexists; split; [reflexivity|apply gsim_refl].
  - discriminate.
Qed.
Lemma gsim_bar d a b a' : gsim a b -> g_bar d a = Some a' -> exists b', g_bar d b = Some b' /\ gsim a' b'.
Proof.
  intros [->|(w & [->| ->] & ->)] H; cbn [g_bar] in *.
  - exists a'. split; [exact H|apply gsim_refl].
  - discriminate.
  - inversion H; subst. eexists; split; [reflexivity|apply gsim_refl].
Qed.
Lemma gsim_close a b v : gsim a b -> g_close a = Some v -> g_close b = Some v.
Proof. intros [->|(w & [->| ->] & ->)] H; exact H. Qed.

Lemma sim_step st st2 c st' : sim st st2 -> step st c = Some st' -> exists st2', step st2 c = Some st2' /\ sim st' st2'.
Proof.
  destruct st as [g k], st2 as [g2 k2]. intros [G K] H. cbn [fst snd] in G, K. unfold step in *.
  destruct (c =? 84).
  { destruct (g_item g true) as [g'|] eqn:E; [|discriminate]. inversion H; subst.
    destruct (gsim_item _ _ _ _ G E) as (b & -> & S1). eexists; split; [reflexivity|]. split; assumption. }
  destruct (c =? 70).
  { destruct (g_item g false) as [g'|] eqn:E; [|discriminate]. inversion H; subst.
    destruct (gsim_item _ _ _ _ G E) as (b & -> & S1). eexists; split; [reflexivity|]. split; assumption. }
  destruct (c =? 124).
  { assert (D : (match k2 with [] => false | _ => true end) = (match k with [] => false | _ => true end))
      by (inversion K; reflexivity). rewrite D.
    destruct (g_bar _ g) as [g'|] eqn:E; [|discriminate]. inversion H; subst.
    destruct (gsim_bar _ _ _ _ G E) as (b & -> & S1). eexists; split; [reflexivity|]. split; assumption. }
  destruct (c =? 40).
  { inversion H; subst. eexists; split; [reflexivity|]. split; [apply gsim_refl|constructor; assumption]. }
  destruct (c =? 41); [|discriminate].
  inversion K as [|g0 g02 k0 k02 G0 K0]; subst; [discriminate|].
  destruct (g_close g) as [b|] eqn:E; [|discriminate]. rewrite (gsim_close _ _ _ G E).
  destruct (g_item g0 b) as [g'|] eqn:E2; [|discriminate]. inversion H; subst.
  destruct (gsim_item _ _ _ _ G0 E2) as (b2 & -> & S1). eexists; split; [reflexivity|]. split; assumption.
Qed.

Lemma sim_run s : forall st st2 st', sim st st2 -> run st s = Some st' -> exists st2', run st2 s = Some st2' /\ sim st' st2'.
Proof.
  induction s as [|c s IH]; intros st st2 st' S H; cbn [run] in *.
  - inversion H; subst. eexists; split; [reflexivity|exact S].
  - destruct (step st c) as [st1|] eqn:E; [|discriminate].
    destruct (sim_step _ _ _ _ S E) as (st21 & -> & S1). eapply IH; eassumption.
Qed.

(** ** Every reduction is sound *)
Lemma rule_sound : forall from to, In (from, to) reductions -> forall st st', run st from = Some st' ->
  exists st2, run st to = Some st2 /\ sim st' st2.
Proof.
  assert (A : forall from to, In (from, to) reductions -> forall g k st', run (g, k) from = Some st' ->
    exists st2, run (g, k) to = Some st2 /\ sim st' st2).
  { intros from to H g k st' R.
    assert (B : forall x, In x reductions -> (from, to) = x -> exists st2, run (g, k) to = Some st2 /\ sim st' st2).
    { intros x Hx E. unfold reductions in Hx. cbn [In] in Hx.
      repeat (destruct Hx as [<-|Hx]; [inversion E; subst from to; clear E|]); [..|contradiction Hx].
      all: revert R; destruct g as [|b|b|b|b]; try destruct b; destruct k as [|g0 k0]; vm_compute; intros R; try discriminate R.
      all: try (inversion R; subst; eexists; split; [reflexivity|]; split; cbn [fst snd];
        [first [left; reflexivity | right; eexists; split; [first [left; reflexivity|right; reflexivity]|reflexivity]] | apply gsims_refl]).
      all: exists st'; split; [exact R|split; [left; reflexivity|apply gsims_refl]]. }
    apply (B (from, to)); [exact H|reflexivity]. }
  intros from to H [g k]. apply A, H.
Qed.

Lemma find_sub_some from s a b : find_sub from s = Some (a, b) -> s = a ++ from ++ b.
Proof.
  revert a b. induction s as [|c s IH]; intros a b H; cbn [find_sub] in H.
  - destruct (prefixb from []) eqn:P; [|discriminate]. inversion H; subst.
    apply prefixb_iff in P as [t E]. destruct from; [|discriminate E]. reflexivity.
  - destruct (prefixb from (c :: s)) eqn:P.
    + inversion H; subst. apply prefixb_iff in P as [t E]. rewrite E. cbn [app].
      rewrite skipn_app, skipn_all, Nat.sub_diag. reflexivity.
    + destruct (find_sub from s) as [[a' b']|] eqn:E; [|discriminate]. inversion H; subst.
      rewrite (IH _ _ eq_refl) at 1. reflexivity.
Qed.
Lemma find_sub_none from a b : find_sub from (a ++ from ++ b) = None -> False.
Proof.
  induction a as [|c a IH]; cbn [app].
  - intros H. assert (P : prefixb from (from ++ b) = true) by apply prefixb_app.
    destruct (from ++ b) as [|x l]; cbn [find_sub] in H; rewrite P in H; discriminate.
  - cbn [find_sub]. intros H. destruct (prefixb from (c :: a ++ from ++ b)); [discriminate|].
    destruct (find_sub from (a ++ from ++ b)) as [[? ?]|] eqn:E; [discriminate|]. apply IH. reflexivity.
Qed.

Lemma value_step from to a b v : In (from, to) reductions -> value (a ++ from ++ b) = Some v ->
  value (a ++ to ++ b) = Some v.
Proof.
  intros I. unfold value. rewrite !run_app. destruct (run (Start, []) a) as [st|]; [|discriminate].
  rewrite !run_app. destruct (run st from) as [st1|] eqn:E; [|discriminate].
  destruct (rule_sound _ _ I _ _ E) as (st2 & -> & S).
  intros H. destruct (run st1 b) as [st1'|] eqn:E1; [|discriminate].
  destruct (sim_run _ _ _ _ S E1) as (st2' & -> & [G K]).
  destruct st1' as [g1 k1], st2' as [g2 k2]. cbn [fst snd] in *.
  destruct G as [->|(w & [->| ->] & ->)]; inversion K; subst; try exact H; destruct g2; discriminate.
Qed.

Lemma reduce_str_ok from to : In (from, to) reductions -> forall fuel s, (length s < fuel)%nat ->
  exists s', reduce_str fuel from to s = Some s' /\ (length s' <= length s)%nat /\
    (length s' = length s -> s' = s) /\ find_sub from s' = None /\ (forall v, value s = Some v -> value s' = Some v).
Proof.
  intros I.
  assert (L : (length to < length from)%nat).
  { unfold reductions in I. cbn [In] in I.
    repeat (destruct I as [I|I]; [inversion I; cbn; lia|]). contradiction. }
  induction fuel as [|f IH]; intros s Hs; [lia|]. cbn [reduce_str].
  destruct (find_sub from s) as [[a b]|] eqn:E.
  - assert (E' := find_sub_some _ _ _ _ E).
    assert (Ls : (length (a ++ to ++ b) < length s)%nat).
    { rewrite E', !app_length. lia. }
    destruct (IH (a ++ to ++ b)) as (s' & R & L1 & _ & N & V); [lia|].
    exists s'. split; [exact R|]. split; [lia|]. split; [lia|]. split; [exact N|].
    intros v Hv. apply V. apply value_step with (1 := I). rewrite <- E'. exact Hv.
  - exists s. auto.
Qed.

Lemma reduce_pass_ok rs : incl rs reductions -> forall s,
  exists s', reduce_pass rs s = Some s' /\ (length s' <= length s)%nat /\
    (length s' = length s -> s' = s /\ forall from to, In (from, to) rs -> find_sub from s = None) /\
    (forall v, value s = Some v -> value s' = Some v).
Proof.
  induction rs as [|[from to] rs IH]; intros I s; cbn [reduce_pass].
  - exists s. split; [reflexivity|]. split; [lia|]. split; [|auto]. intros _. split; [reflexivity|]. intros ? ? [].
  - destruct (reduce_str_ok from to (I _ (or_introl eq_refl)) (S (length s)) s) as (s1 & R & L & F & N & V); [lia|].
    rewrite R. cbn [obind]. destruct (IH (fun x H => I x (or_intror H)) s1) as (s2 & R2 & L2 & F2 & V2).
    exists s2. split; [exact R2|]. split; [lia|]. split; [|auto].
    intros E. assert (s1 = s) by (apply F; lia). subst s1.
    destruct (F2 E) as [-> F3]. split; [reflexivity|].
    intros f t [H|H]; [inversion H; subst; exact N|eapply F3, H].
Qed.

Definition irreducible (s : list Z) : Prop := forall from to a b, In (from, to) reductions -> s <> a ++ from ++ b.

Lemma reduce_expr_ok : forall fuel s, (length s < fuel)%nat ->
  exists s', reduce_expr fuel s = Some s' /\ irreducible s' /\ (forall v, value s = Some v -> value s' = Some v).
Proof.
  induction fuel as [|f IH]; intros s Hs; [lia|]. cbn [reduce_expr].
  destruct (reduce_pass_ok reductions (fun x H => H) s) as (s1 & R & L & F & V). rewrite R. cbn [obind].
  destruct (Z.of_nat (length s1) =? Z.of_nat (length s)) eqn:E.
  - destruct F as [-> F]; [lia|]. exists s. split; [reflexivity|]. split; [|auto].
    intros from to a b I ->. eapply find_sub_none, (F from to I).
  - destruct (IH s1) as (s2 & R2 & I2 & V2); [lia|]. exists s2. auto.
Qed.

(** ** What cannot be reduced is one letter *)
Lemma last_open s : (exists a b, s = a ++ 40 :: b /\ ~ In 40 b) \/ ~ In 40 s.
Proof.
  induction s as [|c s [(a & b & -> & N)|N]].
  - right. intros [].
  - left. exists (c :: a), b. auto.
  - destruct (Z.eq_dec c 40) as [->|H].
    + left. exists [], s. auto.
    + right. intros [E|E]; auto.
Qed.

Lemma step_chars st c st' : step st c = Some st' -> c = 84 \/ c = 70 \/ c = 124 \/ c = 40 \/ c = 41.
Proof.
  destruct st as [g k]. unfold step. intros H.
  destruct (c =? 84) eqn:E1; [lia|]. destruct (c =? 70) eqn:E2; [lia|].
  destruct (c =? 124) eqn:E3; [lia|]. destruct (c =? 40) eqn:E4; [lia|].
  destruct (c =? 41) eqn:E5; [lia|]. discriminate.
Qed.

Lemma run_chars s st st' : run st s = Some st' -> Forall (fun c => c = 84 \/ c = 70 \/ c = 124 \/ c = 40 \/ c = 41) s.
Proof.
  revert st. induction s as [|c s IH]; intros st H; [constructor|]. cbn [run] in H.
  destruct (step st c) as [st1|] eqn:E; [|discriminate]. constructor; [eapply step_chars, E|eapply IH, H].
Qed.

Lemma value_run s v : value s = Some v -> exists g, run (Start, []) s = Some (g, []) /\ g_close g = Some v /\ (forall b, g <> Pend b).
Proof.
  unfold value. destruct (run (Start, []) s) as [[g k]|]; [|discriminate].
  destruct g as [|b|b|b|b], k; try discriminate; intros H; inversion H; subst; eexists; split; try reflexivity;
    split; try reflexivity; intros ? E; discriminate E.
Qed.

Lemma irreducible_value s v : irreducible s -> value s = Some v -> s = [if v then 84 else 70].
Proof.
  intros I H. destruct (value_run _ _ H) as (g & R & C & NP).
  assert (Ch := run_chars _ _ _ R).
  destruct (last_open s) as [(a & b & -> & N)|N].
  - exfalso. rewrite run_app in R. destruct (run (Start, []) a) as [[g0 k0]|]; [|discriminate].
    cbn [run] in R. change (step (g0, k0) 40) with (Some (Start, g0 :: k0)) in R. cbn iota in R.
    apply Forall_app in Ch as [_ Ch]. inversion Ch as [|? ? _ Cb]; subst. clear Ch.
    destruct b as [|c1 b]; [discriminate R|].
    inversion Cb as [|? ? C1 Cb1]; subst; clear Cb.
    destruct C1 as [->|[->|[->|[->| ->]]]].
    + (* T *) destruct b as [|c2 b]; [discriminate R|]. inversion Cb1 as [|? ? C2 Cb2]; subst; clear Cb1.
      destruct C2 as [->|[->|[->|[->| ->]]]].
      * apply (I (str "TT") (str "T") (a ++ [40]) b); [vm_compute; tauto|rewrite <- app_assoc; reflexivity].
      * apply (I (str "TF") (str "F") (a ++ [40]) b); [vm_compute; tauto|rewrite <- app_assoc; reflexivity].
      * destruct b as [|c3 b]; [discriminate R|]. inversion Cb2 as [|? ? C3 Cb3]; subst; clear Cb2.
        destruct C3 as [->|[->|[->|[->| ->]]]].
        -- apply (I (str "T|T") (str "T") (a ++ [40]) b); [vm_compute; tauto|rewrite <- app_assoc; reflexivity].
        -- apply (I (str "T|F") (str "T") (a ++ [40]) b); [vm_compute; tauto|rewrite <- app_assoc; reflexivity].
        -- apply (I (str "||") (str "|") (a ++ [40; 84]) b); [vm_compute; tauto|rewrite <- app_assoc; reflexivity].
        -- apply N. cbn [In]. auto.
        -- apply (I (str "|)") (str ")") (a ++ [40; 84]) b); [vm_compute; tauto|rewrite <- app_assoc; reflexivity].
      * apply N. cbn [In]. auto.
      * apply (I (str "(T)") (str "T") a b); [vm_compute; tauto|reflexivity].
    + (* F *) destruct b as [|c2 b]; [discriminate R|]. inversion Cb1 as [|? ? C2 Cb2]; subst; clear Cb1.
      destruct C2 as [->|[->|[->|[->| ->]]]].
      * apply (I (str "FT") (str "F") (a ++ [40]) b); [vm_compute; tauto|rewrite <- app_assoc; reflexivity].
      * apply (I (str "FF") (str "F") (a ++ [40]) b); [vm_compute; tauto|rewrite <- app_assoc; reflexivity].
      * destruct b as [|c3 b]; [discriminate R|]. inversion Cb2 as [|? ? C3 Cb3]; subst; clear Cb2.
        destruct C3 as [->|[->|[->|[->| ->]]]].
        -- apply (I (str "F|T") (str "T") (a ++ [40]) b); [vm_compute; tauto|rewrite <- app_assoc; reflexivity].
        -- apply (I (str "F|F") (str "F") (a ++ [40]) b); [vm_compute; tauto|rewrite <- app_assoc; reflexivity].
        -- apply (I (str "||") (str "|") (a ++ [40; 70]) b); [vm_compute; tauto|rewrite <- app_assoc; reflexivity].
        -- apply N. cbn [In]. auto.
        -- apply (I (str "|)") (str ")") (a ++ [40; 70]) b); [vm_compute; tauto|rewrite <- app_assoc; reflexivity].
      * apply N. cbn [In]. auto.
      * apply (I (str "(F)") (str "F") a b); [vm_compute; tauto|reflexivity].
    + apply (I (str "(|") (str "(") a b); [vm_compute; tauto|reflexivity].
    + apply N. cbn [In]. auto.
    + discriminate R.
  - destruct s as [|c1 b]; [discriminate H|]. inversion Ch as [|? ? C1 Cb1]; subst; clear Ch.
    destruct C1 as [->|[->|[->|[->| ->]]]].
    + destruct b as [|c2 b]; [inversion R; subst; cbn in C; inversion C; reflexivity|].
      inversion Cb1 as [|? ? C2 Cb2]; subst; clear Cb1. exfalso.
      destruct C2 as [->|[->|[->|[->| ->]]]].
      * apply (I (str "TT") (str "T") [] b); [vm_compute; tauto|reflexivity].
      * apply (I (str "TF") (str "F") [] b); [vm_compute; tauto|reflexivity].
      * destruct b as [|c3 b]; [inversion R; subst; eapply NP; reflexivity|].
        inversion Cb2 as [|? ? C3 Cb3]; subst; clear Cb2.
        destruct C3 as [->|[->|[->|[->| ->]]]].
        -- apply (I (str "T|T") (str "T") [] b); [vm_compute; tauto|reflexivity].
        -- apply (I (str "T|F") (str "T") [] b); [vm_compute; tauto|reflexivity].
        -- apply (I (str "||") (str "|") [84] b); [vm_compute; tauto|reflexivity].
        -- apply N. cbn [In]. auto.
        -- discriminate R.
      * apply N. cbn [In]. auto.
      * discriminate R.
    + destruct b as [|c2 b]; [inversion R; subst; cbn in C; inversion C; reflexivity|].
      inversion Cb1 as [|? ? C2 Cb2]; subst; clear Cb1. exfalso.
      destruct C2 as [->|[->|[->|[->| ->]]]].
      * apply (I (str "FT") (str "F") [] b); [vm_compute; tauto|reflexivity].
      * apply (I (str "FF") (str "F") [] b); [vm_compute; tauto|reflexivity].
      * destruct b as [|c3 b]; [inversion R; subst; eapply NP; reflexivity|].
        inversion Cb2 as [|? ? C3 Cb3]; subst; clear Cb2.
        destruct C3 as [->|[->|[->|[->| ->]]]].
        -- apply (I (str "F|T") (str "T") [] b); [vm_compute; tauto|reflexivity].
        -- apply (I (str "F|F") (str "F") [] b); [vm_compute; tauto|reflexivity].
        -- apply (I (str "||") (str "|") [70] b); [vm_compute; tauto|reflexivity].
        -- apply N. cbn [In]. auto.
        -- discriminate R.
      * apply N. cbn [In]. auto.
      * discriminate R.
    + exfalso. discriminate R.
    + exfalso. apply N. cbn [In]. auto.
    + exfalso. discriminate R.
Qed.

Lemma verdict_value s v : value s = Some v -> expr_verdict s = Some v.
Proof.
  intros H. unfold expr_verdict. destruct (reduce_expr_ok (S (length s)) s) as (s' & R & I & V); [lia|].
  rewrite R. cbn [obind]. rewrite (irreducible_value _ _ I (V _ H)). destruct v; reflexivity.
Qed.
Lemma verdict_total s : exists v, expr_verdict s = Some v.
Proof.
  unfold expr_verdict. destruct (reduce_expr_ok (S (length s)) s) as (s' & R & _ & _); [lia|].
  rewrite R. cbn [obind]. eexists. reflexivity.
Qed.
