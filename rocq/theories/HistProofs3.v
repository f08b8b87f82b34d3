From Verif Require Import Base InfoModel InfoSpec InfoProofs StatsModel StatsSpec StatsProofs StatsProofs2
  HistModel HistSpec.
From Coq Require Import Permutation.
Open Scope list_scope.
Open Scope Z_scope.

(** ** Parking *)

Lemma completed_delta : forall f g x, saved x -> f_num f FActive = 0 ->
  g_st (update_completed f g) x = g_st g x + finished x f - queued x f.
Proof.
  intros f g x S A. unfold update_completed. gcbn. rewrite bump_delta, !delta_app, !delta_if. unfold b2z.
  destruct x; cbn [saved] in S; try tauto; cbn [delta fld_eqb fld_tag Nat.eqb queued finished]; unfold if_par;
    destruct (f_par f), (f_paused f), (f_extra f); lia.
Qed.

Lemma park_loop : forall l g cs, Forall (fun f => f_num f FActive = 0) l ->
  (forall x, saved x -> g_st (fst (fold_left park_one l (g, cs))) x =
     g_st g x + total (finished x) l - total (queued x) l) /\
  g_done (fst (fold_left park_one l (g, cs))) = rev l ++ g_done g /\
  snd (fold_left park_one l (g, cs)) = cs ++ map (mkC cfNone) l /\
  g_srv (fst (fold_left park_one l (g, cs))) = fold_left (fun s f => list_op s (f_srv f) soAdd) l (g_srv g).
Proof.
  induction l as [|f l IH]; intros g cs F.
  - cbn. rewrite app_nil_r. repeat split; auto. intros; cbn; lia.
  - inversion F as [|? ? F1 F2]; subst. cbn [fold_left].
    change (park_one (g, cs) f) with (with_done (f :: g_done g) (update_completed f g), cs ++ [mkC cfNone f]).
    destruct (IH (with_done (f :: g_done g) (update_completed f g)) (cs ++ [mkC cfNone f]) F2)
      as (I1 & I2 & I3 & I4). repeat split.
    + intros x S. rewrite I1 by exact S. change (g_st (with_done (f :: g_done g) (update_completed f g)) x)
        with (g_st (update_completed f g) x).
      rewrite completed_delta, !total_cons by auto. lia.
    + rewrite I2. cbn [rev]. rewrite <- app_assoc. reflexivity.
    + rewrite I3. cbn [map]. rewrite <- app_assoc. reflexivity.
    + rewrite I4. reflexivity.
Qed.

Lemma total_rev : forall w l, total w (rev l) = total w l.
Proof.
  intros w l. induction l as [|f l IH]; auto. cbn [rev]. rewrite total_app, !total_cons, total_nil, IH. lia.
Qed.

Lemma history_ok : forall par unpack deleted parking wiped g cs,
  (forall x, saved x -> g_st g x = summary x (g_files g) (g_done g)) ->
  Forall (fun f => f_num f FActive = 0) (g_files g) ->
  let '(g', cs', n) := add_to_history par unpack deleted parking wiped g cs in
  g_files g' = [] /\ g_done g' = rev (g_files g) ++ g_done g /\
  history_sums g' (g_done g') /\
  (cs' = [] \/ cs' = cs ++ map (mkC cfNone) (g_files g)).
Proof.
  intros par unpack deleted parking wiped g cs H A. unfold add_to_history.
  destruct (park_loop (g_files g) g cs A) as (P1 & P2 & P3 & _).
  destruct (fold_left park_one (g_files g) (g, cs)) as [g1 l1]. cbn [fst snd] in *.
  repeat split; auto.
  - intros x S. gcbn. rewrite P2, total_app, total_rev.
    specialize (P1 x S). specialize (H x S). unfold summary in H.
    destruct x; cbn [saved] in S; try tauto; cbn [assign fld_eqb fld_tag Nat.eqb]; lia.
  - destruct (forget_files _ _ _ _ _ _); auto.
Qed.

(** ** Resetting articles *)

Definition rsum (af rf gn : bool) (p : art_status -> bool) (l : list art) : Z :=
  arts_size (fun s => resets af rf gn s && p s) l.
Definition rcnt (af rf gn : bool) (p : art_status -> bool) (l : list art) : Z :=
  arts_count (fun s => resets af rf gn s && p s) l.
Definition lost_art (s : art_status) : bool := match s with aiFailed | aiUndefined => true | _ => false end.

Definition renew (af rf gn : bool) (a : art) : art :=
  if resets af rf gn (snd a) then (fst a, aiUndefined) else a.

Lemma reset_loop_ok : forall af rf gn l f,
  let p := reset_loop af rf gn f l in
  snd p = map (renew af rf gn) l /\
  f_id (fst p) = f_id f /\ f_par (fst p) = f_par f /\ f_paused (fst p) = f_paused f /\
  f_extra (fst p) = f_extra f /\ f_srv (fst p) = f_srv f /\ f_arts (fst p) = f_arts f /\
  (forall x, f_num (fst p) x = f_num f x +
     match x with
     | FRem => rsum af rf gn (fun _ => true) l
     | FCompl => - rcnt af rf gn (fun _ => true) l
     | FFail => - rsum af rf gn lost_art l
     | FFailArt => - rcnt af rf gn lost_art l
     | FSucc => - rsum af rf gn good_art l
     | FSuccArt => - rcnt af rf gn good_art l
     | _ => 0
     end).
Proof.
  intros af rf gn l. unfold rsum, rcnt. induction l as [|[n st] l IH]; intro f.
  - cbn. repeat split; auto. intros []; lia.
  - cbn [reset_loop reset_article].
    assert (E : exists f1 a1, (if resets af rf gn st
       then (with_num (fbump ([(FCompl, -1); (FRem, n)] ++
                      match st with
                      | aiFailed | aiUndefined => [(FFailArt, -1); (FFail, - n)]
                      | aiFinished => [(FSuccArt, -1); (FSucc, - n)]
                      | aiRunning => []
                      end) (f_num f)) f, (n, aiUndefined))
       else (f, (n, st))) = (f1, a1) /\ a1 = renew af rf gn (n, st) /\
       f_id f1 = f_id f /\ f_par f1 = f_par f /\ f_paused f1 = f_paused f /\
       f_extra f1 = f_extra f /\ f_srv f1 = f_srv f /\ f_arts f1 = f_arts f /\
       (forall x, f_num f1 x = f_num f x +
         match x with
         | FRem => if resets af rf gn st then n else 0
         | FCompl => if resets af rf gn st then -1 else 0
         | FFail => if resets af rf gn st && lost_art st then - n else 0
         | FFailArt => if resets af rf gn st && lost_art st then -1 else 0
         | FSucc => if resets af rf gn st && good_art st then - n else 0
         | FSuccArt => if resets af rf gn st && good_art st then -1 else 0
         | _ => 0
         end)).
    { destruct (resets af rf gn st) eqn:R.
      - eexists; eexists; split; [reflexivity|]. unfold renew. cbn [fst snd]. rewrite R. repeat split; auto.
        intro x. destruct st; [|cbn in R; discriminate| |]; destruct x; cbn; lia.
      - eexists; eexists; split; [reflexivity|]. unfold renew. cbn [fst snd]. rewrite R. repeat split; auto.
        intro x. destruct x; cbn; lia. }
    destruct E as (f1 & a1 & E & Ea & E1 & E2 & E3 & E4 & E5 & E6 & E7). rewrite E.
    specialize (IH f1). cbn zeta in IH.
    destruct (reset_loop af rf gn f1 l) as [f2 r1]. cbn [fst snd] in *.
    destruct IH as (I0 & I1 & I2 & I3 & I4 & I5 & I6 & I7).
    repeat split; try congruence.
    + cbn [map]. congruence.
    + intro x. rewrite I7, E7.
      destruct x; rewrite ?arts_size_cons, ?arts_count_cons; rewrite ?andb_true_r; try lia;
        destruct (resets af rf gn st); cbn [andb]; try destruct (lost_art st); try destruct (good_art st); lia.
Qed.

(** Sums over the articles after the reset. *)
Lemma renew_sums : forall af rf gn l,
  arts_size open_art (map (renew af rf gn) l) =
    arts_size open_art l + arts_size (fun s => resets af rf gn s && (good_art s || bad_art s)) l /\
  arts_size good_art (map (renew af rf gn) l) = arts_size good_art l - rsum af rf gn good_art l /\
  arts_size bad_art (map (renew af rf gn) l) = arts_size bad_art l - rsum af rf gn bad_art l /\
  arts_count good_art (map (renew af rf gn) l) = arts_count good_art l - rcnt af rf gn good_art l /\
  arts_count bad_art (map (renew af rf gn) l) = arts_count bad_art l - rcnt af rf gn bad_art l.
Proof.
  intros af rf gn l. unfold rsum, rcnt. induction l as [|[n st] l IH]; [cbn; lia|].
  cbn [map]. unfold renew at 1 3 5 7 9. cbn [fst snd].
  destruct (resets af rf gn st) eqn:R; rewrite !arts_size_cons, !arts_count_cons, R;
    destruct st; cbn [open_art good_art bad_art andb orb]; try lia.
Qed.

Lemma rsum_parts : forall af rf gn l, af = false ->
  rsum af rf gn (fun _ => true) l = arts_size (fun s => resets af rf gn s && (good_art s || bad_art s)) l /\
  rsum af rf gn lost_art l = rsum af rf gn bad_art l /\
  rcnt af rf gn lost_art l = rcnt af rf gn bad_art l /\
  rcnt af rf gn (fun _ => true) l = rcnt af rf gn good_art l + rcnt af rf gn bad_art l /\
  rsum af rf gn (fun _ => true) l = rsum af rf gn good_art l + rsum af rf gn bad_art l.
Proof.
  intros af rf gn l ->. unfold rsum, rcnt. induction l as [|[n st] l IH]; [cbn; lia|].
  rewrite !arts_size_cons, !arts_count_cons.
  destruct st; cbn [resets good_art bad_art lost_art]; rewrite ?andb_false_r; cbn [andb orb];
    destruct rf, gn; cbn [andb orb]; lia.
Qed.
