From Verif Require Import Base InfoModel InfoSpec InfoProofs StatsModel StatsSpec StatsProofs.

(** ** A freshly read group *)

Lemma afi_loop : forall l s,
  let s' := fold_left afi_step l s in
  a_size s' - a_size s = arts_size open_art (a_kept s') - arts_size open_art (a_kept s) /\
  a_miss s' - a_miss s + Z.of_nat (length (a_kept s')) - Z.of_nat (length (a_kept s)) = Z.of_nat (length l) /\
  (Forall (fun a : art => snd a = aiUndefined) (a_kept s) ->
   Forall (fun a : art => snd a = aiUndefined) (a_kept s')).
Proof.
  induction l as [|x l IH]; intro s; cbn [fold_left].
  - cbn. repeat split; auto; lia.
  - specialize (IH (afi_step s x)). cbn zeta in IH |- *. destruct IH as (I1 & I2 & I3).
    destruct x as [n|]; unfold afi_step in *.
    + cbn [a_size a_kept a_miss] in *. rewrite arts_size_cons in I1. cbn [length open_art] in *.
      repeat split; try lia. intro H. apply I3. constructor; auto.
    + destruct (0 <? a_one s); cbn [a_size a_kept a_miss length] in *; repeat split; auto; lia.
Qed.

Lemma arts_size_rev : forall p l, arts_size p (rev l) = arts_size p l.
Proof.
  induction l as [|[n s] l IH]; auto. cbn [rev]. rewrite arts_size_app, !arts_size_cons, IH. cbn. lia.
Qed.

Lemma arts_none : forall p l, Forall (fun a : art => snd a = aiUndefined) l -> p aiUndefined = false ->
  arts_size p l = 0 /\ arts_count p l = 0.
Proof.
  intros p l H Hp. induction H as [|[n s] l H1 H2 IH]; [now cbn|].
  cbn in H1. subst s. rewrite arts_size_cons, arts_count_cons, Hp. lia.
Qed.

(** What a new file looks like. *)
Record fresh (f : finfo) : Prop := {
  fr_ok : file_ok f;
  fr_succ : f_num f FSucc = 0; fr_fail : f_num f FFail = 0;
  fr_sa : f_num f FSuccArt = 0; fr_fa : f_num f FFailArt = 0;
  fr_act : f_num f FActive = 0; fr_paused : f_paused f = false; fr_extra : f_extra f = false;
  fr_srv : f_srv f = []
}.

Lemma add_file_fresh : forall src f, add_file_info src = Some f -> fresh f /\ f_id f = fst (fst src).
Proof.
  intros [[id par] slots] f H. unfold add_file_info in H.
  pose proof (afi_loop slots (mkA 0 0 0 0 0 [])) as L. cbn zeta in L.
  destruct L as (L1 & L2 & L3).
  set (s := fold_left afi_step slots (mkA 0 0 0 0 0 [])) in *.
  cbn [a_size a_kept a_miss length] in L1, L2, L3.
  destruct (a_kept s) as [|a0 r0] eqn:E; [discriminate|]. rewrite <- E in *.
  inversion H; subst f. clear H. split; [|reflexivity].
  assert (U : Forall (fun a : art => snd a = aiUndefined) (rev (a_kept s))).
  { apply Forall_rev. auto. }
  destruct (arts_none good_art _ U eq_refl) as [U1 U2].
  destruct (arts_none bad_art _ U eq_refl) as [U3 U4].
  change (arts_size open_art []) with 0 in L1.
  constructor; try reflexivity.
  constructor; cbn [f_num f_arts fassign ffld_eqb]; rewrite ?U1, ?U2, ?U3, ?U4, ?arts_size_rev, ?rev_length; lia.
Qed.

Lemma add_files_fresh : forall l, Forall fresh (add_files l).
Proof.
  induction l as [|x l IH]; cbn; auto.
  destruct (add_file_info x) as [f|] eqn:E; auto. constructor; auto. now apply (add_file_fresh x).
Qed.

Lemma add_files_ids : forall l, NoDup (map (fun x : Z * bool * list (option Z) => fst (fst x)) l) ->
  NoDup (map f_id (add_files l)) /\
  (forall i, In i (map f_id (add_files l)) -> In i (map (fun x : Z * bool * list (option Z) => fst (fst x)) l)).
Proof.
  induction l as [|x l IH]; intro H; cbn [add_files map] in *; [split; [constructor|auto]|].
  apply NoDup_cons_iff in H as [H1 H2]. destruct (IH H2) as [IH1 IH2].
  destruct (add_file_info x) as [f|] eqn:E.
  - destruct (add_file_fresh x f E) as [_ Hid]. cbn [map]. split.
    + constructor; auto. rewrite Hid. auto.
    + intros i [<-|Hi]; [left; now rewrite Hid|right; auto].
  - split; auto. intros i Hi. right. auto.
Qed.

Lemma process_loop : forall l pre s, Forall fresh pre -> Forall fresh l ->
  (forall x, s x = total (queued x) pre) ->
  forall x, fold_left process_file l s x = total (queued x) (pre ++ l).
Proof.
  induction l as [|f l IH]; intros pre s Hp Hl Hs x; cbn [fold_left].
  - now rewrite app_nil_r.
  - inversion Hl; subst.
    replace (pre ++ f :: l) with ((pre ++ [f]) ++ l) by (rewrite <- app_assoc; reflexivity).
    apply IH; auto.
    + apply Forall_app. auto.
    + clear x. intro x. rewrite total_app, total_cons, total_nil.
      assert (EF : total (queued CurFailed) pre = total (queued Failed) pre).
      { clear - Hp. induction Hp as [|a pre Ha Hp IH]; auto. rewrite !total_cons, IH.
        cbn [queued]. destruct Ha. lia. }
      assert (EP : total (queued ParCurFailed) pre = total (queued ParFailed) pre).
      { clear - Hp. induction Hp as [|a pre Ha Hp IH]; auto. rewrite !total_cons, IH.
        cbn [queued]. destruct Ha. unfold if_par. destruct (f_par a); lia. }
      pose proof (Hs CurFailed). pose proof (Hs Failed). pose proof (Hs ParCurFailed). pose proof (Hs ParFailed).
      specialize (Hs x). destruct H1.
      unfold process_file. cbn zeta.
      destruct (f_par f) eqn:Ep; destruct x; cbn [bump assign fld_eqb fld_tag Nat.eqb queued] in *;
        unfold if_par; rewrite ?Ep, ?fr_paused0, ?fr_extra0; lia.
Qed.

Lemma new_group_inv : forall l,
  NoDup (map (fun x : Z * bool * list (option Z) => fst (fst x)) l) -> inv (new_group l).
Proof.
  intros l H. unfold new_group. destruct (add_files_ids l H) as [Hn _].
  pose proof (add_files_fresh l) as F.
  constructor; cbn [g_st g_files g_done g_srv g_cur g_deleting g_parking g_renaming g_wiped g_lost]; auto; try lia.
  - intros x _. rewrite (process_loop _ [] (fun _ => 0)); auto.
    cbn [app]. unfold summary. rewrite total_nil. lia.
  - intro id. unfold srv_sum. rewrite total_nil. cbn.
    clear - F. induction F as [|f l' Hf F IH]; auto. rewrite total_cons. destruct Hf. rewrite fr_srv0. cbn in *. lia.
  - intro id. unfold srv_sum. rewrite total_nil. cbn.
    clear - F. induction F as [|f l' Hf F IH]; auto. rewrite total_cons. destruct Hf. rewrite fr_srv0. cbn in *. lia.
  - clear - F. induction F as [|f l' [] F IH]; auto.
Qed.

(** ** Histories from a new group *)

Lemma history_inv : forall l ops,
  NoDup (map (fun x : Z * bool * list (option Z) => fst (fst x)) l) ->
  g_wiped (run (new_group l) ops) = [] -> g_lost (run (new_group l) ops) = 0 ->
  inv (run (new_group l) ops).
Proof. intros. apply run_inv; auto. now apply new_group_inv. Qed.

Lemma discard_loop_flags : forall l g,
  g_deleting (fold_left discard_one l g) = g_deleting g /\
  g_renaming (fold_left discard_one l g) = g_renaming g.
Proof.
  induction l as [|f l IH]; intro g; cbn [fold_left]; auto.
  destruct (IH (discard_one g f)) as (-> & ->).
  unfold discard_one. destruct (discardable f); auto.
Qed.

Lemma delete_file_info_plain : forall c f g, g_renaming g = false ->
  g_wiped (delete_file_info c f g) = g_wiped g /\
  g_deleting (delete_file_info c f g) = g_deleting g /\
  g_renaming (delete_file_info c f g) = false.
Proof.
  intros c f g H. unfold delete_file_info. rewrite H. cbn [andb].
  destruct (c || g_deleting g); cbn; auto.
Qed.

Lemma ordinary_step : forall g o, ordinary o ->
  g_deleting g = false -> g_renaming g = false ->
  g_wiped (step g o) = g_wiped g /\ g_lost (step g o) = g_lost g /\
  g_deleting (step g o) = false /\ g_renaming (step g o) = false.
Proof.
  intros g o Ho Hd Hr. destruct o; cbn [step]; unfold on_file;
    try (destruct (find_file id (g_files g)) as [f|]; [|auto]).
  - unfold set_paused. destruct (Bool.eqb (f_paused f) b); cbn; auto.
  - unfold set_extra. destruct (Bool.eqb (f_extra f) b); cbn; auto.
  - unfold start_article. destruct (nth_error (f_arts f) k) as [[n []]|]; cbn; auto.
  - unfold article_done. destruct (nth_error (f_arts f) k) as [[n []]|]; auto.
    destruct r; cbn [article_stats]; try (cbn; auto; fail).
    destruct newpar as [b|]; [|cbn; auto].
    unfold change_par. destruct (Bool.eqb _ b); [cbn; auto|].
    destruct (negb b && _); [|cbn; auto].
    unfold set_paused. destruct (Bool.eqb _ false); cbn; auto.
  - cbn in Ho. subst lost. unfold finish_article.
    destruct (f_num f FActive <=? 0); auto. destruct (c && _); auto.
    match goal with |- context [delete_file_info c ?a ?b] =>
      destruct (delete_file_info_plain c a b Hr) as (E1 & E2 & E3);
      destruct (delete_file_info_ghost c a b) as (E4 & _) end.
    destruct (c || _).
    + rewrite E1, E2, E3, E4. unfold replace. gcbn. destruct c; repeat split; auto; lia.
    + unfold replace. gcbn. destruct c; repeat split; auto; lia.
  - unfold delete_queue_entry. destruct (0 <? f_num f FActive); [cbn; auto|].
    match goal with |- context [delete_file_info false ?a ?b] =>
      destruct (delete_file_info_plain false a b Hr) as (E1 & E2 & E3);
      destruct (delete_file_info_ghost false a b) as (E4 & _) end.
    rewrite E1, E2, E3, E4. cbn. auto.
  - destruct (discard_loop_ghost (g_files g) g) as (E1 & E2 & E3).
    destruct (discard_loop_flags (g_files g) g) as (E4 & E5).
    unfold discard_direct_rename. rewrite E1, E2, E3, E5. auto.
  - cbn in *. auto.
  - contradiction.
Qed.

Lemma ordinary_run : forall ops g, Forall ordinary ops ->
  g_deleting g = false -> g_renaming g = false ->
  g_wiped (run g ops) = g_wiped g /\ g_lost (run g ops) = g_lost g /\ g_deleting (run g ops) = false.
Proof.
  induction ops as [|o ops IH]; intros g Ho Hd Hr; cbn; auto.
  inversion Ho; subst. destruct (ordinary_step g o H1 Hd Hr) as (E1 & E2 & E3 & E4).
  destruct (IH (step g o) H2 E3 E4) as (E5 & E6 & E7). unfold run in *. rewrite E5, E6. auto.
Qed.

Lemma ordinary_history : forall l ops,
  NoDup (map (fun x : Z * bool * list (option Z) => fst (fst x)) l) -> Forall ordinary ops ->
  let g := run (new_group l) ops in inv g /\ g_deleting g = false.
Proof.
  intros l ops Hn Ho g. destruct (ordinary_run ops (new_group l) Ho eq_refl eq_refl) as (E1 & E2 & E3).
  split; auto. apply history_inv; auto.
Qed.

Lemma inv_summary : forall g, inv g -> g_deleting g = false ->
  forall x, g_st g x = summary x (g_files g) (g_done g).
Proof. intros g H Hd x. apply (iv_st g H). now left. Qed.

(** ** Recomputation *)

Lemma recount_loop : forall l s x,
  fold_left recount_file l s x =
  s x + match x with
        | Remaining => total (queued Remaining) l
        | CurSuccArt => total (queued CurSuccArt) l
        | CurFailArt => total (fun f => f_num f FFailArt) l
        | CurSuccess => total (queued CurSuccess) l
        | CurFailed => total (fun f => f_num f FFail) l
        | Extra => total (queued Extra) l
        | PausedCount => total (queued PausedCount) l
        | PausedSize => total (queued PausedSize) l
        | RemPar => total (queued RemPar) l
        | ParCurSuccess => total (queued ParCurSuccess) l
        | ParCurFailed => total (fun f => if_par f (f_num f FFail)) l
        | _ => 0
        end.
Proof.
  induction l as [|f l IH]; intros s x; cbn [fold_left].
  - destruct x; rewrite ?total_nil; lia.
  - rewrite IH. unfold recount_file. cbn zeta.
    rewrite bump_delta, !delta_app, !delta_if. unfold b2z.
    destruct x; cbn [delta fld_eqb fld_tag Nat.eqb]; rewrite ?total_cons; cbn [queued]; unfold if_par;
      destruct (f_paused f), (f_par f), (f_extra f); lia.
Qed.

Lemma recount_servers : forall l c id,
  ok_of (fold_left (fun c f => list_op c (f_srv f) soAdd) l c) id = ok_of c id + srv_sum ok_of id l /\
  bad_of (fold_left (fun c f => list_op c (f_srv f) soAdd) l c) id = bad_of c id + srv_sum bad_of id l.
Proof.
  induction l as [|f l IH]; intros c id; cbn [fold_left].
  - unfold srv_sum. rewrite !total_nil. lia.
  - destruct (IH (list_op c (f_srv f) soAdd) id) as [-> ->].
    destruct (list_op_add (f_srv f) c id) as [-> ->]. unfold srv_sum. rewrite !total_cons. lia.
Qed.

Lemma total_ext : forall w w' l, (forall f, w f = w' f) -> total w l = total w' l.
Proof. intros w w' l H. induction l; auto. now rewrite !total_cons, IHl, H. Qed.
Lemma total_add : forall w w' l, total (fun f => w f + w' f) l = total w l + total w' l.
Proof. intros w w' l. induction l; auto. rewrite !total_cons, IHl. lia. Qed.
Lemma total_zero : forall l, total (fun _ => 0) l = 0.
Proof. induction l; auto. Qed.

Lemma recount_ok : forall g,
  (forall x, saved x -> g_st g x = summary x (g_files g) (g_done g)) ->
  forall x, g_st (update_current g) x = summary x (g_files g) (g_done g).
Proof.
  intros g H x. unfold update_current. gcbn. rewrite recount_loop.
  assert (D : forall w, total (fun f => f_num f w) (g_done g) = total (fun f => f_num f w) (g_done g)) by auto.
  pose proof (H Success I) as H1. pose proof (H Failed I) as H2. pose proof (H ParSuccess I) as H3.
  pose proof (H ParFailed I) as H4. pose proof (H SuccArt I) as H5. pose proof (H FailArt I) as H6.
  pose proof (H x) as H7. clear H D.
  unfold summary in *.
  assert (Z0 : forall l, total (fun _ : finfo => 0) l = 0) by apply total_zero.
  assert (P1 : total (queued CurFailed) (g_files g) =
    total (fun f => f_num f FFail) (g_files g) + total (queued Failed) (g_files g))
    by (rewrite <- total_add; apply total_ext; reflexivity).
  assert (P2 : total (queued CurFailArt) (g_files g) =
    total (fun f => f_num f FFailArt) (g_files g) + total (queued FailArt) (g_files g))
    by (rewrite <- total_add; apply total_ext; reflexivity).
  assert (P3 : total (queued ParCurFailed) (g_files g) =
    total (fun f => if_par f (f_num f FFail)) (g_files g) + total (queued ParFailed) (g_files g)).
  { rewrite <- total_add. apply total_ext. intro f. cbn [queued]. unfold if_par. destruct (f_par f); lia. }
  destruct x; cbn [assign fld_eqb fld_tag Nat.eqb saved] in *; try (specialize (H7 I); lia); clear H7;
    try change (finished CurSuccess) with (finished Success);
    try change (finished CurFailed) with (finished Failed);
    try change (finished ParCurSuccess) with (finished ParSuccess);
    try change (finished ParCurFailed) with (finished ParFailed);
    try change (finished CurSuccArt) with (finished SuccArt);
    try change (finished CurFailArt) with (finished FailArt);
    try change (finished Remaining) with (fun _ : finfo => 0);
    try change (finished Extra) with (fun _ : finfo => 0);
    try change (finished PausedCount) with (fun _ : finfo => 0);
    try change (finished PausedSize) with (fun _ : finfo => 0);
    try change (finished RemPar) with (fun _ : finfo => 0);
    unfold queued in H1, H3, H5; rewrite ?Z0 in *; lia.
Qed.

(** ** Merging *)

Lemma merge_sums : forall g1 g2 x,
  (forall x, g_st g1 x = summary x (g_files g1) (g_done g1)) ->
  (forall x, g_st g2 x = summary x (g_files g2) (g_done g2)) ->
  x <> Extra ->
  g_st (merge_groups g1 g2) x =
    summary x (g_files (merge_groups g1 g2)) (g_done (merge_groups g1 g2)).
Proof.
  intros g1 g2 x H1 H2 Hx. unfold merge_groups. gcbn. rewrite bump_delta.
  unfold summary in *. rewrite !total_app, H1.
  specialize (H2 x). destruct x; try congruence; cbn [delta fld_eqb fld_tag Nat.eqb]; lia.
Qed.

(** ** Splitting *)

Lemma split_step_conserves : forall src new f x, x <> PausedCount ->
  g_st (fst (split_file (src, new) f)) x + g_st (snd (split_file (src, new) f)) x =
  g_st src x + g_st new x.
Proof.
  intros src new f x Hx. cbn [split_file fst snd]. unfold split_file.
  destruct (f_paused f) eqn:Ep; cbn [fst snd]; gcbn;
    cbn [assign]; rewrite ?bump_delta, ?delta_app, ?delta_if;
    destruct (f_par f); destruct x; try congruence; cbn [delta fld_eqb fld_tag Nat.eqb]; lia.
Qed.

Lemma split_loop_conserves : forall l src new x, x <> PausedCount ->
  g_st (fst (fold_left split_file l (src, new))) x + g_st (snd (fold_left split_file l (src, new))) x =
  g_st src x + g_st new x.
Proof.
  induction l as [|f l IH]; intros src new x Hx; cbn [fold_left]; auto.
  pose proof (split_step_conserves src new f x Hx) as E.
  destruct (split_file (src, new) f) as [s n]. rewrite IH by auto. exact E.
Qed.

(** Files that can be split off without damage. *)
Record plain (f : finfo) : Prop := {
  pl_succ : f_num f FSucc = 0; pl_fail : f_num f FFail = 0;
  pl_sa : f_num f FSuccArt = 0; pl_fa : f_num f FFailArt = 0;
  pl_act : f_num f FActive = 0;
  pl_miss : f_num f FMissed = 0; pl_paused : f_paused f = false; pl_extra : f_extra f = false
}.

Lemma split_step_sums : forall src new f,
  plain f -> find_file (f_id f) (g_files src) = Some f ->
  (forall x, g_st src x = summary x (g_files src) (g_done src)) ->
  (forall x, g_st new x = summary x (g_files new) (g_done new)) ->
  let r := split_file (src, new) f in
  (forall x, g_st (fst r) x = summary x (g_files (fst r)) (g_done (fst r))) /\
  (forall x, g_st (snd r) x = summary x (g_files (snd r)) (g_done (snd r))) /\
  g_files (fst r) = del_file (f_id f) (g_files src) /\
  g_files (snd r) = g_files new ++ [f].
Proof.
  intros src new f Hp Hf H1 H2 r. destruct Hp.
  destruct (find_split _ _ _ Hf) as (a & b & El & _ & _ & _ & Hdel).
  unfold r, split_file. rewrite pl_paused0. cbn [fst snd]. gcbn. repeat split.
  - intro x. rewrite bump_delta, !delta_app, !delta_if, H1. unfold summary. rewrite Hdel, El, !total_app, total_cons.
    destruct x; cbn [delta fld_eqb fld_tag Nat.eqb queued]; unfold if_par;
      destruct (f_par f); rewrite ?pl_paused0, ?pl_extra0; lia.
  - intro x. rewrite bump_delta, !delta_app, !delta_if, H2. unfold summary. rewrite total_app, total_cons, total_nil.
    destruct x; cbn [delta fld_eqb fld_tag Nat.eqb queued]; unfold if_par;
      destruct (f_par f); rewrite ?pl_paused0, ?pl_extra0; lia.
Qed.

Lemma find_del_other : forall id id' l, id <> id' -> find_file id (del_file id' l) = find_file id l.
Proof.
  induction l as [|x l IH]; intro H; cbn; auto.
  destruct (f_id x =? id') eqn:E.
  - destruct (f_id x =? id) eqn:F; auto. lia.
  - cbn. now rewrite IH.
Qed.

Lemma split_loop_sums : forall l src new,
  Forall plain l -> NoDup (map f_id l) ->
  (forall f, In f l -> find_file (f_id f) (g_files src) = Some f) ->
  (forall x, g_st src x = summary x (g_files src) (g_done src)) ->
  (forall x, g_st new x = summary x (g_files new) (g_done new)) ->
  let r := fold_left split_file l (src, new) in
  (forall x, g_st (fst r) x = summary x (g_files (fst r)) (g_done (fst r))) /\
  (forall x, g_st (snd r) x = summary x (g_files (snd r)) (g_done (snd r))) /\
  g_files (snd r) = g_files new ++ l.
Proof.
  induction l as [|f l IH]; intros src new Hp Hn Hin H1 H2; cbn [fold_left].
  - cbn. rewrite app_nil_r. auto.
  - inversion Hp; subst. cbn in Hn. apply NoDup_cons_iff in Hn as [N1 N2].
    destruct (split_step_sums src new f H3 (Hin f (or_introl eq_refl)) H1 H2) as (E1 & E2 & E3 & E4).
    destruct (split_file (src, new) f) as [s n]. cbn [fst snd] in *.
    destruct (IH s n) as (E5 & E6 & E7); auto.
    + intros f0 Hf0. rewrite E3, find_del_other; [apply Hin; now right|].
      intro K. apply N1. rewrite <- K. now apply in_map.
    + repeat split; auto. rewrite E7, E4, <- app_assoc. reflexivity.
Qed.

(** The check of SplitQueueEntries makes files plain, given the counters. *)
Lemma split_ok_fresh : forall l, split_ok l = true -> Forall file_ok l ->
  Forall (fun f => f_num f FSucc = 0 /\ f_num f FFail = 0 /\ f_num f FSuccArt = 0 /\
                   f_num f FFailArt = 0 /\ f_num f FActive = 0) l.
Proof.
  intros l H Hok. unfold split_ok in H. apply andb_prop in H as [_ H].
  rewrite forallb_forall in H. rewrite Forall_forall in *. intros f Hf.
  specialize (H f Hf). specialize (Hok f Hf). apply andb_prop in H as [Ha Hc]. destruct Hok.
  assert (G1 : 0 <= arts_count good_art (f_arts f)) by (unfold arts_count; lia).
  assert (G2 : 0 <= arts_count bad_art (f_arts f)) by (unfold arts_count; lia).
  assert (G3 : arts_count good_art (f_arts f) = 0) by lia.
  assert (G4 : arts_count bad_art (f_arts f) = 0) by lia.
  pose proof (count_zero_size _ _ G3). pose proof (count_zero_size _ _ G4). lia.
Qed.

(** ** The selection of a split *)

Lemma remove_id_some : forall id l, In id l -> NoDup l ->
  remove_id id l = Some (filter (fun x => negb (x =? id)) l).
Proof.
  induction l as [|x l IH]; intros H Hn; [easy|].
  cbn. apply NoDup_cons_iff in Hn as [N1 N2].
  destruct (x =? id) eqn:E; cbn [negb].
  - apply Z.eqb_eq in E. subst x. f_equal. clear - N1. induction l as [|y l IH]; auto.
    cbn in *. destruct (y =? id) eqn:F; cbn [negb]; [exfalso; apply N1; left; lia|]. f_equal. apply IH. tauto.
  - destruct H as [H|H]; [lia|]. now rewrite (IH H N2).
Qed.

Lemma split_lists_loop : forall sel src acc, NoDup sel -> NoDup src -> incl sel src ->
  fold_left split_list sel (src, acc) =
  (filter (fun x => negb (existsb (fun y => x =? y) sel)) src, acc ++ map Some sel).
Proof.
  induction sel as [|s sel IH]; intros src acc Hs Hn Hi; cbn [fold_left].
  - cbn. f_equal; [|now rewrite app_nil_r]. clear. induction src; auto. cbn. now f_equal.
  - apply NoDup_cons_iff in Hs as [S1 S2].
    unfold split_list at 2. cbn [fst snd].
    rewrite remove_id_some; auto; [|apply Hi; now left].
    rewrite IH; auto.
    + f_equal.
      * clear. induction src as [|y src IH]; auto. cbn [filter existsb].
        destruct (y =? s) eqn:E; cbn [negb orb filter]; auto.
        destruct (existsb (fun y0 => y =? y0) sel); cbn [negb]; [auto|now f_equal].
      * rewrite <- app_assoc. reflexivity.
    + now apply NoDup_filter.
    + intros x Hx. apply filter_In. split; [apply Hi; now right|].
      destruct (x =? s) eqn:E; auto. exfalso. apply S1. apply Z.eqb_eq in E. now subst.
Qed.
