From Verif Require Import Base InfoModel InfoSpec InfoProofs StatsModel StatsSpec.

(** ** Field updates *)

Fixpoint delta (l : list (fld * Z)) (x : fld) : Z :=
  match l with
  | [] => 0
  | (f, d) :: r => (if fld_eqb f x then d else 0) + delta r x
  end.

Lemma bump_delta : forall l s x, bump l s x = s x + delta l x.
Proof.
  induction l as [|[f d] l IH]; intros s x; cbn [bump delta]; [lia|].
  rewrite IH. destruct (fld_eqb f x); lia.
Qed.

Lemma delta_app : forall a b x, delta (a ++ b) x = delta a x + delta b x.
Proof. induction a as [|[f d] a IH]; intros b x; cbn [delta app]; [lia|]. rewrite IH. lia. Qed.

Lemma delta_if : forall (c : bool) a x, delta (if c then a else []) x = if c then delta a x else 0.
Proof. now intros [] a x. Qed.

(** ** Sums over files *)

Lemma total_app : forall w a b, total w (a ++ b) = total w a + total w b.
Proof.
  intros. unfold total. rewrite map_app. induction (map w a); cbn; lia.
Qed.
Lemma total_cons : forall w f l, total w (f :: l) = w f + total w l.
Proof. reflexivity. Qed.
Lemma total_nil : forall w, total w [] = 0.
Proof. reflexivity. Qed.

(** ** Finding files *)

Lemma find_split : forall id l f, find_file id l = Some f ->
  exists a b, l = a ++ f :: b /\ f_id f = id /\ ~ In id (map f_id a) /\
    (forall f', put_file id f' l = a ++ f' :: b) /\ del_file id l = a ++ b.
Proof.
  induction l as [|x l IH]; intros f H; cbn in H; [discriminate|].
  destruct (f_id x =? id) eqn:E.
  - inversion H; subst. exists [], l. cbn. rewrite E. repeat split; auto; lia.
  - destruct (IH _ H) as (a & b & -> & H1 & H2 & H3 & H4).
    exists (x :: a), b. cbn. rewrite E. repeat split; auto.
    + intros [K|K]; [lia|auto].
    + intro f'. now rewrite H3.
    + now rewrite H4.
Qed.

Lemma find_put_same : forall id l f f', find_file id l = Some f -> f_id f' = id ->
  find_file id (put_file id f' l) = Some f'.
Proof.
  induction l as [|x l IH]; intros f f' H Hid; cbn in *; [discriminate|].
  destruct (f_id x =? id) eqn:E; cbn.
  - rewrite Hid, Z.eqb_refl. auto.
  - rewrite E. eauto.
Qed.

Lemma find_put_other : forall id id' l f', id <> id' -> f_id f' = id' ->
  find_file id (put_file id' f' l) = find_file id l.
Proof.
  induction l as [|x l IH]; intros f' Hne Hid; cbn; auto.
  destruct (f_id x =? id') eqn:E; cbn.
  - destruct (f_id f' =? id) eqn:F; [lia|]. destruct (f_id x =? id) eqn:G; [lia|auto].
  - rewrite IH by auto. auto.
Qed.

Lemma del_put_other : forall id id' l f', id <> id' -> f_id f' = id' ->
  del_file id (put_file id' f' l) = put_file id' f' (del_file id l).
Proof.
  induction l as [|x l IH]; intros f' Hne Hid; cbn; auto.
  destruct (f_id x =? id') eqn:E; cbn.
  - destruct (f_id f' =? id) eqn:F; [lia|]. destruct (f_id x =? id) eqn:G; [lia|].
    cbn. now rewrite E.
  - destruct (f_id x =? id) eqn:G; auto. cbn. rewrite E. now rewrite IH.
Qed.

Lemma del_put_same : forall id l f', f_id f' = id -> del_file id (put_file id f' l) = del_file id l.
Proof.
  induction l as [|x l IH]; intros f' H; cbn; auto.
  destruct (f_id x =? id) eqn:E; cbn.
  - now rewrite H, Z.eqb_refl.
  - rewrite E. now rewrite IH.
Qed.

Lemma put_put : forall id l f f', f_id f = id -> put_file id f' (put_file id f l) = put_file id f' l.
Proof.
  induction l as [|x l IH]; intros f f' H; cbn; auto.
  destruct (f_id x =? id) eqn:E; cbn.
  - now rewrite H, Z.eqb_refl.
  - rewrite E. now rewrite IH.
Qed.

Lemma put_ids : forall id l f', f_id f' = id -> map f_id (put_file id f' l) = map f_id l.
Proof.
  induction l as [|x l IH]; intros f' H; cbn; auto.
  destruct (f_id x =? id) eqn:E; cbn; [f_equal; lia|]. now rewrite IH.
Qed.

Lemma find_in : forall l f, NoDup (map f_id l) -> In f l -> find_file (f_id f) l = Some f.
Proof.
  induction l as [|x l IH]; intros f Hn Hin; [easy|].
  cbn in Hn. apply NoDup_cons_iff in Hn as [H1 H2]. cbn.
  destruct Hin as [->|Hin]; [now rewrite Z.eqb_refl|].
  destruct (f_id x =? f_id f) eqn:E; [|auto].
  exfalso. apply H1. apply Z.eqb_eq in E. rewrite E. now apply in_map.
Qed.

(** ** Articles *)

Lemma set_art_split : forall k l n st st', nth_error l k = Some (n, st) ->
  exists a b, l = a ++ (n, st) :: b /\ set_art k st' l = a ++ (n, st') :: b.
Proof.
  intros k l n st st' H. unfold set_art. rewrite H.
  exists (firstn k l), (skipn (Datatypes.S k) l). split; auto.
  rewrite <- (firstn_skipn k l) at 1. f_equal.
  clear st'. revert l H. induction k as [|k IH]; intros [|x l] H; cbn in *; try discriminate.
  - congruence.
  - now apply IH.
Qed.

Lemma arts_size_app : forall p a b, arts_size p (a ++ b) = arts_size p a + arts_size p b.
Proof.
  intros. unfold arts_size. rewrite filter_app, map_app.
  induction (map fst (filter (fun x => p (snd x)) a)); cbn; lia.
Qed.
Lemma arts_size_cons : forall p n s b,
  arts_size p ((n, s) :: b) = (if p s then n else 0) + arts_size p b.
Proof. intros. unfold arts_size. cbn [filter snd]. destruct (p s); cbn; lia. Qed.
Lemma arts_count_app : forall p a b, arts_count p (a ++ b) = arts_count p a + arts_count p b.
Proof. intros. unfold arts_count. rewrite filter_app, app_length. lia. Qed.
Lemma arts_count_cons : forall p n s b,
  arts_count p ((n, s) :: b) = (if p s then 1 else 0) + arts_count p b.
Proof. intros. unfold arts_count. cbn [filter snd]. destruct (p s); cbn [length]; lia. Qed.

Lemma set_art_size : forall p k l n st st', nth_error l k = Some (n, st) ->
  arts_size p (set_art k st' l) =
  arts_size p l + (if p st' then n else 0) - (if p st then n else 0).
Proof.
  intros p k l n st st' H. destruct (set_art_split _ _ _ _ st' H) as (a & b & -> & ->).
  rewrite !arts_size_app, !arts_size_cons. lia.
Qed.
Lemma set_art_count : forall p k l n st st', nth_error l k = Some (n, st) ->
  arts_count p (set_art k st' l) =
  arts_count p l + (if p st' then 1 else 0) - (if p st then 1 else 0).
Proof.
  intros p k l n st st' H. destruct (set_art_split _ _ _ _ st' H) as (a & b & -> & ->).
  rewrite !arts_count_app, !arts_count_cons. lia.
Qed.
Lemma set_art_length : forall k l st', length (set_art k st' l) = length l.
Proof.
  intros k l st'. destruct (nth_error l k) as [[n st]|] eqn:H.
  - destruct (set_art_split _ _ _ _ st' H) as (a & b & -> & ->). now rewrite !app_length.
  - unfold set_art. now rewrite H.
Qed.

Lemma counts_length : forall l,
  arts_count open_art l + arts_count good_art l + arts_count bad_art l = Z.of_nat (length l).
Proof.
  induction l as [|[n s] l IH]; [reflexivity|].
  rewrite !arts_count_cons. cbn [length]. destruct s; cbn [open_art good_art bad_art]; lia.
Qed.

Lemma count_zero_size : forall p l, arts_count p l = 0 -> arts_size p l = 0.
Proof.
  intros p l H. unfold arts_count, arts_size in *.
  destruct (filter (fun a => p (snd a)) l); [reflexivity|]. cbn [length] in H. lia.
Qed.

Lemma complete_no_rem : forall f, file_ok f ->
  Z.of_nat (length (f_arts f)) = f_num f FCompl -> f_num f FRem = 0.
Proof.
  intros f H E. destruct H. rewrite fo_rem. apply count_zero_size.
  pose proof (counts_length (f_arts f)). lia.
Qed.

Lemma reset_size : forall l,
  arts_size open_art (map (fun a : art => (fst a, aiUndefined)) l) =
  arts_size open_art l + arts_size good_art l + arts_size bad_art l /\
  arts_size good_art (map (fun a : art => (fst a, aiUndefined)) l) = 0 /\
  arts_size bad_art (map (fun a : art => (fst a, aiUndefined)) l) = 0 /\
  arts_count good_art (map (fun a : art => (fst a, aiUndefined)) l) = 0 /\
  arts_count bad_art (map (fun a : art => (fst a, aiUndefined)) l) = 0.
Proof.
  induction l as [|[n s] l IH]; [cbn; lia|].
  cbn [map fst]. rewrite !arts_size_cons, !arts_count_cons. destruct s; cbn [open_art good_art bad_art]; lia.
Qed.

(** ** The invariant *)

Definition srv_sum (w : list sstat -> Z -> Z) (id : Z) (l : list finfo) : Z :=
  total (fun f => w (f_srv f) id) l.

(** While a group is being deleted, its remaining and paused size are not kept. *)
Definition tracked (g : group) (x : fld) : Prop :=
  g_deleting g = false \/ (x <> Remaining /\ x <> PausedSize).

Record inv (g : group) : Prop := {
  iv_st : forall x, tracked g x -> g_st g x = summary x (g_files g) (g_done g);
  iv_cur_ok : forall id, ok_of (g_cur g) id = srv_sum ok_of id (g_files g) + srv_sum ok_of id (g_done g);
  iv_cur_bad : forall id, bad_of (g_cur g) id = srv_sum bad_of id (g_files g) + srv_sum bad_of id (g_done g);
  iv_srv_ok : forall id, ok_of (g_srv g) id = srv_sum ok_of id (g_done g);
  iv_srv_bad : forall id, bad_of (g_srv g) id = srv_sum bad_of id (g_done g);
  iv_files : Forall file_ok (g_files g);
  iv_ids : NoDup (map f_id (g_files g));
  iv_park : g_parking g = true -> g_deleting g = true;
  iv_lost : 0 <= g_lost g
}.

Lemma file_ids_put : forall g f', NoDup (map f_id (g_files g)) ->
  NoDup (map f_id (put_file (f_id f') f' (g_files g))).
Proof. intros. now rewrite put_ids. Qed.

(** Replacing a queued file, together with a matching change of the statistics. *)
Lemma inv_replace : forall g f f' s' cur' w n,
  inv g -> find_file (f_id f') (g_files g) = Some f -> file_ok f' ->
  (forall x, s' x = g_st g x + queued x f' - queued x f) ->
  (forall id, ok_of cur' id = ok_of (g_cur g) id + ok_of (f_srv f') id - ok_of (f_srv f) id) ->
  (forall id, bad_of cur' id = bad_of (g_cur g) id + bad_of (f_srv f') id - bad_of (f_srv f) id) ->
  0 <= n ->
  inv (mkG s' (put_file (f_id f') f' (g_files g)) (g_done g) (g_srv g) cur'
        (g_deleting g) (g_parking g) (g_renaming g) w n).
Proof.
  intros g f f' s' cur' w n H Hf Hok Hs Ha Hb Hn.
  destruct (find_split _ _ _ Hf) as (a & b & El & Eid & _ & Hput & _).
  destruct H.
  constructor; cbn [g_st g_files g_done g_srv g_cur g_deleting g_parking g_renaming g_wiped g_lost]; rewrite ?Hput; auto.
  - intros x Hx. rewrite Hs, iv_st0 by exact Hx. unfold summary. rewrite El, !total_app, !total_cons. lia.
  - intro id. rewrite Ha, iv_cur_ok0. unfold srv_sum. rewrite El, !total_app, !total_cons. lia.
  - intro id. rewrite Hb, iv_cur_bad0. unfold srv_sum. rewrite El, !total_app, !total_cons. lia.
  - rewrite El in iv_files0. apply Forall_app in iv_files0 as [F1 F2]. inversion F2; subst.
    apply Forall_app. split; auto.
  - rewrite <- (Hput f'). now rewrite put_ids.
Qed.

Lemma find_file_ok : forall g id f, inv g -> find_file id (g_files g) = Some f -> file_ok f /\ f_id f = id.
Proof.
  intros g id f H Hf. destruct (find_split _ _ _ Hf) as (a & b & El & Eid & _).
  split; auto. destruct H. rewrite El in iv_files0. apply Forall_app in iv_files0 as [_ F].
  now inversion F.
Qed.

Ltac fld_cases := intros x; rewrite ?bump_delta, ?delta_app, ?delta_if;
  destruct x; cbn [delta fld_eqb fld_tag Nat.eqb queued finished f_num f_paused f_par f_extra f_srv f_arts
                   fbump fassign ffld_eqb with_num with_paused with_par with_extra with_deleted with_arts with_srv if_par];
  unfold if_par; cbn [f_par with_num with_paused with_par with_extra with_deleted with_arts with_srv].

Ltac gcbn := unfold with_st, with_files, with_done, with_gsrv, with_cur, with_flags, with_ghost;
  cbn [g_st g_files g_done g_srv g_cur g_deleting g_parking g_renaming g_wiped g_lost].
Ltac srvcbn := intros; cbn [f_srv with_num with_paused with_par with_extra with_deleted with_arts with_srv]; lia.

Lemma set_paused_inv : forall b f g, inv g -> find_file (f_id f) (g_files g) = Some f ->
  inv (set_paused b f g).
Proof.
  intros b f g H Hf. destruct (find_file_ok _ _ _ H Hf) as [Hok _].
  assert (L := iv_lost g H).
  unfold set_paused, replace.
  destruct (Bool.eqb (f_paused f) b) eqn:E; gcbn.
  - apply Bool.eqb_prop in E.
    apply (inv_replace g f (with_paused b f)); auto; try srvcbn.
    + destruct Hok; constructor; auto.
    + fld_cases; rewrite ?E; lia.
  - apply (inv_replace g f (with_paused b f)); auto; try srvcbn.
    + destruct Hok; constructor; auto.
    + fld_cases; destruct (f_paused f), b; cbn in E; try discriminate; cbn beta iota; lia.
Qed.

Lemma set_extra_inv : forall b f g, inv g -> find_file (f_id f) (g_files g) = Some f ->
  inv (set_extra b f g).
Proof.
  intros b f g H Hf. destruct (find_file_ok _ _ _ H Hf) as [Hok _].
  assert (L := iv_lost g H).
  unfold set_extra, replace.
  destruct (Bool.eqb (f_extra f) b) eqn:E; gcbn.
  - apply Bool.eqb_prop in E.
    apply (inv_replace g f (with_extra b f)); auto; try srvcbn.
    + destruct Hok; constructor; auto.
    + fld_cases; rewrite ?E; lia.
  - apply (inv_replace g f (with_extra b f)); auto; try srvcbn.
    + destruct Hok; constructor; auto.
    + fld_cases; destruct (f_extra f), b; cbn in E; try discriminate; cbn beta iota; lia.
Qed.

Lemma start_article_inv : forall k f g, inv g -> find_file (f_id f) (g_files g) = Some f ->
  inv (start_article k f g).
Proof.
  intros k f g H Hf. destruct (find_file_ok _ _ _ H Hf) as [Hok _].
  assert (L := iv_lost g H).
  unfold start_article, replace.
  destruct (nth_error (f_arts f) k) as [[n []]|] eqn:E; auto. gcbn.
  apply (inv_replace g f (with_arts (set_art k aiRunning (f_arts f))
                           (with_num (fbump [(FActive, 1)] (f_num f)) f))); auto; try srvcbn.
  - destruct Hok; constructor; cbn [f_num f_arts with_arts with_num fbump ffld_eqb];
      rewrite ?(set_art_size _ _ _ _ _ aiRunning E), ?(set_art_count _ _ _ _ _ aiRunning E), ?set_art_length;
      cbn [open_art good_art bad_art]; lia.
  - fld_cases; lia.
Qed.

Lemma change_par_inv : forall b f g, inv g -> find_file (f_id f) (g_files g) = Some f ->
  inv (change_par b f g).
Proof.
  intros b f g H Hf. destruct (find_file_ok _ _ _ H Hf) as [Hok _].
  assert (L := iv_lost g H).
  unfold change_par. destruct (Bool.eqb (f_par f) b) eqn:E; auto.
  set (f1 := with_par b f).
  set (g1 := with_st _ g).
  assert (Hr : inv (replace f1 g1)).
  { unfold replace, g1. gcbn. apply (inv_replace g f f1); auto; try (unfold f1; srvcbn).
    - destruct Hok; constructor; auto.
    - unfold f1. fld_cases; destruct (f_par f), b; cbn in E; try discriminate; cbn beta iota; lia.
    }
  assert (Hf1 : find_file (f_id f1) (g_files (replace f1 g1)) = Some f1)
    by (apply (find_put_same _ _ f); auto).
  destruct (negb b && f_paused f1) eqn:E2; auto.
  pose proof (set_paused_inv false f1 _ Hr Hf1) as K.
  unfold set_paused, replace in K |- *.
  destruct (Bool.eqb (f_paused f1) false) eqn:E3.
  - revert K. unfold with_files, g1. gcbn. now rewrite put_put.
  - revert K. unfold with_files, g1. gcbn. now rewrite put_put.
Qed.

Lemma article_done_inv : forall k r srv dup newpar f g, inv g ->
  find_file (f_id f) (g_files g) = Some f -> inv (article_done k r srv dup newpar f g).
Proof.
  intros k r srv dup newpar f g H Hf. destruct (find_file_ok _ _ _ H Hf) as [Hok _].
  assert (L := iv_lost g H).
  unfold article_done. destruct (nth_error (f_arts f) k) as [[n []]|] eqn:E; auto.
  destruct (article_stats k n r srv dup f g) as [f1 g1] eqn:Es.
  assert (Hid : f_id f1 = f_id f) by (unfold article_stats in Es; destruct r; inversion Es; reflexivity).
  assert (Hr : inv (replace f1 g1)).
  { unfold article_stats in Es. destruct r; inversion Es; subst f1 g1; clear Es; unfold replace; gcbn;
      apply (inv_replace g f); auto.
    - destruct Hok; constructor;
        cbn [f_num f_arts with_arts with_num with_srv with_deleted fbump ffld_eqb];
        rewrite ?(set_art_size _ _ _ _ _ aiFinished E), ?(set_art_count _ _ _ _ _ aiFinished E), ?set_art_length;
        cbn [open_art good_art bad_art]; lia.
    - fld_cases; destruct (f_paused f), (f_par f); lia.
    - intro id. cbn [f_srv with_deleted with_srv]. rewrite !(proj1 (list_op_add _ _ _)). lia.
    - intro id. cbn [f_srv with_deleted with_srv]. rewrite !(proj2 (list_op_add _ _ _)). lia.
    - destruct Hok; constructor;
        cbn [f_num f_arts with_arts with_num with_srv with_deleted fbump ffld_eqb];
        rewrite ?(set_art_size _ _ _ _ _ aiFailed E), ?(set_art_count _ _ _ _ _ aiFailed E), ?set_art_length;
        cbn [open_art good_art bad_art]; lia.
    - fld_cases; destruct (f_paused f), (f_par f); lia.
    - intro id. cbn [f_srv with_deleted with_srv]. rewrite !(proj1 (list_op_add _ _ _)). lia.
    - intro id. cbn [f_srv with_deleted with_srv]. rewrite !(proj2 (list_op_add _ _ _)). lia.
    - destruct Hok; constructor;
        cbn [f_num f_arts with_arts with_num with_srv with_deleted fbump ffld_eqb];
        rewrite ?(set_art_size _ _ _ _ _ aiUndefined E), ?(set_art_count _ _ _ _ _ aiUndefined E), ?set_art_length;
        cbn [open_art good_art bad_art]; lia.
    - fld_cases; lia.
    - srvcbn.
    - srvcbn. }
  assert (Hf1 : find_file (f_id f1) (g_files (replace f1 g1)) = Some f1).
  { unfold replace. gcbn.
    replace (g_files g1) with (g_files g) by (unfold article_stats in Es; destruct r; inversion Es; reflexivity).
    rewrite Hid. apply (find_put_same _ _ f); auto. }
  destruct r; auto. destruct newpar as [b|]; auto. now apply change_par_inv.
Qed.

Lemma discard_articles_inv : forall f g, inv g -> find_file (f_id f) (g_files g) = Some f ->
  f_par f = true -> f_num f FActive = 0 -> inv (discard_articles f g).
Proof.
  intros f g H Hf Hp Ha. destruct (find_file_ok _ _ _ H Hf) as [Hok _].
  assert (L := iv_lost g H).
  unfold discard_articles, replace. gcbn.
  apply (inv_replace g f); auto.
  - destruct (reset_size (f_arts f)) as (R1 & R2 & R3 & R4 & R5).
    destruct Hok; constructor;
      cbn [f_num f_arts with_arts with_num with_srv with_deleted fassign ffld_eqb];
      rewrite ?R1, ?R2, ?R3, ?R4, ?R5, ?map_length; lia.
  - destruct Hok. fld_cases; rewrite ?Hp; destruct (f_paused f); lia.
  - intro id. cbn [f_srv with_deleted with_srv]. rewrite !(proj1 (list_op_sub _ _ _)). cbn; lia.
  - intro id. cbn [f_srv with_deleted with_srv]. rewrite !(proj2 (list_op_sub _ _ _)). cbn; lia.
Qed.

Lemma discard_one_files : forall f f0 g, f_id f0 <> f_id f ->
  find_file (f_id f0) (g_files (discard_one g f)) = find_file (f_id f0) (g_files g).
Proof.
  intros f f0 g Hne. unfold discard_one. destruct (discardable f); auto.
  unfold discard_articles, replace. gcbn. cbn [f_id with_srv with_arts with_num].
  apply find_put_other; auto.
Qed.

Lemma discard_loop_inv : forall l g, inv g -> NoDup (map f_id l) ->
  (forall f, In f l -> find_file (f_id f) (g_files g) = Some f) ->
  inv (fold_left discard_one l g).
Proof.
  induction l as [|f l IH]; intros g H Hn Hin; cbn [fold_left]; auto.
  cbn in Hn. apply NoDup_cons_iff in Hn as [H1 H2].
  apply IH; auto.
  - unfold discard_one. destruct (discardable f) eqn:E; auto.
    unfold discardable in E. apply andb_prop in E as [E E3]. apply andb_prop in E as [E1 E2].
    apply discard_articles_inv; auto; [apply Hin; now left|lia].
  - intros f0 H0. rewrite discard_one_files; [apply Hin; now right|].
    intro K. apply H1. rewrite <- K. now apply in_map.
Qed.

Lemma discard_direct_rename_inv : forall g, inv g -> inv (discard_direct_rename g).
Proof.
  intros g H. unfold discard_direct_rename. apply discard_loop_inv; auto.
  - apply (iv_ids g H).
  - intros f Hf. apply find_in; auto. apply (iv_ids g H).
Qed.

(** Discarding commutes with taking another file out of the list. *)
Lemma discard_one_del : forall f g id, f_id f <> id ->
  with_files (del_file id (g_files (discard_one g f))) (discard_one g f) =
  discard_one (with_files (del_file id (g_files g)) g) f.
Proof.
  intros f g id H. unfold discard_one. destruct (discardable f); auto.
  unfold discard_articles, replace. gcbn. cbn [f_id with_srv with_arts with_num].
  unfold with_files. gcbn. f_equal. apply del_put_other; auto.
Qed.

Lemma discard_loop_del : forall l g id,
  (forall f, In f l -> f_id f = id -> discardable f = false) ->
  with_files (del_file id (g_files (fold_left discard_one l g))) (fold_left discard_one l g) =
  fold_left discard_one (filter (fun f => negb (f_id f =? id)) l)
            (with_files (del_file id (g_files g)) g).
Proof.
  induction l as [|f l IH]; intros g id H; cbn [fold_left filter]; auto.
  destruct (f_id f =? id) eqn:E; cbn [negb].
  - rewrite IH by (intros; apply H; [now right|auto]).
    assert (Eq : discard_one g f = g) by (unfold discard_one; rewrite (H f); [reflexivity|now left|lia]).
    now rewrite Eq.
  - cbn [fold_left]. rewrite IH by (intros; apply H; [now right|auto]).
    f_equal. apply discard_one_del. lia.
Qed.

Lemma filter_del : forall id l, NoDup (map f_id l) ->
  filter (fun f => negb (f_id f =? id)) l = del_file id l.
Proof.
  induction l as [|x l IH]; intros H; cbn; auto.
  cbn in H. apply NoDup_cons_iff in H as [H1 H2].
  destruct (f_id x =? id) eqn:E; cbn.
  - apply Z.eqb_eq in E. rewrite <- E in *. clear IH E. induction l as [|y l IH]; auto.
    cbn in *. apply NoDup_cons_iff in H2 as [H3 H4].
    destruct (f_id y =? f_id x) eqn:F; cbn; [lia|]. f_equal. apply IH; tauto.
  - now rewrite IH.
Qed.

Lemma del_NoDup : forall id l f, find_file id l = Some f -> NoDup (map f_id l) ->
  NoDup (map f_id (del_file id l)).
Proof.
  intros id l f Hf H. destruct (find_split _ _ _ Hf) as (a & b & El & _ & _ & _ & ->).
  rewrite El in H. rewrite map_app in *. cbn in H. now apply NoDup_remove_1 in H.
Qed.

(** The group after taking a file out, before a discard. *)
Lemma remove_completed_inv : forall f g, inv g -> find_file (f_id f) (g_files g) = Some f ->
  f_num f FActive = 0 -> (f_num f FRem = 0 \/ g_deleting g = true) ->
  inv (with_files (del_file (f_id f) (g_files g)) (with_done (f :: g_done g) (update_completed f g))).
Proof.
  intros f g H Hf Ha Hr. destruct (find_file_ok _ _ _ H Hf) as [Hok _].
  assert (L := iv_lost g H).
  assert (Hn := del_NoDup _ _ _ Hf (iv_ids g H)).
  destruct (find_split _ _ _ Hf) as (a & b & El & _ & _ & _ & Hdel).
  unfold update_completed. destruct H. constructor; gcbn; auto.
  - intros x Hx. unfold tracked in *. cbn in Hx. rewrite bump_delta, iv_st0 by exact Hx.
    unfold summary. rewrite Hdel, El, !total_app, !total_cons.
    enough (E : delta
     ([(Success, f_num f FSucc); (Failed, f_num f FFail); (FailArt, f_num f FFailArt);
       (SuccArt, f_num f FSuccArt); (Extra, - b2z (f_extra f))] ++
      (if f_par f then [(ParSuccess, f_num f FSucc); (ParFailed, f_num f FFail); (RemPar, -1)] else []) ++
      (if f_paused f then [(PausedCount, -1)] else [])) x = finished x f - queued x f) by lia.
    assert (Hz : f_num f FRem = 0 \/ (x <> Remaining /\ x <> PausedSize))
      by (destruct Hr; [now left|destruct Hx; [congruence|now right]]).
    clear - Hz Ha. revert Hz. rewrite !delta_app, !delta_if. unfold b2z.
    destruct x; cbn [delta fld_eqb fld_tag Nat.eqb queued finished]; unfold if_par;
      destruct (f_par f), (f_paused f), (f_extra f); intros [Hz|[Hz1 Hz2]]; try congruence; lia.
  - intro id. rewrite iv_cur_ok0. unfold srv_sum. rewrite Hdel, El, !total_app, !total_cons. lia.
  - intro id. rewrite iv_cur_bad0. unfold srv_sum. rewrite Hdel, El, !total_app, !total_cons. lia.
  - intro id. rewrite (proj1 (list_op_add _ _ _)), iv_srv_ok0. unfold srv_sum. rewrite total_cons. lia.
  - intro id. rewrite (proj2 (list_op_add _ _ _)), iv_srv_bad0. unfold srv_sum. rewrite total_cons. lia.
  - rewrite Hdel. rewrite El in iv_files0. apply Forall_app in iv_files0 as [F1 F2]. inversion F2; subst.
    apply Forall_app. auto.
Qed.

Lemma remove_deleted_inv : forall f g, inv g -> find_file (f_id f) (g_files g) = Some f ->
  f_num f FActive = 0 ->
  inv (with_files (del_file (f_id f) (g_files g)) (update_deleted f g)).
Proof.
  intros f g H Hf Ha. destruct (find_file_ok _ _ _ H Hf) as [Hok _].
  assert (L := iv_lost g H).
  assert (Hn := del_NoDup _ _ _ Hf (iv_ids g H)).
  destruct (find_split _ _ _ Hf) as (a & b & El & _ & _ & _ & Hdel).
  unfold update_deleted. destruct H. constructor; gcbn; auto.
  - intros x Hx. unfold tracked in *. cbn in Hx. rewrite bump_delta, iv_st0 by exact Hx.
    unfold summary. rewrite Hdel, El, !total_app, !total_cons.
    match goal with |- context [delta ?l x] => enough (E : delta l x = - queued x f) by lia end.
    clear - Ha. rewrite !delta_app, !delta_if. unfold b2z.
    destruct x; cbn [delta fld_eqb fld_tag Nat.eqb queued finished]; unfold if_par;
      destruct (f_par f), (f_paused f), (f_extra f); lia.
  - intro id. rewrite (proj1 (list_op_sub _ _ _)), iv_cur_ok0. unfold srv_sum.
    rewrite Hdel, El, !total_app, !total_cons. lia.
  - intro id. rewrite (proj2 (list_op_sub _ _ _)), iv_cur_bad0. unfold srv_sum.
    rewrite Hdel, El, !total_app, !total_cons. lia.
  - rewrite Hdel. rewrite El in iv_files0. apply Forall_app in iv_files0 as [F1 F2]. inversion F2; subst.
    apply Forall_app. auto.
Qed.

Lemma replace_same_inv : forall f f' g, inv g -> find_file (f_id f) (g_files g) = Some f ->
  f_id f' = f_id f -> f_srv f' = f_srv f -> file_ok f' ->
  (forall x, queued x f' = queued x f) -> inv (replace f' g).
Proof.
  intros f f' g H Hf Hid Hs Hok Hq. unfold replace, with_files.
  apply (inv_replace g f f'); auto.
  - now rewrite Hid.
  - intro x. rewrite Hq. lia.
  - intro id. rewrite Hs. lia.
  - intro id. rewrite Hs. lia.
  - apply (iv_lost g H).
Qed.

Lemma delete_file_info_inv : forall c f g, inv g -> find_file (f_id f) (g_files g) = Some f ->
  f_num f FActive = 0 -> (c = true -> f_num f FRem = 0 \/ g_deleting g = true) ->
  g_wiped (delete_file_info c f g) = [] -> inv (delete_file_info c f g).
Proof.
  intros c f g H Hf Ha Hc Hw. destruct (find_file_ok _ _ _ H Hf) as [Hok _].
  unfold delete_file_info in *.
  set (f1 := with_deleted true f) in *.
  set (g0 := replace f1 g) in *.
  assert (Hid : f_id f1 = f_id f) by reflexivity.
  assert (Ha1 : f_num f1 FActive = 0) by exact Ha.
  assert (Hr1 : f_num f1 FRem = f_num f FRem) by reflexivity.
  assert (H0 : inv g0).
  { apply (replace_same_inv f f1); auto. destruct Hok; constructor; auto. }
  assert (Hf1 : find_file (f_id f1) (g_files g0) = Some f1)
    by (apply (find_put_same _ _ f); auto).
  assert (Hd0 : g_deleting g0 = g_deleting g) by reflexivity.
  set (g1 := if c || g_deleting g then _ else _) in *.
  assert (Hg1 : inv (with_files (del_file (f_id f1) (g_files g1)) g1)).
  { unfold g1. destruct (c || g_deleting g) eqn:E.
    - change (g_files (with_done (f1 :: g_done g0) (update_completed f1 g0))) with (g_files g0).
      apply remove_completed_inv; auto. rewrite Hr1, Hd0.
      apply orb_prop in E as [E|E]; auto.
    - change (g_files (update_deleted f1 g0)) with (g_files g0).
      now apply remove_deleted_inv. }
  assert (Hfiles : g_files g1 = g_files g0) by (unfold g1; destruct (c || g_deleting g); reflexivity).
  clearbody g1.
  destruct (g_renaming g && negb (g_deleting g) && download_completed g1); auto.
  destruct (discardable f1) eqn:Ed; [cbn in Hw; discriminate|].
  assert (K : inv (with_files (del_file (f_id f1) (g_files (discard_direct_rename g1))) (discard_direct_rename g1))).
  { unfold discard_direct_rename. rewrite discard_loop_del.
    - rewrite filter_del by (rewrite Hfiles; apply (iv_ids g0 H0)).
      apply (discard_direct_rename_inv _ Hg1).
    - intros f2 Hin Heq. rewrite Hfiles in Hin.
      pose proof (find_in _ _ (iv_ids g0 H0) Hin) as K. rewrite Heq, Hf1 in K. inversion K; subst. exact Ed. }
  pose proof (iv_lost _ Hg1) as L1. cbn in L1.
  destruct K. constructor; auto.
Qed.

(** ** Ghost history variables only grow *)

Lemma discard_loop_ghost : forall l g,
  g_wiped (fold_left discard_one l g) = g_wiped g /\ g_lost (fold_left discard_one l g) = g_lost g /\
  g_deleting (fold_left discard_one l g) = g_deleting g.
Proof.
  induction l as [|f l IH]; intro g; cbn [fold_left]; auto.
  destruct (IH (discard_one g f)) as (-> & -> & ->).
  unfold discard_one. destruct (discardable f); auto.
Qed.

Lemma delete_file_info_ghost : forall c f g,
  g_lost (delete_file_info c f g) = g_lost g /\
  (g_wiped (delete_file_info c f g) = [] -> g_wiped g = []).
Proof.
  intros c f g. unfold delete_file_info.
  set (f1 := with_deleted true f). set (g0 := replace f1 g).
  set (g1 := if c || g_deleting g then _ else _).
  assert (E : g_lost g1 = g_lost g /\ g_wiped g1 = g_wiped g)
    by (unfold g1; destruct (c || g_deleting g); auto).
  clearbody g1. destruct E as [E1 E2].
  destruct (g_renaming g && negb (g_deleting g) && download_completed g1); gcbn.
  - split; auto. destruct (discardable f1); [discriminate|]. congruence.
  - split; auto. congruence.
Qed.

Lemma finish_ghost : forall c lost f g,
  g_lost g <= g_lost (finish_article c lost f g) /\
  (g_wiped (finish_article c lost f g) = [] -> g_wiped g = []).
Proof.
  intros c lost f g. unfold finish_article.
  destruct (f_num f FActive <=? 0); [split; [lia|auto]|].
  destruct (c && _); [split; [lia|auto]|].
  match goal with |- context [delete_file_info c ?a ?b] =>
    destruct (delete_file_info_ghost c a b) as [E1 E2]; set (gg := b) in * end.
  assert (E3 : g_lost g <= g_lost gg) by (unfold gg, replace; gcbn; destruct c; lia).
  assert (E4 : g_wiped gg = g_wiped g) by reflexivity.
  destruct (c || _).
  - split; [lia|]. intro K. rewrite <- E4. auto.
  - split; [lia|]. congruence.
Qed.

Lemma step_ghost : forall g o, g_lost g <= g_lost (step g o) /\
  (g_wiped (step g o) = [] -> g_wiped g = []).
Proof.
  intros g o. destruct o; cbn [step]; unfold on_file;
    try (destruct (find_file id (g_files g)) as [f|]; [|split; [lia|auto]]).
  - unfold set_paused. destruct (Bool.eqb (f_paused f) b); cbn; split; auto; lia.
  - unfold set_extra. destruct (Bool.eqb (f_extra f) b); cbn; split; auto; lia.
  - unfold start_article. destruct (nth_error (f_arts f) k) as [[n []]|]; cbn; split; auto; lia.
  - unfold article_done. destruct (nth_error (f_arts f) k) as [[n []]|]; try (split; auto; lia).
    destruct r; cbn [article_stats]; try (cbn; split; auto; lia).
    destruct newpar as [b|]; [|cbn; split; auto; lia].
    unfold change_par. destruct (Bool.eqb _ b); [cbn; split; auto; lia|].
    destruct (negb b && _); [|cbn; split; auto; lia].
    unfold set_paused. destruct (Bool.eqb _ false); cbn; split; auto; lia.
  - apply finish_ghost.
  - unfold delete_queue_entry. destruct (0 <? f_num f FActive); [cbn; split; auto; lia|].
    destruct (delete_file_info_ghost false (with_deleted true f) (replace (with_deleted true f) g)) as [E1 E2].
    split; [rewrite E1; cbn; lia|]. intro K. now apply E2 in K.
  - destruct (discard_loop_ghost (g_files g) g) as (E1 & E2 & _).
    unfold discard_direct_rename. rewrite E1, E2. split; auto. lia.
  - cbn. split; auto. lia.
  - cbn. split; auto. lia.
Qed.

Lemma run_ghost : forall l g, g_lost g <= g_lost (run g l) /\ (g_wiped (run g l) = [] -> g_wiped g = []).
Proof.
  induction l as [|o l IH]; intro g; cbn; [split; auto; lia|].
  destruct (IH (step g o)) as [E1 E2]. destruct (step_ghost g o) as [E3 E4].
  split; [unfold run in E1; lia|]. intro K. auto.
Qed.

(** ** Every operation keeps the invariant *)

Lemma finish_inv : forall c lost f g, inv g -> find_file (f_id f) (g_files g) = Some f ->
  g_wiped (finish_article c lost f g) = [] -> g_lost (finish_article c lost f g) = 0 ->
  inv (finish_article c lost f g).
Proof.
  intros c lost f g H Hf Hw Hl. destruct (find_file_ok _ _ _ H Hf) as [Hok _].
  assert (L := iv_lost g H).
  unfold finish_article in *.
  destruct (f_num f FActive <=? 0) eqn:E0; auto.
  destruct (c && negb _) eqn:E1; auto.
  set (f1 := if c then _ else f) in *.
  set (f2 := with_num (fbump [(FActive, -1)] (f_num f1)) f1) in *.
  set (g1 := replace f2 _) in *.
  assert (Hlost : c = true -> lost = 0).
  { intros ->. destruct (true || _); [rewrite (proj1 (delete_file_info_ghost _ _ _)) in Hl|];
      unfold g1, replace in Hl; cbn in Hl; lia. }
  assert (Hid : f_id f2 = f_id f) by (unfold f2, f1; destruct c; reflexivity).
  assert (Hq : forall x, queued x f2 = queued x f + (match x with Active => -1 | _ => 0 end)).
  { unfold f2, f1. destruct c; [rewrite (Hlost eq_refl)|]; intro x; destruct x;
      cbn [queued f_num f_paused f_par f_extra with_num fbump ffld_eqb]; unfold if_par; cbn [f_par with_num];
      try lia; destruct (f_par f); lia. }
  assert (Hok2 : file_ok f2).
  { unfold f2, f1. destruct c; [rewrite (Hlost eq_refl)|]; destruct Hok; constructor;
      cbn [f_num f_arts with_num fbump ffld_eqb]; lia. }
  assert (Hs : f_srv f2 = f_srv f) by (unfold f2, f1; destruct c; reflexivity).
  assert (H1 : inv g1).
  { unfold g1, replace. gcbn. apply (inv_replace g f f2); auto.
    - now rewrite Hid.
    - intro x. rewrite Hq, bump_delta. destruct x; cbn [delta fld_eqb fld_tag Nat.eqb]; lia.
    - intro id. rewrite Hs. lia.
    - intro id. rewrite Hs. lia.
    - destruct c; lia. }
  assert (Hf2 : find_file (f_id f2) (g_files g1) = Some f2)
    by (unfold g1, replace; gcbn; apply (find_put_same _ _ f); [now rewrite Hid|auto]).
  destruct (c || (f_deleted f1 && negb (1 <? f_num f1 FActive))) eqn:E2; auto.
  assert (Hact : f_num f1 FActive = f_num f FActive) by (unfold f1; destruct c; reflexivity).
  assert (Ha2 : f_num f2 FActive = f_num f1 FActive - 1) by reflexivity.
  apply delete_file_info_inv; auto.
  - destruct c.
    + cbn in E1. apply negb_false_iff, andb_prop in E1 as [E3 E4]. lia.
    + cbn in E2. apply andb_prop in E2 as [E3 E4]. lia.
  - intros ->. cbn in E1. apply negb_false_iff, andb_prop in E1 as [E3 E4].
    apply orb_prop in E4 as [E4|E4].
    + left. change (f_num f2 FRem) with (f_num f FRem).
      apply complete_no_rem; auto. lia.
    + right. unfold g1, replace. gcbn. now apply (iv_park g H).
Qed.

Lemma step_inv : forall g o, inv g -> g_wiped (step g o) = [] -> g_lost (step g o) = 0 -> inv (step g o).
Proof.
  intros g o H Hw Hl.
  assert (Hfind : forall id f, find_file id (g_files g) = Some f -> find_file (f_id f) (g_files g) = Some f).
  { intros id f Hf. destruct (find_file_ok _ _ _ H Hf) as [_ E]. now rewrite E. }
  destruct o; cbn [step] in *; unfold on_file in *;
    try (destruct (find_file id (g_files g)) as [f|] eqn:Hf; [apply Hfind in Hf|exact H]).
  - now apply set_paused_inv.
  - now apply set_extra_inv.
  - now apply start_article_inv.
  - now apply article_done_inv.
  - now apply finish_inv.
  - unfold delete_queue_entry in *. destruct (find_file_ok _ _ _ H Hf) as [Hok _].
    assert (Hr : inv (replace (with_deleted true f) g)).
    { apply (replace_same_inv f); auto. destruct Hok; constructor; auto. }
    destruct (0 <? f_num f FActive) eqn:E; auto.
    apply delete_file_info_inv; auto.
    + apply (find_put_same _ _ f); auto.
    + destruct Hok. cbn. lia.
    + discriminate.
  - now apply discard_direct_rename_inv.
  - destruct H. constructor; auto.
  - destruct H. constructor; auto. gcbn. intros x Hx. apply iv_st0.
    unfold tracked in *. cbn in Hx. destruct Hx as [Hx|Hx]; [discriminate|now right].
Qed.

Lemma run_inv : forall l g, inv g -> g_wiped (run g l) = [] -> g_lost (run g l) = 0 -> inv (run g l).
Proof.
  induction l as [|o l IH] using rev_ind; intros g H Hw Hl; auto.
  assert (E : run g (l ++ [o]) = step (run g l) o) by (unfold run; now rewrite fold_left_app).
  rewrite E in *. destruct (step_ghost (run g l) o) as [E1 E2].
  pose proof (run_ghost l g) as [E3 _]. pose proof (iv_lost g H) as E4.
  apply step_inv; auto. apply IH; auto. lia.
Qed.
