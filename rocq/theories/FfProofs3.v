(** Proofs about the reading of RSS-feeds: the items. *)
From Coq Require Import String.
From Verif Require Import Base NumFmt WildModel WildSpec TextProofs CodecModel WebModel WebProofs NzbModel NzbSpec NzbProofs Rfc822Model FfModel FfSpec FfProofs FfProofs2.
Open Scope list_scope. Open Scope Z_scope.

Lemma last_app_d {A} (a b : list A) d : last (a ++ b) d = last b (last a d).
Proof.
  revert d. induction a as [|x a IH]; intros d; [reflexivity|]. cbn [app].
  assert (L : forall (l : list A) y e, last (y :: l) e = last l y). { clear. induction l as [|z l IH]; intros y e; [reflexivity|]. change (last (y :: z :: l) e) with (last (z :: l) e). rewrite !IH. reflexivity. }
  rewrite !L. apply IH.
Qed.
Lemma last_opt_app a b : last_opt (a ++ b) = match last_opt b with Some x => Some x | None => last_opt a end.
Proof.
  unfold last_opt. rewrite map_app, last_app_d. generalize (last (map Some a) None). intros o.
  induction b as [|x b IH] using rev_ind; [destruct o; reflexivity|]. rewrite map_app, !last_app_d. reflexivity.
Qed.
Lemma last_some_d (l : list (list Z)) d : last (map Some l) d = match last_opt l with Some x => Some x | None => d end.
Proof.
  unfold last_opt. induction l as [|x l IH] using rev_ind; [reflexivity|]. rewrite map_app, !last_app_d. reflexivity.
Qed.
Definition filled (t : list Z) : bool := match t with [] => false | _ => true end.
Definition nonzero (z : Z) : bool := negb (z =? 0).
Definition first_z (l : list Z) : Z := match l with z :: _ => z | [] => 0 end.
Lemma texts_app n a b : texts n (a ++ b) = texts n a ++ texts n b.
Proof. apply flat_map_app. Qed.
Lemma enclosed_app n a b : enclosed n (a ++ b) = enclosed n a ++ enclosed n b.
Proof. apply flat_map_app. Qed.
Lemma attrs_app a b : attrs (a ++ b) = attrs a ++ attrs b.
Proof. apply flat_map_app. Qed.
Lemma vals_app n a b : vals n (a ++ b) = vals n a ++ vals n b.
Proof. unfold vals. rewrite attrs_app, filter_app, map_app. reflexivity. Qed.

(** What the elements make of an item already begun. *)
Record after (i : fi) (es : list elem) (r : fi) : Prop := {
  a_title : match last_opt (texts (str "title") es) with
            | Some t => f_title r = Some t /\ exists f, f_file r = Some f /\ subject t f
            | None => f_title r = f_title i /\ f_file r = f_file i
            end;
  a_cat : f_cat r = last (texts (str "category") es) (f_cat i);
  a_desc : match last_opt (texts (str "description") es) with Some t => stripped t (f_desc r) | None => f_desc r = f_desc i end;
  a_time : f_time r = last (filter (Z.ltb 0) (map parse_rfc822 (texts (str "pubDate") es))) (f_time i);
  a_url : match last_opt (enclosed (str "url") es) with
          | Some u => f_url r = Some u /\ u <> []
          | None => match f_url i with
                    | Some (_ :: _) => f_url r = f_url i
                    | _ => match filter filled (texts (str "link") es) with u :: _ => f_url r = Some u /\ u <> [] | [] => f_url r = f_url i \/ f_url r = Some [] end
                    end
          end;
  a_size : match last_opt (enclosed (str "length") es) with
           | Some v => f_size r = atoll v /\ atoll v <> 0
           | None => f_size r = if f_size i =? 0 then first_z (filter nonzero (map atoll (vals (str "size") es))) else f_size i
           end;
  a_imdb : f_imdb r = last (map atoi (vals (str "imdb") es)) (f_imdb i);
  a_rage : f_rage r = last (map atoi (vals (str "rageid") es)) (f_rage i);
  a_tvdb : f_tvdb r = last (map atoi (vals (str "tvdbid") es)) (f_tvdb i);
  a_tvmaze : f_tvmaze r = last (map atoi (vals (str "tvmazeid") es)) (f_tvmaze i);
  a_season : match last_opt (vals (str "season") es) with
             | Some v => f_season r = Some v /\ f_seasonnum r = prefixed_int v
             | None => f_season r = f_season i /\ f_seasonnum r = f_seasonnum i
             end;
  a_episode : match last_opt (vals (str "episode") es) with
              | Some v => f_episode r = Some v /\ f_episodenum r = prefixed_int v
              | None => f_episode r = f_episode i /\ f_episodenum r = f_episodenum i
              end;
  a_attrs : f_attrs r = f_attrs i ++ attrs es }.

Lemma after_nil i : after i [] i.
Proof.
  constructor; cbn; try reflexivity; try (split; reflexivity).
  - destruct (f_url i) as [[|x u]|]; auto.
  - destruct (f_size i =? 0) eqn:Q; [lia|reflexivity].
  - rewrite app_nil_r. reflexivity.
Qed.
Lemma filled_in l u r : filter filled l = u :: r -> u <> [].
Proof. intros H. assert (I : In u (filter filled l)) by (rewrite H; left; reflexivity). apply filter_In in I. destruct I as [_ I]. destruct u; [discriminate|discriminate]. Qed.
Lemma nonzero_in l u r : filter nonzero l = u :: r -> u <> 0.
Proof. intros H. assert (I : In u (filter nonzero l)) by (rewrite H; left; reflexivity). apply filter_In in I. destruct I as [_ I]. unfold nonzero in I. lia. Qed.
Lemma after_app i a j b r : after i a j -> after j b r -> after i (a ++ b) r.
Proof.
  intros A B. constructor; rewrite ?texts_app, ?enclosed_app, ?vals_app, ?attrs_app, ?last_opt_app, ?map_app, ?filter_app, ?last_app_d.
  - pose proof (a_title _ _ _ B) as X. destruct (last_opt (texts (str "title") b)); [exact X|]. destruct X as (-> & ->). exact (a_title _ _ _ A).
  - rewrite (a_cat _ _ _ B), (a_cat _ _ _ A). reflexivity.
  - pose proof (a_desc _ _ _ B) as X. destruct (last_opt (texts (str "description") b)); [exact X|]. rewrite X. exact (a_desc _ _ _ A).
  - rewrite (a_time _ _ _ B), (a_time _ _ _ A). reflexivity.
  - pose proof (a_url _ _ _ B) as X. pose proof (a_url _ _ _ A) as Y. destruct (last_opt (enclosed (str "url") b)); [exact X|].
    destruct (last_opt (enclosed (str "url") a)) as [u|].
    + destruct Y as (Y & U). rewrite Y in X. destruct u as [|x u]; [congruence|]. rewrite X. split; [reflexivity|exact U].
    + assert (G : match filter filled (texts (str "link") a) with u :: _ => f_url j = Some u /\ u <> [] | [] => f_url j = f_url i \/ f_url j = Some [] end ->
          match f_url i with Some (_ :: _) => False | _ => True end ->
          match filter filled (texts (str "link") a) ++ filter filled (texts (str "link") b) with u :: _ => f_url r = Some u /\ u <> [] | [] => f_url r = f_url i \/ f_url r = Some [] end).
      { intros K I. destruct (filter filled (texts (str "link") a)) as [|u l]; cbn [app].
        - destruct K as [K|K]; rewrite K in X.
          + destruct (f_url i) as [[|? ?]|]; try contradiction; exact X.
          + destruct (filter filled (texts (str "link") b)); [|exact X]. destruct X; right; assumption.
        - destruct K as (K & U). rewrite K in X. destruct u as [|x u]; [congruence|]. rewrite X. split; [reflexivity|exact U]. }
      destruct (f_url i) as [[|x u]|].
      * apply G; [exact Y|exact Logic.I].
      * rewrite Y in X. exact X.
      * apply G; [exact Y|exact Logic.I].
  - pose proof (a_size _ _ _ B) as X. pose proof (a_size _ _ _ A) as Y. destruct (last_opt (enclosed (str "length") b)); [exact X|].
    destruct (last_opt (enclosed (str "length") a)) as [v|].
    + destruct Y as (Y & V). rewrite Y in X. replace (atoll v =? 0) with false in X by lia. split; [exact X|exact V].
    + destruct (f_size i =? 0) eqn:Q.
      * destruct (filter nonzero (map atoll (vals (str "size") a))) as [|z l] eqn:F; cbn [app].
        -- cbn [first_z] in Y. rewrite Y in X. exact X.
        -- pose proof (nonzero_in _ _ _ F) as NZ. cbn [first_z] in Y |- *. rewrite Y in X. replace (z =? 0) with false in X by lia. exact X.
      * rewrite Y, Q in X. exact X.
  - rewrite (a_imdb _ _ _ B), (a_imdb _ _ _ A). reflexivity.
  - rewrite (a_rage _ _ _ B), (a_rage _ _ _ A). reflexivity.
  - rewrite (a_tvdb _ _ _ B), (a_tvdb _ _ _ A). reflexivity.
  - rewrite (a_tvmaze _ _ _ B), (a_tvmaze _ _ _ A). reflexivity.
  - pose proof (a_season _ _ _ B) as X. destruct (last_opt (vals (str "season") b)); [exact X|]. destruct X as (-> & ->). exact (a_season _ _ _ A).
  - pose proof (a_episode _ _ _ B) as X. destruct (last_opt (vals (str "episode") b)); [exact X|]. destruct X as (-> & ->). exact (a_episode _ _ _ A).
  - rewrite (a_attrs _ _ _ B), (a_attrs _ _ _ A), app_assoc. reflexivity.
Qed.
Lemma after_ext i es es' r : (forall n, texts n es = texts n es') -> (forall n, enclosed n es = enclosed n es') -> attrs es = attrs es' -> after i es r -> after i es' r.
Proof.
  intros H1 H2 H3 A. assert (H4 : forall n, vals n es = vals n es') by (intros n; unfold vals; rewrite H3; reflexivity).
  destruct A; constructor; rewrite <- ?H1, <- ?H2, <- ?H3, <- ?H4; assumption.
Qed.

(** Steps that change nothing an element of this kind does not mention. *)
Lemma texts_simple n m a cs t : texts n [Simple m a cs t] = if beqb n m then [t] else [].
Proof. unfold texts. cbn [flat_map]. rewrite app_nil_r. reflexivity. Qed.
Lemma enclosed_one n a cs : enclosed n [Enclosure a cs] = map snd (filter (fun p => beqb n (fst p)) a).
Proof. unfold enclosed. cbn [flat_map]. rewrite app_nil_r. reflexivity. Qed.
Ltac bools := repeat match goal with |- context [beqb (str ?x) (str ?y)] => let b := eval vm_compute in (beqb (str x) (str y)) in change (beqb (str x) (str y)) with b end; cbv iota.
Ltac proj := cbn [texts enclosed vals attrs flat_map app filter map snd fst last_opt last first_z f_title f_file f_url f_time f_size f_cat f_imdb f_rage f_tvdb f_tvmaze f_desc f_season f_episode f_seasonnum f_episodenum f_attrs set_title set_url set_cat set_desc set_time set_size set_ids set_season set_episode add_attr].
Ltac same i := constructor; rewrite ?texts_simple, ?enclosed_one; cbn [filter fst]; bools; proj; try reflexivity; try (split; reflexivity); try (rewrite app_nil_r; reflexivity);
  try (destruct (f_url i) as [[|? ?]|]; auto; fail); try (cbn [set_title set_url set_cat set_desc set_time f_size]; destruct (f_size i =? 0) eqn:?; [lia|reflexivity]).
Lemma last_opt_one t : last_opt [t] = Some t.
Proof. reflexivity. Qed.
Lemma step_after e i : elem_ok e -> exists j, elem_step i e = Some j /\ after i [e] j.
Proof.
  destruct e as [n a cs t|a cs|name n v more cs|e]; cbn [elem_ok elem_step].
  - intros (N & _ & T & D). destruct (simple_inv n N) as [->|[->|[->|[->| ->]]]].
    + destruct (subject_ok t (T eq_refl)) as (f & P & S1). change (beqb (str "title") (str "title")) with true. cbv iota. rewrite P. eexists. split; [reflexivity|].
      same i. split; [reflexivity|]. exists f. split; [reflexivity|exact S1].
    + change (beqb (str "title") (str "link")) with false. change (beqb (str "link") (str "link")) with true. cbv iota. eexists. split; [reflexivity|].
      destruct (f_url i) as [[|x u]|] eqn:U; same i; rewrite ?U; try reflexivity; try (destruct t; cbn [filled]; [right; reflexivity|split; [reflexivity|discriminate]]).
    + eexists. split; [reflexivity|]. same i.
    + change (beqb (str "title") (str "description")) with false. change (beqb (str "link") (str "description")) with false.
      change (beqb (str "category") (str "description")) with false. change (beqb (str "description") (str "description")) with true. cbv iota.
      destruct (D eq_refl) as (D1 & D2). destruct (description_ok t D1 D2) as (d & -> & S1). eexists. split; [reflexivity|]. same i.
    + eexists. split; [reflexivity|]. change (beqb (str "title") (str "pubDate")) with false. change (beqb (str "link") (str "pubDate")) with false.
      change (beqb (str "category") (str "pubDate")) with false. change (beqb (str "description") (str "pubDate")) with false. cbv iota.
      destruct (0 <? parse_rfc822 t) eqn:P; same i; rewrite P; reflexivity.
  - intros F. revert i. induction F as [|[n v] a (P1 & P2) F IH]; intros i; cbn [enclosure].
    + exists i. split; [reflexivity|]. same i.
    + cbn [fst snd] in P1, P2.
      assert (X : exists j, enclosure ((n, v) :: a) i = enclosure a j /\ after i [Enclosure [(n, v)] cs] j).
      { cbn [enclosure]. destruct (beqb (str "url") n) eqn:B1.
        - apply beqb_eq in B1. subst n. destruct (P1 eq_refl) as (V & U). unfold xml_decode. rewrite (url_ok _ v U) by lia. exists (set_url v i). split; [reflexivity|]. same i.
        - destruct (beqb (str "length") n) eqn:B2.
          + apply beqb_eq in B2. subst n. exists (set_size (atoll v) i). split; [reflexivity|]. same i.
          + exists i. split; [reflexivity|]. same i; cbn [fst]; rewrite ?B1, ?B2; cbn [map last_opt last]; try (destruct (f_url i) as [[|? ?]|]; auto; fail); destruct (f_size i =? 0) eqn:?; [lia|reflexivity]. }
      destruct X as (j & X1 & X2). destruct (IH j) as (r & R1 & R2). exists r. split; [cbn [enclosure] in X1; rewrite X1; exact R1|].
      apply (after_ext i ([Enclosure [(n, v)] cs] ++ [Enclosure a cs])); [reflexivity| |reflexivity|exact (after_app _ _ _ _ _ X2 R2)].
      intros m. unfold enclosed. cbn [app flat_map]. rewrite !app_nil_r. cbn [filter fst]. destruct (beqb m n); reflexivity.
  - intros _. eexists. split; [reflexivity|]. unfold attribute. cbv zeta. cbn [f_size add_attr].
    assert (SZ : forall m, vals m [Attr name n v more cs] = if beqb m n then [v] else []).
    { intros m. unfold vals, attrs. cbn [flat_map app filter fst]. destruct (beqb m n); reflexivity. }
    destruct (beqb (str "size") n) eqn:B0.
    { apply beqb_eq in B0. subst n. rewrite andb_true_r. destruct (f_size i =? 0) eqn:Q; constructor; rewrite ?SZ; bools; proj; try reflexivity; try (split; reflexivity); try (destruct (f_url i) as [[|? ?]|]; auto; fail).
      - rewrite Q. unfold nonzero. destruct (atoll v =? 0) eqn:AV; cbn [negb first_z]; lia.
      - rewrite Q. reflexivity. }
    rewrite andb_false_r.
    assert (NS : filter nonzero (map atoll (vals (str "size") [Attr name n v more cs])) = []) by (rewrite SZ, B0; reflexivity).
    assert (NZ : f_size i = if f_size i =? 0 then 0 else f_size i) by (destruct (f_size i =? 0) eqn:Q; lia).
    destruct (beqb (str "imdb") n) eqn:B1.
    { apply beqb_eq in B1. subst n. constructor; rewrite ?NS, ?SZ; bools; proj; try reflexivity; try (split; reflexivity); try (destruct (f_url i) as [[|? ?]|]; auto; fail); exact NZ. }
    destruct (beqb (str "rageid") n) eqn:B2.
    { apply beqb_eq in B2. subst n. constructor; rewrite ?NS, ?SZ; bools; proj; try reflexivity; try (split; reflexivity); try (destruct (f_url i) as [[|? ?]|]; auto; fail); exact NZ. }
    destruct (beqb (str "tvdbid") n) eqn:B3.
    { apply beqb_eq in B3. subst n. constructor; rewrite ?NS, ?SZ; bools; proj; try reflexivity; try (split; reflexivity); try (destruct (f_url i) as [[|? ?]|]; auto; fail); exact NZ. }
    destruct (beqb (str "tvmazeid") n) eqn:B4.
    { apply beqb_eq in B4. subst n. constructor; rewrite ?NS, ?SZ; bools; proj; try reflexivity; try (split; reflexivity); try (destruct (f_url i) as [[|? ?]|]; auto; fail); exact NZ. }
    destruct (beqb (str "episode") n) eqn:B5.
    { apply beqb_eq in B5. subst n. constructor; rewrite ?NS, ?SZ; bools; proj; try reflexivity; try (split; reflexivity); try (destruct (f_url i) as [[|? ?]|]; auto; fail); exact NZ. }
    destruct (beqb (str "season") n) eqn:B6.
    { apply beqb_eq in B6. subst n. constructor; rewrite ?NS, ?SZ; bools; proj; try reflexivity; try (split; reflexivity); try (destruct (f_url i) as [[|? ?]|]; auto; fail); exact NZ. }
    constructor; rewrite ?NS, ?SZ, ?B1, ?B2, ?B3, ?B4, ?B5, ?B6; proj; try reflexivity; try (split; reflexivity); try (destruct (f_url i) as [[|? ?]|]; auto; fail); exact NZ.
  - intros _. exists i. split; [reflexivity|]. same i.
Qed.
Lemma elems_after es : Forall elem_ok es -> forall i, exists r, elems_step i es = Some r /\ after i es r.
Proof.
  induction 1 as [|e es O _ IH]; intros i; [exists i; split; [reflexivity|apply after_nil]|]. cbn [elems_step]. destruct (step_after e i O) as (j & -> & A). destruct (IH j) as (r & -> & B).
  exists r. split; [reflexivity|]. exact (after_app i [e] j es r A B).
Qed.

(** ** Items *)
Lemma number_ok v n : 0 <= n < 2 ^ 31 -> number_in v n -> prefixed_int v = n.
Proof.
  intros R H.
  assert (A : atoi (zdec n) = n). { unfold atoi. rewrite atoll_zdec'. unfold to_i32. rewrite Z.mod_small by lia. lia. }
  destruct H as [->|(c & C & ->)]; cbn [prefixed_int].
  - assert (D : forall x r, zdec n = x :: r -> is_digit x = true).
    { intros x r Q. assert (F : Forall (fun d => is_digit d = true) (zdec n)).
      { unfold zdec. replace (n <? 0) with false by lia. apply udec_digits; lia. }
      rewrite Q in F. inversion F; assumption. }
    destruct (zdec n) as [|x r] eqn:Q; [exact A|]. cbn [prefixed_int]. rewrite (D x r eq_refl). exact A.
  - rewrite C. exact A.
Qed.
Lemma after_item es r : after fi0 es r -> item_is es r.
Proof.
  intros A. constructor.
  - pose proof (a_title _ _ _ A) as X. destruct (last_opt _); destruct X as (X & _); exact X.
  - pose proof (a_title _ _ _ A) as X. destruct (last_opt _); destruct X as (X & Y); rewrite X; exact Y.
  - exact (a_cat _ _ _ A).
  - exact (a_desc _ _ _ A).
  - exact (a_time _ _ _ A).
  - pose proof (a_url _ _ _ A) as X. destruct (last_opt _); [exact (proj1 X)|]. cbn [f_url fi0] in X.
    change (fun t : list Z => match t with [] => false | _ => true end) with filled. destruct (filter filled _); [exact X|exact (proj1 X)].
  - pose proof (a_size _ _ _ A) as X. destruct (last_opt _); [exact (proj1 X)|exact X].
  - exact (a_imdb _ _ _ A).
  - exact (a_rage _ _ _ A).
  - exact (a_tvdb _ _ _ A).
  - exact (a_tvmaze _ _ _ A).
  - pose proof (a_season _ _ _ A) as X. destruct (last_opt _); exact (proj1 X).
  - pose proof (a_episode _ _ _ A) as X. destruct (last_opt _); exact (proj1 X).
  - intros v n H R N. pose proof (a_season _ _ _ A) as X. destruct (last_opt _) as [w|]; destruct X as (X & Y); rewrite X in H; [|discriminate]. injection H as ->. rewrite Y. exact (number_ok v n R N).
  - intros v n H R N. pose proof (a_episode _ _ _ A) as X. destruct (last_opt _) as [w|]; destruct X as (X & Y); rewrite X in H; [|discriminate]. injection H as ->. rewrite Y. exact (number_ok v n R N).
  - exact (a_attrs _ _ _ A).
Qed.
Lemma head_run h : Forall no_item h -> forall t r, exists t', ff_run (FS [] None t) (h ++ r) = ff_run (FS [] None t') r.
Proof.
  induction 1 as [|e h N _ IH]; intros t r; [exists t; reflexivity|]. cbn [app ff_run].
  assert (X : exists t1, ff_step (FS [] None t) e = Some (FS [] None t1)).
  { destruct e as [n a|n|x]; cbn [ff_step].
    - unfold ff_start. destruct (beqb (str "item") n) eqn:Q; [apply beqb_eq in Q; subst n; exfalso; exact (N a eq_refl)|]. exists None. reflexivity.
    - exists t. reflexivity.
    - unfold ff_text. destruct (WildModel.trim x); eexists; reflexivity. }
  destruct X as (t1 & ->). apply IH.
Qed.
Lemma entries_run l : Forall entry_ok l -> forall s, exists s' rs, ff_run s (flat_map entry_evs l) = Some s' /\ items s' = items s ++ rs /\ Forall2 (fun x r => item_is (e_elems x) r) l rs.
Proof.
  induction 1 as [|x l (O1 & O2) _ IH]; intros s; [exists s, []; split; [reflexivity|]; split; [rewrite app_nil_r; reflexivity|constructor]|].
  cbn [flat_map]. unfold entry_evs at 1. rewrite <- app_comm_cons, <- app_assoc. cbn [ff_run ff_step]. unfold ff_start. change (beqb (str "item") (str "item")) with true. cbv iota.
  destruct (elems_after _ O1 fi0) as (r & E1 & A). destruct (elems_run _ O1 (items s) fi0 None ((EEnd (str "item") :: e_after x) ++ flat_map entry_evs l)) as (t1 & ->). rewrite E1.
  rewrite <- app_comm_cons. cbn [ff_run ff_step]. unfold ff_end. cbn [s_cur]. change (beqb (str "title") (str "item")) with false. change (beqb (str "link") (str "item")) with false. change (beqb (str "category") (str "item")) with false.
  change (beqb (str "description") (str "item")) with false. change (beqb (str "pubDate") (str "item")) with false. cbv iota.
  destruct (others_run _ O2 (items s) (Some r) t1 (flat_map entry_evs l)) as (t2 & ->).
  destruct (IH (FS (items s) (Some r) t2)) as (s' & rs & R1 & R2 & R3). exists s', (r :: rs). split; [exact R1|]. split.
  - rewrite R2. unfold items at 1. cbn [s_done s_cur]. rewrite <- app_assoc. reflexivity.
  - constructor; [apply after_item, A|exact R3].
Qed.
Lemma feed_items h l : Forall no_item h -> Forall entry_ok l -> exists rs, parse_feed (h ++ flat_map entry_evs l) = Some rs /\ Forall2 (fun x r => item_is (e_elems x) r) l rs.
Proof.
  intros H1 H2. unfold parse_feed, fs0. destruct (head_run h H1 None (flat_map entry_evs l)) as (t & ->). destruct (entries_run l H2 (FS [] None t)) as (s' & rs & -> & R2 & R3).
  exists rs. split; [rewrite R2; reflexivity|exact R3].
Qed.

(** ** The number of items *)
Lemma step_items s e s' : ff_step s e = Some s' -> length (items s') = (length (items s) + match e with EStart n _ => if beqb (str "item") n then 1 else 0 | _ => 0 end)%nat.
Proof.
  assert (L1 : forall d i t, length (items (FS d (Some i) t)) = S (length d)) by (intros; unfold items; cbn [s_done s_cur]; rewrite app_length; cbn [length]; lia).
  destruct e as [n a|n|x]; cbn [ff_step].
  - unfold ff_start. destruct (beqb (str "item") n); [intros H; injection H as <-; rewrite L1; lia|].
    destruct s as [d [i|] t]; cbn [s_cur s_done].
    + assert (G : forall o : option fst_, o = Some s' -> (forall y, o = Some y -> exists i' t', y = FS d (Some i') t') -> length (items s') = (length (items (FS d (Some i) t)) + 0)%nat).
      { intros o H K. destruct (K s' H) as (i' & t' & ->). rewrite !L1. lia. }
      intros H. apply (G _ H). clear G H. intros y.
      destruct (beqb (str "enclosure") n); [destruct a as [a|]; [destruct (enclosure a i)|]; intros Y; inversion Y; eauto|].
      destruct (_ || _); [destruct a as [[|[n1 v1] [|[n2 v2] a]]|]; try destruct (_ && _); intros Y; inversion Y; eauto|]. intros Y; inversion Y; eauto.
    + intros H. injection H as <-. unfold items. cbn [s_done s_cur]. lia.
  - unfold ff_end. destruct s as [d [i|] t]; cbn [s_cur s_done s_text].
    + assert (G : forall o : option fst_, o = Some s' -> (forall y, o = Some y -> exists i' t', y = FS d (Some i') t') -> length (items s') = (length (items (FS d (Some i) t)) + 0)%nat).
      { intros o H K. destruct (K s' H) as (i' & t' & ->). rewrite !L1. lia. }
      intros H. apply (G _ H). clear G H. intros y.
      destruct (beqb (str "title") n); [destruct (parse_subject _); intros Y; inversion Y; eauto|].
      destruct (beqb (str "link") n); [destruct (f_url i) as [[|? ?]|]; intros Y; inversion Y; eauto|].
      destruct (beqb (str "category") n); [intros Y; inversion Y; eauto|].
      destruct (beqb (str "description") n); [destruct (description t); intros Y; inversion Y; eauto|].
      destruct (beqb (str "pubDate") n); intros Y; inversion Y; eauto.
    + intros H. injection H as <-. lia.
  - intros H. injection H as <-. unfold ff_text. destruct (WildModel.trim x); unfold items; cbn [s_done s_cur]; lia.
Qed.
Lemma run_items l : forall s s', ff_run s l = Some s' -> length (items s') = (length (items s) + items_in l)%nat.
Proof.
  induction l as [|e l IH]; intros s s' H; cbn [ff_run] in H; [injection H as <-; cbn; lia|]. destruct (ff_step s e) as [s1|] eqn:Q; [|discriminate].
  rewrite (IH s1 s' H), (step_items s e s1 Q). unfold items_in. cbn [filter]. destruct e as [n a|n|x]; [destruct (beqb (str "item") n)| |]; cbn [length]; lia.
Qed.
Lemma feed_count l rs : parse_feed l = Some rs -> length rs = items_in l.
Proof. unfold parse_feed. destruct (ff_run fs0 l) as [s|] eqn:Q; [|discriminate]. intros H. injection H as <-. rewrite (run_items l fs0 s Q). reflexivity. Qed.
