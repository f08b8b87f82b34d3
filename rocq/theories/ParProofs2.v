(** Requests for par2-files. *)
From Coq Require Import String Permutation.
From Verif Require Import Base WildModel NameModel ParModel ParSpec.
From Verif Require MoveModel MoveSpec SortProofs.
Open Scope list_scope. Open Scope Z_scope.

Lemma has_id i l : existsb (Z.eqb i) l = true <-> In i l.
Proof. rewrite existsb_exists. split; [intros (x & I & E); apply Z.eqb_eq in E; subst; exact I|intros I; exists i; split; [exact I|apply Z.eqb_refl]]. Qed.
Lemma has_not i l : existsb (Z.eqb i) l = false <-> ~ In i l.
Proof. rewrite <- has_id. destruct (existsb _ l); split; congruence. Qed.

Lemma total_app a b : total (a ++ b) = total a + total b.
Proof. induction a as [|x a IH]; cbn [app total fold_right]; [reflexivity|]. unfold total in IH. rewrite IH. unfold total. lia. Qed.
Lemma total_perm a b : Permutation a b -> total a = total b.
Proof. induction 1; unfold total in *; cbn [fold_right]; lia. Qed.
Lemma total_rev a : total (rev a) = total a.
Proof. apply total_perm. symmetry. apply Permutation_rev. Qed.

(** ** The files found *)
Lemma found_in p m s e files : forall have f n, In (f, n) (find_pars p m s e have files) ->
  In f files /\ n = blocks_of f /\ 0 < n /\ use_file p m s e f = true /\ ~ In (f_id f) have.
Proof.
  induction files as [|g r IH]; intros have f n; cbn [find_pars]; [intros []|].
  destruct (parse_par (f_name g) (f_conf g)) as [[k c]|] eqn:P.
  - destruct ((0 <? c) && use_file p m s e g && negb (existsb (Z.eqb (f_id g)) have)) eqn:C.
    + apply andb_true_iff in C as [C C3]. apply andb_true_iff in C as [C1 C2]. apply negb_true_iff in C3. apply has_not in C3.
      intros [X | X].
      * injection X as <- <-. split; [left; reflexivity|]. split; [unfold blocks_of; rewrite P; lia|]. split; [lia|]. split; assumption.
      * destruct (IH _ _ _ X) as (A & B & D & E & F). split; [right; exact A|]. split; [exact B|]. split; [exact D|]. split; [exact E|]. intros I. apply F. right. exact I.
    + intros X. destruct (IH _ _ _ X) as (A & B). split; [right; exact A|exact B].
  - intros X. destruct (IH _ _ _ X) as (A & B). split; [right; exact A|exact B].
Qed.

Lemma found_all p m s e files : NoDup (map f_id files) -> forall have f, In f files -> 0 < blocks_of f -> use_file p m s e f = true -> ~ In (f_id f) have ->
  In (f, blocks_of f) (find_pars p m s e have files).
Proof.
  induction files as [|g r IH]; intros ND have f I B U N; [destruct I|]. cbn [map] in ND. inversion_clear ND as [|? ? N1 ND']. cbn [find_pars].
  destruct I as [-> | I].
  - unfold blocks_of in *. destruct (parse_par (f_name f) (f_conf f)) as [[k c]|] eqn:P; [|lia].
    replace ((0 <? c) && use_file p m s e f && negb (existsb (Z.eqb (f_id f)) have)) with true; [left; f_equal; lia|].
    symmetry. apply andb_true_iff. split; [apply andb_true_iff; split; [lia|exact U]|]. apply negb_true_iff. apply has_not. exact N.
  - destruct (parse_par (f_name g) (f_conf g)) as [[k c]|]; [|exact (IH ND' have f I B U N)].
    destruct ((0 <? c) && use_file p m s e g && negb (existsb (Z.eqb (f_id g)) have)); [|exact (IH ND' have f I B U N)].
    right. apply IH; try assumption. intros [E | E]; [|exact (N E)]. apply N1. rewrite E. apply in_map. exact I.
Qed.

Lemma found_nodup p m s e files : NoDup (map f_id files) -> forall have, NoDup (ids (find_pars p m s e have files)).
Proof.
  induction files as [|g r IH]; intros ND have; cbn [find_pars]; [constructor|]. cbn [map] in ND. inversion_clear ND as [|? ? N1 ND'].
  destruct (parse_par (f_name g) (f_conf g)) as [[k c]|]; [|apply IH; exact ND'].
  destruct ((0 <? c) && use_file p m s e g && negb (existsb (Z.eqb (f_id g)) have)); [|apply IH; exact ND'].
  cbn [ids map fst]. constructor; [|apply IH; exact ND']. intros I. apply in_map_iff in I as ([f n] & E & I).
  apply found_in in I as (I & _). apply N1. cbn [fst] in E. rewrite <- E. apply in_map. exact I.
Qed.

Lemma ids_app a b : ids (a ++ b) = ids a ++ ids b.
Proof. unfold ids. apply map_app. Qed.
Lemma nodup_app (a b : list Z) : NoDup a -> NoDup b -> (forall x, In x a -> In x b -> False) -> NoDup (a ++ b).
Proof.
  intros A B D. induction A as [|x a N A IH]; [exact B|]. cbn [app]. constructor.
  - intros I. apply in_app_or in I as [I | I]; [exact (N I)|exact (D x (or_introl eq_refl) I)].
  - apply IH. intros y I J. exact (D y (or_intror I) J).
Qed.

Definition sane (files : list pfile) (l : list block) : Prop :=
  (forall f n, In (f, n) l -> In f files /\ n = blocks_of f /\ 0 < n) /\ NoDup (ids l).
Lemma sane_more p m s e files l : NoDup (map f_id files) -> sane files l -> sane files (l ++ find_pars p m s e (ids l) files).
Proof.
  intros ND [A B]. split.
  - intros f n I. apply in_app_or in I as [I | I]; [exact (A _ _ I)|]. apply found_in in I as (X & Y & Z0 & _). split; [exact X|split; [exact Y|exact Z0]].
  - rewrite ids_app. apply nodup_app; [exact B|apply found_nodup; exact ND|]. intros x I J.
    apply in_map_iff in J as ([f n] & <- & J). apply found_in in J as (_ & _ & _ & _ & N). exact (N I).
Qed.
Lemma sane_first p m s e files : NoDup (map f_id files) -> sane files (find_pars p m s e [] files).
Proof. intros ND. apply (sane_more p m s e files [] ND). split; [intros f n []|constructor]. Qed.

Lemma available_sane p n files : NoDup (map f_id files) -> sane files (available p n files).
Proof.
  intros ND. unfold available. destruct (parse_par (base_name p) true) as [[k c]|]; [|split; [intros f x []|constructor]]. cbv zeta.
  assert (S1 := sane_first p (map lower (bset (base_name p) k)) true true files ND).
  destruct (total _ <? n); [|exact S1]. assert (S2 := sane_more p (map lower (bset (base_name p) k)) true false _ _ ND S1).
  destruct (total _ <? n); [|exact S2]. exact (sane_more _ _ _ _ _ _ ND S2).
Qed.

Lemma id_inj files f g : NoDup (map f_id files) -> In f files -> In g files -> f_id f = f_id g -> f = g.
Proof.
  intros ND. induction files as [|x r IH]; intros I J E; [destruct I|]. cbn [map] in ND. inversion_clear ND as [|? ? N1 ND'].
  destruct I as [-> | I]; destruct J as [-> | J]; try reflexivity.
  - exfalso. apply N1. rewrite E. apply in_map. exact J.
  - exfalso. apply N1. rewrite <- E. apply in_map. exact I.
  - exact (IH ND' I J E).
Qed.

Lemma total_all files l : NoDup (map f_id files) -> sane files l -> (forall f, In f files -> 0 < blocks_of f -> In (f, blocks_of f) l) -> total l = all_blocks files.
Proof.
  intros ND [A B] C.
  assert (P : Permutation l (map (fun f => (f, blocks_of f)) (filter (fun f => 0 <? blocks_of f) files))).
  { apply NoDup_Permutation.
    - apply NoDup_map_inv with (f := fun b : block => f_id (fst b)). exact B.
    - apply NoDup_map_inv with (f := fun b : block => f_id (fst b)). rewrite map_map. cbn [fst]. clear - ND.
      induction files as [|f r IH]; [constructor|]. cbn [map] in ND. inversion_clear ND as [|? ? N1 ND']. cbn [filter].
      destruct (0 <? blocks_of f); [|exact (IH ND')]. cbn [map]. constructor; [|exact (IH ND')]. intros I. apply N1.
      apply in_map_iff in I as (g & E & I). apply filter_In in I as [I _]. cbn in E. rewrite <- E. apply in_map. exact I.
    - intros [f n]. split; intros I.
      + destruct (A _ _ I) as (X & Y & Z0). apply in_map_iff. exists f. split; [congruence|]. apply filter_In. split; [exact X|lia].
      + apply in_map_iff in I as (g & E & I). injection E as <- <-. apply filter_In in I as [I J]. apply C; [exact I|lia]. }
  rewrite (total_perm _ _ P). clear. induction files as [|f r IH]; [reflexivity|]. cbn [filter all_blocks fold_right]. fold (all_blocks r).
  assert (H : 0 <= blocks_of f) by (unfold blocks_of; destruct (parse_par _ _) as [[? ?]|]; lia).
  destruct (0 <? blocks_of f) eqn:E; [cbn [map total fold_right snd]; fold (total (map (fun f => (f, blocks_of f)) (filter (fun f => 0 <? blocks_of f) r))); lia|lia].
Qed.

Lemma available_all p n files : NoDup (map f_id files) -> parse_par (base_name p) true <> None -> total (available p n files) < n ->
  total (available p n files) = all_blocks files.
Proof.
  intros ND P T. apply total_all; [exact ND|apply available_sane; exact ND|]. revert T. unfold available.
  destruct (parse_par (base_name p) true) as [[k c]|]; [|congruence]. cbv zeta. clear P.
  set (m := map lower _). destruct (total (find_pars p m true true [] files) <? n) eqn:T1; [|lia].
  set (l2 := find_pars p m true true [] files ++ _). destruct (total l2 <? n) eqn:T2; [|lia]. intros _ f I B.
  assert (S2 : sane files l2) by (apply sane_more; [exact ND|apply sane_first; exact ND]).
  apply in_or_app. destruct (existsb (Z.eqb (f_id f)) (ids l2)) eqn:E.
  - left. apply has_id in E. apply in_map_iff in E as ([g x] & E & J). destruct S2 as [A _]. destruct (A _ _ J) as (X & Y & _). cbn [fst] in E.
    rewrite <- (id_inj files g f ND X I E). rewrite <- Y. exact J.
  - right. apply has_not in E. apply found_all; try assumption. reflexivity.
Qed.

Lemma total_own p files : forall m f, total (find_pars p m true true [] files) = total (find_pars p f true true [] files).
Proof. intros m f. f_equal. generalize ([] : list Z). induction files as [|g r IH]; intros have; [reflexivity|]. cbn [find_pars]. rewrite !IH. reflexivity. Qed.

Lemma available_own p n files : NoDup (map f_id files) -> parse_par (base_name p) true <> None ->
  n <= all_blocks (filter (own p) files) -> forall f x, In (f, x) (available p n files) -> own p f = true.
Proof.
  intros ND P T. unfold available. destruct (parse_par (base_name p) true) as [[k c]|]; [|congruence]. cbv zeta. clear P.
  set (m := map lower _). assert (E : total (find_pars p m true true [] files) = all_blocks (filter (own p) files)).
  { apply total_all.
    - clear - ND. induction files as [|f r IH]; [constructor|]. cbn [map] in ND. inversion_clear ND as [|? ? N1 ND']. cbn [filter].
      destruct (own p f); [|exact (IH ND')]. cbn [map]. constructor; [|exact (IH ND')]. intros I. apply N1.
      apply in_map_iff in I as (g & E & I). apply filter_In in I as [I _]. rewrite <- E. apply in_map. exact I.
    - split; [|apply found_nodup; exact ND]. intros f x I. apply found_in in I as (A & B & C & D & _). split; [apply filter_In; split; [exact A|exact D]|]. split; [exact B|exact C].
    - intros f I B. apply filter_In in I as [I O]. apply found_all; try assumption. intros []. }
  intros f x. destruct (total (find_pars p m true true [] files) <? n) eqn:T1; [lia|]. intros I. apply found_in in I as (_ & _ & _ & D & _). exact D.
Qed.

Lemma available_has p n files : NoDup (map f_id files) -> parse_par (base_name p) true <> None ->
  forall f, In f files -> own p f = true -> 0 < blocks_of f -> In (f, blocks_of f) (available p n files).
Proof.
  intros ND P f I O B. unfold available. destruct (parse_par (base_name p) true) as [[k c]|]; [|congruence]. cbv zeta. clear P. set (m := map lower _).
  assert (X : In (f, blocks_of f) (find_pars p m true true [] files)) by (apply found_all; try assumption; intros []).
  destruct (total _ <? n); [|exact X]. destruct (total _ <? n); repeat (apply in_or_app; left); exact X.
Qed.

(** ** The choice *)
Lemma collect_ok l : forall n acc s n', collect n l acc = (s, n') -> exists t r, l = t ++ r /\ s = rev t ++ acc /\ n' = n - total t /\ (n' <= 0 \/ r = []).
Proof.
  induction l as [|b l IH]; intros n acc s n' H; cbn [collect] in H.
  - injection H as <- <-. exists [], []. split; [reflexivity|]. split; [reflexivity|]. split; [cbn; lia|right; reflexivity].
  - destruct (0 <? n) eqn:C.
    + apply IH in H as (t & r & -> & -> & -> & E). exists (b :: t), r. split; [reflexivity|]. split; [cbn [rev]; rewrite <- app_assoc; reflexivity|].
      cbn [total fold_right]. fold (total t). split; [lia|]. destruct E; [left; lia|right; assumption].
    + injection H as <- <-. exists [], (b :: l). split; [reflexivity|]. split; [reflexivity|]. split; [cbn; lia|left; lia].
Qed.
Lemma discard_ok l : forall n k n', discard n l = (k, n') -> Forall (fun b => 0 < snd b) l -> n <= 0 ->
  n' = n + total l - total k /\ n <= n' <= 0 /\ Forall (fun b => 0 < n' + snd b) k /\ (forall b, In b k -> In b l) /\ (NoDup (ids l) -> NoDup (ids k)).
Proof.
  induction l as [|b l IH]; intros n k n' H F N; cbn [discard] in H.
  - injection H as <- <-. cbn. repeat split; try lia; try constructor.
  - inversion_clear F as [|? ? B F']. destruct (n + snd b <=? 0) eqn:C.
    + apply IH in H as (E & G & A & I & D); [|exact F'|lia]. cbn [total fold_right]. fold (total l). repeat split; try lia; [exact A|intros x X; right; exact (I x X)|].
      cbn [ids map]. intros Y. inversion_clear Y. auto.
    + destruct (discard n l) as [k1 n1] eqn:R. injection H as <- <-. apply IH in R as (E & G & A & I & D); [|exact F'|exact N].
      cbn [total fold_right]. fold (total l) (total k1). repeat split; try lia.
      * constructor; [lia|exact A].
      * intros x [-> | X]; [left; reflexivity|right; exact (I x X)].
      * cbn [ids map]. intros Y. inversion_clear Y as [|? ? Y1 Y2]. constructor; [|exact (D Y2)]. intros J. apply Y1.
        apply in_map_iff in J as (x & <- & J). change (In (f_id (fst x)) (ids l)). apply (in_map (fun b : block => f_id (fst b))). exact (I _ J).
Qed.

Definition sum_of (sel : list pfile) : Z := fold_right (fun f s => blocks_of f + s) 0 sel.
Lemma sum_sane files l : sane files l -> total l = all_blocks (map fst l).
Proof.
  intros [A _]. induction l as [|[f n] l IH]; [reflexivity|]. cbn [map fst all_blocks total fold_right snd].
  rewrite <- (proj1 (proj2 (A f n (or_introl eq_refl)))). unfold total, all_blocks in IH. rewrite IH; [reflexivity|]. intros g x I. apply A. right. exact I.
Qed.
Lemma resume_same sel files : map (unpause sel) files = map (resumed (map fst sel)) files.
Proof. apply map_ext. intros f. unfold unpause, resumed, ids. rewrite map_map. reflexivity. Qed.

Lemma total_le files av : NoDup (map f_id files) -> sane files av -> total av <= all_blocks files.
Proof.
  intros ND [A B].
    assert (Q : forall fs, incl (map fst av) fs -> NoDup (map f_id fs) -> total av <= all_blocks fs).
    { clear - A B. induction av as [|[f x] av IH]; intros fs In0 NDf.
      - cbn [total fold_right]. clear. induction fs as [|f r IH]; [cbn; lia|]. cbn [all_blocks fold_right]. fold (all_blocks r). unfold blocks_of at 1. destruct (parse_par _ _) as [[? ?]|]; lia.
      - cbn [map fst] in In0. assert (I : In f fs) by (apply In0; left; reflexivity). apply in_split in I as (a & b & ->).
        destruct (A f x (or_introl eq_refl)) as (_ & -> & _). cbn [ids map fst] in B. inversion_clear B as [|? ? B1 B2].
        assert (X : total av <= all_blocks (a ++ b)).
        { apply IH; [intros g y J; apply A; right; exact J|exact B2| |].
          - intros g J. assert (K := In0 g (or_intror J)). apply in_app_or in K as [K | [K | K]]; apply in_or_app; [left; exact K| |right; exact K].
            exfalso. apply B1. subst g. apply in_map_iff in J as ([h y] & E & J). cbn [fst] in E. subst h. change (In (f_id (fst (f, y))) (ids av)). apply (in_map (fun b0 : block => f_id (fst b0))). exact J.
          - rewrite map_app in NDf |- *. cbn [map] in NDf. apply NoDup_remove_1 in NDf. exact NDf. }
        cbn [total fold_right snd]. fold (total av). unfold all_blocks in *. rewrite fold_right_app in *. cbn [fold_right].
        assert (Y : forall l u, fold_right (fun f0 s => blocks_of f0 + s) u l = fold_right (fun f0 s => blocks_of f0 + s) 0 l + u)
          by (clear; induction l as [|h l IH]; intros u; cbn [fold_right]; [lia|rewrite IH; lia]).
        rewrite (Y a (blocks_of f + _)). rewrite (Y a (fold_right _ 0 b)) in X. lia. }
    apply Q; [|exact ND]. intros f J. apply in_map_iff in J as ([g y] & E & J). cbn [fst] in E. subst g. exact (proj1 (A _ _ J)).
Qed.

Lemma collect_last l : forall n acc s n', collect n l acc = (s, n') -> exists t r, l = t ++ r /\ s = rev t ++ acc /\ (t = [] \/ exists t0 b, t = t0 ++ [b] /\ total t0 < n).
Proof.
  induction l as [|b l IH]; intros n acc s n' H; cbn [collect] in H.
  - injection H as <- <-. exists [], []. auto.
  - destruct (0 <? n) eqn:C.
    + apply IH in H as (t & r & -> & -> & E). exists (b :: t), r. split; [reflexivity|]. split; [cbn [rev]; rewrite <- app_assoc; reflexivity|]. right.
      destruct E as [-> | (t0 & c & -> & L)]; [exists [], b; split; [reflexivity|cbn; lia]|]. exists (b :: t0), c. split; [reflexivity|]. cbn [total fold_right]. fold (total t0). lia.
    + injection H as <- <-. exists [], (b :: l). auto.
Qed.
Lemma total_filter p l : Forall (fun b => 0 < snd b) l -> total (filter p l) <= total l.
Proof. induction 1 as [|b l B F IH]; [cbn; lia|]. cbn [filter]. destruct (p b); cbn [total fold_right]; fold (total l); fold (total (filter p l)); lia. Qed.
Lemma filter_nothing {A} (p : A -> bool) l : (forall x, In x l -> p x = false) -> filter p l = [].
Proof. induction l as [|x l IH]; intros H; [reflexivity|]. cbn [filter]. rewrite (H x (or_introl eq_refl)). apply IH. intros y I. apply H. right. exact I. Qed.
Lemma total_perm_filter p (a b : list block) : Permutation a b -> total (filter p a) = total (filter p b).
Proof.
  induction 1 as [|x a b P IH|x y l|a b c P1 IH1 P2 IH2]; [reflexivity| | |congruence].
  - cbn [filter]. destruct (p x); [|exact IH]. cbn [total fold_right]. fold (total (filter p a)) (total (filter p b)). lia.
  - cbn [filter]. destruct (p x), (p y); cbn [total fold_right]; try reflexivity. fold (total (filter p l)). lia.
Qed.

(** Files smaller than a requested one do not suffice. *)
Lemma small_ok sort av n s n1 k n2 : sorts sort -> Forall (fun b => 0 < snd b) av -> 0 < n -> collect n (sort av) [] = (s, n1) -> discard n1 s = (k, n2) ->
  (forall b, In b k -> In b s) -> forall b, In b k -> total (filter (fun c => snd c <? snd b) av) < n.
Proof.
  intros St Fp N Cl Di Ks b Ib. destruct (St av) as [Pe So]. apply collect_last in Cl as (t & r & Et & -> & E).
  assert (It : In b t) by (apply in_rev; rewrite <- (app_nil_r (rev t)); exact (Ks b Ib)).
  destruct E as [-> | (t0 & c & -> & L)]; [destruct It|]. rewrite <- (total_perm_filter _ _ _ Pe), Et.
  assert (Ft : Forall (fun b => 0 < snd b) t0).
  { apply Forall_forall. intros x I. rewrite Forall_forall in Fp. apply Fp. apply (Permutation_in _ Pe). rewrite Et. apply in_or_app. left. apply in_or_app. left. exact I. }
  assert (Bc : snd b <= snd c).
  { apply in_app_or in It as [It | [-> | []]]; [|lia]. apply In_nth_error in It as (i & It). assert (Li : (i < length t0)%nat) by (apply nth_error_Some; congruence).
    apply (So i (length t0) b c Li); rewrite Et.
    - rewrite <- app_assoc, nth_error_app1 by exact Li. exact It.
    - rewrite <- app_assoc, nth_error_app2, Nat.sub_diag by lia. reflexivity. }
  rewrite filter_app, filter_app. replace (filter (fun c0 => snd c0 <? snd b) [c]) with (@nil block) by (cbn [filter]; replace (snd c <? snd b) with false by lia; reflexivity).
  rewrite (filter_nothing _ r); [rewrite !app_nil_r; assert (X := total_filter (fun c0 => snd c0 <? snd b) t0 Ft); lia|].
  intros x I. apply In_nth_error in I as (i & I).
  assert (Q : snd c <= snd x).
  { apply (So (length t0) (length (t0 ++ [c]) + i)%nat c x); [rewrite app_length; cbn; lia| |]; rewrite Et.
    - rewrite <- app_assoc, nth_error_app2, Nat.sub_diag by lia. reflexivity.
    - rewrite nth_error_app2 by lia. replace (length (t0 ++ [c]) + i - length (t0 ++ [c]))%nat with i by lia. exact I. }
  lia.
Qed.

Theorem request_ok : forall sort parname needed files ok found files', sorts sort -> NoDup (map f_id files) -> 0 < needed ->
  parse_par (base_name parname) true <> None -> request sort parname needed files = Some (ok, found, files') ->
  exists sel, incl sel files /\ NoDup (map f_id sel) /\ Forall (fun f => 0 < blocks_of f) sel /\ files' = map (resumed sel) files /\
    (needed <= all_blocks files -> ok = true /\ needed <= all_blocks sel /\ Forall (fun f => all_blocks sel - blocks_of f < needed) sel) /\
    (all_blocks files < needed -> sel = [] /\ found = all_blocks files /\ (ok = true <-> exists f, In f files /\ f_par f = true /\ f_paused f = false)) /\
    (needed <= all_blocks (filter (own parname) files) -> Forall (fun f => own parname f = true /\
      all_blocks (filter (fun g => own parname g && (blocks_of g <? blocks_of f)) files) < needed) sel).
Proof.
  intros sort p n files ok found files' St ND N P. unfold request. cbv zeta.
  destruct (2 ^ 31 <=? total (available p n files)); [discriminate|].
  assert (Sa := available_sane p n files ND). assert (Al := available_all p n files ND P). assert (Ow := available_own p n files ND P). assert (Fo : n <= all_blocks (filter (own p) files) -> forall f, In f files -> own p f = true -> 0 < blocks_of f -> In (f, blocks_of f) (available p n files)) by (intros _; apply available_has; assumption).
  remember (available p n files) as av eqn:Eav. clear Eav.
  assert (Le := total_le files av ND Sa).
  destruct (n <=? total av) eqn:C.
  - destruct (collect n (sort av) []) as [s n1] eqn:Cl. destruct (discard n1 s) as [k n2] eqn:Di. intros H. injection H as <- <- <-.
    destruct (St av) as [Pe _]. assert (Cl0 := Cl). assert (Di0 := Di). apply collect_ok in Cl as (t & r & Et & -> & -> & E). rewrite app_nil_r in Di.
    assert (Fav : Forall (fun b => 0 < snd b) av) by (apply Forall_forall; intros [f x] I; exact (proj2 (proj2 (proj1 Sa f x I)))).
    assert (F : Forall (fun b => 0 < snd b) (rev t)).
    { apply Forall_forall. intros [f x] I. apply in_rev in I. apply (proj1 Sa f x). apply (Permutation_in _ Pe). rewrite Et. apply in_or_app. left. exact I. }
    assert (L : n - total t <= 0).
    { destruct E as [E | ->]; [exact E|]. rewrite app_nil_r in Et. rewrite <- Et, (total_perm _ _ Pe). lia. }
    apply discard_ok in Di as (D1 & D2 & D3 & D4 & D5); [|exact F|exact L]. rewrite total_rev in D1.
    assert (Sk : sane files k).
    { split.
      - intros f x I. apply (proj1 Sa). apply (Permutation_in _ Pe). rewrite Et. apply in_or_app. left. apply in_rev. exact (D4 _ I).
      - apply D5. unfold ids. rewrite map_rev. apply NoDup_rev.
        assert (X : NoDup (ids (sort av))) by (apply (Permutation_NoDup (Permutation_map _ (Permutation_sym Pe))); exact (proj2 Sa)).
        rewrite Et, ids_app in X. clear - X. unfold ids in *. induction (map (fun b : block => f_id (fst b)) t) as [|y l IH]; [constructor|].
        cbn [app] in X. inversion_clear X as [|? ? X1 X2]. constructor; [intros I; apply X1; apply in_or_app; left; exact I|exact (IH X2)]. }
    exists (map fst k). split; [intros f I; apply in_map_iff in I as ([g y] & E' & J); cbn [fst] in E'; subst g; exact (proj1 (proj1 Sk _ _ J))|].
    split; [rewrite map_map; exact (proj2 Sk)|].
    split; [apply Forall_forall; intros f I; apply in_map_iff in I as ([g y] & E' & J); cbn [fst] in E'; subst g; destruct (proj1 Sk _ _ J) as (_ & -> & Q); exact Q|].
    split; [apply resume_same|]. rewrite <- (sum_sane _ _ Sk). split; [|split].
    + intros _. split; [replace (n2 <=? 0) with true by lia; reflexivity|]. split; [lia|]. apply Forall_forall. intros f I.
      apply in_map_iff in I as ([g y] & E' & J). cbn [fst] in E'. subst g. rewrite Forall_forall in D3. assert (X := D3 _ J). cbn [snd] in X.
      destruct (proj1 Sk _ _ J) as (_ & -> & _). lia.
    + intros X. lia.
    + intros X. apply Forall_forall. intros f I. apply in_map_iff in I as ([g y] & E' & J). cbn [fst] in E'. subst g. split.
      * apply (Ow X f y). apply (Permutation_in _ Pe). rewrite Et. apply in_or_app. left. apply in_rev. exact (D4 _ J).
      * assert (Y := small_ok _ _ _ _ _ _ _ St Fav N Cl0 Di0 ltac:(rewrite app_nil_r; exact D4) (f, y) J). cbn [snd] in Y.
        rewrite <- (total_all _ (filter (fun c => snd c <? y) av)); [exact Y| | |].
        -- clear - ND. induction files as [|h r IH]; [constructor|]. cbn [map] in ND. inversion_clear ND as [|? ? N1 ND']. cbn [filter].
           destruct (own p h && (blocks_of h <? blocks_of f)); [|exact (IH ND')]. cbn [map]. constructor; [|exact (IH ND')]. intros I. apply N1.
           apply in_map_iff in I as (g & E & I). apply filter_In in I as [I _]. rewrite <- E. apply in_map. exact I.
        -- split.
           ++ intros g z I. apply filter_In in I as [I Lt]. cbn [snd] in Lt. destruct (proj1 Sa _ _ I) as (A1 & A2 & A3). destruct (proj1 Sk _ _ J) as (_ & A4 & _).
              split; [apply filter_In; split; [exact A1|]; rewrite (Ow X _ _ I), <- A2, <- A4; exact Lt|]. split; [exact A2|exact A3].
           ++ destruct Sa as [_ B]. clear - B. induction av as [|b l IH]; [constructor|]. cbn [ids map] in B. inversion_clear B as [|? ? B1 B2]. cbn [filter].
              destruct (snd b <? y); [|exact (IH B2)]. cbn [ids map]. constructor; [|exact (IH B2)]. intros I. apply B1. apply in_map_iff in I as (c & E & I). apply filter_In in I as [I _].
              apply in_map_iff. exists c. auto.
        -- intros g I Pb. apply filter_In in I as [I Q]. apply andb_true_iff in Q as [Q1 Q2]. destruct (proj1 Sk _ _ J) as (_ & A4 & _). apply filter_In. split; [|cbn [snd]; lia].
           apply (Fo X g I Q1 Pb).
  - intros H. injection H as <- <- <-. exists []. split; [intros f []|]. split; [constructor|]. split; [constructor|].
    split; [rewrite <- (map_id files) at 1; apply map_ext; intros f; reflexivity|]. assert (T := Al ltac:(lia)). split; [lia|]. split; [|constructor].
    intros _. split; [reflexivity|]. split; [exact T|]. replace (n <=? 0) with false by lia. cbn [orb]. rewrite existsb_exists. split.
    + intros (f & I & Q). apply andb_true_iff in Q as [Q1 Q2]. apply negb_true_iff in Q2. exists f. auto.
    + intros (f & I & Q1 & Q2). exists f. split; [exact I|]. rewrite Q1, Q2. reflexivity.
Qed.

Theorem request_waits : forall sort parname needed files found files', sorts sort -> NoDup (map f_id files) -> 0 < needed ->
  parse_par (base_name parname) true <> None -> request sort parname needed files = Some (true, found, files') ->
  exists f, In f files' /\ f_paused f = false /\ (f_par f = true \/ 0 < blocks_of f).
Proof.
  intros sort p n files found files' St ND N P H. destruct (request_ok _ _ _ _ _ _ _ St ND N P H) as (sel & I & NS & B & -> & A1 & A2 & _).
  destruct (Z_lt_le_dec (all_blocks files) n) as [L | L].
  - destruct (A2 L) as (-> & _ & X). destruct (proj1 X eq_refl) as (f & J & Q1 & Q2). exists f. split; [|auto].
    apply in_map_iff. exists f. split; [reflexivity|exact J].
  - destruct (A1 L) as (_ & X & _). destruct sel as [|f sel]; [cbn in X; lia|]. inversion_clear B as [|? ? B1 _].
    exists (resumed (f :: sel) f). assert (E : existsb (Z.eqb (f_id f)) (map f_id (f :: sel)) = true) by (apply has_id; left; reflexivity).
    split; [apply in_map; apply I; left; reflexivity|]. unfold resumed. rewrite E. destruct (f_paused f) eqn:Q; cbn [andb]; [|rewrite Q; auto].
    split; [reflexivity|]. right. exact B1.
Qed.

(** The number of blocks in a 32-bit sum: defined when all blocks fit. *)
Theorem request_defined : forall sort parname needed files, NoDup (map f_id files) -> all_blocks files < 2 ^ 31 ->
  exists ok found files', request sort parname needed files = Some (ok, found, files').
Proof.
  intros sort p n files ND L. assert (Le := total_le _ _ ND (available_sane p n files ND)). unfold request. cbv zeta. destruct (2 ^ 31 <=? _) eqn:E; [lia|].
  destruct (n <=? _); [|eauto]. destruct (collect _ _ _) as [s m]. destruct (discard m s). eauto.
Qed.

(** A sort as std::sort does it. *)
Lemma strong_nth {A} (R : A -> A -> Prop) l : Sorted.StronglySorted R l -> forall i j a b, (i < j)%nat -> nth_error l i = Some a -> nth_error l j = Some b -> R a b.
Proof.
  induction 1 as [|x l So IH F]; intros i j a b L; [destruct i; discriminate|]. destruct i as [|i]; destruct j as [|j]; try lia; cbn [nth_error].
  - intros E1 E2. injection E1 as <-. rewrite Forall_forall in F. apply F. apply nth_error_In in E2. exact E2.
  - intros E1 E2. apply (IH i j); [lia|exact E1|exact E2].
Qed.
Lemma blocks_sort : sorts (MoveModel.stable_sort (fun a b => snd a <? snd b)).
Proof.
  intros l. assert (SW : MoveSpec.strict_weak (fun a b : block => snd a <? snd b)) by (split; [intros a; lia|split; [intros a b c; lia|intros a b c H; lia]]).
  destruct (SortProofs.stable_sort_ok _ l SW) as (P & St & _). split; [symmetry; exact P|]. intros i j a b L E1 E2.
  assert (X := strong_nth _ _ St i j a b L E1 E2). cbv beta in X. lia.
Qed.
