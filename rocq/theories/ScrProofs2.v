(** Proofs about scan-scripts, lists of scripts, parameters of new downloads. *)
From Coq Require Import String.
From Verif Require Import Base NumFmt WildModel WildSpec CodecModel NameModel InfoModel WebModel OptModel QScrModel QScrSpec ScrModel ScrSpec.
From Verif Require Import ScrProofs.
From Verif Require QScrProofs TextProofs OptProofs6 InfoProofs.
Open Scope list_scope. Open Scope Z_scope.

(** ** Scan-scripts *)

Lemma scan_ok g scripts disp k m x : (length disp + 2 + length m <= Z.to_nat 1023)%nat ->
  exists y, scan_message g scripts (length disp + 2) k (message (Some disp) m) x = Fine y /\ scan_effect g scripts disp k m x y.
Proof.
  intros L. assert (E : message (Some disp) m = (disp ++ str ": ") ++ m).
  { unfold message. rewrite (cut_id m) by lia. rewrite cut_id; [rewrite <- app_assoc; reflexivity|]. rewrite !app_length. cbn. lia. }
  rewrite E. destruct x as [n c p pr tp ps dk ds dm lg]. cbn [scan_message].
  replace (length ((disp ++ str ": ") ++ m) <? length disp + 2)%nat with false by (symmetry; apply Nat.ltb_ge; rewrite !app_length; cbn; lia).
  rewrite (skip_pre (disp ++ str ": ") m) by (rewrite app_length; cbn; lia). destruct (prefixb (str "[NZB] ") m) eqn:P0.
  2:{ eexists. split; [reflexivity|]. rewrite <- app_assoc. apply se_text, no_pre, P0. }
  apply prefixb_iff in P0 as (cm & ->). rewrite (skip_pre (str "[NZB] ") cm 6 eq_refl).
  destruct (prefixb (str "NZBNAME=") cm) eqn:P1; [apply prefixb_iff in P1 as (d & ->); eexists; split; [reflexivity|]; rewrite (skip_pre (str "NZBNAME=") d 8 eq_refl); apply se_name; reflexivity|].
  destruct (prefixb (str "CATEGORY=") cm) eqn:P2; [apply prefixb_iff in P2 as (d & ->); eexists; split; [reflexivity|]; rewrite (skip_pre (str "CATEGORY=") d 9 eq_refl); apply se_cat; reflexivity|].
  assert (W : forall r, (forall w v, In w ["NZBNAME="; "CATEGORY="; "PRIORITY="; "TOP="; "PAUSED="; "DUPEKEY="; "DUPESCORE="; "DUPEMODE="]%string -> prefixb (str w) r = false -> r <> str w ++ v))
    by (intros r w v _ Q; exact (no_pre _ _ Q v)).
  destruct (prefixb (str "NZBPR_") cm) eqn:P3.
  { apply prefixb_iff in P3 as (d & ->). rewrite (skip_pre (str "NZBPR_") d 6 eq_refl). destruct (split_eq d) as [(a, v)|] eqn:Sd; eexists; (split; [reflexivity|]).
    - apply split_some in Sd as (-> & N). apply se_param; [reflexivity|exact N].
    - apply split_none in Sd. apply (se_wrong _ _ _ _ _ (str "NZBPR_" ++ d)); [reflexivity| |].
      + intros w v I. repeat (destruct I as [<-|I]; [intros Q; cbn in Q; discriminate Q|]). destruct I.
      + intros a v Q. apply Sd. assert (Q2 : d = a ++ 61 :: v) by (cbn in Q; injection Q; auto). rewrite Q2. apply in_elt. }
  destruct (prefixb (str "PRIORITY=") cm) eqn:P4; [apply prefixb_iff in P4 as (d & ->); eexists; split; [reflexivity|]; rewrite (skip_pre (str "PRIORITY=") d 9 eq_refl); apply se_priority; reflexivity|].
  destruct (prefixb (str "TOP=") cm) eqn:P5; [apply prefixb_iff in P5 as (d & ->); eexists; split; [reflexivity|]; rewrite (skip_pre (str "TOP=") d 4 eq_refl); apply se_top; reflexivity|].
  destruct (prefixb (str "PAUSED=") cm) eqn:P6; [apply prefixb_iff in P6 as (d & ->); eexists; split; [reflexivity|]; rewrite (skip_pre (str "PAUSED=") d 7 eq_refl); apply se_paused; reflexivity|].
  destruct (prefixb (str "DUPEKEY=") cm) eqn:P7; [apply prefixb_iff in P7 as (d & ->); eexists; split; [reflexivity|]; rewrite (skip_pre (str "DUPEKEY=") d 8 eq_refl); apply se_key; reflexivity|].
  destruct (prefixb (str "DUPESCORE=") cm) eqn:P8; [apply prefixb_iff in P8 as (d & ->); eexists; split; [reflexivity|]; rewrite (skip_pre (str "DUPESCORE=") d 10 eq_refl); apply se_score; reflexivity|].
  destruct (prefixb (str "DUPEMODE=") cm) eqn:P9.
  { apply prefixb_iff in P9 as (d & ->). rewrite (skip_pre (str "DUPEMODE=") d 9 eq_refl).
    assert (M : forall w, nocase_eq d w = true <-> same_name d w) by (intros w; apply beqb_eq).
    destruct (nocase_eq d (str "all")) eqn:A; [eexists; split; [reflexivity|]; apply (se_mode _ _ _ _ _ d 1); [reflexivity|lia|apply M, A]|].
    destruct (nocase_eq d (str "force")) eqn:B; [eexists; split; [reflexivity|]; apply (se_mode _ _ _ _ _ d 2); [reflexivity|lia|apply M, B]|].
    destruct (nocase_eq d (str "score")) eqn:C; [eexists; split; [reflexivity|]; apply (se_mode _ _ _ _ _ d 0); [reflexivity|lia|apply M, C]|].
    eexists. split; [reflexivity|]. apply (se_wrong_mode _ _ _ _ _ d); [reflexivity|]. intros i Hi.
    destruct i as [|[|[|i]]]; [| | |lia]; cbn [nth]; rewrite <- M; congruence. }
  eexists. split; [reflexivity|]. apply (se_wrong _ _ _ _ _ cm); [reflexivity| |].
  - intros w v I. repeat (destruct I as [<-|I]; [apply no_pre; assumption|]). destruct I.
  - intros a v. apply (no_pre _ _ P3).
Qed.
Lemma scan_lines_ok g scripts disp : forall ls x, Forall (fun l => (length disp + 2 + length l <= Z.to_nat 1023)%nat) ls ->
  exists y, scan_lines g scripts disp (map (fun l => l ++ [10]) ls) x = Fine y /\ heard (scan_effect g scripts disp) ls x y.
Proof.
  induction ls as [|l ls IH]; intros x F; [exists x; split; [reflexivity|constructor]|]. inversion F as [|? ? L Fr]; subst. cbn [map scan_lines].
  pose proof (process_ok (l ++ [10])) as P. destruct (process_output (l ++ [10])) as [(k, m)|].
  - rewrite speaks_lf in P. destruct (scan_ok g scripts disp k m x) as (y & E & H); [apply speaks_length in P; lia|]. rewrite E.
    destruct (IH y Fr) as (z & Ez & Hz). exists z. split; [exact Ez|]. exact (h_line _ _ _ _ _ _ _ _ P H Hz).
  - rewrite text_lf in P. destruct (IH x Fr) as (z & Ez & Hz). exists z. split; [exact Ez|]. apply h_silent; assumption.
Qed.

(** ** Lists of scripts *)

Lemma fields_app sep a s b : sep s = true -> fields sep (a ++ s :: b) = fields sep a ++ fields sep b.
Proof.
  intros S1. induction a as [|c a IH]; cbn [app fields]; [rewrite S1; reflexivity|]. destruct (sep c); [rewrite IH; reflexivity|]. rewrite IH.
  assert (N : fields sep a <> []) by (clear; destruct a as [|c a]; cbn [fields]; [discriminate|]; destruct (sep c); [discriminate|]; destruct (fields sep a); discriminate).
  destruct (fields sep a) as [|f l]; [congruence|]. reflexivity.
Qed.
Lemma fields_plain sep a : (forall c, In c a -> sep c = false) -> fields sep a = [a].
Proof.
  induction a as [|c a IH]; intros H; [reflexivity|]. cbn [fields]. rewrite (H c (or_introl eq_refl)), IH; [reflexivity|]. intros d I. apply H. right. exact I.
Qed.
Definition picked (p : param) : list (list Z) :=
  match fst p with [] => [] | c :: _ => if negb (c =? 42) && (last (fst p) 0 =? 58) && yes_value (snd p) then [removelast (fst p)] else [] end.
Lemma kept_assigned params : Forall (fun n => ~ In 44 n /\ ~ In 59 n) (concat (map picked params)) ->
  TextProofs.kept (str ",;") (assigned_list params) = filter TextProofs.ne (map WildModel.trim (concat (map picked params))).
Proof.
  unfold TextProofs.kept. intros F. assert (E : fields (in_set (str ",;")) (assigned_list params) = concat (map picked params) ++ [[]]).
  { revert F. unfold assigned_list. induction params as [|(n, v) params IH]; intros F; [reflexivity|]. cbn [map concat] in *. unfold picked at 1 in F. unfold picked at 1. cbn [fst snd] in *.
    destruct n as [|c r] eqn:En; [exact (IH F)|]. rewrite <- En in *. clear En.
    destruct (negb (c =? 42) && (last n 0 =? 58) && yes_value v); [|exact (IH F)]. cbn [app] in F |- *. inversion F as [|? ? (N1 & N2) Fr]; subst.
    rewrite <- app_assoc. cbn [app]. rewrite (fields_app _ (removelast n) 44) by reflexivity. rewrite (IH Fr), fields_plain; [reflexivity|].
    intros d I. unfold in_set. apply not_true_iff_false. intros H. apply existsb_exists in H as (e & J & Q). apply Z.eqb_eq in Q. subst e. destruct J as [<-|[<-|[]]]; [exact (N1 I)|exact (N2 I)]. }
  rewrite E, map_app, filter_app. cbn. apply app_nil_r.
Qed.
Lemma in_picked params n : In n (concat (map picked params)) <-> assigned params n.
Proof.
  rewrite in_concat. unfold assigned. split.
  - intros (l & I & J). apply in_map_iff in I as ((a, v) & <- & I). unfold picked in J. cbn [fst snd] in J. destruct a as [|c r] eqn:Ea; [destruct J|]. rewrite <- Ea in *.
    destruct (negb (c =? 42) && (last a 0 =? 58) && yes_value v) eqn:B; [|destruct J]. destruct J as [<-|[]]. rewrite !andb_true_iff, negb_true_iff, Z.eqb_neq, Z.eqb_eq in B. destruct B as ((B1 & B2) & B3).
    assert (Q : removelast a ++ [58] = a) by (rewrite <- B2; symmetry; apply app_removelast_last; rewrite Ea; discriminate). exists v. rewrite Q. split; [exact I|]. split; [rewrite Ea; exact B1|apply QScrProofs.yes_iff, B3].
  - intros (v & I & H & Y). exists [n]. split; [|left; reflexivity]. apply in_map_iff. exists (n ++ [58], v). split; [|exact I]. unfold picked. cbn [fst snd].
    destruct (n ++ [58]) as [|c r] eqn:E; [destruct n; discriminate E|]. cbn in H. rewrite <- E, last_last, removelast_last. apply QScrProofs.yes_iff in Y. rewrite Y.
    replace (c =? 42) with false by (symmetry; apply Z.eqb_neq; exact H). reflexivity.
Qed.
Lemma script_list_ok names params : (forall n, assigned params n -> plain_name n) -> exists l, script_list names (assigned_list params) = filter (fun n => existsb (fun t => beqb t n) l) names /\
  forall n, In n l <-> assigned params n.
Proof.
  intros P. assert (F : Forall (fun n => ~ In 44 n /\ ~ In 59 n) (concat (map picked params))) by (apply Forall_forall; intros n I; apply in_picked in I; apply P in I as (_ & A & B & _); auto).
  exists (TextProofs.kept (str ",;") (assigned_list params)). split.
  - unfold script_list. destruct (assigned_list params) as [|c r] eqn:E; [cbn|rewrite <- E, TextProofs.tokens_ok; reflexivity].
    induction names as [|n names IH]; [reflexivity|exact IH].
  - intros n. rewrite (kept_assigned params F), filter_In, in_map_iff. split.
    + intros ((m & Q & I) & N). apply in_picked in I. destruct (P m I) as (_ & _ & _ & T). rewrite T in Q. subst m. exact I.
    + intros A. destruct (P n A) as (N & _ & _ & T). split; [exists n; split; [exact T|apply in_picked, A]|]. destruct n; [congruence|reflexivity].
Qed.

(** ** Parameters of new downloads *)

Lemma settings_ok g cat : let '(u, e) := category_settings g cat in settings g cat u e.
Proof.
  unfold category_settings. destruct cat as [|k r] eqn:C; [right; split; [reflexivity|]; split; [reflexivity|]; intros s (N & _); congruence|]. rewrite <- C.
  assert (N : cat <> []) by congruence. clear C k r. unfold find_category. destruct (find_index _ _) as [i|] eqn:F.
  - apply OptProofs6.find_index_some in F as (c & Hc & Sc & B). rewrite nth_error_map in Hc |- *. destruct (nth_error (v_cats g) i) as [(c1, (u, e))|] eqn:G; [|discriminate Hc]. injection Hc as <-. cbn [option_map snd].
    assert (Q : cat_of g cat (u, e)).
    { destruct (QScrProofs.first_split (fun d : category * (bool * list Z) => same_name (c_name (fst d)) cat) _ _ _ G) as (a & b & Q & _ & F).
      - intros j y J K Sy. specialize (B j (fst y) J). rewrite nth_error_map, K in B. specialize (B eq_refl). apply (proj2 (beqb_eq _ _)) in Sy. unfold nocase_eq in B. congruence.
      - split; [exact N|]. exists a, c1, b. split; [exact Q|]. split; [|exact F]. apply beqb_eq. exact Sc. }
    destruct e as [|z e]; left; [exists []|exists (z :: e)]; split; auto. left. split; [discriminate|reflexivity].
  - right. split; [reflexivity|]. split; [reflexivity|]. intros s (_ & a & c & b & Q & Sc & _). rewrite OptProofs6.find_index_none in F. specialize (F c).
    rewrite Q, map_app in F. cbn [map fst] in F. specialize (F (in_elt _ _ _)). apply (proj2 (beqb_eq _ _)) in Sc. unfold nocase_eq in F. congruence.
Qed.
Lemma cat_unique g cat x y : cat_of g cat x -> cat_of g cat y -> x = y.
Proof.
  intros (_ & a & c & b & E & Sc & F) (_ & a1 & c1 & b1 & E1 & Sc1 & F1). rewrite E in E1. clear E.
  revert a1 E1 F F1. induction a as [|d a IH]; intros a1 E1 F F1.
  - destruct a1 as [|d1 a1]; [injection E1 as -> -> _; reflexivity|]. injection E1 as <- _. inversion F1 as [|? ? Q _]; subst. destruct (Q Sc).
  - destruct a1 as [|d1 a1]; [injection E1 as -> _; inversion F as [|? ? Q _]; subst; destruct (Q Sc1)|]. injection E1 as <- E1. inversion F; inversion F1; subst. exact (IH a1 E1 H2 H6).
Qed.
Lemma settings_unique g cat u e u1 e1 : settings g cat u e -> settings g cat u1 e1 -> u = u1 /\ e = e1.
Proof.
  intros [(x & Q & H)|(-> & -> & N)] [(x1 & Q1 & H1)|(-> & -> & N1)].
  - pose proof (cat_unique g cat _ _ Q Q1) as E. injection E as -> ->. split; [reflexivity|]. destruct H as [(A & ->)|(A & ->)], H1 as [(B & ->)|(B & ->)]; congruence.
  - destruct (N1 _ Q).
  - destruct (N _ Q1).
  - auto.
Qed.

Lemma keys_add l n v : NoDup (InfoProofs.keys l) -> NoDup (InfoProofs.keys (add_default l n v)).
Proof. intros H. unfold add_default. destruct (find_parameter l n); [exact H|]. apply InfoProofs.set_NoDup, H. Qed.
Lemma same_sym a b : same_nocase a b = same_nocase b a.
Proof. unfold same_nocase. destruct (beqb (map lower a) (map lower b)) eqn:E; symmetry; [apply beqb_eq in E; apply beqb_eq; auto|]. apply not_true_iff_false. intros Q. apply beqb_eq in Q. rewrite Q, (proj2 (beqb_eq _ _) eq_refl) in E. discriminate E. Qed.
Lemma find_same l a b : same_nocase a b = true -> find_parameter l a = find_parameter l b.
Proof.
  intros E. apply beqb_eq in E. induction l as [|(n, v) l IH]; [reflexivity|]. cbn [find_parameter]. unfold same_nocase in *. rewrite E, IH. reflexivity.
Qed.
Lemma find_add l n v m : NoDup (InfoProofs.keys l) -> v <> [] ->
  find_parameter (add_default l n v) m = match find_parameter l m with Some w => Some w | None => if same_nocase n m then Some v else None end.
Proof.
  intros H V. unfold add_default. destruct (find_parameter l n) as [w|] eqn:E.
  - destruct (find_parameter l m) eqn:M; [reflexivity|]. destruct (same_nocase n m) eqn:Q; [|reflexivity]. rewrite (find_same l n m Q) in E. congruence.
  - rewrite (InfoProofs.find_set l n v m H). destruct (same_nocase n m) eqn:Q.
    + rewrite <- (find_same l n m Q), E. destruct v; [congruence|reflexivity].
    + destruct (find_parameter l m); reflexivity.
Qed.
Definition ext_steps (scripts : list pscript) (ts : list (list Z)) (p : list param) : list param :=
  fold_left (fun p t => fold_left (fun p (s : pscript) => if snd s && beqb t (fst s) then add_default p (cut (t ++ [58])) (str "yes") else p) scripts p) ts p.
Lemma inner_find t m : forall scripts p, NoDup (InfoProofs.keys p) ->
  let r := fold_left (fun p (s : pscript) => if snd s && beqb t (fst s) then add_default p (cut (t ++ [58])) (str "yes") else p) scripts p in
  NoDup (InfoProofs.keys r) /\ find_parameter r m = match find_parameter p m with Some w => Some w | None =>
    if existsb (fun s : pscript => snd s && beqb t (fst s)) scripts && same_nocase (cut (t ++ [58])) m then Some (str "yes") else None end.
Proof.
  induction scripts as [|s scripts IH]; intros p H; cbn [fold_left existsb].
  - cbv zeta. split; [exact H|]. cbn. destruct (find_parameter p m); reflexivity.
  - destruct (snd s && beqb t (fst s)) eqn:E; cbn [orb].
    + specialize (IH (add_default p (cut (t ++ [58])) (str "yes")) (keys_add _ _ _ H)). cbv zeta in IH |- *. destruct IH as (K & ->). split; [exact K|].
      rewrite (find_add p _ _ m H) by discriminate. cbn [andb]. destruct (find_parameter p m); [reflexivity|]. destruct (same_nocase (cut (t ++ [58])) m); [reflexivity|]. rewrite andb_false_r. reflexivity.
    + exact (IH p H).
Qed.
Lemma outer_find scripts m : forall ts p, NoDup (InfoProofs.keys p) -> NoDup (InfoProofs.keys (ext_steps scripts ts p)) /\
  find_parameter (ext_steps scripts ts p) m = match find_parameter p m with Some w => Some w | None =>
    if existsb (fun t => existsb (fun s : pscript => snd s && beqb t (fst s)) scripts && same_nocase (cut (t ++ [58])) m) ts then Some (str "yes") else None end.
Proof.
  induction ts as [|t ts IH]; intros p H; unfold ext_steps; cbn [fold_left existsb]; [split; [exact H|]; destruct (find_parameter p m); reflexivity|].
  destruct (inner_find t m scripts p H) as (K & E). destruct (IH _ K) as (K2 & E2). split; [exact K2|]. unfold ext_steps in E2. rewrite E2, E.
  destruct (find_parameter p m); [reflexivity|]. destruct (_ && _); reflexivity.
Qed.
Lemma init_ok g scripts cat params n : NoDup (InfoProofs.keys params) -> Forall (fun s : pscript => (length (fst s) <= Z.to_nat 1000)%nat) scripts ->
  match find_parameter params n with
  | Some v => find_parameter (init_params g scripts cat false params) n = Some v
  | None => forall v, find_parameter (init_params g scripts cat false params) n = Some v <-> default_value g scripts cat n v
  end.
Proof.
  intros H Sh. unfold init_params. pose proof (settings_ok g cat) as Se. destruct (category_settings g cat) as (u, e). rewrite TextProofs.tokens_ok.
  set (uv := if u then str "yes" else str "no"). assert (Vu : uv <> []) by (unfold uv; destruct u; discriminate).
  pose proof (outer_find scripts n (TextProofs.kept (str ",;") e) (add_default params (str "*Unpack:") uv) (keys_add _ _ _ H)) as (_ & R). unfold ext_steps in R. rewrite R, (find_add params _ _ n H Vu). clear R.
  destruct (find_parameter params n) as [v0|]; [reflexivity|].
  assert (Su : same_nocase (str "*Unpack:") n = true <-> same_name n (str "*Unpack:")) by (rewrite same_sym; apply beqb_eq).
  assert (B : existsb (fun t => existsb (fun s : pscript => snd s && beqb t (fst s)) scripts && same_nocase (cut (t ++ [58])) n) (TextProofs.kept (str ",;") e) = true <->
              exists s, In (s, true) scripts /\ lists e s /\ same_name n (s ++ [58])).
  { rewrite existsb_exists. split.
    - intros (t & I & Q). apply andb_true_iff in Q as (Q1 & Q2). apply existsb_exists in Q1 as ((s, b) & J & Q1). cbn [fst snd] in Q1. apply andb_true_iff in Q1 as (-> & Q1). apply beqb_eq in Q1. subst t.
      exists s. split; [exact J|]. pose proof (proj1 (Forall_forall _ _) Sh _ J) as Ls. cbn [fst] in Ls. rewrite cut_id in Q2 by (rewrite app_length; cbn; lia). split.
      + unfold TextProofs.kept in I. apply filter_In in I as (I & N). apply in_map_iff in I as (f & Q & I). exists f. split; [exact I|]. split; [exact Q|]. intros E0. rewrite E0 in N. discriminate N.
      + rewrite same_sym in Q2. apply beqb_eq, Q2.
    - intros (s & J & (f & I & Q & N) & Sn). exists s. split.
      + unfold TextProofs.kept. apply filter_In. split; [apply in_map_iff; exists f; auto|]. destruct s; [congruence|reflexivity].
      + apply andb_true_iff. split; [apply existsb_exists; exists (s, true); split; [exact J|cbn; apply beqb_eq; reflexivity]|].
        pose proof (proj1 (Forall_forall _ _) Sh _ J) as Ls. cbn [fst] in Ls. rewrite cut_id by (rewrite app_length; cbn; lia). rewrite same_sym. apply beqb_eq, Sn. }
  intros v. unfold default_value. destruct (same_nocase (str "*Unpack:") n) eqn:U.
  - split.
    + intros Q. injection Q as <-. exists u, e. split; [exact Se|]. left. split; [apply Su; reflexivity|reflexivity].
    + intros (u1 & e1 & Se1 & D). destruct (settings_unique g cat _ _ _ _ Se Se1) as (<- & <-). destruct D as [(_ & ->)|(Nu & _)]; [reflexivity|]. destruct Nu. apply Su. reflexivity.
  - destruct (existsb _ (TextProofs.kept (str ",;") e)) eqn:X.
    + split.
      * intros Q. injection Q as <-. exists u, e. split; [exact Se|]. right. split; [intros Q; apply Su in Q; discriminate Q|]. split; [reflexivity|]. apply B. reflexivity.
      * intros (u1 & e1 & Se1 & D). destruct D as [(Q & _)|(_ & -> & _)]; [apply Su in Q; discriminate Q|reflexivity].
    + split; [discriminate|]. intros (u1 & e1 & Se1 & D). destruct (settings_unique g cat _ _ _ _ Se Se1) as (<- & <-). destruct D as [(Q & _)|(_ & _ & Q)]; [apply Su in Q; discriminate Q|apply B in Q; discriminate Q].
Qed.
