(** Unpacking: definedness, completeness, the file with passwords. *)
From Coq Require Import String.
From Verif Require Import Base NumFmt LineModel UnpackModel UnpackSpec UnpackProofs.
Open Scope list_scope. Open Scope Z_scope.

(** ** Defined *)

Lemma named_inside sz t : begins (str "7-Zip: ") t \/ begins (str "Unrar: ") t -> depends_outside sz t = false.
Proof.
  intros H. unfold depends_outside. apply not_true_iff_false. rewrite andb_true_iff, ends_iff. intros (_ & a & E).
  assert (K : forall c, In c t -> In c (str "Data Error in encrypted file. Wrong password?")).
  { intros c I. rewrite E. apply in_or_app. now right. }
  destruct H as [[r ->] | [r ->]].
  - specialize (K 55 (or_introl eq_refl)). cbn in K. repeat (destruct K as [K|K]; [discriminate K|]). exact K.
  - specialize (K 85 (or_introl eq_refl)). cbn in K. repeat (destruct K as [K|K]; [discriminate K|]). exact K.
Qed.

Lemma events_defined sz : forall es u, (forall t, In (Line t) es -> depends_outside sz t = false) -> u_events sz es u <> None.
Proof.
  induction es as [|e es IH]; intros u H; [discriminate|]. cbn [u_events]. destruct (u_term u); [discriminate|].
  destruct e as [t|]; cbn [u_event].
  - unfold add_message. rewrite (H t (or_introl eq_refl)). apply IH. intros t' I. apply H. now right.
  - apply IH. intros t' I. apply H. now right.
Qed.
Lemma exec_defined sz r u : named r -> execute sz r u <> None.
Proof.
  intros N. unfold execute. destruct (negb (r_cmd r)); [discriminate|].
  destruct (u_events sz (r_events r) _) eqn:E; [discriminate|]. exfalso. revert E. apply events_defined. intros t I. apply named_inside, N, I.
Qed.
Lemma try_defined sz runs : (forall j, named (runs j)) -> forall ps n u, try_list sz runs ps n u <> None.
Proof.
  intros N. induction ps as [|p ps IH]; intros n u; [discriminate|]. cbn [try_list]. destruct (wrong_password u); [|discriminate].
  destruct p; [apply IH|]. unfold try_password. destruct (execute sz (runs n) _) eqn:E; [|exfalso; revert E; apply exec_defined, N].
  specialize (IH (S n) u0). destruct (try_list sz runs ps (S n) u0) as [[[x y] z0]|]; [discriminate|contradiction].
Qed.
Lemma arch_defined sz i runs n u l : (forall j, named (runs j)) -> unpack_archives sz i runs n u l <> None.
Proof.
  intros N. unfold unpack_archives. destruct (negb (i_tried i) || i_repaired i).
  - destruct (execute sz (runs n) u) as [v|] eqn:E; [|exfalso; revert E; apply exec_defined, N].
    destruct (_ && _ && _ && _); [discriminate|]. destruct (i_passfile i) as [f|]; [|discriminate].
    destruct (_ && _ && _); [|discriminate]. destruct (passwords f) as [ps|]; [|discriminate].
    pose proof (try_defined sz runs N ps (S n) v). destruct (try_list sz runs ps (S n) v) as [[[x y] z0]|]; [discriminate|contradiction].
  - destruct (i_passfile i) as [f|]; [|discriminate].
    destruct (_ && _ && _); [|discriminate]. destruct (passwords f) as [ps|]; [|discriminate].
    match goal with |- context [try_list sz runs ps n ?v] => pose proof (try_defined sz runs N ps n v); destruct (try_list sz runs ps n v) as [[[x y] z0]|]; [discriminate|contradiction] end.
Qed.
Lemma step_defined c sz i runs a : (forall j, named (runs j)) -> a <> None -> step_if c sz i runs a <> None.
Proof.
  intros N A. unfold step_if. destruct a as [[[[u t] n] l]|]; [|contradiction]. destruct c; [|discriminate].
  pose proof (arch_defined sz i runs n u l N). destruct (unpack_archives sz i runs n u l) as [[[[x y] z0] w]|]; [discriminate|contradiction].
Qed.
Lemma run_defined i f runs : (forall j, named (runs j)) -> unpack_run i f runs <> None.
Proof.
  intros N. unfold unpack_run. destruct (_ && _ && _); [discriminate|]. destruct (_ && _).
  - match goal with |- match ?x with _ => _ end <> None => assert (H : x <> None) end.
    { apply step_defined; [exact N|]. apply step_defined; [exact N|]. apply step_defined; [exact N|]. discriminate. }
    match goal with |- match ?x with _ => _ end <> None => destruct x as [[[[u t] n] l]|]; [discriminate|contradiction] end.
  - destruct (f_wanted f); [|discriminate]. destruct (_ && _ && _); [discriminate|]. destruct (f_renamed f); discriminate.
Qed.

(** ** Good runs are recognised *)

Lemma good_step i runs sz u t n l : clean u -> fresh i = true -> good_run sz (runs n) -> (forall j, named (runs j)) ->
  n = length t ->
  exists v l', step_if true sz i runs (Some (u, t, n, l)) = Some (v, t ++ [i_password i], S n, l') /\ u_ok v = true /\ clean v.
Proof.
  intros C F G N L. unfold step_if. pose proof (arch_defined sz i runs n u l N) as D.
  destruct (unpack_archives sz i runs n u l) as [[[[v p] m] l']|] eqn:A; [|contradiction].
  destruct (arch_ok _ _ _ _ _ _ _ _ _ _ C A) as (A1 & _ & _ & A4 & A5). destruct (A5 F G) as (O & ->).
  destruct (A4 O) as (C' & _). exists v, l'. cbn [length] in A1. replace m with (S n) by lia. auto.
Qed.

Lemma step_gen c i runs sz u t n l : clean u -> u_ok u = true -> fresh i = true -> (c = true -> good_run sz (runs n)) ->
  (forall j, named (runs j)) -> n = length t ->
  exists v l', let p := if c then [i_password i] else [] in
    step_if c sz i runs (Some (u, t, n, l)) = Some (v, t ++ p, length (t ++ p), l') /\ u_ok v = true /\ clean v.
Proof.
  intros C O F G N L. destruct c.
  - destruct (good_step i runs sz u t n l C F (G eq_refl) N L) as (v & l' & E & O' & C'). exists v, l'. cbv zeta.
    rewrite E, app_length. cbn [length]. replace (length t + 1)%nat with (S n) by lia. auto.
  - exists u, l. cbv zeta. rewrite app_nil_r. cbn [step_if]. rewrite L. auto.
Qed.

Lemma success_complete i f runs : fresh i = true -> (forall j, named (runs j)) ->
  f_wanted f = true -> (f_rar f || f_7z f || f_7zmulti f || f_split f) = true ->
  (forall k sz, nth_error (needed f) k = Some sz -> good_run sz (runs k)) ->
  (f_split f = true -> f_joined f = true) -> f_moved f = true ->
  unpack_run i f runs = Some (UStatus usSuccess, repeat (i_password i) (length (needed f))).
Proof.
  intros F N W Fd G J M. unfold unpack_run.
  assert (F0 : i_tried i && negb (i_repaired i) = false).
  { unfold fresh in F. destruct (i_tried i), (i_repaired i); auto. }
  rewrite F0, W, Fd. cbn [andb]. cbv zeta.
  assert (C0 : clean us0) by (repeat split).
  destruct (step_gen (f_rar f && f_rar_todo f) i runs false us0 [] 0%nat false C0 eq_refl F) as (v1 & l1 & E1 & O1 & C1); [|exact N|reflexivity|].
  { intros H. apply (G 0%nat). unfold needed. now rewrite H. }
  cbv zeta in E1. rewrite E1. cbn [when_ok]. rewrite O1, andb_true_r. cbn [app] in *.
  remember (if f_rar f && f_rar_todo f then [i_password i] else []) as p1 eqn:P1.
  destruct (step_gen (f_7z f) i runs true v1 p1 (length p1) l1 C1 O1 F) as (v2 & l2 & E2 & O2 & C2); [|exact N|reflexivity|].
  { intros H. apply (G (length p1)). unfold needed. rewrite H, P1. destruct (f_rar f && f_rar_todo f); reflexivity. }
  cbv zeta in E2. rewrite E2. cbn [when_ok]. rewrite O2, andb_true_r.
  remember (if f_7z f then [i_password i] else []) as p2 eqn:P2.
  destruct (step_gen (f_7zmulti f) i runs true v2 (p1 ++ p2) (length (p1 ++ p2)) l2 C2 O2 F) as (v3 & l3 & E3 & O3 & C3); [|exact N|reflexivity|].
  { intros H. apply (G (length (p1 ++ p2))). unfold needed. rewrite H, P1, P2. destruct (f_rar f && f_rar_todo f), (f_7z f); reflexivity. }
  cbv zeta in E3. rewrite E3.
  assert (Jf : f_split f && u_ok v3 && negb (f_joined f) = false).
  { rewrite O3, andb_true_r. destruct (f_split f); [|reflexivity]. now rewrite (J eq_refl). }
  rewrite Jf. unfold completed. rewrite O3, M. cbn [andb]. f_equal. f_equal.
  unfold needed. rewrite P1, P2. destruct (f_rar f && f_rar_todo f), (f_7z f), (f_7zmulti f); reflexivity.
Qed.

(** ** All passwords are tried *)

Lemma one_kind i f runs sz : needed f = [sz] -> fresh i = true -> f_wanted f = true ->
  unpack_run i f runs =
  match unpack_archives sz i runs 0 us0 false with
  | None => None
  | Some (u, tried, _, listed) =>
    Some (completed i f (if f_split f && u_ok u && negb (f_joined f)
                then mkU false (u_start u) (u_space u) (u_dec u) (u_pwd u) (u_auto u) (u_term u) (u_stop u) (u_allok u)
                else u) listed, tried)
  end.
Proof.
  intros Nd F W. unfold unpack_run.
  assert (F0 : i_tried i && negb (i_repaired i) = false) by (unfold fresh in F; destruct (i_tried i), (i_repaired i); auto).
  assert (Fd : (f_rar f || f_7z f || f_7zmulti f || f_split f) = true).
  { unfold needed in Nd. destruct (f_rar f), (f_7z f), (f_7zmulti f); try reflexivity. discriminate. }
  rewrite F0, W, Fd. cbn [andb]. cbv zeta. unfold needed in Nd.
  destruct (f_rar f && f_rar_todo f), (f_7z f), (f_7zmulti f); cbn [app] in Nd; try discriminate; injection Nd as <-;
    cbn [step_if andb when_ok us0 u_ok app].
  all: match goal with |- context [unpack_archives ?s ?ii ?rr ?nn ?x ?ll] => destruct (unpack_archives s ii rr nn x ll) as [[[[u t] n] l]|] end;
       cbn [step_if andb when_ok app]; reflexivity.
Qed.

Lemma exhausted i f runs sz tried file :
  needed f = [sz] -> fresh i = true -> f_wanted f = true ->
  i_password i = [] -> i_passfile i = Some (Some file) ->
  (forall j, r_cmd (runs j) = true /\ r_code (runs j) <> -1 /\ ~ In Stop (r_events (runs j))) ->
  unpack_run i f runs = Some (UStatus usPassword, tried) -> tried = [] :: candidates i.
Proof.
  intros Nd F W P PF R E. rewrite (one_kind _ _ _ _ Nd F W) in E.
  destruct (unpack_archives sz i runs 0 us0 false) as [[[[u t] n] l]|] eqn:A; [|discriminate]. injection E as E <-.
  assert (C0 : clean us0) by (repeat split).
  destruct (arch_ok _ _ _ _ _ _ _ _ _ _ C0 A) as (_ & _ & TS & OKw & _).
  assert (O : u_ok u = false).
  { destruct (u_ok u) eqn:O; [|reflexivity]. destruct (OKw eq_refl) as ((D1 & D2 & _) & _). exfalso.
    unfold completed, fail_status in E. destruct (f_split f && true && negb (f_joined f)); cbn [u_ok u_space u_pwd u_dec andb] in E; rewrite ?O, ?D1, ?D2 in E;
      cbn [orb andb negb] in E.
    - destruct (_ && _ && _ && _ && _ && _); [discriminate|]. destruct (u_space u); discriminate.
    - destruct (f_moved f); [discriminate|]. destruct (u_space u); discriminate. }
  rewrite O, andb_false_r in E. cbn [andb] in E.
  unfold completed in E. rewrite O in E. cbn [andb negb] in E.
  remember (_ && negb (u_start u) && negb (u_space u) && negb (u_pwd u) && (negb (u_term u) || u_auto u) && i_haspars i) as rq eqn:Rq.
  destruct rq; [discriminate|]. injection E as E. unfold fail_status in E.
  destruct (u_space u) eqn:Sp; [discriminate|]. destruct (u_pwd u || u_dec u) eqn:PD; [|discriminate]. clear E.
  (* no start error *)
  assert (NS : forall u0 j v, execute sz (runs j) u0 = Some v -> u_start v = false).
  { intros u0 j v X. destruct (R j) as (R1 & R2 & _). unfold execute in X. rewrite R1 in X. cbn [negb] in X.
    destruct (u_events _ _ _); [|discriminate]. injection X as <-. cbn. apply Z.eqb_neq in R2. now rewrite R2. }
  unfold unpack_archives in A. fold (fresh i) in A. rewrite F in A.
  destruct (execute sz (runs 0%nat) us0) as [v|] eqn:EX; [|discriminate].
  destruct (exec_clean _ _ _ _ C0 EX) as (_ & _ & X3 & X4). destruct (R 0%nat) as (_ & _ & R0). specialize (X4 R0).
  destruct (negb (u_ok v) && i_haspars i && negb (u_pwd v) && (i_par i <=? psSkipped)) eqn:Q.
  - injection A as <- <- <- <-. exfalso. apply andb_true_iff in Q as [Q Q4]. apply andb_true_iff in Q as [Q Q3]. apply andb_true_iff in Q as [_ Q2].
    rewrite (NS _ _ _ EX), Q2, Q3, Q4 in Rq. destruct X3 as [X3 _]. rewrite X3, X4 in Rq. destruct (u_auto v); discriminate Rq.
  - rewrite PF, P in A. destruct (wrong_password v && (negb (u_term v) || u_auto v) && true) eqn:WV.
    + cbn [passwords option_map] in A. destruct (try_list sz runs _ 1%nat v) as [[[w' t'] m']|] eqn:TL; [|discriminate].
      injection A as <- <- <- <-. cbn [app]. f_equal.
      destruct (try_all _ _ _ _ _ _ _ _ X3 ltac:(congruence) (fun j => proj2 (proj2 (R j))) TL) as (K & _).
      unfold candidates. rewrite P, PF. cbn [nonempty]. apply K. unfold wrong_password. rewrite O, Sp.
      assert (St : u_start w' = false).
      { clear - NS EX TL. revert TL. generalize (NS _ _ _ EX). generalize 1%nat. revert w' t' m'. generalize v.
        generalize (pass_lines (length file) file). induction l as [|p ps IH]; intros v0 w' t' m' n S0 TL; cbn [try_list] in TL.
        - injection TL as <- <- <-. exact S0.
        - destruct (wrong_password v0); [|injection TL as <- <- <-; exact S0]. destruct p; [eauto|].
          unfold try_password in TL. destruct (execute sz (runs n) _) as [y|] eqn:Y; [|discriminate].
          destruct (try_list sz runs ps (S n) y) as [[[a b] c]|] eqn:TL'; [|discriminate]. injection TL as <- _ _. eauto. }
      rewrite St. cbn. now rewrite orb_comm.
    + exfalso. injection A as <- <- <- <-. rewrite andb_true_r in WV. unfold wrong_password in WV. rewrite O, (NS _ _ _ EX), Sp, orb_comm, PD in WV.
      destruct X3 as [X3 _]. rewrite X3, X4 in WV. destruct (u_auto v); discriminate WV.
Qed.

Lemma order_one i f runs sz s tried : needed f = [sz] -> fresh i = true -> f_wanted f = true ->
  unpack_run i f runs = Some (s, tried) -> in_order i tried.
Proof.
  intros Nd F W E. rewrite (one_kind _ _ _ _ Nd F W) in E.
  destruct (unpack_archives sz i runs 0 us0 false) as [[[[u t] n] l]|] eqn:A; [|discriminate]. injection E as _ <-.
  assert (C0 : clean us0) by (repeat split). now destruct (arch_ok _ _ _ _ _ _ _ _ _ _ C0 A) as (_ & O & _).
Qed.
