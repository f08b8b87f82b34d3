(** Proofs: the status after a run of an unpacker that failed (C121). *)
From Coq Require Import String.
From Verif Require Import Base NumFmt LineModel UnpackModel UnpackSpec UnpackProofs UnpackProofs2.
Open Scope list_scope. Open Scope Z_scope.

Lemma events_trouble sz : forall es u v, clean u -> ~ In Stop es -> u_events sz es u = Some v ->
  (u_dec v || u_pwd v = true <-> exists t, first_trouble sz es t /\ password_line sz t) /\ u_space v = u_space u.
Proof.
  induction es as [|e es IH]; intros u v C NS E.
  - cbn in E. injection E as <-. destruct C as (C1 & C2 & _). rewrite C1, C2. cbn. split; [|reflexivity]. split; [discriminate|].
    intros (t & (a & b & H & _) & _). destruct a; discriminate H.
  - cbn [u_events] in E. pose proof C as (C1 & C2 & C3 & C4 & C5). rewrite C4 in E.
    destruct e as [t|]; [|exfalso; apply NS; now left].
    cbn [u_event] in E. destruct (depends_outside sz t) eqn:D; [rewrite (outside_none _ _ _ D) in E; discriminate|].
    destruct (line_clean sz t u C D) as (w & EA & _ & _ & Sp & [(A & W1 & W2 & W3) | (A & W)] & _ & P); rewrite EA in E.
    + assert (v = w) as -> by (destruct es; cbn [u_events] in E; [congruence|rewrite W1 in E; congruence]).
      split; [|exact Sp]. rewrite P. split.
      * intros Pl. exists t. split; [|exact Pl]. exists [], es. split; [reflexivity|]. split; [left; exact Pl|]. intros t' [].
      * intros (t' & (a & b & H & Al & Bef) & Pl). destruct a as [|x a].
        -- injection H as <- _. exact Pl.
        -- injection H as <- _. exfalso. destruct (Bef t (or_introl eq_refl)) as (N1 & N2). destruct A; auto.
    + assert (NS' : ~ In Stop es) by (intros H; apply NS; now right).
      destruct (IH _ _ W NS' E) as (I1 & I2). split; [|congruence]. rewrite I1. split.
      * intros (t' & (a & b & H & Al & Bef) & Pl). exists t'. split; [|exact Pl]. exists (Line t :: a), b. split; [now rewrite H|].
        split; [exact Al|]. intros t2 [K|K]; [injection K as <-; unfold alarm in A; tauto | exact (Bef t2 K)].
      * intros (t' & (a & b & H & Al & Bef) & Pl). destruct a as [|x a].
        -- injection H as <- _. exfalso. apply A. exact Al.
        -- injection H as <- H. exists t'. split; [|exact Pl]. exists a, b. split; [exact H|]. split; [exact Al|].
           intros t2 K. apply Bef. now right.
Qed.

(** The status of a job with one kind of archive and no further passwords. *)
Lemma failed_status i f runs sz res tried : needed f = [sz] -> fresh i = true -> f_wanted f = true ->
  (i_passfile i = None \/ i_password i <> []) -> r_cmd (runs O) = true -> ~ In Stop (r_events (runs O)) ->
  unpack_run i f runs = Some (res, tried) -> ~ good_run sz (runs O) ->
  (status_of res = usSpace <-> shows_full sz (runs O)) /\
  (status_of res = usPassword <-> ~ shows_full sz (runs O) /\ shows_password sz (runs O)) /\
  (status_of res = usFailure <-> ~ shows_full sz (runs O) /\ ~ shows_password sz (runs O)) /\ tried = [i_password i].
Proof.
  intros Nd F W NL Cm NS E NG. rewrite (one_kind i f runs sz Nd F W) in E. unfold unpack_archives in E.
  unfold fresh in F. rewrite F in E.
  assert (C0 : clean us0) by (repeat split).
  destruct (execute sz (runs O) us0) as [v|] eqn:EX; [|discriminate].
  destruct (exec_clean sz _ _ _ C0 EX) as (G & _). 
  assert (NOK : u_ok v = false) by (destruct (u_ok v); [exfalso; apply NG, G; reflexivity | reflexivity]).
  unfold execute in EX. rewrite Cm in EX. cbn [negb] in EX.
  destruct (u_events sz (r_events (runs O)) _) as [w|] eqn:EV; [|discriminate].
  assert (Cw : clean (mkU (u_ok us0) (u_start us0) (u_space us0) (u_dec us0) (u_pwd us0) (u_auto us0) (u_term us0) (u_stop us0) false)) by (repeat split).
  destruct (events_trouble sz _ _ _ Cw NS EV) as (T & Sp). cbn [u_space us0] in Sp.
  assert (Fs : (u_space v = true <-> shows_full sz (runs O)) /\ (u_pwd v || u_dec v = true <-> shows_password sz (runs O))).
  { injection EX as <-. cbn [u_space u_pwd u_dec]. unfold shows_full, shows_password. rewrite <- T, !orb_true_iff. destruct sz; cbn [negb andb].
    - rewrite Sp. split; [split; [discriminate|intros (H & _); discriminate H]|].
      split; [intros [[H|H]|H]; [auto|discriminate H|auto] | intros [(H & _)|[H|H]]; [discriminate H|auto|auto]].
    - rewrite !Z.eqb_eq. split; [tauto|]. tauto. }
  clear EX T Sp EV. destruct Fs as (Fs & Fp).
  assert (Ex : exists l k, status_of res = status_of (completed i f v l) /\ tried = [i_password i] /\ k = l).
  { remember (negb (u_ok v) && i_haspars i && negb (u_pwd v) && (i_par i <=? psSkipped)) as early eqn:Ea. destruct early.
    - rewrite NOK, andb_false_r, andb_false_l in E. injection E as <- <-. eauto.
    - assert (X : (wrong_password v && (negb (u_term v) || u_auto v) && match i_password i with [] => true | _ => false end) = false \/ i_passfile i = None).
      { destruct NL as [H|H]; [now right|left]. destruct (i_password i); [congruence|]. now rewrite andb_false_r. }
      destruct (i_passfile i) as [file|] eqn:PF.
      + destruct X as [X|X]; [|discriminate X]. rewrite X in E. rewrite NOK, andb_false_r, andb_false_l in E. injection E as <- <-. eauto.
      + rewrite NOK, andb_false_r, andb_false_l in E. injection E as <- <-. eauto. }
  destruct Ex as (l & _ & -> & -> & _). 
  assert (St : status_of (completed i f v l) = fail_status v).
  { unfold completed. rewrite NOK. cbn [andb negb]. match goal with |- context [if ?c then _ else _] => destruct c end; reflexivity. }
  rewrite St. unfold fail_status. rewrite <- Fs, <- Fp.
  destruct (u_space v), (u_pwd v || u_dec v); unfold usSpace, usPassword, usFailure; 
    repeat split; try discriminate; try tauto; try (intros (A & B); try discriminate; exfalso; apply A; reflexivity); 
    try (intros (A & B); exfalso; apply B; reflexivity); intuition discriminate.
Qed.

Lemma nothing_found i f runs : fresh i = true -> needed f = [] -> f_rar f = false -> f_split f = false ->
  exists res, unpack_run i f runs = Some (res, []) /\
  (f_wanted f = false -> res = UStatus usSkipped) /\
  (f_wanted f = true -> i_par i <= psSkipped -> f_prenamed f = false -> i_haspars i = true -> res = URequest false false usFailure) /\
  (f_wanted f = true -> (psSkipped < i_par i \/ f_prenamed f = true \/ i_haspars i = false) -> res = UStatus (if f_renamed f then usFailure else usSkipped)).
Proof.
  intros Fr Nd Rr Sp. unfold unpack_run. assert (T : i_tried i && negb (i_repaired i) = false) by (unfold fresh in Fr; destruct (i_tried i), (i_repaired i); cbn in *; congruence).
  rewrite T. cbn [andb]. unfold needed in Nd. rewrite Rr in *. cbn [andb app] in Nd. destruct (f_7z f); [discriminate Nd|]. destruct (f_7zmulti f); [discriminate Nd|]. rewrite Sp. cbn [orb]. rewrite andb_false_r.
  destruct (f_wanted f).
  - destruct (i_par i <=? psSkipped) eqn:P, (f_prenamed f) eqn:N, (i_haspars i) eqn:Hh; cbn [andb negb]; try (destruct (f_renamed f)); eexists; (split; [reflexivity|]); repeat split; try discriminate; try congruence;
      try (intros; apply Z.leb_gt in P; lia); intros _ [D|[D|D]]; try discriminate D; apply Z.leb_le in P; lia.
  - eexists. split; [reflexivity|]. repeat split; discriminate.
Qed.
