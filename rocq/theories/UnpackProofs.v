(** Unpacking: runs of the unpacker. *)
From Coq Require Import String.
From Verif Require Import Base NumFmt LineModel UnpackModel UnpackSpec.
Open Scope list_scope. Open Scope Z_scope.

(** ** Texts *)

Lemma begins_iff lit t : prefixb lit t = true <-> begins lit t.
Proof. apply prefixb_iff. Qed.
Lemma ends_iff lit t : ends lit t = true <-> exists a, t = a ++ lit.
Proof.
  unfold ends. rewrite beqb_eq. split.
  - intros H. exists (firstn (length t - length lit) t). rewrite <- H at 2. now rewrite firstn_skipn.
  - intros [a ->]. rewrite app_length. replace (length a + length lit - length lit)%nat with (length a) by lia.
    rewrite skipn_app, skipn_all, Nat.sub_diag. reflexivity.
Qed.
Lemma strstr_iff p : forall s, (exists x, strstr s p = Some x) <-> holds p s.
Proof.
  induction s as [|c s IH]; cbn [strstr].
  - destruct (prefixb p []) eqn:E.
    + split; [|eauto]. intros _. apply prefixb_iff in E as [t E]. exists [], t. exact E.
    + split; [intros [x X]; discriminate|]. intros (a & b & H). destruct a; [|discriminate]. destruct p; [discriminate|discriminate].
  - destruct (prefixb p (c :: s)) eqn:E.
    + split; [|eauto]. intros _. apply prefixb_iff in E as [t E]. exists [], t. exact E.
    + rewrite IH. split; intros (a & b & H).
      * exists (c :: a), b. cbn. now rewrite H.
      * destruct a as [|x a].
        -- cbn in H. assert (prefixb p (c :: s) = true) by (apply prefixb_iff; eauto). congruence.
        -- cbn in H. injection H as -> ->. exists a, b. reflexivity.
Qed.
Lemma contains_iff lit t : contains lit t = true <-> holds lit t.
Proof.
  unfold contains. rewrite <- strstr_iff. destruct (strstr t lit); split; try discriminate; eauto. intros [x X]. discriminate.
Qed.
Lemma finishes_iff n lit t : n = Z.of_nat (length lit) ->
  (n <? Z.of_nat (length t)) && ends lit t = true <-> finishes lit t.
Proof.
  intros ->. rewrite andb_true_iff, ends_iff. split.
  - intros [L [a ->]]. exists a. split; [|reflexivity]. rewrite app_length in L. intros ->. cbn in L. apply Z.ltb_lt in L. lia.
  - intros (a & N & ->). split; [|eauto]. rewrite app_length. destruct a; [contradiction|]. cbn [length]. apply Z.ltb_lt. lia.
Qed.

(** ** One line *)

Lemma outside_false_dec sz t : depends_outside sz t = false ->
  (sz && (44 <? Z.of_nat (length t)) && ends (str "Data Error in encrypted file. Wrong password?") t = true <->
   sz = true /\ exists a, t = a ++ str "Data Error in encrypted file. Wrong password?").
Proof.
  intros _. rewrite !andb_true_iff, ends_iff. split.
  - intros ((A & _) & B). auto.
  - intros (-> & [a ->]). split; [split; [reflexivity|]|eauto]. rewrite app_length.
    change (length (str "Data Error in encrypted file. Wrong password?")) with 45%nat. apply Z.ltb_lt. lia.
Qed.

Definition alarm (sz : bool) (t : list Z) : Prop := password_line sz t \/ damage_line t.
Definition clean (u : us) : Prop :=
  u_dec u = false /\ u_pwd u = false /\ u_auto u = false /\ u_term u = false /\ u_stop u = false.

Lemma dmg_iff t :
  contains (str " : packed data CRC failed in volume") t || contains (str " : packed data checksum error in volume") t ||
  ((13 <? Z.of_nat (length t)) && ends (str " - CRC failed") t) ||
  ((18 <? Z.of_nat (length t)) && ends (str " - checksum failed") t) ||
  same_n 67 t (str "Unrar: WARNING: You need to start extraction from a previous volume") = true <-> damage_line t.
Proof.
  rewrite !orb_true_iff, !contains_iff. rewrite (finishes_iff 13 (str " - CRC failed")) by reflexivity.
  rewrite (finishes_iff 18 (str " - checksum failed")) by reflexivity.
  unfold same_n. change (firstn 67 ?x) with x at 1. rewrite begins_iff. unfold damage_line.
  change (firstn 67 (str "Unrar: WARNING: You need to start extraction from a previous volume")) with
    (str "Unrar: WARNING: You need to start extraction from a previous volume"). tauto.
Qed.

(** The flags after a line that was not the result of an undefined comparison. *)
Lemma line_clean sz t u : clean u -> depends_outside sz t = false ->
  exists v, add_message sz t u = Some v /\ u_ok v = u_ok u /\ u_start v = u_start u /\ u_space v = u_space u /\
    ((alarm sz t /\ u_term v = true /\ u_stop v = true /\ u_auto v = true) \/ (~ alarm sz t /\ clean v)) /\
    (u_allok v = true <-> ok_line sz t \/ u_allok u = true) /\
    (u_dec v || u_pwd v = true <-> password_line sz t).
Proof.
  intros (C1 & C2 & C3 & C4 & C5) D. unfold add_message. rewrite D, C1, C2, C3, C4, C5. cbn [negb andb orb].
  eexists. split; [reflexivity|]. cbn [u_ok u_start u_space u_dec u_pwd u_auto u_term u_stop u_allok].
  split; [reflexivity|]. split; [reflexivity|]. split; [reflexivity|].
  remember (if sz && (44 <? Z.of_nat (length t)) && ends (str "Data Error in encrypted file. Wrong password?") t then true else
    if negb sz && (same_n 42 t (str "Unrar: Checksum error in the encrypted file") ||
                             same_n 39 t (str "Unrar: CRC failed in the encrypted file")) then true else false) as dec eqn:Dec.
  remember (if negb sz && (same_n 43 t (str "Unrar: The specified password is incorrect.") ||
                            same_n 29 t (str "Unrar: Incorrect password for")) then true else false) as pwd eqn:Pwd.
  assert (P : dec || pwd = true <-> password_line sz t).
  { rewrite Dec, Pwd. unfold same_n, password_line.
    change (firstn 42 (str "Unrar: Checksum error in the encrypted file")) with (str "Unrar: Checksum error in the encrypted fil").
    change (firstn 39 (str "Unrar: CRC failed in the encrypted file")) with (str "Unrar: CRC failed in the encrypted file").
    change (firstn 43 (str "Unrar: The specified password is incorrect.")) with (str "Unrar: The specified password is incorrect.").
    change (firstn 29 (str "Unrar: Incorrect password for")) with (str "Unrar: Incorrect password for").
    pose proof (outside_false_dec sz t D) as O. 
    destruct sz; cbn [negb andb].
    - cbn [andb] in O. destruct ((44 <? Z.of_nat (length t)) && ends _ t); cbn [orb]; split; try discriminate; intros H.
      + apply O. reflexivity.
      + reflexivity.
      + exfalso. assert (false = true) by (apply O; auto). discriminate.
    - rewrite <- !begins_iff.
      destruct (prefixb (str "Unrar: Checksum error in the encrypted fil") t), (prefixb (str "Unrar: CRC failed in the encrypted file") t),
        (prefixb (str "Unrar: The specified password is incorrect.") t), (prefixb (str "Unrar: Incorrect password for") t);
        cbn [orb]; split; auto; try discriminate; intros [H|[H|[H|H]]]; discriminate H. }
  clear Dec Pwd. 
  split; [|split; [|exact P]].
  - remember (dec || pwd || _ || _ || _ || _ || _) as c eqn:Cc.
    assert (Ci : c = true <-> alarm sz t).
    { rewrite Cc. unfold alarm. rewrite <- P, <- dmg_iff. rewrite !orb_true_iff. tauto. }
    destruct c.
    + left. split; [now apply Ci|]. repeat split.
    + right. assert (NA : ~ alarm sz t) by (intros A; apply Ci in A; discriminate). split; [exact NA|].
      assert (E : dec || pwd = false).
      { apply not_true_iff_false. rewrite P. intros H. apply NA. left. exact H. }
      apply orb_false_iff in E as [-> ->]. repeat split.
  - unfold ok_line. rewrite <- begins_iff. unfold same_n.
    change (firstn 13 (str "Unrar: All OK")) with (str "Unrar: All OK").
    change (firstn 23 (str "7-Zip: Everything is Ok")) with (str "7-Zip: Everything is Ok").
    destruct sz; cbn [negb andb orb].
    + destruct (prefixb (str "7-Zip: Everything is Ok") t); split; auto. intros [H|H]; [discriminate|exact H].
    + rewrite orb_false_r. destruct (prefixb (str "Unrar: All OK") t); split; auto. intros [H|H]; [discriminate|exact H].
Qed.

Lemma outside_none sz t u : depends_outside sz t = true -> add_message sz t u = None.
Proof. intros H. unfold add_message. now rewrite H. Qed.

(** ** One run *)

Definition tstate (u : us) : Prop := u_term u = u_stop u /\ (u_auto u = true -> u_stop u = true).

Lemma events_clean sz : forall es u v, clean u -> u_events sz es u = Some v ->
  (u_term v = false -> clean v /\ ~ In Stop es /\ (forall t, In (Line t) es -> ~ alarm sz t) /\
                       (u_allok v = true <-> u_allok u = true \/ exists t, In (Line t) es /\ ok_line sz t)) /\
  (~ In Stop es -> (forall t, In (Line t) es -> ~ alarm sz t) -> u_term v = false) /\
  tstate v /\ (~ In Stop es -> u_stop v = u_auto v).
Proof.
  induction es as [|e es IH]; intros u v C E.
  - cbn in E. injection E as <-. pose proof C as (C1 & C2 & C3 & C4 & C5). unfold tstate. rewrite C3, C4, C5.
    split; [|split; [reflexivity|split; [split; [reflexivity|discriminate]|reflexivity]]].
    intros _. split; [exact C|]. split; [intros []|]. split; [intros t []|]. split; [auto|]. intros [K|(t & [] & _)]. exact K.
  - cbn [u_events] in E. pose proof C as (C1 & C2 & C3 & C4 & C5). rewrite C4 in E. destruct e as [t|].
    + cbn [u_event] in E. destruct (depends_outside sz t) eqn:D; [rewrite (outside_none _ _ _ D) in E; discriminate|].
      destruct (line_clean sz t u C D) as (w & EA & _ & _ & _ & [(A & W1 & W2 & W3) | (A & W)] & Ok & _); rewrite EA in E.
      * assert (v = w) as -> by (destruct es; cbn [u_events] in E; [congruence|rewrite W1 in E; congruence]).
        unfold tstate. rewrite W1, W2, W3. split; [discriminate|]. split; [intros _ H; exfalso; exact (H t (or_introl eq_refl) A)|].
        repeat split; auto.
      * destruct (IH _ _ W E) as (I1 & I2 & I3 & I4). split; [|split; [|split; [exact I3|]]].
        -- intros T. destruct (I1 T) as (J1 & J2 & J3 & J4). split; [exact J1|]. split; [intros [H|H]; [discriminate H|exact (J2 H)]|].
           split; [intros t' [H|H]; [injection H as <-; exact A|exact (J3 _ H)]|].
           rewrite J4, Ok. split.
           ++ intros [[H|H]|(t' & H & K)]; [right; exists t; split; [now left|exact H] | left; exact H | right; exists t'; split; [now right|exact K]].
           ++ intros [H|(t' & [H|H] & K)]; [left; right; exact H | injection H as ->; left; left; exact K | right; exists t'; auto].
        -- intros NS NA. apply I2; [intros H; apply NS; now right | intros t' H; apply NA; now right].
        -- intros NS. apply I4. intros H. apply NS. now right.
    + cbn [u_event] in E. assert (v = mkU (u_ok u) (u_start u) (u_space u) (u_dec u) (u_pwd u) (u_auto u) true true (u_allok u)) as ->
        by (destruct es; cbn in E; congruence).
      unfold tstate. cbn. split; [discriminate|]. split; [intros H; exfalso; apply H; now left|]. repeat split; auto.
      intros H. exfalso. apply H. now left.
Qed.

Lemma events_dead sz es u : u_term u = true -> u_events sz es u = Some u.
Proof. intros T. destruct es; cbn; [reflexivity|]. now rewrite T. Qed.

Lemma exec_dead sz r u v : u_term u = true -> execute sz r u = Some v ->
  u_ok v = false /\ u_term v = true /\ u_stop v = u_stop u /\ u_auto v = u_auto u.
Proof.
  intros T E. unfold execute in E. destruct (negb (r_cmd r)).
  - injection E as <-. cbn. auto.
  - rewrite events_dead in E by exact T. injection E as <-. cbn. rewrite T. cbn. rewrite andb_false_r. auto.
Qed.

Lemma exec_clean sz r u v : clean u -> execute sz r u = Some v ->
  (u_ok v = true <-> good_run sz r) /\ (u_ok v = true -> clean v) /\ tstate v /\
  (~ In Stop (r_events r) -> u_stop v = u_auto v).
Proof.
  intros C E. unfold execute in E. pose proof C as (C1 & C2 & C3 & C4 & C5). destruct (r_cmd r) eqn:R; cbn [negb] in E.
  - destruct (u_events sz (r_events r) _) as [w|] eqn:EV; [|discriminate]. injection E as <-.
    cbn [u_ok u_start u_space u_dec u_pwd u_auto u_term u_stop u_allok].
    assert (C' : clean (mkU (u_ok u) (u_start u) (u_space u) (u_dec u) (u_pwd u) (u_auto u) (u_term u) (u_stop u) false)) by (repeat split; assumption).
    destruct (events_clean sz _ _ _ C' EV) as (E1 & E2 & E3 & E4).
    unfold tstate in *. cbn [u_ok u_start u_space u_dec u_pwd u_auto u_term u_stop u_allok] in *.
    split; [|split; [|split; [exact E3|exact E4]]].
    + rewrite !andb_true_iff, Z.eqb_eq, negb_true_iff. split.
      * intros ((Co & Ok) & T). destruct (E1 T) as (_ & NS & NA & OK). split; [exact R|]. split; [exact Co|]. split; [exact NS|].
        split; [destruct (proj1 OK Ok) as [H|H]; [discriminate H|exact H]|].
        intros t H. specialize (NA t H). unfold alarm in NA. tauto.
      * intros (_ & Co & NS & Ok & NA).
        assert (T : u_term w = false). { apply E2; [exact NS|]. intros t H [K|K]; destruct (NA t H); contradiction. }
        destruct (E1 T) as (_ & _ & _ & OK). repeat split; auto. apply OK. right. exact Ok.
    + rewrite !andb_true_iff, Z.eqb_eq, negb_true_iff. intros ((Co & Ok) & T). destruct (E1 T) as ((D1 & D2 & D3 & D4 & D5) & _).
      unfold clean. cbn [u_ok u_start u_space u_dec u_pwd u_auto u_term u_stop u_allok]. rewrite D1, D2, D3, D4, D5, Co. cbn.
      rewrite andb_false_r. auto.
  - injection E as <-. unfold tstate. cbn. split; [split; [discriminate|]|split; [discriminate|]].
    + intros (H & _). congruence.
    + rewrite C3, C4, C5. auto.
Qed.

(** ** The list of passwords *)

Lemma try_ready u : tstate u ->
  let w := mkU (u_ok u) (u_start u) (u_space u) false false false
               (if u_stop u && u_auto u then false else u_term u) (if u_stop u && u_auto u then false else u_stop u) (u_allok u) in
  clean w \/ (u_term w = true /\ u_stop w = true /\ u_auto w = false /\ u_stop u = true /\ u_auto u = false).
Proof.
  intros [A B]. cbn. unfold clean. cbn. rewrite A. destruct (u_stop u), (u_auto u); cbn; auto 10.
Qed.

Lemma try_ok sz runs : forall ps n u w tried m, tstate u -> u_ok u = false -> try_list sz runs ps n u = Some (w, tried, m) ->
  m = (n + length tried)%nat /\ (exists r, filter nonempty ps = tried ++ r) /\ tstate w /\
  (u_ok w = true -> clean w /\ (u_stop u = true -> u_auto u = true) /\
     exists k, length tried = S k /\ good_run sz (runs (n + k)%nat) /\ forall j, (j < k)%nat -> ~ good_run sz (runs (n + j)%nat)).
Proof.
  induction ps as [|p ps IH]; intros n u w tried m T O E.
  - cbn in E. injection E as <- <- <-. cbn. split; [lia|]. split; [exists []; reflexivity|]. split; [exact T|]. congruence.
  - cbn [try_list] in E. destruct (wrong_password u).
    2:{ injection E as <- <- <-. cbn [length app]. split; [lia|]. split; [eauto|]. split; [exact T|]. congruence. }
    destruct p as [|c p].
    { destruct (IH _ _ _ _ _ T O E) as (A & B & C & D). auto. }
    destruct (try_password sz (runs n) u) as [v|] eqn:TP; [|discriminate].
    destruct (try_list sz runs ps (S n) v) as [[[w' t'] m']|] eqn:TL; [|discriminate]. injection E as -> <- ->.
    unfold try_password in TP. cbv zeta in TP. destruct (try_ready u T) as [Cl | (D1 & D2 & D3 & D4 & D5)]; cbv zeta in *.
    + destruct (exec_clean _ _ _ _ Cl TP) as (X1 & X2 & X3 & X4).
      destruct (u_ok v) eqn:OV.
      * (* the loop ends *)
        assert (TL' : try_list sz runs ps (S n) v = Some (v, [], S n)).
        { destruct ps; cbn [try_list]; [reflexivity|]. unfold wrong_password. rewrite OV. reflexivity. }
        rewrite TL' in TL. injection TL as <- <- <-. cbn [length app]. split; [lia|]. split; [exists (filter nonempty ps); reflexivity|].
        split; [exact X3|]. intros _. split; [apply X2; reflexivity|].
        split; [intros S1; destruct (u_auto u) eqn:A1; [reflexivity|]; destruct Cl as (_ & _ & _ & _ & K); rewrite S1 in K; cbn in K; discriminate|].
        exists 0%nat. rewrite Nat.add_0_r. split; [reflexivity|]. split; [now apply X1|]. lia.
      * destruct (IH _ _ _ _ _ X3 OV TL) as (A & (r & B) & C & D). cbn [length app filter nonempty].
        split; [lia|]. split; [exists r; now rewrite B|]. split; [exact C|]. intros OW. destruct (D OW) as (D1 & D2 & k & D3 & D4 & D5).
        split; [exact D1|].
        split; [intros S1; destruct (u_auto u) eqn:A1; [reflexivity|]; destruct Cl as (_ & _ & _ & _ & K); rewrite S1 in K; cbn in K; discriminate|].
        exists (S k). split; [lia|]. split; [now replace (n + S k)%nat with (S n + k)%nat by lia|].
        intros j J. destruct j as [|j].
        -- rewrite Nat.add_0_r. rewrite <- X1. discriminate.
        -- replace (n + S j)%nat with (S n + j)%nat by lia. apply D5. lia.
    + destruct (exec_dead _ _ _ _ D1 TP) as (X1 & X2 & X3 & X4). cbn in D2, D3. cbn in X3, X4. rewrite D2 in X3. 
      assert (TV : tstate v) by (split; [congruence|congruence]).
      destruct (IH _ _ _ _ _ TV X1 TL) as (A & (r & B) & C & D). cbn [length app filter nonempty].
      split; [lia|]. split; [exists r; now rewrite B|]. split; [exact C|]. intros OW. destruct (D OW) as (_ & K & _).
      specialize (K X3). congruence.
Qed.

(** No stop by the user: all passwords are tried before giving up. *)
Lemma try_all sz runs : forall ps n u w tried m, tstate u -> (u_stop u = true -> u_auto u = true) ->
  (forall j, ~ In Stop (r_events (runs j))) -> try_list sz runs ps n u = Some (w, tried, m) ->
  (wrong_password w = true -> tried = filter nonempty ps) /\ (u_stop w = true -> u_auto w = true).
Proof.
  induction ps as [|p ps IH]; intros n u w tried m T SA NS E.
  - cbn in E. injection E as <- <- <-. auto.
  - cbn [try_list] in E. destruct (wrong_password u) eqn:W; [|injection E as <- <- <-; split; [congruence|exact SA]].
    destruct p as [|c p]; [cbn [filter nonempty]; eauto|].
    destruct (try_password sz (runs n) u) as [v|] eqn:TP; [|discriminate].
    destruct (try_list sz runs ps (S n) v) as [[[w' t'] m']|] eqn:TL; [|discriminate]. injection E as -> <- ->.
    unfold try_password in TP. cbv zeta in TP. destruct (try_ready u T) as [Cl | (D1 & D2 & D3 & D4 & D5)]; cbv zeta in *.
    + destruct (exec_clean _ _ _ _ Cl TP) as (X1 & X2 & X3 & X4). specialize (X4 (NS n)).
      destruct (IH _ _ _ _ _ X3 ltac:(congruence) NS TL) as (A & B). split; [|exact B]. intros K. cbn [filter nonempty]. now rewrite (A K).
    + rewrite (SA D4) in D5. discriminate.
Qed.

(** ** One kind of archives *)

Definition worked (sz : bool) (runs : nat -> run) (n : nat) (tried : list (list Z)) : Prop :=
  exists k, length tried = S k /\ good_run sz (runs (n + k)%nat) /\ forall j, (j < k)%nat -> ~ good_run sz (runs (n + j)%nat).

Lemma order_none i : in_order i (if fresh i then [i_password i] else []).
Proof. exists [], (candidates i). now rewrite app_nil_r. Qed.

Lemma list_part sz i runs n v listed base w tried m l :
  tstate v -> base = (if fresh i then [i_password i] else []) ->
  match i_passfile i with
    | Some file =>
      if wrong_password v && (negb (u_term v) || u_auto v) && (match i_password i with [] => true | _ => false end)
      then
        match passwords file with
        | None => Some (v, base, n, listed)
        | Some ps =>
          match try_list sz runs ps n v with
          | None => None
          | Some (w, tried', m') => Some (w, base ++ tried', m', negb (u_stop w) || u_auto w)
          end
        end
      else Some (v, base, n, listed)
    | None => Some (v, base, n, listed)
    end = Some (w, tried, m, l) ->
  exists t, tried = base ++ t /\ m = (n + length t)%nat /\ in_order i tried /\ tstate w /\
    ((t = [] /\ w = v) \/ (u_ok v = false /\ (u_ok w = true -> clean w /\ worked sz runs n t))).
Proof.
  intros T Hb E. pose proof (order_none i) as N. rewrite <- Hb in N.
  assert (Base : forall x, Some (v, base, n, x) = Some (w, tried, m, l) ->
    exists t, tried = base ++ t /\ m = (n + length t)%nat /\ in_order i tried /\ tstate w /\
    ((t = [] /\ w = v) \/ (u_ok v = false /\ (u_ok w = true -> clean w /\ worked sz runs n t)))).
  { intros x X. injection X as <- <- <- <-. exists []. rewrite app_nil_r. cbn. split; [reflexivity|]. split; [lia|]. auto. }
  destruct (i_passfile i) as [file|] eqn:PF; [|eauto].
  destruct (wrong_password v && (negb (u_term v) || u_auto v) && (match i_password i with [] => true | _ => false end)) eqn:W; [|eauto].
  destruct file as [file|]; cbn [passwords option_map] in E; [|eauto].
  destruct (try_list sz runs (pass_lines (length file) file) n v) as [[[w' t'] m']|] eqn:TL; [|discriminate].
  injection E as -> <- -> <-. apply andb_true_iff in W as [W P]. apply andb_true_iff in W as [W _].
  assert (O : u_ok v = false). { unfold wrong_password in W. destruct (u_ok v); [discriminate W|reflexivity]. }
  destruct (try_ok _ _ _ _ _ _ _ _ T O TL) as (A & (r & B) & C & D).
  exists t'. split; [reflexivity|]. split; [exact A|].
  split; [|split; [exact C|right; split; [exact O|intros K; destruct (D K) as (D1 & _ & D2); split; [exact D1|exact D2]]]].
  exists t', r. rewrite <- Hb. split; [reflexivity|]. unfold candidates. rewrite PF. destruct (i_password i); [exact B|discriminate P].
Qed.

Lemma arch_ok sz i runs n u listed w tried m l : clean u -> unpack_archives sz i runs n u listed = Some (w, tried, m, l) ->
  m = (n + length tried)%nat /\ in_order i tried /\ tstate w /\ (u_ok w = true -> clean w /\ worked sz runs n tried) /\
  (fresh i = true -> good_run sz (runs n) -> u_ok w = true /\ tried = [i_password i]).
Proof.
  intros C E. unfold unpack_archives in E. fold (fresh i) in E. destruct (fresh i) eqn:F.
  - destruct (execute sz (runs n) u) as [v|] eqn:EX; [|discriminate].
    destruct (exec_clean _ _ _ _ C EX) as (X1 & X2 & X3 & X4).
    destruct (negb (u_ok v) && i_haspars i && negb (u_pwd v) && (i_par i <=? psSkipped)) eqn:Q.
    + injection E as <- <- <- <-. cbn [length]. split; [lia|]. pose proof (order_none i) as N. rewrite F in N. split; [exact N|].
      split; [exact X3|]. assert (O : u_ok v = false) by (destruct (u_ok v); [discriminate Q|reflexivity]).
      split; [congruence|]. intros _ G. apply X1 in G. congruence.
    + destruct (list_part sz i runs (S n) v listed [i_password i] w tried m l X3 ltac:(now rewrite F) E) as (t & -> & -> & A & B & D).
      rewrite app_length. cbn [length]. split; [lia|]. split; [exact A|]. split; [exact B|]. split.
      * intros OW. destruct D as [(-> & ->) | (O & D)].
        -- split; [now apply X2|]. exists 0%nat. split; [reflexivity|]. rewrite Nat.add_0_r. split; [now apply X1|]. lia.
        -- destruct (D OW) as (D1 & k & D2 & D3 & D4). split; [exact D1|]. exists (S k). rewrite app_length. cbn [length].
           split; [lia|]. split; [now replace (n + S k)%nat with (S n + k)%nat by lia|]. intros j J. destruct j as [|j].
           ++ rewrite Nat.add_0_r, <- X1. congruence.
           ++ replace (n + S j)%nat with (S n + j)%nat by lia. apply D4. lia.
      * intros _ G. apply X1 in G. destruct D as [(-> & ->) | (O & D)]; [auto|congruence].
  - remember (mkU false (u_start u) (u_space u) (i_last i =? usPassword) (u_pwd u) (u_auto u) (u_term u) (u_stop u) (u_allok u)) as v eqn:Ev.
    assert (T : tstate v) by (subst v; destruct C as (C1 & C2 & C3 & C4 & C5); unfold tstate; cbn; rewrite C3, C4, C5; auto).
    destruct (list_part sz i runs n v listed [] w tried m l T ltac:(now rewrite F) E) as (t & -> & -> & A & B & D). cbn [app].
    split; [reflexivity|]. split; [exact A|]. split; [exact B|]. split; [|discriminate].
    intros OW. destruct D as [(-> & ->) | (O & D)]; [subst v; discriminate OW|auto].
Qed.

(** ** The job *)

Lemma status_ok f u i l : completed i f u l = UStatus usSuccess -> u_ok u = true /\ f_moved f = true.
Proof.
  unfold completed. destruct (u_ok u && f_moved f) eqn:E; [intros _; now apply andb_true_iff in E|].
  destruct (_ && _ && _ && _ && _ && _ && _); [discriminate|]. intros H. injection H as H. unfold fail_status in H.
  destruct (u_space u); [discriminate|]. destruct (u_pwd u || u_dec u); discriminate.
Qed.

Definition step_ok1 (i : uin) (runs : nat -> run) (c sz : bool) (a : option (us * list (list Z) * nat * bool)) : Prop :=
  forall u t n l, a = Some (u, t, n, l) -> u_ok u = true -> clean u /\ n = length t.

Lemma step_if_ok c sz i runs u t n l v t' m l' : clean u -> n = length t ->
  step_if c sz i runs (Some (u, t, n, l)) = Some (v, t', m, l') -> (u_ok u = true) -> u_ok v = true ->
  clean v /\ m = length t' /\ exists part, t' = t ++ part /\ if c then in_order i part /\ worked sz runs n part else part = [].
Proof.
  intros C N E OU OV. unfold step_if in E. destruct c.
  - destruct (unpack_archives sz i runs n u l) as [[[[w p] k] x]|] eqn:A; [|discriminate]. injection E as -> <- -> ->.
    destruct (arch_ok _ _ _ _ _ _ _ _ _ _ C A) as (A1 & A2 & A3 & A4 & _). destruct (A4 OV) as (A5 & A6).
    split; [exact A5|]. rewrite app_length. split; [lia|]. exists p. auto.
  - injection E as <- <- <- <-. split; [exact C|]. split; [exact N|]. exists []. now rewrite app_nil_r.
Qed.

Lemma archives_found i f runs s tried : unpack_run i f runs = Some (UStatus s, tried) -> s <> i_last i -> s <> usFailure -> s <> usSkipped ->
  f_wanted f = true /\ (f_rar f || f_7z f || f_7zmulti f || f_split f) = true.
Proof.
  unfold unpack_run. destruct (i_tried i && negb (i_repaired i) && _); [intros E; injection E as <- <-; congruence|].
  destruct (f_wanted f); cbn [andb].
  - destruct (f_rar f || f_7z f || f_7zmulti f || f_split f); [auto|].
    destruct (_ && _ && _); [discriminate|]. destruct (f_renamed f); intros E; injection E as <- <-; congruence.
  - intros E. injection E as <- <-. congruence.
Qed.

Lemma when_ok_true a : when_ok a = true -> exists u t n l, a = Some (u, t, n, l) /\ u_ok u = true.
Proof. destruct a as [[[[u t] n] l]|]; cbn; [eauto 6|discriminate]. Qed.

(** A step that is left out because of an error does not end well. *)
Lemma step_bad c sz i runs u t n l : u_ok u = false -> step_if (c && u_ok u) sz i runs (Some (u, t, n, l)) = Some (u, t, n, l).
Proof. intros ->. rewrite andb_false_r. reflexivity. Qed.

Lemma success_sound i f runs tried : unpack_run i f runs = Some (UStatus usSuccess, tried) -> i_last i <> usSuccess ->
  f_wanted f = true /\ f_moved f = true /\ (f_split f = true -> f_joined f = true) /\
  (f_rar f || f_7z f || f_7zmulti f || f_split f) = true /\ all_extracted i (needed f) 0 runs tried.
Proof.
  intros E NL. destruct (archives_found _ _ _ _ _ E ltac:(congruence) ltac:(discriminate) ltac:(discriminate)) as (W & Fd).
  unfold unpack_run in E. destruct (i_tried i && negb (i_repaired i) && _); [injection E as E _; congruence|].
  rewrite W, Fd in E. cbn [andb] in E.
  assert (C0 : clean us0) by (repeat split).
  destruct (step_if (f_rar f && f_rar_todo f) false i runs (Some (us0, [], 0%nat, false))) as [[[[u1 t1] n1] l1]|] eqn:A1.
  2:{ cbn in E. discriminate. }
  cbn [when_ok] in E.
  destruct (u_ok u1) eqn:O1.
  2:{ rewrite andb_false_r in E. cbn [step_if when_ok] in E. rewrite O1, andb_false_r in E. cbn [step_if] in E.
      rewrite O1, andb_false_r in E. cbn [andb] in E. injection E as E _. apply status_ok in E as [E _]. congruence. }
  rewrite andb_true_r in E.
  destruct (step_if (f_7z f) true i runs (Some (u1, t1, n1, l1))) as [[[[u2 t2] n2] l2]|] eqn:A2.
  2:{ cbn in E. discriminate. }
  cbn [when_ok] in E.
  destruct (u_ok u2) eqn:O2.
  2:{ rewrite andb_false_r in E. cbn [step_if] in E. rewrite O2, andb_false_r in E. cbn [andb] in E. injection E as E _.
      apply status_ok in E as [E _]. congruence. }
  rewrite andb_true_r in E.
  destruct (step_if (f_7zmulti f) true i runs (Some (u2, t2, n2, l2))) as [[[[u3 t3] n3] l3]|] eqn:A3; [|discriminate].
  injection E as E <-. apply status_ok in E as [OK M].
  assert (O3 : u_ok u3 = true /\ (f_split f = true -> f_joined f = true)).
  { destruct (u_ok u3) eqn:X; [|rewrite andb_false_r in OK; cbn in OK; congruence].
    rewrite andb_true_r in OK. split; [reflexivity|]. intros S1. rewrite S1 in OK. destruct (f_joined f); [reflexivity|discriminate OK]. }
  destruct O3 as [O3 J].
  destruct (step_if_ok _ _ _ _ _ _ _ _ _ _ _ _ C0 eq_refl A1 eq_refl O1) as (C1 & N1 & p1 & P1 & Q1).
  destruct (step_if_ok _ _ _ _ _ _ _ _ _ _ _ _ C1 N1 A2 O1 O2) as (C2 & N2 & p2 & P2 & Q2).
  destruct (step_if_ok _ _ _ _ _ _ _ _ _ _ _ _ C2 N2 A3 O2 O3) as (C3 & N3 & p3 & P3 & Q3).
  split; [exact W|]. split; [exact M|]. split; [exact J|]. split; [exact Fd|]. cbn [app] in P1. subst t1 t2 t3. unfold needed.
  assert (T3 : forall n, n = n2 -> all_extracted i (if f_7zmulti f then [true] else []) n runs p3).
  { intros n ->. destruct (f_7zmulti f); cbn [all_extracted]; [|exact Q3].
    destruct Q3 as [Q (k & K1 & K2 & K3)]. exists p3, [], k. rewrite app_nil_r.
    split; [reflexivity|]. split; [exact K1|]. split; [exact K2|]. split; [exact K3|]. split; [exact Q|reflexivity]. }
  assert (T2 : forall n, n = n1 -> all_extracted i ((if f_7z f then [true] else []) ++ (if f_7zmulti f then [true] else [])) n runs (p2 ++ p3)).
  { intros n ->. destruct (f_7z f); cbn [all_extracted app].
    - destruct Q2 as [Q (k & K1 & K2 & K3)]. exists p2, p3, k.
      split; [reflexivity|]. split; [exact K1|]. split; [exact K2|]. split; [exact K3|]. split; [exact Q|]. apply T3. rewrite N2, app_length, <- N1. lia.
    - subst p2. apply T3. rewrite N2, app_nil_r. exact N1. }
  rewrite <- app_assoc. destruct (f_rar f && f_rar_todo f); cbn [all_extracted app].
  - destruct Q1 as [Q (k & K1 & K2 & K3)]. exists p1, (p2 ++ p3), k.
    split; [reflexivity|]. split; [exact K1|]. split; [exact K2|]. split; [exact K3|]. split; [exact Q|]. apply T2. rewrite N1, K1. lia.
  - subst p1. apply T2. exact (eq_sym N1).
Qed.
