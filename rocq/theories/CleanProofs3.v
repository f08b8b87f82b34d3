(** Proofs: moving to the final directory (C154). *)
From Coq Require Import String Permutation.
From Verif Require Import Base NumFmt NameModel NameSpec NzbModel NzbSpec CleanModel CleanSpec.
From Verif Require NameProofs.
Open Scope list_scope. Open Scope Z_scope.

Lemma drop_trailing_len : forall s, (length (drop_trailing s) <= length s)%nat.
Proof. intros s. destruct (NameProofs.drop_spec s) as (b & E & _). rewrite E at 2. rewrite app_length. lia. Qed.
Lemma valid_len n : (length (make_valid false n) <= S (length n))%nat.
Proof.
  unfold make_valid. pose proof (drop_trailing_len (map (valid_char false) n)) as H. rewrite map_length in H.
  destruct (existsb _ device_names); cbn [length]; lia.
Qed.

Lemma in_regular dl p x : In (p, x) dl -> is_file x = true -> In p (regular dl).
Proof. intros I F. unfold regular. apply in_map_iff. exists (p, x). split; [reflexivity|]. apply filter_In. auto. Qed.
Lemma unique_path dest n dl : (length n < 1023)%nat -> exists b, make_unique (S (S (length (regular dl)))) (regular dl) dest (make_valid false n) = Some b /\
  new_path dest n b /\ forall x, In (b, x) dl -> is_file x = false.
Proof.
  intros L. destruct (NameProofs.make_unique_ok (regular dl) dest (make_valid false n)) as (b & E & Ni & Q); [pose proof (valid_len n); lia|].
  exists b. split; [exact E|]. split.
  - destruct Q as [-> |(_ & stem & ext & k & Np & K & -> & _)]; [left; reflexivity|right; exists stem, ext, k; auto].
  - intros x I. apply not_true_is_false. intros F. apply Ni. exact (in_regular dl b x I F).
Qed.

Lemma lookup_in p dl x : lookup p dl = Some x -> In (p, x) dl.
Proof. induction dl as [|(q, y) dl IH]; cbn [lookup]; [discriminate|]. destruct (beqb p q) eqn:E; [apply beqb_eq in E as ->; intros Q; injection Q as ->; left; reflexivity|right; auto]. Qed.
Lemma lookup_none p dl : lookup p dl = None <-> ~ In p (map fst dl).
Proof.
  induction dl as [|(q, y) dl IH]; cbn [lookup map fst In]; [tauto|]. destruct (beqb p q) eqn:E.
  - apply beqb_eq in E as ->. split; [discriminate|]. intros H. exfalso. apply H. left. reflexivity.
  - rewrite IH. split; [|tauto]. intros H [-> |I]; [rewrite beqb_refl in E; discriminate|auto].
Qed.
Lemma in_lookup p dl x : NoDup (map fst dl) -> In (p, x) dl -> lookup p dl = Some x.
Proof.
  intros N I. destruct (lookup p dl) as [y|] eqn:E.
  - apply lookup_in in E. f_equal. revert N I E. induction dl as [|(q, z) dl IH]; intros N I E; [destruct I|]. cbn [map fst] in N. apply NoDup_cons_iff in N as (N1 & N2).
    destruct I as [I|I], E as [E|E].
    + congruence.
    + injection I as -> ->. exfalso. apply N1. apply (in_map fst) in E. exact E.
    + injection E as -> ->. exfalso. apply N1. apply (in_map fst) in I. exact I.
    + auto.
  - apply lookup_none in E. exfalso. apply E. apply (in_map fst) in I. exact I.
Qed.
Lemma drop_in p dl q x : In (q, x) (drop_key p dl) <-> In (q, x) dl /\ q <> p.
Proof.
  induction dl as [|(k, y) dl IH]; cbn [drop_key]; [cbn; tauto|]. destruct (beqb p k) eqn:E.
  - apply beqb_eq in E as ->. rewrite IH. cbn [In]. split; [tauto|]. intros ([Q|I] & N); [injection Q as -> ->; congruence|auto].
  - cbn [In]. rewrite IH. split.
    + intros [Q|(I & N)]; [|auto]. injection Q as -> ->. split; [auto|]. intros ->. rewrite beqb_refl in E. discriminate.
    + tauto.
Qed.
Lemma drop_none p dl : ~ In p (map fst dl) -> drop_key p dl = dl.
Proof.
  induction dl as [|(k, y) dl IH]; cbn [drop_key map fst In]; [reflexivity|]. intros H. destruct (beqb p k) eqn:E; [apply beqb_eq in E as ->; tauto|]. rewrite IH by tauto. reflexivity.
Qed.
Lemma put_in b y dl q x : In (q, x) (put b y dl) <-> (q = b /\ x = y) \/ In (q, x) dl /\ q <> b.
Proof.
  unfold put. rewrite in_app_iff, drop_in. cbn [In]. split.
  - intros [Q|[Q|[]]]; [right; exact Q|]. injection Q as <- <-. left. auto.
  - intros [(-> & ->)|Q]; [right; left; reflexivity|left; exact Q].
Qed.
Lemma drop_nodup p dl : NoDup (map fst dl) -> NoDup (map fst (drop_key p dl)) /\ ~ In p (map fst (drop_key p dl)).
Proof.
  induction dl as [|(k, y) dl IH]; cbn [drop_key map fst]; [intros _; split; [constructor|intros []]|]. intros N. apply NoDup_cons_iff in N as (N1 & N2). destruct (IH N2) as (A & B).
  destruct (beqb p k) eqn:E; [auto|]. cbn [map fst]. split.
  - constructor; [|exact A]. intros I. apply N1. apply in_map_iff in I as ((q, v) & <- & I). apply drop_in in I as (I & _). apply (in_map fst) in I. exact I.
  - intros [-> |I]; [rewrite beqb_refl in E; discriminate|auto].
Qed.

Lemma put_nodup b y dl : NoDup (map fst dl) -> NoDup (map fst (put b y dl)).
Proof.
  intros N. unfold put. rewrite map_app. destruct (drop_nodup b dl N) as (A & B). cbn [map fst]. apply (Permutation_NoDup (l := b :: map fst (drop_key b dl))); [apply Permutation_cons_append|]. constructor; assumption.
Qed.

(** ** Overwriting *)
Lemma overwrite_ok data : forall x z, overwrite data x = Some z -> is_file z = true /\ readable z = Some data /\ is_dir x = false.
Proof.
  fix IH 1. intros [c|l|[t|]] z; cbn [overwrite]; intros E.
  - injection E as <-. repeat split.
  - discriminate E.
  - destruct (overwrite data t) as [t1|] eqn:Q; [|discriminate E]. injection E as <-. destruct (IH t t1 Q) as (A & B & C). repeat split; assumption.
  - injection E as <-. repeat split.
Qed.
Lemma written_ok data old z : written data old = Some z -> is_file z = true /\ readable z = Some data /\ forall x, old = Some x -> is_dir x = false.
Proof.
  destruct old as [x|]; cbn [written]; intros E; [apply overwrite_ok in E as (A & B & C)|injection E as <-; repeat split; discriminate].
  repeat split; try assumption. intros y Q. injection Q as <-. exact C.
Qed.
Lemma not_both x : is_file x = true -> is_dir x = false.
Proof. revert x. fix IH 1. intros [c|l|[t|]]; cbn; intros E; try reflexivity; try discriminate. apply IH, E. Qed.
Lemma lasting_kept b dl y : NoDup (map fst dl) -> (forall x, In (b, x) dl -> is_file x = false) -> rename_ok y (lookup b dl) = true -> forall x, In (b, x) dl -> ~ lasting x.
Proof.
  intros N F R x I [Q|(e & l & ->)]; [rewrite (F x I) in Q; discriminate|]. rewrite (in_lookup b dl _ N I) in R. destruct y; discriminate R.
Qed.
Lemma lasting_kept2 b dl data z : NoDup (map fst dl) -> (forall x, In (b, x) dl -> is_file x = false) -> written data (lookup b dl) = Some z -> forall x, In (b, x) dl -> ~ lasting x.
Proof.
  intros N F W x I [Q|(e & l & ->)]; [rewrite (F x I) in Q; discriminate|]. rewrite (in_lookup b dl _ N I) in W. discriminate W.
Qed.

(** ** One entry *)
Lemma move_one w src n y b dl : NoDup (map fst dl) -> (forall x, In (b, x) dl -> is_file x = false) -> let '(y1, dl1, m) := move_file w src n y b dl in
  NoDup (map fst dl1) /\ (y1 = (if m then None else Some y)) /\
  (forall p x, In (p, x) dl -> lasting x -> In (p, x) dl1) /\
  (forall c, m = true -> y = NFile c -> s_one w = true \/ Z.of_nat (length c) <= s_room w n -> exists z, In (b, z) dl1 /\ lasting z /\ readable z = Some c).
Proof.
  intros N F. unfold move_file. destruct (s_one w) eqn:O.
  - destruct (s_move w n && rename_ok y (lookup b dl)) eqn:M.
    + apply andb_true_iff in M as (_ & R). split; [apply put_nodup, N|]. split; [reflexivity|]. split.
      * intros p x I L. apply put_in. right. split; [exact I|]. intros ->. exact (lasting_kept b dl y N F R x I L).
      * intros c _ -> _. exists (NFile c). split; [apply put_in; auto|]. split; [left; reflexivity|reflexivity].
    + split; [exact N|]. split; [reflexivity|]. split; [auto|]. intros c Q. discriminate Q.
  - destruct (if s_move w n then readable y else None) as [d|] eqn:Rd; [|split; [exact N|]; split; [reflexivity|]; split; [auto|]; intros c Q; discriminate Q].
    destruct (written (firstn (Z.to_nat (s_room w n)) d) (lookup b dl)) as [z|] eqn:W; [|split; [exact N|]; split; [reflexivity|]; split; [auto|]; intros c Q; discriminate Q].
    assert (K : forall p x, In (p, x) dl -> lasting x -> In (p, x) (put b z dl)).
    { intros p x I L. apply put_in. right. split; [exact I|]. intros ->. exact (lasting_kept2 b dl _ z N F W x I L). }
    destruct (s_del w (src ++ [n]) && removable y); (split; [apply put_nodup, N|]; split; [reflexivity|]; split; [exact K|]; intros c Q Ey Rm; try discriminate Q).
    subst y. destruct Rm as [Rm|Rm]; [congruence|]. destruct (s_move w n); [|discriminate Rd]. injection Rd as <-. apply written_ok in W as (A & B & _).
    exists z. split; [apply put_in; auto|]. split; [left; exact A|]. rewrite B. f_equal. apply firstn_all2. lia.
Qed.

Lemma hidden_iff n : hidden n = true <-> dotted n.
Proof. unfold hidden, dotted. destruct n as [|c n]; [split; [discriminate|intros (r & E); discriminate E]|]. rewrite Z.eqb_eq. split; [intros ->; eauto|intros (r & E); injection E as -> _; reflexivity]. Qed.

(** ** All entries *)
Theorem moved w src dest : forall sl dl ok, short_names sl -> NoDup (map fst dl) -> exists r dl1 ok1,
  move_entries w src dest sl dl ok = Some (r, dl1, ok1) /\ NoDup (map fst dl1) /\ incl r sl /\
  (forall b y, In (b, y) dl -> lasting y -> In (b, y) dl1) /\
  (ok1 = true <-> ok = true /\ Forall (fun e => dotted (fst e)) r) /\
  (forall n c, In (n, NFile c) sl -> s_one w = true \/ Z.of_nat (length c) <= s_room w n -> In (n, NFile c) r \/ exists b z, In (b, z) dl1 /\ readable z = Some c /\ new_path dest n b).
Proof.
  induction sl as [|(n, y) sl IH]; intros dl ok Sh N.
  - exists [], dl, ok. split; [reflexivity|]. split; [exact N|]. split; [intros e []|]. split; [auto|]. split; [|intros n c []].
    split; [intros ->; split; [reflexivity|constructor]|tauto].
  - inversion Sh as [|? ? L Sh2]; subst. cbn [fst] in L. cbn [move_entries]. destruct (unique_path dest n dl L) as (b & -> & Nb & F).
    pose proof (move_one w src n y b dl N F) as M. destruct (move_file w src n y b dl) as ((y1, dl1), m). destruct M as (N1 & -> & K & Fl).
    destruct (IH dl1 (ok && (m || hidden n)) Sh2 N1) as (r & dl2 & ok2 & -> & N2 & In2 & K2 & O2 & F2).
    eexists _, dl2, ok2. split; [reflexivity|]. split; [exact N2|]. split; [|split; [|split]].
    + destruct m; intros e I; [right; apply In2, I|]. destruct I as [<- |I]; [left; reflexivity|right; apply In2, I].
    + intros p x I Lx. apply K2; [apply K|]; assumption.
    + rewrite O2, andb_true_iff, orb_true_iff, hidden_iff. destruct m.
      * split; [tauto|]. intros (A & B). auto.
      * rewrite Forall_cons_iff. cbn [fst]. split; [intros ((A & [B|B]) & C); [discriminate B|auto]|intros (A & B & C); auto].
    + intros k c [E|I] Rm.
      * injection E as -> ->. destruct m; [|left; left; reflexivity]. right. destruct (Fl c eq_refl eq_refl Rm) as (z & Iz & Lz & Rz). exists b, z. split; [apply K2; assumption|]. auto.
      * destruct (F2 k c I Rm) as [Q|Q]; [left; destruct m; [exact Q|right; exact Q]|right; exact Q].
Qed.

(** On one device. *)
Theorem moved_one w src dest : s_one w = true -> forall sl dl ok r dl1 ok1, short_names sl -> NoDup (map fst dl) -> move_entries w src dest sl dl ok = Some (r, dl1, ok1) ->
  (forall b y, In (b, y) dl1 -> In (b, y) dl \/ exists n, In (n, y) sl /\ new_path dest n b) /\
  (forall n y, In (n, y) sl -> lasting y -> In (n, y) r \/ exists b, In (b, y) dl1 /\ new_path dest n b) /\
  (forall n y, In (n, y) r -> s_move w n = false \/ exists b z, new_path dest n b /\ is_file z = false /\ (In (b, z) dl \/ exists m, In (m, z) sl /\ new_path dest m b)) /\
  (Forall (fun e => solid (snd e)) sl -> Forall (fun e => solid (snd e)) dl -> Permutation (map snd sl ++ map snd dl) (map snd r ++ map snd dl1)).
Proof.
  intros O. induction sl as [|(n, y) sl IH]; intros dl ok r dl1 ok1 Sh N E.
  - cbn [move_entries] in E. injection E as <- <- <-. split; [auto|]. split; [intros n y []|]. split; [intros n y []|]. intros _ _. reflexivity.
  - inversion Sh as [|? ? L Sh2]; subst. cbn [fst] in L. cbn [move_entries] in E. destruct (unique_path dest n dl L) as (b & Eb & Nb & F). rewrite Eb in E.
    pose proof (move_one w src n y b dl N F) as M. unfold move_file in *. rewrite O in *.
    destruct (s_move w n && rename_ok y (lookup b dl)) eqn:Mv.
    + destruct M as (N1 & _ & K & _). apply andb_true_iff in Mv as (_ & R). set (dlm := put b y dl) in *.
      destruct (move_entries w src dest sl dlm (ok && (true || hidden n))) as [((r1, dl2), ok2)|] eqn:E2; [|discriminate]. injection E as <- <- <-.
      destruct (moved w src dest sl dlm (ok && (true || hidden n)) Sh2 N1) as (r1' & dl2' & ok2' & E3 & _ & _ & K3 & _). rewrite E2 in E3. injection E3 as <- <- <-.
      destruct (IH _ _ _ _ _ Sh2 N1 E2) as (A & B & C & D).
      assert (Src : forall p x, In (p, x) dlm -> In (p, x) dl \/ exists m, In (m, x) ((n, y) :: sl) /\ new_path dest m p).
      { intros p x I. apply put_in in I as [(-> & ->)|(I & _)]; [right; exists n; split; [left; reflexivity|exact Nb]|left; exact I]. }
      split; [|split; [|split]].
      * intros p x I. destruct (A p x I) as [Q|(m & Im & Q)]; [exact (Src p x Q)|]. right. exists m. split; [right; exact Im|exact Q].
      * intros k x [Q|I] Lx; [injection Q as -> ->|exact (B k x I Lx)]. right. exists b. split; [|exact Nb]. apply K3; [|exact Lx]. apply put_in. left. auto.
      * intros k x I. destruct (C k x I) as [Q|(p & z & Q1 & Q2 & Q3)]; [left; exact Q|right]. exists p, z. split; [exact Q1|]. split; [exact Q2|].
        destruct Q3 as [Q3|(m & Im & Q3)]; [destruct (Src p z Q3) as [Q4|Q4]; [left; exact Q4|right; exact Q4]|]. right. exists m. split; [right; exact Im|exact Q3].
      * intros Ss Sd. rewrite Forall_cons_iff in Ss. destruct Ss as (Sy & Ss). cbn [snd] in Sy.
        assert (Nk : ~ In b (map fst dl)).
        { intros Ib. apply in_map_iff in Ib as ((b', x) & Eb' & Ib). cbn [fst] in Eb'. subst b'. rewrite (in_lookup b dl x N Ib) in R. rewrite Forall_forall in Sd. destruct (Sd _ Ib) as (S1 & S2). cbn [snd] in *.
          pose proof (F x Ib) as Fx. destruct x as [c|[|e l]|t]; [discriminate Fx|congruence|destruct y; discriminate R|exact (S2 t eq_refl)]. }
        assert (Ed : dlm = dl ++ [(b, y)]) by (unfold dlm, put; rewrite drop_none by exact Nk; reflexivity).
        rewrite <- D; [|exact Ss|rewrite Ed; apply Forall_app; split; [exact Sd|constructor; [exact Sy|constructor]]].
        rewrite Ed, map_app. cbn [map snd app]. rewrite app_assoc. rewrite Permutation_app_comm with (l' := [y]). reflexivity.
    + destruct M as (_ & _ & _ & _). destruct (move_entries w src dest sl dl (ok && (false || hidden n))) as [((r1, dl2), ok2)|] eqn:E2; [|discriminate]. injection E as <- <- <-.
      destruct (IH _ _ _ _ _ Sh2 N E2) as (A & B & C & D). split; [|split; [|split]].
      * intros p x I. destruct (A p x I) as [Q|(m & Im & Q)]; [left; exact Q|]. right. exists m. split; [right; exact Im|exact Q].
      * intros k x [Q|I] Lx; [injection Q as -> ->; left; left; reflexivity|]. destruct (B k x I Lx) as [Q|Q]; [left; right; exact Q|right; exact Q].
      * intros k x [Q|I].
        -- injection Q as -> ->. apply andb_false_iff in Mv as [Mv|Mv]; [left; exact Mv|right]. destruct (lookup b dl) as [z|] eqn:Lk; [|destruct x; discriminate Mv]. apply lookup_in in Lk.
           exists b, z. split; [exact Nb|]. split; [exact (F z Lk)|]. left. exact Lk.
        -- destruct (C k x I) as [Q|(p & z & Q1 & Q2 & Q3)]; [left; exact Q|right]. exists p, z. split; [exact Q1|]. split; [exact Q2|].
           destruct Q3 as [Q3|(m & Im & Q3)]; [left; exact Q3|]. right. exists m. split; [right; exact Im|exact Q3].
      * intros Ss Sd. rewrite Forall_cons_iff in Ss. destruct Ss as (Sy & Ss). cbn [map snd app]. apply perm_skip, D; assumption.
Qed.
