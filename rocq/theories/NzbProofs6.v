(** Lemmas about the sizes of the files of an nzb-file. *)
From Verif Require Import Base NzbModel NzbSpec NzbProofs.
From Verif Require StatsModel.
Open Scope list_scope. Open Scope Z_scope.

Definition present (l : list (option Z)) : list Z := flat_map (fun x => match x with Some n => [n] | None => [] end) l.
Lemma kept_sizes l : forall n, map (fun x : Z * nart => na_size (snd x)) (kept_from n l) = present (map (option_map na_size) l).
Proof.
  induction l as [|[a|] l IH]; intros n; cbn [kept_from map option_map present flat_map app snd]; [reflexivity| |apply IH].
  f_equal. apply IH.
Qed.
Lemma present_app l r : present (l ++ r) = present l ++ present r.
Proof. apply flat_map_app. Qed.
Lemma total_app l r : total (l ++ r) = total l + total r.
Proof. induction l as [|x l IH]; [reflexivity|]. cbn [app total fold_right]. fold (total (l ++ r)). fold (total l). rewrite IH. lia. Qed.
Lemma first_app l n : first_size (l ++ [n]) = if first_size l =? 0 then n else first_size l.
Proof.
  induction l as [|x l IH]; cbn [app first_size]; [destruct (Z.eqb_spec n 0); [subst|]; reflexivity|].
  destruct (Z.eqb_spec x 0) as [->|N]; [exact IH|]. replace (x =? 0) with false by lia. reflexivity.
Qed.
Lemma first_nonneg l : Forall (fun n => 0 <= n) l -> 0 <= first_size l.
Proof. induction 1 as [|x l H F IH]; cbn [first_size]; [lia|]. destruct (x =? 0); lia. Qed.

Definition gap (l : list (option Z)) : Z := Z.of_nat (length l) - Z.of_nat (length (present l)).
Lemma loop_ok l : Forall (fun n => 0 <= n) (present l) ->
  let s := fold_left StatsModel.afi_step l (StatsModel.mkA 0 0 0 0 0 []) in
  StatsModel.a_size s = total (present l) /\ StatsModel.a_one s = first_size (present l) /\ StatsModel.a_miss s = gap l /\
  StatsModel.a_msize s = (gap l - StatsModel.a_unc s) * first_size (present l) /\ (first_size (present l) = 0 -> StatsModel.a_unc s = gap l) /\
  map fst (rev (StatsModel.a_kept s)) = present l.
Proof.
  induction l as [|x l IH] using rev_ind; intros F; cbv zeta in *.
  - cbn. repeat split; lia.
  - rewrite present_app in *. apply Forall_app in F as [F Fx]. specialize (IH F). rewrite fold_left_app. cbn [fold_left].
    set (s := fold_left StatsModel.afi_step l _) in *. destruct IH as (I1 & I2 & I3 & I4 & I5 & I6).
    assert (P := first_nonneg _ F).
    set (q := gap l) in *. set (p := present l) in *.
    assert (G : gap (l ++ [x]) = match x with Some _ => q | None => q + 1 end).
    { unfold gap, q, p, gap. rewrite present_app, !app_length. destruct x; cbn [present flat_map app length]; lia. }
    rewrite G. clear G. clearbody q. unfold StatsModel.afi_step.
    destruct x as [n|]; cbn [present flat_map app].
    + inversion Fx as [|? ? Hn _].
      cbn [StatsModel.a_size StatsModel.a_one StatsModel.a_miss StatsModel.a_msize StatsModel.a_unc StatsModel.a_kept].
      rewrite total_app, first_app, I2. cbn [total fold_right rev]. rewrite map_app, I6. cbn [map fst].
      destruct (Z.eqb_spec (first_size p) 0) as [Z0|Z0].
      * specialize (I5 Z0). rewrite I4, I5, Z0. repeat split; lia.
      * repeat split; lia.
    + rewrite app_nil_r, I2. destruct (Z.ltb_spec 0 (first_size p)) as [Z0|Z0];
        cbn [StatsModel.a_size StatsModel.a_one StatsModel.a_miss StatsModel.a_msize StatsModel.a_unc StatsModel.a_kept].
      * split; [rewrite I1; reflexivity|]. split; [reflexivity|]. split; [lia|]. split; [rewrite I4; ring|]. split; [lia|exact I6].
      * assert (E0 : first_size p = 0) by lia. specialize (I5 E0). rewrite E0 in *. split; [exact I1|]. split; [reflexivity|]. split; [lia|]. split; [lia|]. split; [lia|exact I6].
Qed.
Lemma sizes_ok id par f g : StatsModel.add_file_info (id, par, slots_of f) = Some g -> Forall (fun n => 0 <= n) (sizes_of f) ->
  StatsModel.f_num g StatsModel.FRem = total (sizes_of f) /\
  StatsModel.f_num g StatsModel.FMissed = holes f * first_size (sizes_of f) /\
  StatsModel.f_num g StatsModel.FSize = total (sizes_of f) + holes f * first_size (sizes_of f) /\
  StatsModel.f_num g StatsModel.FTotal = Z.of_nat (length (nf_slots f)) /\
  StatsModel.f_num g StatsModel.FMissedArt = holes f /\
  map fst (StatsModel.f_arts g) = sizes_of f.
Proof.
  unfold sizes_of, kept. rewrite kept_sizes. fold (slots_of f). intros E F. destruct (loop_ok (slots_of f) F) as (I1 & I2 & I3 & I4 & I5 & I6).
  assert (H : holes f = gap (slots_of f)).
  { unfold holes, gap, slots_of, kept. rewrite map_length, <- (kept_sizes (nf_slots f) 1), map_length. reflexivity. }
  assert (L : length (slots_of f) = length (nf_slots f)) by apply map_length.
  unfold StatsModel.add_file_info in E. set (s := fold_left StatsModel.afi_step _ _) in *. rewrite H.
  destruct (StatsModel.a_kept s) as [|k0 ks] eqn:EK; [discriminate|]. rewrite <- EK in *. injection E as <-.
  cbn [StatsModel.f_num StatsModel.fassign StatsModel.ffld_eqb StatsModel.f_arts]. rewrite I1, I2, I3, I4, L. repeat split; try lia. exact I6.
Qed.
Lemma add_some id par f : kept f <> [] <-> exists g, StatsModel.add_file_info (id, par, slots_of f) = Some g.
Proof.
  assert (K : forall l t, StatsModel.a_kept (fold_left StatsModel.afi_step l t) = [] <-> StatsModel.a_kept t = [] /\ present l = []).
  { induction l as [|[n|] l IH]; intros t; cbn [fold_left present flat_map app]; [tauto| |].
    - rewrite IH. cbn [StatsModel.afi_step StatsModel.a_kept]. split; intros [A B]; discriminate.
    - rewrite IH. unfold StatsModel.afi_step. destruct (0 <? StatsModel.a_one t); reflexivity. }
  assert (P : kept f = [] <-> present (slots_of f) = []).
  { unfold kept, slots_of. rewrite <- (kept_sizes (nf_slots f) 1). destruct (kept_from 1 (nf_slots f)); [tauto|]. split; discriminate. }
  unfold StatsModel.add_file_info. set (s := fold_left StatsModel.afi_step _ _).
  specialize (K (slots_of f) (StatsModel.mkA 0 0 0 0 0 [])). fold s in K.
  destruct (StatsModel.a_kept s) as [|k ks] eqn:EK.
  - split; [|intros (g & G); discriminate]. intros N. exfalso. apply N, P. apply K. reflexivity.
  - split; [eexists; reflexivity|]. intros _ X. apply P in X. destruct K as [_ K]. discriminate (K (conj eq_refl X)).
Qed.
