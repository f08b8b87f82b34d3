(** Volumes that are not read as they should be. *)
From Coq Require Import String.
From Verif Require Import Base RarModel RarSpec RarProofs RarProofs2 RarProofs4 RarProofs5.
Open Scope list_scope. Open Scope Z_scope.

(** What is read does not depend on what follows. *)
Definition mono {A} (m : rdr A) : Prop := forall a d s r, 0 <= fst s -> m a s = Ok r -> 0 <= fst (snd r) /\ m (a ++ d) s = Ok r.
Lemma mono_bind {A B} (m : rdr A) (k : A -> rdr B) : mono m -> (forall a, mono (k a)) -> mono (bind m k).
Proof.
  intros Hm Hk a d s r P H. apply bind_inv in H as (x & s' & H1 & H2). apply (Hm _ d) in H1 as [P1 H1]; [|exact P]. apply (Hk _ _ d) in H2 as [P2 H2]; [|exact P1].
  split; [exact P2|]. unfold bind. rewrite H1. exact H2.
Qed.
Lemma mono_ret {A} (x : A) : mono (ret x). Proof. intros a d s r P H. injection H as <-. split; [exact P|reflexivity]. Qed.
Lemma mono_fail {A} : mono (@fail A). Proof. intros a d s r P H. discriminate. Qed.
Lemma mono_read n : 0 <= n -> mono (read n).
Proof.
  intros N a d [p t] r P H. cbn [fst] in P. unfold read in *. destruct (p + n <=? zlen a) eqn:E; [|discriminate]. injection H as <-. cbn [fst snd]. split; [lia|].
  rewrite zlen_app. pose proof (zlen_pos d). replace (p + n <=? zlen a + zlen d) with true by lia. do 2 f_equal.
  rewrite skipn_app, firstn_app, skipn_length. unfold zlen in E. replace (Z.to_nat n - (length a - Z.to_nat p))%nat with 0%nat by lia. cbn [firstn]. rewrite app_nil_r. reflexivity.
Qed.
Lemma mono_num n : 0 <= n -> mono (read_num n). Proof. intros N. apply mono_bind; [apply mono_read, N|intros; apply mono_ret]. Qed.
Lemma mono_skip n : mono (skip n). Proof. unfold skip. destruct (0 <? s64 n) eqn:E; [apply mono_read; lia|apply mono_ret]. Qed.
Lemma mono_get : mono get_trail. Proof. intros a d s r P H. injection H as <-. split; [exact P|reflexivity]. Qed.
Lemma mono_set t : mono (set_trail t). Proof. intros a d s r P H. injection H as <-. split; [exact P|reflexivity]. Qed.
Lemma mono_block3 : mono read3_block.
Proof.
  unfold read3_block. apply mono_bind; [apply mono_read; lia|intros b]. destruct (has _ _).
  - apply mono_bind; [apply mono_num; lia|intros x]. apply mono_bind; [apply mono_set|intros ?; apply mono_ret].
  - apply mono_bind; [apply mono_set|intros ?; apply mono_ret].
Qed.

Lemma read_block3_fail f v c p b s : read3_block c (p, 0) = Ok (b, s) -> b_type b = 0 -> blocks step3 (S f) v c p = Fail.
Proof. intros H E. cbn [blocks]. unfold step3, bind. rewrite H, E. reflexivity. Qed.

(** A file whose packed part has 2^32 - 1 bytes. *)
Definition big_file : file3 := File3 0 0 [0; 0; 0; 0] 0 [0; 0] 0 [97] [].
Definition big_data : list Z := repeat 0 (Z.to_nat (2 ^ 32 - 1)).
Definition big_block : block3 := BFile 0 32768 big_file big_data.

Lemma repeat_len n : 0 <= n -> zlen (repeat 0 (Z.to_nat n)) = n.
Proof. intros H. unfold zlen. rewrite repeat_length. lia. Qed.
Lemma repeat_split n : 7 <= n -> exists d, repeat 0 (Z.to_nat n) = [0; 0; 0; 0; 0; 0; 0] ++ d.
Proof. intros H. exists (repeat 0 (Z.to_nat (n - 7))). change [0; 0; 0; 0; 0; 0; 0] with (repeat 0 7). rewrite <- repeat_app. f_equal. lia. Qed.
Lemma big_len : zlen big_data = 2 ^ 32 - 1.
Proof. apply repeat_len. vm_compute. discriminate. Qed.
Lemma big_split : exists d, big_data = [0; 0; 0; 0; 0; 0; 0] ++ d.
Proof. apply repeat_split. vm_compute. discriminate. Qed.

Definition big_head : list Z := sig3 ++ [0; 0; 116; 0; 128; 33; 0; 255; 255; 255; 255; 0; 0; 0; 0; 0; 0; 0; 0; 0; 0; 0; 0; 0; 0; 0; 1; 0; 0; 0; 0; 0; 97] ++ [0; 0; 0; 0; 0; 0; 0].

Lemma big_shape rest : exists d, sig3 ++ write3 big_block ++ rest = big_head ++ d.
Proof.
  destruct big_split as [d E]. exists (d ++ rest). unfold big_block, write3, head3. rewrite big_len.
  assert (B : forall x, body3 32768 big_file x = body3 32768 big_file []) by (intros x; reflexivity). rewrite (B big_data).
  rewrite E. unfold big_head. rewrite <- !app_assoc. vm_compute. reflexivity.
Qed.

Lemma big_fails rest f : match read_volume f (sig3 ++ write3 big_block ++ rest) with Ok _ => False | _ => True end.
Proof.
  destruct (big_shape rest) as [d E]. rewrite E. unfold read_volume.
  assert (D : detect (big_head ++ d) = 3) by reflexivity. rewrite D. change (3 =? 3) with true. cbn iota.
  destruct f as [|[|[|f]]].
  - exact I.
  - cbn [blocks]. assert (M : read3_block (big_head ++ d) (0, 0) = Ok (Blk 114 6689 0, (7, 0))) by (apply mono_block3; [cbn; lia|vm_compute; reflexivity]).
    unfold step3, bind. rewrite M. cbn. exact I.
  - cbn [blocks]. assert (M : read3_block (big_head ++ d) (0, 0) = Ok (Blk 114 6689 0, (7, 0))) by (apply mono_block3; [cbn; lia|vm_compute; reflexivity]).
    unfold step3 at 1, bind at 1. rewrite M. cbn [b_type Z.eqb Pos.eqb Z.ltb Z.compare orb Pos.compare Pos.compare_cont ret]. change (seek 7 0) with (Some 7). cbn iota.
    destruct (step3 v_empty (big_head ++ d) (7, 0)) as [[[v' e] [q t]]| | |] eqn:E2; try exact I. destruct e.
    + unfold step3 in E2. apply bind_inv in E2 as (b & [q1 t1] & H1 & H2).
      assert (M2 : read3_block (big_head ++ d) (7, 0) = Ok (Blk 116 32768 4294967295, (18, 21))) by (apply mono_block3; [cbn; lia|vm_compute; reflexivity]).
      rewrite M2 in H1. injection H1 as <- <- <-. cbn [b_type Z.eqb Pos.eqb] in H2. apply bind_inv in H2 as (x & s & _ & H2). discriminate.
    + destruct (seek q t); exact I.
  - assert (M : read3_block (big_head ++ d) (0, 0) = Ok (Blk 114 6689 0, (7, 0))) by (apply mono_block3; [cbn; lia|vm_compute; reflexivity]).
    assert (M2 : read3_block (big_head ++ d) (7, 0) = Ok (Blk 116 32768 4294967295, (18, 21))) by (apply mono_block3; [cbn; lia|vm_compute; reflexivity]).
    assert (M3 : exists fl, read3_file (Blk 116 32768 4294967295) (big_head ++ d) (18, 21) = Ok (fl, (40, 18446744073709551615))).
    { unfold read3_file. eexists.
      repeat (unfold bind at 1;
        match goal with
        | |- match read_num ?n (?a ++ ?d) ?s with _ => _ end = _ =>
            let v := eval vm_compute in (read_num n a s) in
            replace (read_num n (a ++ d) s) with v by (symmetry; apply mono_num; [lia|cbn; lia|vm_compute; reflexivity])
        | |- match skip ?n (?a ++ ?d) ?s with _ => _ end = _ =>
            let v := eval vm_compute in (skip n a s) in
            replace (skip n (a ++ d) s) with v by (symmetry; apply mono_skip; [cbn; lia|vm_compute; reflexivity])
        end; cbn iota beta).
      cbn [b_flags]. change (has 32768 256) with false. cbn iota. rewrite bind_ret. change (8192 <? 1) with false. cbn iota. unfold bind at 1.
      replace (read 1 (big_head ++ d) (39, 0)) with (Ok ([97], (40, 18446744073709551615))) by (symmetry; apply mono_read; [lia|cbn; lia|vm_compute; reflexivity]).
      reflexivity. }
    destruct M3 as [fl M3].
    assert (M4 : read3_block (big_head ++ d) (39, 0) = Ok (Blk 0 0 0, (46, 18446744073709551609))) by (apply mono_block3; [cbn; lia|vm_compute; reflexivity]).
    cbn [blocks]. unfold step3 at 1, bind at 1. rewrite M. cbn [b_type Z.eqb Pos.eqb Z.ltb Z.compare orb Pos.compare Pos.compare_cont ret]. change (seek 7 0) with (Some 7). cbn iota.
    unfold step3 at 1, bind at 1. rewrite M2. cbn [b_type Z.eqb Pos.eqb]. unfold bind at 1. rewrite M3. cbn [ret]. change (seek 40 18446744073709551615) with (Some 39). cbn iota.
    unfold step3 at 1, bind at 1. rewrite M4. cbn. exact I.
Qed.

(** A volume that ends without the block for it. *)
Lemma no_end_fails f : match read_volume f (sig3 ++ write3 (BMain 0 1 [0; 0; 0; 0; 0; 0]) ++ write3 (BFile 0 32768 big_file [65])) with Ok _ => False | _ => True end.
Proof.
  destruct f as [|[|[|[|f]]]]; vm_compute; exact I.
Qed.

(** Endless reading. *)
Definition loop_3 : list Z := sig3 ++ [0; 0; 117; 0; 0; 0; 0].
Lemma loop_3_endless f : read_volume f loop_3 = Endless.
Proof.
  unfold read_volume. change (detect loop_3) with 3. change (3 =? 3) with true. cbn iota.
  assert (G : forall f v, blocks step3 f v loop_3 7 = Endless).
  { induction f0 as [|f0 IH]; intros v; [reflexivity|]. cbn [blocks].
    assert (E : step3 v loop_3 (7, 0) = Ok ((v, false), (14, 18446744073709551609))) by reflexivity.
    rewrite E. change (seek 14 18446744073709551609) with (Some 7). apply IH. }
  destruct f as [|f]; [reflexivity|]. cbn [blocks].
  assert (E : step3 v_empty loop_3 (0, 0) = Ok ((v_empty, false), (7, 0))) by reflexivity. rewrite E. change (seek 7 0) with (Some 7). cbn iota. rewrite G. reflexivity.
Qed.
Definition loop_5 : list Z := sig5 ++ [0; 0; 0; 0; 12; 3; 2; 239; 255; 255; 255; 255; 255; 255; 255; 255; 1].
Lemma loop_5_endless f : read_volume f loop_5 = Endless.
Proof.
  unfold read_volume. change (detect loop_5) with 5. change (5 =? 3) with false. change (5 =? 5) with true. cbn iota.
  assert (G : forall f v, blocks step5 f v loop_5 8 = Endless).
  { induction f0 as [|f0 IH]; intros v; [reflexivity|]. cbn [blocks].
    assert (E : step5 v loop_5 (8, 0) = Ok ((v, false), (25, 18446744073709551599))) by (vm_compute; reflexivity).
    rewrite E. change (seek 25 18446744073709551599) with (Some 8). apply IH. }
  rewrite G. reflexivity.
Qed.
Definition undefined_5 : list Z := sig5 ++ [0; 0; 0; 0] ++ repeat 128 10 ++ [0].
Lemma undefined_5_ub f : read_volume (S f) undefined_5 = Ub.
Proof. vm_compute. reflexivity. Qed.
