(** C140, C141: what is read from rar-volumes; the reading ends. *)
From Coq Require Import String.
From Verif Require Import Base RarModel RarSpec RarProofs RarProofs2 RarProofs3 RarProofs4 RarProofs5 RarProofs6 RarProofs7.
Open Scope list_scope. Open Scope Z_scope.

(** ** C140: volumes are read as written *)

(** Version 3, volume with its number in the block at the end. *)
Theorem C140_rar3_partial : forall l new multi files crc flags sum no rest junk fuel,
  says3 l new multi files -> Forall block3_ok l -> end3_ok flags sum rest no -> bit flags 3 = true ->
  zlen (flat_map write3 l) + zlen junk < 2 ^ 61 -> (length l + 2 <= fuel)%nat ->
  read_volume fuel (sig3 ++ flat_map write3 l ++ end3 crc flags sum no rest ++ junk) =
    Ok (3, VInfo no new (bit flags 0) multi files).
Proof. intros l n m fs crc flags sum no rest junk f H1 H2 H3 H4 H5 H6. rewrite (read3 l n m fs) by assumption. rewrite H4. reflexivity. Qed.
Print Assumptions C140_rar3_partial.

(** Without its number: the first and only one. *)
Theorem C140_rar3_single : forall l new multi files crc flags sum no rest junk fuel,
  says3 l new multi files -> Forall block3_ok l -> end3_ok flags sum rest no -> bit flags 3 = false -> bit flags 0 = false ->
  zlen (flat_map write3 l) + zlen junk < 2 ^ 61 -> (length l + 2 <= fuel)%nat ->
  read_volume fuel (sig3 ++ flat_map write3 l ++ end3 crc flags sum no rest ++ junk) =
    Ok (3, VInfo 0 new false multi files).
Proof. intros l n m fs crc flags sum no rest junk f H1 H2 H3 H4 H5 H6 H7. rewrite (read3 l n m fs) by assumption. rewrite H4. reflexivity. Qed.
Print Assumptions C140_rar3_single.

Definition rx_data : list Z := str "abcdefgh".
Definition rx_file : file3 := File3 5000000000 2 [1; 2; 3; 4] 77 [20; 48] 32 (str "dir/film.mkv") [9; 9].
Definition rx_blocks : list block3 := [BMain 4660 17 [0; 0; 0; 0; 0; 0]; BOther 1 117 32768 [7] (str "comment"); BFile 2 33026 rx_file rx_data].
Definition rx_files : list rfile := [RFile (str "dir/film.mkv") 77 32 5000000000 false true].
Lemma rx_says : says3 rx_blocks true true rx_files.
Proof.
  apply (S3_file _ _ _ _ (RFile (str "dir/film.mkv") 77 32 5000000000 false true) [BMain 4660 17 [0; 0; 0; 0; 0; 0]; BOther 1 117 32768 [7] (str "comment")] true true []).
  - apply (S3_other _ _ _ _ _ [BMain 4660 17 [0; 0; 0; 0; 0; 0]]). apply (S3_main 4660 17 [0; 0; 0; 0; 0; 0] [] false false []). constructor.
  - repeat apply conj; try reflexivity. + intros H. vm_compute in H. intuition discriminate. + left. reflexivity.
Qed.
Lemma rx_ok : Forall block3_ok rx_blocks.
Proof. repeat constructor; try discriminate; cbn; try lia; try discriminate. Qed.
Example C140_rar3_ex : end3_ok 9 [] [] 3 /\ bit 9 3 = true /\
  read_volume 5 (sig3 ++ flat_map write3 rx_blocks ++ end3 1 9 [] 3 [] ++ [0; 0]) = Ok (3, VInfo 3 true true true rx_files).
Proof. split; [|split; [reflexivity|]]. - repeat apply conj; try reflexivity; try (vm_compute; discriminate); intros; discriminate. - vm_compute. reflexivity. Qed.

(** Version 5. *)
Theorem C140_rar5 : forall l no new multi files h e rest extra junk fuel,
  says5 l no new multi files -> Forall block5_ok l -> end5_ok h e rest extra ->
  zlen (flat_map write5 l) + zlen junk < 2 ^ 61 -> (length l + 1 <= fuel)%nat ->
  read_volume fuel (sig5 ++ flat_map write5 l ++ end5 h e rest extra ++ junk) =
    Ok (5, VInfo no new (bit (vval e) 0) multi files).
Proof. exact read5. Qed.
Print Assumptions C140_rar5.

Definition ry_main : block5 := DMain (Head5 [1; 2; 3; 4] [4] [1] [0] [] []) [3] [2] [] [] [].
Definition ry_file : file5 := File5 [2] [128; 8] [32] 99 [] [0] [1] [5] (str "a.bin").
Definition ry_block : block5 := DFile (Head5 [1; 2; 3; 4] [28] [2] [19] [8] [3]) ry_file [XUnix [7] [3] [1] 100 [0]] [7; 8; 9].
Definition ry_files : list rfile := [RFile (str "a.bin") 100 32 1024 false true].
Lemma ry_says : says5 [ry_main; ry_block] 2 true true ry_files.
Proof.
  apply (S5_file _ _ _ _ (RFile (str "a.bin") 100 32 1024 false true) [ry_main] 2 true true []).
  - apply (S5_main (Head5 [1; 2; 3; 4] [4] [1] [0] [] []) [3] [2] [] [] [] [] 0 false false []). constructor.
  - repeat apply conj; try reflexivity. + intros H. vm_compute in H. intuition discriminate. + left. reflexivity.
Qed.
Lemma vint1 z : 0 <= z < 128 -> is_vint [z].
Proof. intros H. exists [], z. repeat apply conj; try reflexivity; try constructor; try lia; cbn; lia. Qed.
Lemma ry_ok : Forall block5_ok [ry_main; ry_block].
Proof.
  repeat apply Forall_cons; [| |constructor]; cbn [block5_ok ry_main ry_block].
  - repeat apply conj; try reflexivity; try (apply vint1; cbn; lia); try (cbn; intros; try discriminate; repeat apply conj; try reflexivity; apply vint1; lia).
  - repeat apply conj; try reflexivity; try (apply vint1; cbn; lia); try (cbn; intros; try discriminate; repeat apply conj; try reflexivity; try (apply vint1; lia); lia).
    + constructor; [|constructor]. repeat apply conj; try reflexivity; try (apply vint1; cbn; lia); cbn; lia.
    + exists [128], 8. repeat apply conj; try reflexivity; try lia; try (constructor; [lia|constructor]); cbn; lia.
Qed.
Example C140_rar5_ex : end5_ok (Head5 [1; 2; 3; 4] [3] [5] [0] [] []) [1] [] [] /\
  read_volume 3 (sig5 ++ flat_map write5 [ry_main; ry_block] ++ end5 (Head5 [1; 2; 3; 4] [3] [5] [0] [] []) [1] [] [] ++ [0]) =
    Ok (5, VInfo 2 true true true ry_files).
Proof.
  split; [|vm_compute; reflexivity].
  split; [|apply vint1; lia]. repeat apply conj; try reflexivity; try (apply vint1; cbn; lia); cbn; intros; discriminate.
Qed.

(** Other files are not taken for volumes. *)
Theorem C140_other_files : forall c fuel, prefixb sig3 c = false -> prefixb sig5 c = false -> read_volume fuel c = Fail.
Proof. exact read_other. Qed.
Print Assumptions C140_other_files.
Example C140_other_files_ex : read_volume 3 (str "7z this is not an archive") = Fail.
Proof. reflexivity. Qed.

(** That a volume has a successor is forgotten if its number is not stored at the end. *)
Theorem C140_next_refuted : exists l new multi files crc flags no fuel,
  says3 l new multi files /\ Forall block3_ok l /\ end3_ok flags [] [] no /\ bit flags 0 = true /\
  read_volume fuel (sig3 ++ flat_map write3 l ++ end3 crc flags [] no []) = Ok (3, VInfo 0 new false multi files).
Proof.
  exists rx_blocks, true, true, rx_files, 1, 1, 0, 5%nat. split; [exact rx_says|]. split; [exact rx_ok|].
  split; [repeat apply conj; try reflexivity; try (vm_compute; discriminate); intros; discriminate|]. split; [reflexivity|]. vm_compute. reflexivity.
Qed.
Print Assumptions C140_next_refuted.

(** A volume without the block at the end is no volume. *)
Theorem C140_no_end_refuted : exists l new multi files,
  says3 l new multi files /\ Forall block3_ok l /\ files <> [] /\
  forall fuel, match read_volume fuel (sig3 ++ flat_map write3 l) with Ok _ => False | _ => True end.
Proof.
  exists [BMain 0 1 [0; 0; 0; 0; 0; 0]; BFile 0 32768 big_file [65]], false, true, [RFile (str "a") 0 0 0 false false].
  split; [|split; [|split; [discriminate|]]].
  - apply (S3_file _ _ _ _ (RFile (str "a") 0 0 0 false false) [BMain 0 1 [0; 0; 0; 0; 0; 0]] false true []).
    + apply (S3_main 0 1 [0; 0; 0; 0; 0; 0] [] false false []). constructor.
    + repeat apply conj; try reflexivity. * intros H. vm_compute in H. intuition discriminate. * left. reflexivity.
  - repeat constructor; try discriminate; cbn; try lia; try discriminate.
  - exact no_end_fails.
Qed.
Print Assumptions C140_no_end_refuted.

(** A file with almost 4 GiB of packed data in one volume. *)
Theorem C140_size_refuted : exists f data, zlen data < 2 ^ 32 /\ f3_size f < 2 ^ 32 /\
  forall rest fuel, match read_volume fuel (sig3 ++ write3 (BFile 0 32768 f data) ++ rest) with Ok _ => False | _ => True end.
Proof. exists big_file, big_data. split; [rewrite big_len; lia|]. split; [reflexivity|]. exact big_fails. Qed.
Print Assumptions C140_size_refuted.

(** ** C141: the reading ends *)

(** If every block has a length: after as many blocks as the file has bytes at most. *)
Theorem C141_rar3_partial : forall c, bytes_ok c -> zlen c < 2 ^ 62 -> prefixb sig3 c = true ->
  (forall p, reach3 c p -> p + 7 <= zlen c -> 0 < total3 c p < 2 ^ 62) ->
  read_volume (S (length c)) c <> Endless /\ read_volume (S (length c)) c <> Ub.
Proof. exact read3_ends. Qed.
Print Assumptions C141_rar3_partial.

Definition rz_3 : list Z := sig3 ++ write3 (BMain 0 1 [0; 0; 0; 0; 0; 0]) ++ end3 0 9 [] 1 [].
Example C141_rar3_ex : bytes_ok rz_3 /\ forall p, reach3 rz_3 p -> p + 7 <= zlen rz_3 -> 0 < total3 rz_3 p < 2 ^ 62.
Proof.
  split; [repeat constructor; cbn; lia|].
  assert (R : forall p, reach3 rz_3 p -> p = 0 \/ p = 7 \/ p = 20 \/ 31 <= p).
  { induction 1 as [|p R IH]; [tauto|]. destruct IH as [-> |[-> |[-> |L]]]; [vm_compute; tauto|vm_compute; tauto|right; right; right; vm_compute; discriminate|].
    right; right; right.
    assert (A : forall q n, p <= q -> number_at rz_3 q n = 0).
    { intros q n Q. unfold number_at. rewrite skipn_all2 by (change (length rz_3) with 31%nat; lia). rewrite firstn_nil. reflexivity. }
    unfold total3. rewrite !A by lia. change (bit 0 15) with false. change (0 =? 116) with false. cbn [andb]. lia. }
  intros p Hr L. change (zlen rz_3) with 31 in L. destruct (R p Hr) as [-> |[-> |[-> |Q]]]; [vm_compute; split; reflexivity ..|lia].
Qed.

Theorem C141_rar5_partial : forall c, bytes_ok c -> zlen c < 2 ^ 62 -> prefixb sig5 c = true ->
  (forall p data next, reach5 c p -> header5 c p data next -> data < 2 ^ 62) ->
  read_volume (S (length c)) c <> Endless.
Proof. exact read5_ends. Qed.
Print Assumptions C141_rar5_partial.

Definition rz_5 : list Z := sig5 ++ [0; 0; 0; 0; 3; 5; 0; 0].
Lemma vlike_one vs r b t : vlike vs -> vs ++ r = b :: t -> b < 128 -> vs = [b] /\ r = t.
Proof.
  intros (i & z & -> & F & Z0 & L) E B. destruct i as [|x i]; [injection E as -> ->; split; reflexivity|].
  injection E as -> _. inversion F. lia.
Qed.
Example C141_rar5_ex : bytes_ok rz_5 /\ forall p data next, reach5 rz_5 p -> header5 rz_5 p data next -> data < 2 ^ 62.
Proof.
  split; [repeat constructor; cbn; lia|].
  assert (Z8 : forall (l : list Z), zlen l = 8 -> exists a b c d e f g h, l = [a; b; c; d; e; f; g; h]).
  { intros l H. unfold zlen in H. do 8 (destruct l as [|? l]; [cbn in H; lia|]). destruct l; [eauto 9|cbn in H; lia]. }
  assert (Z4 : forall (l : list Z), zlen l = 4 -> exists a b c d, l = [a; b; c; d]).
  { intros l H. unfold zlen in H. do 4 (destruct l as [|? l]; [cbn in H; lia|]). destruct l; [eauto|cbn in H; lia]. }
  assert (H8 : forall data next, header5 rz_5 8 data next -> data = 0 /\ next = 16).
  { intros data next (pre & crc & vs & vt & vf & va & vd & r & E & Lp & Lc & V1 & V2 & V3 & A & D & N).
    apply Z8 in Lp as (? & ? & ? & ? & ? & ? & ? & ? & ->). apply Z4 in Lc as (? & ? & ? & ? & ->).
    cbn [rz_5 sig5 app] in E. injection E as _ _ _ _ _ _ _ _ _ _ _ _ E. symmetry in E.
    apply vlike_one in E as [-> E]; [|exact V1|lia]. apply vlike_one in E as [-> E]; [|exact V2|lia]. apply vlike_one in E as [-> E]; [|exact V3|lia].
    change (bit (vval [0]) 1) with false in D. destruct D as [_ ->]. split; [reflexivity|]. rewrite N. reflexivity. }
  assert (H16 : forall data next, ~ header5 rz_5 16 data next).
  { intros data next (pre & crc & vs & vt & vf & va & vd & r & E & Lp & Lc & _). apply (f_equal zlen) in E. rewrite !zlen_app, Lp, Lc in E.
    change (zlen rz_5) with 16 in E. pose proof (zlen_pos vs). pose proof (zlen_pos vt). pose proof (zlen_pos vf). pose proof (zlen_pos va). pose proof (zlen_pos vd). pose proof (zlen_pos r). lia. }
  assert (R : forall p, reach5 rz_5 p -> p = 8 \/ p = 16).
  { induction 1 as [|p data next R [-> | ->] H]; [tauto| |destruct (H16 _ _ H)]. apply H8 in H. tauto. }
  intros p data next Hr H. destruct (R p Hr) as [-> | ->]; [|destruct (H16 _ _ H)]. apply H8 in H as [-> _]. lia.
Qed.

(** Broken files: the reading never ends, however long it goes on. *)
Theorem C141_rar3_endless_refuted : exists c, prefixb sig3 c = true /\ forall fuel, read_volume fuel c = Endless.
Proof. exists loop_3. split; [reflexivity|exact loop_3_endless]. Qed.
Print Assumptions C141_rar3_endless_refuted.
Theorem C141_rar5_endless_refuted : exists c, prefixb sig5 c = true /\ forall fuel, read_volume fuel c = Endless.
Proof. exists loop_5. split; [reflexivity|exact loop_5_endless]. Qed.
Print Assumptions C141_rar5_endless_refuted.
(** Or it is undefined: a number shifted by 70 bits. *)
Theorem C141_rar5_undefined_refuted : exists c, forall fuel, read_volume (S fuel) c = Ub.
Proof. exists undefined_5. exact undefined_5_ub. Qed.
Print Assumptions C141_rar5_undefined_refuted.
