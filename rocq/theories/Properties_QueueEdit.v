(** C19, C20, C54-C57: moving, sorting and reordering queue entries, pausing par files. *)
From Coq Require Import String Permutation.
From Verif Require Import Base MoveModel MoveSpec MoveProofs MoveToProofs SortProofs.

(** ** C19 *)

(** Moving a selection up by [k]: every selected entry goes up [k] places or as far as
    the selected entries before it allow; nothing else changes its order. The bounds say
    that the index arithmetic fits into [int]. *)
Theorem C19_move_up : forall ids k l, NoDup l -> (0 < k)%nat ->
  Z.of_nat k <= 2147483648 -> Z.of_nat (length l) <= 2147483648 ->
  exists r, move_by ids (- Z.of_nat k) l = Some r /\ moved_up (mem ids) k l r.
Proof. exact move_up. Qed.
Print Assumptions C19_move_up.

Theorem C19_move_down : forall ids k l, NoDup l -> (0 < k)%nat ->
  Z.of_nat k + Z.of_nat (length l) <= 2147483648 ->
  exists r, move_by ids (Z.of_nat k) l = Some r /\ moved_down (mem ids) k l r.
Proof. exact move_down. Qed.
Print Assumptions C19_move_down.

(** Every entry is still there exactly once. *)
Theorem C19_permutation : forall sel k l r, moved_up sel k l r \/ moved_down sel k l r -> Permutation l r.
Proof.
  intros sel k l r [[H _]|[H _]].
  - exact (same_orders_perm _ _ _ H).
  - apply same_orders_perm in H.
    eapply Permutation_trans; [apply Permutation_rev|]. eapply Permutation_trans; [exact H|].
    apply Permutation_sym, Permutation_rev.
Qed.
Print Assumptions C19_permutation.

(** Top and bottom, in closed form. *)
Theorem C19_move_top : forall ids l, NoDup l -> Z.of_nat (length l) <= 1000000000 ->
  move_top ids l = Some (filter (mem ids) l ++ filter (fun x => negb (mem ids x)) l).
Proof. exact move_by_top. Qed.
Print Assumptions C19_move_top.

Theorem C19_move_bottom : forall ids l, NoDup l -> Z.of_nat (length l) <= 1000000000 ->
  move_bottom ids l = Some (filter (fun x => negb (mem ids x)) l ++ filter (mem ids) l).
Proof. exact move_by_bottom. Qed.
Print Assumptions C19_move_bottom.

(** Before and after an entry that is not moved itself. *)
Theorem C19_move_before : forall ids t X Y, NoDup (X ++ t :: Y) -> Z.of_nat (length (X ++ t :: Y)) < 1000000000 ->
  mem ids t = false -> filter (mem ids) (X ++ t :: Y) <> [] ->
  move_to ids true t (X ++ t :: Y) =
  Some (filter (fun x => negb (mem ids x)) X ++ filter (mem ids) (X ++ t :: Y) ++ t :: filter (fun x => negb (mem ids x)) Y).
Proof. intros ids t X Y. exact (move_to_unmoved ids true t X Y). Qed.
Print Assumptions C19_move_before.

Theorem C19_move_after : forall ids t X Y, NoDup (X ++ t :: Y) -> Z.of_nat (length (X ++ t :: Y)) < 1000000000 ->
  mem ids t = false -> filter (mem ids) (X ++ t :: Y) <> [] ->
  move_to ids false t (X ++ t :: Y) =
  Some ((filter (fun x => negb (mem ids x)) X ++ [t]) ++ filter (mem ids) (X ++ t :: Y) ++ filter (fun x => negb (mem ids x)) Y).
Proof. intros ids t X Y. exact (move_to_unmoved ids false t X Y). Qed.
Print Assumptions C19_move_after.

(** When the target is moved itself, the selection gathers at the target. *)
Theorem C19_move_to_selected : forall ids b t X Y, NoDup (X ++ t :: Y) -> Z.of_nat (length (X ++ t :: Y)) < 1000000000 ->
  mem ids t = true ->
  move_to ids b t (X ++ t :: Y) =
  Some (filter (fun x => negb (mem ids x)) X ++ filter (mem ids) (X ++ t :: Y) ++ filter (fun x => negb (mem ids x)) Y).
Proof. exact move_to_moved. Qed.
Print Assumptions C19_move_to_selected.

(** When the target is not in the queue, the selection goes to the bottom. *)
Theorem C19_move_to_unknown : forall ids b t l, NoDup l -> Z.of_nat (length l) < 1000000000 ->
  ~ In t l -> filter (mem ids) l <> [] ->
  move_to ids b t l = Some (filter (fun x => negb (mem ids x)) l ++ filter (mem ids) l).
Proof. exact move_to_unknown. Qed.
Print Assumptions C19_move_to_unknown.

(** The offset comes from the client through [atoi]: a large one overflows [int]. *)
Theorem C19_offset_overflow_refuted : exists ids offset l, NoDup l /\ int_ok offset = true /\ move_by ids offset l = None.
Proof.
  exists [2], 2147483647, [1; 2]. split; [|split; reflexivity].
  repeat constructor; cbn [In]; intuition discriminate.
Qed.
Print Assumptions C19_offset_overflow_refuted.

Example C19_up_example :
  move_by [3; 4; 6] (-2) [1; 2; 3; 4; 5; 6] = Some [3; 4; 1; 6; 2; 5] /\
  move_by [1; 2; 5] 3 [1; 2; 3; 4; 5; 6] = Some [3; 4; 6; 1; 2; 5] /\
  move_to [2; 5] true 4 [1; 2; 3; 4; 5; 6] = Some [1; 3; 2; 5; 4; 6] /\
  move_to [2; 5] false 4 [1; 2; 3; 4; 5; 6] = Some [1; 3; 4; 2; 5; 6] /\
  move_to [2; 5] true 5 [1; 2; 3; 4; 5; 6] = Some [1; 3; 4; 2; 5; 6] /\
  move_to [2; 5] true 9 [1; 2; 3; 4; 5; 6] = Some [1; 3; 4; 6; 2; 5] /\
  move_top [5; 2] [1; 2; 3; 4; 5; 6] = Some [2; 5; 1; 3; 4; 6].
Proof. repeat split; vm_compute; reflexivity. Qed.

(** ** C20 *)

(** The comparators mean what they should. *)
Theorem C20_order_meaning : forall c a b, crit_lt c a b = true <-> before c a b.
Proof. exact crit_meaning. Qed.
Print Assumptions C20_order_meaning.

Theorem C20_strict_weak : forall c d, strict_weak (dir_lt c d).
Proof. exact dir_sw. Qed.
Print Assumptions C20_strict_weak.

(** Sorting the whole queue. *)
Theorem C20_sort_all : forall c o l, NoDup (map g_id l) -> sort_result c o l (sort_groups [] c o l).
Proof. exact sort_all_spec. Qed.
Print Assumptions C20_sort_all.

(** Sorting a selection: the selected groups are gathered where the first of them stood,
    sorted there, and the others keep their order. *)
Theorem C20_sort_selection : forall ids c o l, NoDup (map g_id l) -> (exists g, In g l /\ picked ids g = true) ->
  exists A B S', sort_groups ids c o l = A ++ S' ++ B /\
    A ++ B = filter (fun g => negb (picked ids g)) l /\
    (forall A2 y R2, l = A2 ++ y :: R2 -> Forall (fun g => picked ids g = false) A2 -> picked ids y = true -> A = A2) /\
    sort_result c o (filter (picked ids) l) S'.
Proof. exact sort_groups_spec. Qed.
Print Assumptions C20_sort_selection.

(** There is only one stable sorting, so this determines the result. *)
Theorem C20_unique : forall c d l r1 r2, stable_sorted (dir_lt c d) l r1 -> stable_sorted (dir_lt c d) l r2 -> r1 = r2.
Proof. intros c d l r1 r2. apply stable_sorted_unique, dir_sw. Qed.
Print Assumptions C20_unique.

Definition gq (id size prio : Z) (name : string) : group := mkGroup id (str name) size size 0 id [] prio.
Definition q0 : list group := [gq 1 30 0 "c"; gq 2 10 5 "b"; gq 3 20 5 "a"; gq 4 10 0 "d"].
Example C20_example :
  map g_id (sort_groups [] ScSize SoAsc q0) = [2; 4; 3; 1] /\
  map g_id (sort_groups [] ScPriority SoAuto q0) = [2; 3; 1; 4] /\
  map g_id (sort_groups [] ScPriority SoAuto (sort_groups [] ScPriority SoAuto q0)) = [1; 4; 2; 3] /\
  map g_id (sort_groups [1; 3; 4] ScName SoAsc q0) = [3; 1; 4; 2] /\
  map g_id (sort_groups [1; 3] ScName SoDesc q0) = [1; 3; 2; 4].
Proof. repeat split; vm_compute; reflexivity. Qed.

(** ** C54 *)

(** A sort command naming only groups that are not in the queue sorts the whole queue. *)
Theorem C54_stale_selection_refuted : exists ids c o l,
  ids <> [] /\ NoDup (map g_id l) /\ (forall g, In g l -> picked ids g = false) /\ sort_groups ids c o l <> l.
Proof.
  exists [9], ScSize, SoAsc, q0. split; [discriminate|]. split; [|split].
  - repeat constructor; cbn [map In g_id q0 gq]; intuition discriminate.
  - intros g H. cbn [In q0] in H. repeat (destruct H as [<-|H]; [reflexivity|]). destruct H.
  - vm_compute. discriminate.
Qed.
Print Assumptions C54_stale_selection_refuted.

(** ** C55 *)

(** The order used for the files of a group has a cycle, so it is no strict weak order
    and [std::sort] has no defined result: a.rar < a.r00 < a.raa < a.rar. *)
Theorem C55_file_order_refuted : exists a b c,
  file_lt a b = true /\ file_lt b c = true /\ file_lt a c = false /\ file_lt c a = true.
Proof. exists (str "a.rar"), (str "a.r00"), (str "a.raa"). vm_compute. repeat split. Qed.
Print Assumptions C55_file_order_refuted.

Theorem C55_not_strict_weak_refuted : ~ strict_weak file_lt.
Proof.
  intros (_ & T & _). destruct C55_file_order_refuted as (a & b & c & H1 & H2 & H3 & _).
  rewrite (T a b c H1 H2) in H3. discriminate.
Qed.
Print Assumptions C55_not_strict_weak_refuted.

(** ** C56 *)

(** Pausing all par files pauses exactly the par files. *)
Theorem C56_pause_all : forall fl id, In id (pause_pars false fl) <-> exists f, In f fl /\ pf_id f = id /\ pf_par f = true.
Proof.
  intros fl id. unfold pause_pars. cbn [negb]. rewrite in_map_iff.
  split; intros (f & H); exists f; rewrite filter_In in *; tauto.
Qed.
Print Assumptions C56_pause_all.

(** Pausing extra par files: if there are par files without recovery blocks, exactly the
    volumes are paused; otherwise exactly one smallest volume stays. *)
Theorem C56_pause_extra_with_index : forall fl p, In p fl -> pf_par p = true -> pf_vol p = false ->
  pause_pars true fl = map pf_id (filter (fun f => pf_par f && pf_vol f) fl).
Proof.
  intros fl p H1 H2 H3. unfold pause_pars. cbn [negb]. cbv zeta.
  assert (K : In p (filter (fun f => pf_par f && negb (pf_vol f)) fl)) by (apply filter_In; rewrite H2, H3; auto).
  destruct (filter (fun f => pf_par f && negb (pf_vol f)) fl); [destruct K|reflexivity].
Qed.
Print Assumptions C56_pause_extra_with_index.

Theorem C56_pause_extra_smallest : forall fl,
  filter (fun f => pf_par f && negb (pf_vol f)) fl = [] ->
  filter (fun f => pf_par f && pf_vol f) fl <> [] ->
  exists v, In v fl /\ pf_par v = true /\ (forall w, In w fl -> pf_par w = true -> pf_size v <= pf_size w) /\
    Permutation (pf_id v :: pause_pars true fl) (map pf_id (filter pf_par fl)).
Proof. exact pause_extra. Qed.
Print Assumptions C56_pause_extra_smallest.

Example C56_example :
  let v i s := mkPf i s true true in
  pause_pars true [v 1 50; mkPf 2 900 false false; v 3 20; v 4 20; v 5 80] = [1; 4; 5] /\
  pause_pars true [v 1 50; mkPf 2 10 true false; v 3 20] = [1; 3].
Proof. split; vm_compute; reflexivity. Qed.

(** ** C57 *)

(** Reordering puts the named files first, in the order given, and keeps the order of the others. *)
Theorem C57_reorder : forall items l, NoDup items -> NoDup l ->
  reorder_files items l = filter (mem l) items ++ filter (fun x => negb (mem items x)) l.
Proof. exact reorder_spec. Qed.
Print Assumptions C57_reorder.

(** A file named twice does not go where it was named first. *)
Theorem C57_duplicate_refuted : exists items l x, NoDup l /\ (forall y, In y items -> In y l) /\
  hd_error items = Some x /\ hd_error (reorder_files items l) <> Some x.
Proof.
  exists [2; 1; 2], [1; 2; 3], 2. split; [|split; [|split]].
  - repeat constructor; cbn [In]; intuition discriminate.
  - cbn [In]; intuition.
  - reflexivity.
  - vm_compute. discriminate.
Qed.
Print Assumptions C57_duplicate_refuted.

Example C57_example : reorder_files [4; 9; 2] [1; 2; 3; 4; 5] = [4; 2; 1; 3; 5].
Proof. reflexivity. Qed.
