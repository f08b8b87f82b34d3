(** Proofs about the renaming by par2-files: directories, the files described. *)
From Coq Require Import String Permutation.
From Verif Require Import Base NumFmt NameModel NameProofs WildModel WebModel RarSetModel RarSetSpec RarSetProofs RarSetProofs3 ParModel ParRenModel ParRenSpec.
Open Scope list_scope. Open Scope Z_scope.

Lemma str_slash : str "/" = [slash]. Proof. reflexivity. Qed.
Lemma file_in_at dir n p : file_in dir n p <-> p = at_dir dir n /\ ~ In 47 n.
Proof. unfold file_in, at_dir. rewrite str_slash. reflexivity. Qed.
Lemma at_dir_inj dir a b : at_dir dir a = at_dir dir b -> a = b.
Proof. unfold at_dir. intros E. apply app_inv_head in E. injection E. auto. Qed.
Lemma in_dir_iff dir p : in_dir dir p = true <-> exists n, p = at_dir dir n /\ ~ In 47 n.
Proof.
  unfold in_dir. rewrite andb_true_iff, negb_true_iff, prefixb_iff. split.
  - intros [(n & E) H]. exists n. rewrite <- app_assoc in E. split; [exact E|]. subst p. intros I.
    replace (skipn _ _) with n in H. { rewrite <- not_true_iff_false, existsb_exists in H. apply H. exists 47. split; [exact I|reflexivity]. }
    rewrite app_assoc, skipn_app. replace (length dir + 1)%nat with (length (dir ++ [slash])) by (rewrite app_length; reflexivity). rewrite skipn_all, Nat.sub_diag. reflexivity.
  - intros (n & -> & H). split; [exists n; unfold at_dir; rewrite <- app_assoc; reflexivity|].
    unfold at_dir. rewrite app_assoc, skipn_app. replace (length dir + 1)%nat with (length (dir ++ [slash])) by (rewrite app_length; reflexivity). rewrite skipn_all, Nat.sub_diag. cbn [app skipn].
    rewrite <- not_true_iff_false, existsb_exists. intros (x & I & E). apply Z.eqb_eq in E. unfold slash in E. subst x. exact (H I).
Qed.
Lemma skip_at dir n : skipn (length dir + 1) (at_dir dir n) = n.
Proof. unfold at_dir. rewrite app_assoc, skipn_app. replace (length dir + 1)%nat with (length (dir ++ [slash])) by (rewrite app_length; reflexivity). rewrite skipn_all, Nat.sub_diag. reflexivity. Qed.
Lemma in_listing fs dir n : In n (listing fs dir) <-> In (at_dir dir n) (paths fs) /\ ~ In 47 n.
Proof.
  unfold listing. rewrite in_map_iff. split.
  - intros ([p c] & E & I). apply filter_In in I as [I D]. cbn [fst] in *. apply in_dir_iff in D as (m & -> & M). rewrite skip_at in E. subst m.
    split; [apply (in_map fst) in I; exact I|exact M].
  - intros [I M]. unfold paths in I. apply in_map_iff in I as ([p c] & E & I). cbn [fst] in E. subst p. exists (at_dir dir n, c). cbn [fst]. split; [apply skip_at|].
    apply filter_In. split; [exact I|]. apply in_dir_iff. exists n. auto.
Qed.
Lemma listing_nodup fs dir : NoDup (paths fs) -> NoDup (listing fs dir).
Proof.
  intros N. unfold listing. induction fs as [|[p c] fs IH]; [constructor|]. cbn [paths map fst] in N. apply NoDup_cons_iff in N as [N1 N2]. cbn [filter fst].
  destruct (in_dir dir p) eqn:E; [|apply IH, N2]. cbn [map fst]. constructor; [|apply IH, N2]. apply in_dir_iff in E as (n & -> & M). rewrite skip_at.
  intros I. apply (in_listing fs dir n) in I as [I _]. exact (N1 I).
Qed.

(** ** Renaming *)

Lemma do_rename_fs can s a b : r_fs (do_rename can s a b) = rename_file can (r_fs s) a b.
Proof. unfold do_rename, rename_file. destruct (look (r_fs s) a); [|reflexivity]. destruct (can a b); reflexivity. Qed.
Lemma do_rename_flags can s a b : r_damaged (do_rename can s a b) = r_damaged s /\ r_missed (do_rename can s a b) = r_missed s.
Proof. unfold do_rename. destruct (look (r_fs s) a); [|auto]. destruct (can a b); auto. Qed.
Lemma do_rename_done can s a b : r_done (do_rename can s a b) = r_done s \/ r_done (do_rename can s a b) = r_done s ++ [(a, b)].
Proof. unfold do_rename. destruct (look (r_fs s) a); [|auto]. destruct (can a b); auto. Qed.

(** ** The files described *)

Lemma find_hash_some h hs m hs' : find_hash h hs = Some (m, hs') -> exists i e r, hs = i ++ e :: r /\ h_hash e = h /\ h_name e = m /\
  Forall (fun x => h_hash x <> h) i /\ hs' = i ++ FHash m h true :: r.
Proof.
  revert m hs'. induction hs as [|e hs IH]; intros m hs' H; [discriminate|]. cbn [find_hash] in H. destruct (beqb (h_hash e) h) eqn:E.
  - apply beqb_eq in E. injection H as <- <-. exists [], e, hs. rewrite E. repeat split. constructor.
  - destruct (find_hash h hs) as [[n r']|] eqn:F; [|discriminate]. injection H as <- <-. destruct (IH _ _ eq_refl) as (i & x & r & -> & A & B & C & ->).
    exists (e :: i), x, r. apply beqb_neq in E. repeat split; auto.
Qed.
Lemma find_hash_none h hs : find_hash h hs = None -> Forall (fun x => h_hash x <> h) hs.
Proof.
  induction hs as [|e hs IH]; intros H; [constructor|]. cbn [find_hash] in H. destruct (beqb (h_hash e) h) eqn:E; [discriminate|].
  destruct (find_hash h hs) as [[n r']|]; [discriminate|]. constructor; [apply beqb_neq, E|apply IH; reflexivity].
Qed.
Lemma found_described h hs m hs' : find_hash h hs = Some (m, hs') -> described hs' = described hs.
Proof.
  intros H. apply find_hash_some in H as (i & e & r & -> & A & B & _ & ->). unfold described. rewrite !map_app. cbn [map h_name h_hash]. rewrite A, B. reflexivity.
Qed.
Lemma described_hashes hs : map snd (described hs) = map h_hash hs.
Proof. unfold described. rewrite map_map. reflexivity. Qed.
Lemma described_names hs : map fst (described hs) = map h_name hs.
Proof. unfold described. rewrite map_map. reflexivity. Qed.
Lemma find_says h hs m hs' : find_hash h hs = Some (m, hs') -> says hs h m.
Proof.
  intros H. apply find_hash_some in H as (i & e & r & -> & A & B & F & _). exists (described i), (described r). split.
  - unfold described. rewrite map_app. cbn [map]. rewrite A, B. reflexivity.
  - rewrite described_hashes. rewrite in_map_iff. intros (x & E & I). rewrite Forall_forall in F. exact (F x I E).
Qed.
Lemma says_eq hs hs' h m : described hs' = described hs -> says hs h m -> says hs' h m.
Proof. intros E (i & r & D & N). exists i, r. rewrite E. auto. Qed.
Lemma says_in hs h m : says hs h m -> In (m, h) (described hs).
Proof. intros (i & r & D & N). rewrite D. apply in_or_app. right. left. reflexivity. Qed.
Lemma in_find hs m h : hashes_differ hs -> In (m, h) (described hs) -> exists hs', find_hash h hs = Some (m, hs').
Proof.
  unfold hashes_differ. induction hs as [|e hs IH]; intros N I; [destruct I|]. cbn [map] in N. apply NoDup_cons_iff in N as [N1 N2]. cbn [find_hash]. cbn [described map] in I. destruct I as [I|I].
  - injection I as <- <-. rewrite beqb_refl. eauto.
  - destruct (beqb (h_hash e) h) eqn:E.
    + apply beqb_eq in E. exfalso. apply N1. rewrite E, <- described_hashes. apply (in_map snd) in I. exact I.
    + destruct (IH N2 I) as (hs' & ->). eauto.
Qed.

(** ** First parts of split files *)

Lemma digits_iff d : all_digits d = true <-> Forall (fun c => 48 <= c <= 57) d.
Proof. unfold all_digits. rewrite forallb_forall, Forall_forall. split; intros H x X; specialize (H x X); rewrite ?andb_true_iff, ?Z.leb_le in *; lia. Qed.
Lemma lower_len a b : caseless a b -> length a = length b.
Proof. unfold caseless. intros H. apply (f_equal (@length Z)) in H. rewrite !map_length in H. exact H. Qed.
Lemma pdigits_acc d : Forall (fun c => 48 <= c <= 57) d -> forall a, 0 <= a -> 0 <= pdigits a d.
Proof.
  induction 1 as [|c d C D IH]; intros a A; cbn [pdigits]; [exact A|]. destruct (is_digit c) eqn:E; [|exact A]. apply IH. lia.
Qed.
Lemma atoi_small d : Forall (fun c => 48 <= c <= 57) d -> atoi_digits d <= 1 -> pdigits 0 d <= 1 \/ 2 ^ 31 <= pdigits 0 d.
Proof.
  intros D H. pose proof (pdigits_acc d D 0 ltac:(lia)) as P. unfold atoi_digits, to_i32 in H. destruct (Z.lt_ge_cases (pdigits 0 d) (2 ^ 31)) as [L|L]; [left|right; exact L].
  rewrite Z.min_l in H by lia. rewrite Z.mod_small in H by lia. lia.
Qed.
Lemma atoi_tiny d : Forall (fun c => 48 <= c <= 57) d -> pdigits 0 d <= 1 -> atoi_digits d <= 1.
Proof.
  intros D H. pose proof (pdigits_acc d D 0 ltac:(lia)) as P. unfold atoi_digits, to_i32. rewrite Z.min_l by lia. rewrite Z.mod_small by lia. lia.
Qed.
Lemma strrchr_has (x y : list Z) : exists a b, strrchr 46 (x ++ 46 :: y) = Some (a, b).
Proof.
  destruct (strrchr 46 (x ++ 46 :: y)) as [[a b]|] eqn:E; [eauto|]. apply strrchr_none in E. exfalso. apply E. apply in_or_app. right. left. reflexivity.
Qed.
Lemma fragment_maybe n m : is_fragment n m = true -> maybe_first_part n m.
Proof.
  unfold is_fragment. destruct (strrchr dot n); [|discriminate]. rewrite andb_true_iff, beqb_eq. intros [E H].
  destruct (skipn (length m) n) as [|c d] eqn:K; [discriminate|]. rewrite !andb_true_iff, Z.eqb_eq, Z.leb_le in H. destruct H as [[C D] A]. apply digits_iff in D.
  exists (pdigits 0 d). split; [apply atoi_small; assumption|]. exists (firstn (length m) n), d. split; [rewrite <- (firstn_skipn (length m) n) at 1; rewrite K, C; reflexivity|]. auto.
Qed.
Lemma fragment_first n m : first_part n m -> is_fragment n m = true.
Proof.
  intros (k & K & a & d & -> & C & D & E). unfold is_fragment. destruct (strrchr_has a d) as (x & y & Q). change (str "." ++ d) with (46 :: d). unfold dot. rewrite Q.
  rewrite <- (lower_len _ _ C). rewrite firstn_app, firstn_all, Nat.sub_diag. cbn [firstn]. rewrite app_nil_r. rewrite (proj2 (beqb_eq _ _) C).
  rewrite skipn_app, skipn_all, Nat.sub_diag. cbn [skipn app andb]. rewrite Z.eqb_refl, (proj2 (digits_iff d) D). cbn [andb]. apply Z.leb_le, atoi_tiny; [exact D|lia].
Qed.
