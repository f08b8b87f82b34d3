(** Proofs about the renaming by par2-files: reading par2-files, one directory, all directories. *)
From Coq Require Import String Permutation.
From Verif Require Import Base NumFmt NameModel NameSpec NameProofs WildModel WebModel InfoModel RarModel RarSetModel RarSetSpec RarSetProofs RarSetProofs2 RarSetProofs3 ParModel ParRenModel ParRenSpec ParRenProofs ParRenProofs2 ParRenProofs3.
Open Scope list_scope. Open Scope Z_scope.

(** ** Only files of the directory are renamed *)

Lemma look_remove p q fs : p <> q -> look (remove q fs) p = look fs p.
Proof.
  intros N. induction fs as [|[r c] fs IH]; [reflexivity|]. cbn [remove filter fst]. fold (remove q fs). destruct (beqb q r) eqn:E; cbn [negb look].
  - apply beqb_eq in E as ->. rewrite (proj2 (beqb_neq p r) N). exact IH.
  - destruct (beqb p r); [reflexivity|exact IH].
Qed.
Lemma look_rename_other can fs a b p : p <> a -> p <> b -> look (rename_file can fs a b) p = look fs p.
Proof.
  intros A B. unfold rename_file. destruct (look fs a); [|reflexivity]. destruct (can a b); [|reflexivity]. cbn [look]. rewrite (proj2 (beqb_neq p b) B). rewrite !look_remove by assumption. reflexivity.
Qed.
Lemma remove_paths q fs p : In p (paths (remove q fs)) <-> In p (paths fs) /\ p <> q.
Proof.
  unfold remove, paths. rewrite !in_map_iff. split.
  - intros ([x c] & <- & I). apply filter_In in I as [I E]. cbn [fst] in *. split; [exists (x, c); auto|]. intros ->. rewrite beqb_refl in E. discriminate.
  - intros [([x c] & <- & I) N]. exists (x, c). split; [reflexivity|]. apply filter_In. split; [exact I|]. cbn [fst] in *. apply negb_true_iff, beqb_neq. congruence.
Qed.
Lemma remove_nodup q fs : NoDup (paths fs) -> NoDup (paths (remove q fs)).
Proof.
  induction fs as [|[p c] fs IH]; intros N; [constructor|]. cbn [paths map fst] in N. apply NoDup_cons_iff in N as [N1 N2]. cbn [remove filter fst]. fold (remove q fs).
  destruct (negb (beqb q p)); [|apply IH, N2]. cbn [paths map fst]. constructor; [|apply IH, N2]. intros I. apply remove_paths in I as [I _]. exact (N1 I).
Qed.
Lemma rename_nodup can fs a b : NoDup (paths fs) -> NoDup (paths (rename_file can fs a b)).
Proof.
  intros N. unfold rename_file. destruct (look fs a); [|exact N]. destruct (can a b); [|exact N]. cbn [paths map fst]. constructor.
  - intros I. change (map fst (remove b (remove a fs))) with (paths (remove b (remove a fs))) in I. apply remove_paths in I as [_ I]. congruence.
  - apply remove_nodup, remove_nodup, N.
Qed.
Inductive moves (can : list Z -> list Z -> bool) (dir : list Z) : disk -> list (list Z * list Z) -> disk -> list (list Z * list Z) -> Prop :=
| Mv_nil fs dn : moves can dir fs dn fs dn
| Mv_cons fs dn a b n m dn1 fs' dn' : file_in dir n a -> file_in dir m b -> dn1 = dn \/ dn1 = dn ++ [(a, b)] ->
    moves can dir (rename_file can fs a b) dn1 fs' dn' -> moves can dir fs dn fs' dn'.
Lemma moves_trans can dir fs dn fs1 dn1 fs2 dn2 : moves can dir fs dn fs1 dn1 -> moves can dir fs1 dn1 fs2 dn2 -> moves can dir fs dn fs2 dn2.
Proof. induction 1 as [|? ? ? ? ? ? ? ? ? A B C M IH]; intros G; [exact G|]. eapply Mv_cons; [exact A|exact B|exact C|exact (IH G)]. Qed.
Lemma moves_one can dir s n m : ~ In 47 n -> ~ In 47 m -> let s' := do_rename can s (at_dir dir n) (at_dir dir m) in moves can dir (r_fs s) (r_done s) (r_fs s') (r_done s').
Proof.
  intros N M s'. eapply (Mv_cons _ _ _ _ (at_dir dir n) (at_dir dir m) n m); [apply file_in_at; auto..| |]. 
  - exact (do_rename_done can s _ _).
  - unfold s'. rewrite do_rename_fs. apply Mv_nil.
Qed.
Lemma moves_facts can dir fs dn fs' dn' : moves can dir fs dn fs' dn' ->
  (NoDup (paths fs) -> NoDup (paths fs')) /\ (forall p, (forall n, ~ file_in dir n p) -> look fs' p = look fs p) /\
  (forall p, In p (paths fs') -> In p (paths fs) \/ exists n, file_in dir n p) /\
  exists d, dn' = dn ++ d /\ forall e, In e d -> exists n m, file_in dir n (fst e) /\ file_in dir m (snd e).
Proof.
  induction 1 as [fs dn|fs dn a b n m dn1 fs' dn' Fa Fb D M IH].
  - repeat (split; [auto|]). exists []. rewrite app_nil_r. split; [reflexivity|intros e []].
  - destruct IH as (I1 & I2 & I3 & d & I4 & I5). split; [intros N; apply I1, rename_nodup, N|]. split.
    { intros p P. rewrite I2 by exact P. apply look_rename_other; intros ->; [exact (P n Fa)|exact (P m Fb)]. }
    split.
    { intros p P. destruct (I3 p P) as [Q|Q]; [|auto]. unfold rename_file in Q. destruct (look fs a); [|auto]. destruct (can a b); [|auto]. cbn [paths map fst] in Q. destruct Q as [<- |Q]; [right; eauto|].
      change (map fst ?x) with (paths x) in Q. apply remove_paths in Q as [Q _]. apply remove_paths in Q as [Q _]. auto. }
    destruct D as [-> | ->].
    + exists d. auto.
    + exists ((a, b) :: d). split; [rewrite I4, <- app_assoc; reflexivity|]. intros e [<- |E]; [exists n, m; auto|auto].
Qed.

(** ** Names without a slash *)

Lemma hexdigit_range v : 0 <= v < 16 -> hexdigit v <> 47.
Proof. intros H. unfold hexdigit. destruct (v <? 10) eqn:E; lia. Qed.
Lemma hexdigit_no v : hexdigit v = 47 -> v = -1 \/ v = -40.
Proof. unfold hexdigit. destruct (v <? 10) eqn:E; lia. Qed.
Lemma hex_low_ok l : Forall (fun b => 0 <= b < 256) l -> ~ In 47 (hex_low l).
Proof.
  intros F H. unfold hex_low in H. apply in_flat_map in H as (b & B & H). apply in_rev in B. rewrite Forall_forall in F. specialize (F b B). destruct H as [H|[H|[]]]; revert H; apply hexdigit_range; lia.
Qed.
Lemma vol_noslash set k : 0 <= k -> ~ In 47 set -> ~ In 47 (vol_name set k).
Proof.
  intros K S H. unfold vol_name in H. rewrite !in_app_iff in H. destruct H as [H|[H|[H|H]]]; [exact (S H)| | |].
  - vm_compute in H. intuition discriminate.
  - pose proof (pad_digits 3 k K) as F. rewrite Forall_forall in F. specialize (F 47 H). lia.
  - vm_compute in H. intuition discriminate.
Qed.
Lemma valid_noslash n : ~ In 47 (make_valid false n).
Proof. intros H. destruct (make_valid_safe n) as (F & _). rewrite Forall_forall in F. apply (F 47 H). unfold bad_char. vm_compute. tauto. Qed.

(** ** What is read from par2-files *)

Lemma mains_in : forall l f g, In g (find_mains l f) -> In g l \/ In g f.
Proof.
  induction l as [|x l IH]; intros f g H; [auto|]. cbn [find_mains] in H. destruct (parse_par x true).
  - destruct (IH _ _ H) as [Q|Q]; [left; right; exact Q|]. destruct (existsb _ f); [auto|]. apply in_app_or in Q as [Q|[<- |[]]]; [auto|left; left; reflexivity].
  - destruct (IH _ _ H) as [Q|Q]; [left; right; exact Q|auto].
Qed.
Definition read_ok load (fs : disk) (dir : list Z) (l : lstate) : Prop :=
  hashes_differ (l_hashes l) /\ (forall e, In e (l_hashes l) -> h_found e = false) /\
  (forall m h, In (m, h) (described (l_hashes l)) -> exists p c d n, look fs p = Some c /\ load c = Some d /\ In (Some (n, h)) d /\ m = make_valid false n) /\
  (forall p, In p (l_bad l) -> exists n, p = at_dir dir n /\ In n (listing fs dir)).
Definition mono (l l' : lstate) : Prop := (forall m h, In (m, h) (described (l_hashes l)) -> In (m, h) (described (l_hashes l'))) /\ (forall p, In p (l_bad l) -> In p (l_bad l')).

Lemma add_described_ok p : forall d hs bad, hashes_differ hs -> (forall e, In e hs -> h_found e = false) ->
  let r := add_described p d hs bad in
  hashes_differ (fst r) /\ (forall e, In e (fst r) -> h_found e = false) /\
  (forall m h, In (m, h) (described (fst r)) -> In (m, h) (described hs) \/ exists n, In (Some (n, h)) d /\ m = make_valid false n) /\
  (forall m h, In (m, h) (described hs) -> In (m, h) (described (fst r))) /\
  (forall n h, In (Some (n, h)) d -> In h (map h_hash (fst r))) /\
  (forall q, In q (snd r) <-> In q bad \/ (q = p /\ In None d)).
Proof.
  induction d as [|[[n h]|] d IH]; intros hs bad Hd Hf; cbn [add_described].
  - cbn [fst snd]. split; [exact Hd|]. split; [exact Hf|]. split; [auto|]. split; [auto|]. split; [intros n h []|]. intros q. split; [auto|intros [Q|[_ Q]]; [exact Q|destruct Q]].
  - set (hs1 := if existsb _ hs then hs else _).
    assert (A : hashes_differ hs1 /\ (forall e, In e hs1 -> h_found e = false) /\ (forall m k, In (m, k) (described hs1) -> In (m, k) (described hs) \/ (k = h /\ m = make_valid false n)) /\ (forall m k, In (m, k) (described hs) -> In (m, k) (described hs1)) /\ In h (map h_hash hs1)).
    { unfold hs1. destruct (existsb (fun e => beqb (h_hash e) h) hs) eqn:E.
      - apply existsb_exists in E as (x & X & E). apply beqb_eq in E. repeat (split; [auto|]). rewrite <- E. apply in_map, X.
      - assert (Nh : ~ In h (map h_hash hs)). { intros I. apply in_map_iff in I as (x & E2 & X). rewrite <- not_true_iff_false, existsb_exists in E. apply E. exists x. split; [exact X|apply beqb_eq, E2]. }
        split. { unfold hashes_differ. rewrite map_app. cbn [map h_hash]. apply (Permutation_NoDup (Permutation_cons_append _ h)). constructor; [exact Nh|exact Hd]. }
        split. { intros e I. apply in_app_or in I as [I|[<- |[]]]; [auto|reflexivity]. }
        unfold described. rewrite map_app. cbn [map h_name h_hash]. split. { intros m k I. apply in_app_or in I as [I|[I|[]]]; [auto|]. injection I as <- <-. auto. }
        split. { intros m k I. apply in_or_app. auto. } rewrite map_app. apply in_or_app. right. left. reflexivity. }
    destruct A as (A1 & A2 & A3 & A4 & A5). destruct (IH hs1 bad A1 A2) as (B1 & B2 & B3 & B4 & B5 & B6). split; [exact B1|]. split; [exact B2|]. split.
    { intros m k I. destruct (B3 m k I) as [Q|(x & X & ->)]; [destruct (A3 m k Q) as [Q2|[-> ->]]; [auto|right; exists n; split; [left; reflexivity|reflexivity]]|right; exists x; split; [right; exact X|reflexivity]]. }
    split; [auto|]. split.
    { intros x k [X|X]; [|exact (B5 x k X)]. injection X as <- <-. rewrite <- described_hashes in A5. apply in_map_iff in A5 as ([m k] & E & I). cbn [snd] in E. subst k. apply B4 in I. rewrite <- described_hashes. apply (in_map snd) in I. exact I. }
    intros q. rewrite B6. split; (intros [Q|[-> Q]]; [auto|right; split; [reflexivity|]]); [right; exact Q|destruct Q as [Q|Q]; [discriminate|exact Q]].
  - destruct (IH hs (bad ++ [p]) Hd Hf) as (B1 & B2 & B3 & B4 & B5 & B6). split; [exact B1|]. split; [exact B2|]. split.
    { intros m k I. destruct (B3 m k I) as [Q|(x & X & ->)]; [auto|right; exists x; split; [right; exact X|reflexivity]]. }
    split; [exact B4|]. split. { intros x k [X|X]; [discriminate|exact (B5 x k X)]. }
    intros q. rewrite B6, in_app_iff. cbn [In]. split; [intros [[Q|[Q|[]]]|[Q1 Q2]]; auto|intros [Q|[-> [Q|Q]]]; auto].
Qed.
Lemma load_par_ok load fs dir n l : In n (listing fs dir) -> read_ok load fs dir l ->
  let l' := load_par load fs (at_dir dir n) l in read_ok load fs dir l' /\ mono l l' /\
  (forall c d x h, look fs (at_dir dir n) = Some c -> c <> [] -> load c = Some d -> In (Some (x, h)) d -> In h (map h_hash (l_hashes l'))) /\
  (forall c, look fs (at_dir dir n) = Some c -> c = [] \/ load c = None \/ (exists d, load c = Some d /\ In None d) -> In (at_dir dir n) (l_bad l')) /\
  (forall p, In p (l_bad l') -> In p (l_bad l) \/ (p = at_dir dir n /\ forall c, look fs p = Some c -> c = [] \/ load c = None \/ exists d, load c = Some d /\ In None d)).
Proof.
  intros Hn (R1 & R2 & R3 & R4) l'. unfold l', load_par.
  assert (B : (forall c d x h, look fs (at_dir dir n) = Some c -> c <> [] -> load c = Some d -> In (Some (x, h)) d -> False) -> (forall c, look fs (at_dir dir n) = Some c -> c = [] \/ load c = None \/ exists d, load c = Some d /\ In None d) ->
    let l' := LState (l_hashes l) (l_bad l ++ [at_dir dir n]) (l_loaded l) in read_ok load fs dir l' /\ mono l l' /\
    (forall c d x h, look fs (at_dir dir n) = Some c -> c <> [] -> load c = Some d -> In (Some (x, h)) d -> In h (map h_hash (l_hashes l'))) /\
    (forall c, look fs (at_dir dir n) = Some c -> c = [] \/ load c = None \/ (exists d, load c = Some d /\ In None d) -> In (at_dir dir n) (l_bad l')) /\
    (forall p, In p (l_bad l') -> In p (l_bad l) \/ (p = at_dir dir n /\ forall c, look fs p = Some c -> c = [] \/ load c = None \/ exists d, load c = Some d /\ In None d))).
  { intros Hx Hb. cbn [l_hashes l_bad]. split.
    { split; [exact R1|]. split; [exact R2|]. split; [exact R3|]. cbn [l_bad]. intros p P. apply in_app_or in P as [P|[<- |[]]]; [auto|]. exists n. auto. }
    split. { split; [auto|]. cbn [l_bad]. intros p P. apply in_or_app. auto. }
    split. { intros c d x h A A2 A3 A4. destruct (Hx c d x h A A2 A3 A4). }
    split. { intros c A A2. apply in_or_app. right. left. reflexivity. }
    intros p P. apply in_app_or in P as [P|[<- |[]]]; [auto|]. right. split; [reflexivity|]. exact Hb. }
  destruct (look fs (at_dir dir n)) as [[|b c]|] eqn:L.
  - apply B; [intros c d x h E N; congruence|]. intros c E. injection E as <-. auto.
  - destruct (load (b :: c)) as [d|] eqn:Ld.
    + pose proof (add_described_ok (at_dir dir n) d (l_hashes l) (l_bad l) R1 R2) as A. cbv zeta in A. destruct (add_described _ d _ _) as [hs bad]. cbn [fst snd] in *. destruct A as (A1 & A2 & A3 & A4 & A5 & A6).
      split.
      { split; [exact A1|]. split; [exact A2|]. split; cbn [l_hashes l_bad].
        - intros m h I. destruct (A3 m h I) as [Q|(x & X & ->)]; [auto|]. exists (at_dir dir n), (b :: c), d, x. auto.
        - intros p P. apply A6 in P as [P|[-> _]]; [auto|]. exists n. auto. }
      split. { split; cbn [l_hashes l_bad]; [exact A4|]. intros p P. apply A6. auto. }
      cbn [l_hashes l_bad]. split. { intros c' d' x h E _ E2 I. injection E as <-. rewrite Ld in E2. injection E2 as <-. exact (A5 x h I). }
      split. { intros c' E [->|[E2|(d' & E2 & I)]]; [discriminate|injection E as <-; congruence|]. injection E as <-. rewrite Ld in E2. injection E2 as <-. apply A6. auto. }
      intros p P. apply A6 in P as [P|[-> I]]; [auto|]. right. split; [reflexivity|]. intros c' E. rewrite L in E. injection E as <-. right. right. eauto.
    + apply B; [intros c' d x h E _ E2; congruence|]. intros c' E. injection E as <-. auto.
  - apply B; intros c; discriminate.
Qed.
Lemma mono_trans a b c : mono a b -> mono b c -> mono a c.
Proof. intros [A B] [C D]. split; auto. Qed.
Lemma mono_refl a : mono a a. Proof. split; auto. Qed.
Lemma mono_hash l l' h : mono l l' -> In h (map h_hash (l_hashes l)) -> In h (map h_hash (l_hashes l')).
Proof. intros [A _] I. rewrite <- described_hashes in *. apply in_map_iff in I as ([m k] & E & I). apply A in I. apply in_map_iff. exists (m, k). auto. Qed.
Lemma load_mains_ok load fs dir : forall L l, (forall n, In n L -> In n (listing fs dir)) -> read_ok load fs dir l ->
  let l' := fold_left (fun l n => load_par load fs (at_dir dir n) l) L l in read_ok load fs dir l' /\ mono l l' /\
  (forall n c d x h, In n L -> look fs (at_dir dir n) = Some c -> c <> [] -> load c = Some d -> In (Some (x, h)) d -> In h (map h_hash (l_hashes l'))) /\
  (forall n c, In n L -> look fs (at_dir dir n) = Some c -> unreadable load c -> In (at_dir dir n) (l_bad l')) /\
  (forall p, In p (l_bad l') -> In p (l_bad l) \/ exists n, In n L /\ p = at_dir dir n /\ forall c, look fs p = Some c -> unreadable load c).
Proof.
  induction L as [|n L IH]; intros l H R; cbn [fold_left].
  { split; [exact R|]. split; [apply mono_refl|]. split; [intros n c d x h []|]. split; [intros n c []|auto]. }
  destruct (load_par_ok load fs dir n l (H n (or_introl eq_refl)) R) as (A1 & A2 & A3 & A4 & A5).
  destruct (IH _ (fun x X => H x (or_intror X)) A1) as (B1 & B2 & B3 & B4 & B5). split; [exact B1|]. split; [eapply mono_trans; eassumption|]. split; [|split].
  - intros x c d y h [<- |I] E Ne E2 I2; [|exact (B3 x c d y h I E Ne E2 I2)]. eapply mono_hash; [exact B2|]. exact (A3 c d y h E Ne E2 I2).
  - intros x c [<- |I] E U; [|exact (B4 x c I E U)]. apply B2. exact (A4 c E U).
  - intros p P. destruct (B5 p P) as [Q|(x & X & Q)]; [|right; exists x; split; [right; exact X|exact Q]]. destruct (A5 p Q) as [Q2|[-> Q2]]; [auto|]. right. exists n. split; [left; reflexivity|]. split; [reflexivity|exact Q2].
Qed.
Lemma load_extra_ok load fs dir : forall L l, (forall n, In n L -> In n (listing fs dir)) -> read_ok load fs dir l ->
  let l' := fold_left (fun l n => let p := at_dir dir n in match parse_par p true with Some _ => if existsb (beqb p) (l_bad l) || existsb (beqb p) (l_loaded l) then l else load_par load fs p l | None => l end) L l in
  read_ok load fs dir l' /\ mono l l' /\ 
  (forall p, In p (l_bad l') -> In p (l_bad l) \/ exists n, In n L /\ p = at_dir dir n /\ forall c, look fs p = Some c -> unreadable load c).
Proof.
  induction L as [|n L IH]; intros l H R; cbn [fold_left]; [split; [exact R|split; [apply mono_refl|auto]]|]. cbv zeta. set (l1 := match parse_par (at_dir dir n) true with Some _ => _ | None => _ end).
  assert (A : read_ok load fs dir l1 /\ mono l l1 /\ (forall p, In p (l_bad l1) -> In p (l_bad l) \/ (p = at_dir dir n /\ forall c, look fs p = Some c -> unreadable load c))).
  { unfold l1. destruct (parse_par (at_dir dir n) true); [|split; [exact R|split; [apply mono_refl|auto]]]. destruct (existsb _ _ || existsb _ _); [split; [exact R|split; [apply mono_refl|auto]]|].
    destruct (load_par_ok load fs dir n l (H n (or_introl eq_refl)) R) as (A1 & A2 & _ & _ & A5). auto. }
  destruct A as (A1 & A2 & A3). destruct (IH l1 (fun x X => H x (or_intror X)) A1) as (B1 & B2 & B3). cbv zeta in B1, B2, B3. split; [exact B1|]. split; [eapply mono_trans; eassumption|].
  intros p P. destruct (B3 p P) as [Q|(x & X & Q)]; [|right; exists x; split; [right; exact X|exact Q]]. destruct (A3 p Q) as [Q2|[-> Q2]]; [auto|]. right. exists n. split; [left; reflexivity|]. auto.
Qed.
Lemma read_start load fs dir : read_ok load fs dir (LState [] [] []).
Proof. split; [constructor|]. split; [intros e []|]. split; [intros m h []|intros p []]. Qed.
Lemma load_all_ok load dir s : let l := fst (load_all load dir s) in let fs := r_fs s in read_ok load fs dir l /\
  (forall n c d x h, In n (find_mains (listing fs dir) []) -> look fs (at_dir dir n) = Some c -> c <> [] -> load c = Some d -> In (Some (x, h)) d -> In h (map h_hash (l_hashes l))) /\
  (forall p, In p (l_bad l) -> exists n, In n (listing fs dir) /\ p = at_dir dir n /\ forall c, look fs p = Some c -> unreadable load c).
Proof.
  cbv zeta. unfold load_all. set (l0 := load_main load (r_fs s) dir).
  assert (Hm : forall n, In n (find_mains (listing (r_fs s) dir) []) -> In n (listing (r_fs s) dir)) by (intros n I; apply mains_in in I as [I|[]]; exact I).
  destruct (load_mains_ok load (r_fs s) dir _ _ Hm (read_start load (r_fs s) dir)) as (A1 & A2 & A3 & A4 & A5). fold (load_main load (r_fs s) dir) in A1, A2, A3, A4, A5. fold l0 in A1, A2, A3, A4, A5.
  assert (A6 : forall p, In p (l_bad l0) -> exists n, In n (listing (r_fs s) dir) /\ p = at_dir dir n /\ forall c, look (r_fs s) p = Some c -> unreadable load c).
  { intros p P. destruct (A5 p P) as [[]|(n & I & Q)]. exists n. auto. }
  destruct (r_damaged s || negb (is_nil (l_bad l0))); cbn [fst]; [|auto].
  destruct (load_extra_ok load (r_fs s) dir (listing (r_fs s) dir) l0 ltac:(auto) A1) as (B1 & B2 & B3). split; [exact B1|]. split.
  - intros n c d x h I E Ne E2 I2. eapply mono_hash; [exact B2|]. exact (A3 n c d x h I E Ne E2 I2).
  - intros p P. destruct (B3 p P) as [Q|(n & I & Q)]; [exact (A6 p Q)|]. exists n. auto.
Qed.
