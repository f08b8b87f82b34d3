(** Proofs about the definitions of servers. *)
From Coq Require Import String.
From Verif Require Import Base NumFmt LineModel WildSpec WildModel WebModel WebSpec WebProofs OptModel OptSpec OptProofs OptProofs2.
Open Scope list_scope. Open Scope Z_scope.

Lemma lc_digits l : Forall (fun c => is_digit c = true) l -> map lc l = l.
Proof. induction 1 as [|c l H Hs IH]; [reflexivity|]. cbn [map]. rewrite IH. f_equal. unfold is_digit in H. unfold lc. replace ((65 <=? c) && (c <=? 90)) with false by lia. reflexivity. Qed.
Lemma zdec_digits n : 0 <= n -> Forall (fun c => is_digit c = true) (zdec n).
Proof. intros H. unfold zdec. replace (n <? 0) with false by lia. apply udec_digits, H. Qed.
Lemma dot_head f : dotted [f] = true -> exists r, str f = 46 :: r.
Proof. unfold dotted. cbn [forallb]. rewrite andb_true_r. rewrite prefixb_iff. intros (t & ->). exists t. reflexivity. Qed.
Lemma numbered_inj p n m f g : 0 <= n -> 0 <= m -> dotted [f] = true -> dotted [g] = true ->
  same (numbered_name p n f) (numbered_name p m g) -> n = m /\ same (str f) (str g).
Proof.
  intros Hn Hm Hf Hg. unfold same, numbered_name. rewrite !map_app. intros H. apply app_inv_head in H.
  rewrite (lc_digits (zdec n)), (lc_digits (zdec m)) in H by (apply zdec_digits; assumption). destruct (dot_head f Hf) as (r & Er). destruct (dot_head g Hg) as (r' & Er'). rewrite Er, Er' in *.
  cbn [map] in *. change (lc 46) with 46 in *. apply split_unique in H.
  - destruct H as (H1 & H2). split; [|congruence]. rewrite <- (atoll_zdec n []), <- (atoll_zdec m []) by exact I. rewrite !app_nil_r, H1. reflexivity.
  - intros X. pose proof (zdec_digits n Hn) as D. rewrite Forall_forall in D. apply D in X. discriminate.
  - intros X. pose proof (zdec_digits m Hm) as D. rewrite Forall_forall in D. apply D in X. discriminate.
Qed.
Lemma field_diff p n f g : 0 <= n -> dotted [f; g] = true -> sameb (str f) (str g) = false -> ~ same (numbered_name p n f) (numbered_name p n g).
Proof.
  intros Hn D Hb S1. unfold dotted in D. cbn [forallb] in D. rewrite andb_true_r in D. apply andb_true_iff in D as (D1 & D2).
  apply numbered_inj in S1 as (_ & S1); auto; [|unfold dotted; cbn [forallb]; rewrite andb_true_r; assumption|unfold dotted; cbn [forallb]; rewrite andb_true_r; assumption].
  unfold sameb in Hb. apply beqb_neq in Hb. contradiction.
Qed.

(** ** Words keep the other options *)

Lemma enum_put t n v def all : forall l k i d x t' e, enum_go l all k i t n v def d = Some (x, t', e) -> exists w, t' = put t n w.
Proof.
  induction l as [|(w & y) l IH]; intros [|k] i d x t' e H; cbn [enum_go] in H; try discriminate.
  - destruct (nth_error all d) as [(w & y)|]; [|discriminate]. injection H as <- <- <-. eauto.
  - destruct (nth_error all d) as [(w' & y')|]; [|discriminate]. injection H as <- <- <-. eauto.
  - destruct (nocase_eq v w); [injection H as <- <- <-; eauto|eapply IH, H].
Qed.
Lemma enum_some t n v def all : all <> [] -> forall l k i d, (k <= length l)%nat -> (d < length all)%nat -> (length l + i <= length all)%nat ->
  enum_go l all k i t n v def d <> None.
Proof.
  intros N. induction l as [|(w & y) l IH]; intros [|k] i d Hk Hd Hi; cbn [enum_go length] in *; try lia.
  - apply nth_error_Some in Hd. destruct (nth_error all d) as [(? & ?)|]; [discriminate|contradiction].
  - apply nth_error_Some in Hd. destruct (nth_error all d) as [(? & ?)|]; [discriminate|contradiction].
  - destruct (nocase_eq v w); [discriminate|]. apply IH; try lia. destruct (nocase_eq def w); lia.
Qed.
Lemma given_get t n : given t n = isset (get t n).
Proof. reflexivity. Qed.
Lemma switch_ok ws d t n : proper (mkwords ws (length ws)) -> ws <> [] -> exists x t' e, switch (mkwords ws (length ws)) d t n = Some (x, t', e) /\
  (forall m, ~ same m n -> get t' m = get t m) /\ (forall m, isset (get t' m) = isset (get t m)) /\ word_value ws d (get t n) x.
Proof.
  intros P N. unfold switch. rewrite given_get. destruct (get t n) as [v|] eqn:G; cbn [isset].
  2: { exists d, t, []. repeat split. }
  set (W := mkwords ws (length ws)) in *.
  assert (L : length (w_names W) = length ws) by (unfold W, mkwords; cbn [w_names]; apply map_length).
  assert (E : exists x t' e, parse_enum W t n = Some (x, t', e) /\ exists w, t' = put t n w).
  { apply get_find in G as ([en ev ed] & F & Ev). cbn [e_value] in Ev. subst ev. unfold parse_enum. rewrite F.
    match goal with |- context [enum_go ?l ?a ?k ?i ?t ?n ?v ?def ?d] => pose proof (enum_put t n v def a l k i d) as X; 
      pose proof (enum_some t n v def a ltac:(destruct ws; [contradiction|discriminate]) l k i d) as Y;
      destruct (enum_go l a k i t n v def d) as [((x & t') & e)|] end.
    - exists x, t', e. split; [reflexivity|]. eapply X. reflexivity.
    - exfalso. apply Y; [unfold W, mkwords in *; cbn [w_count w_names] in *; rewrite map_length; lia| | lia|reflexivity]. rewrite L. destruct ws; [contradiction|cbn [length]; lia]. }
  destruct E as (x & t' & e & E & w & ->). exists x, (put t n w), e. split; [exact E|].
  assert (Fn : find_opt n t <> None) by (apply get_find in G as (? & -> & _); discriminate).
  split; [|split].
  - intros m Hm. rewrite get_put by exact Fn. destruct (nocase_eq n m) eqn:Q; [|reflexivity]. apply nocase_same in Q. exfalso. apply Hm, same_sym, Q.
  - intros m. rewrite get_put by exact Fn. destruct (nocase_eq n m) eqn:Q; [|reflexivity]. apply nocase_same in Q. rewrite <- (get_cong n m) by exact Q. rewrite G. reflexivity.
  - cbn [word_value]. intros u y Hu S1. assert (Hin : In (str u, y) (w_names W)).
    { unfold W, mkwords. cbn [w_names]. apply in_map_iff. exists (u, y). auto. }
    destruct (word_ok W t n v (str u) y P G Hin S1) as (t2 & w2 & E2 & _). congruence.
Qed.

Lemma atoi_numeral v y : numeral 10 v y -> int32 y -> atoi v = y.
Proof.
  intros (sp & sg & ds & -> & Hsp & Hn & Hd & Hs) Hi. destruct ds as [|d ds]; [contradiction|].
  assert (P : forall l acc, Forall (fun c => 48 <= c < 48 + 10) l -> pdigits acc l = fold_left (fun a c => a * 10 + (c - 48)) l acc).
  { induction l as [|c l IH]; intros acc H; [reflexivity|]. inversion H; subst. cbn [pdigits fold_left]. replace (is_digit c) with true by (unfold is_digit; lia). apply IH. assumption. }
  unfold atoi, atoll. assert (E : skip_space (sp ++ sg ++ d :: ds) = sg ++ d :: ds).
  { apply skip_space_app; [exact Hsp|]. intros c z Hc. assert (c = d \/ c = 43 \/ c = 45).
    { destruct Hs as [([-> | ->] & _)|(-> & _)]; cbn [app str] in Hc; injection Hc as Hc _; auto. }
    inversion Hd; subst. unfold space. lia. }
  rewrite E. inversion Hd as [|? ? Hd0 Hds]; subst. destruct Hs as [([-> | ->] & ->)|(-> & ->)].
  - cbn [app]. replace (d =? 45) with false by lia. replace (d =? 43) with false by lia. rewrite P by exact Hd. fold (dvalue 10 (d :: ds)) in *. unfold int32 in Hi. unfold to_i32. lia.
  - change (str "+" ++ d :: ds) with (43 :: d :: ds). cbv iota. change (43 =? 45) with false. change (43 =? 43) with true. cbv iota. rewrite P by exact Hd. fold (dvalue 10 (d :: ds)). unfold int32 in Hi. unfold to_i32. lia.
  - change (str "-" ++ d :: ds) with (45 :: d :: ds). cbv iota. change (45 =? 45) with true. cbv iota. rewrite P by exact Hd. fold (dvalue 10 (d :: ds)). unfold int32 in Hi. unfold to_i32. lia.
Qed.
Lemma number_value_ok d t n : number_value d (get t n) (number d t n).
Proof. unfold number, number_value. destruct (get t n); [|reflexivity]. intros y Hy Hi. apply atoi_numeral; assumption. Qed.

Lemma bool_proper : proper (mkwords switch_words (length switch_words)).
Proof. split; [reflexivity|]. unfold distinct. vm_compute. repeat constructor; cbn [In]; intuition discriminate. Qed.
Lemma ip_proper : proper (mkwords ip_versions (length ip_versions)).
Proof. split; [reflexivity|]. unfold distinct. vm_compute. repeat constructor; cbn [In]; intuition discriminate. Qed.

(** What a server is made of. *)
Definition server_of (look : list Z -> option (list Z)) (s : server) : Prop :=
  let get f := look (field "Server" (s_id s) f) in
  s_texts s = map get [".Name"; ".Host"; ".Username"; ".Password"; ".Cipher"]%string /\
  Forall2 (fun fd x => number_value (snd fd) (get (fst fd)) x) [(".Port", 119); (".Connections", 1); (".Retention", 0); (".Level", 0); (".Group", 0)]%string (s_numbers s) /\
  Forall2 (fun fd x => word_value switch_words (snd fd) (get (fst fd)) x) [(".Active", 1); (".JoinGroup", 0); (".Encryption", 0); (".Optional", 0)]%string (s_switches s) /\
  word_value ip_versions 0 (get ".IpVersion"%string) (s_ip s).

Theorem one_server_ok : forall t n, 0 <= n -> exists r, one_server t n = Some r /\
  match r with
  | None => present (get t) n = false
  | Some (t', e, so) => present (get t) n = true /\ (forall m, isset (get t' m) = isset (get t m)) /\
      (forall m, (forall f, dotted [f] = true -> ~ same m (numbered_name "Server" n f)) -> get t' m = get t m) /\
      match so with
      | Some s => whole (get t) n = true /\ s_id s = n /\ server_of (get t) s
      | None => whole (get t) n = false /\ In (str "Server" ++ zdec n) e
      end
  end.
Proof.
  intros t n Hn. unfold one_server. cbv zeta. change bool_words with (mkwords switch_words (length switch_words)). change ip_words with (mkwords ip_versions (length ip_versions)).
  set (nm := numbered_name "Server" n).
  destruct (switch_ok switch_words 1 t (nm ".Active"%string) bool_proper ltac:(discriminate)) as (x1 & t1 & e1 & -> & A1 & B1 & C1).
  destruct (switch_ok switch_words 0 t1 (nm ".JoinGroup"%string) bool_proper ltac:(discriminate)) as (x2 & t2 & e2 & -> & A2 & B2 & C2).
  destruct (switch_ok switch_words 0 t2 (nm ".Optional"%string) bool_proper ltac:(discriminate)) as (x3 & t3 & e3 & -> & A3 & B3 & C3).
  destruct (switch_ok switch_words 0 t3 (nm ".Encryption"%string) bool_proper ltac:(discriminate)) as (x4 & t4 & e4 & -> & A4 & B4 & C4).
  destruct (switch_ok ip_versions 0 t4 (nm ".IpVersion"%string) ip_proper ltac:(discriminate)) as (x5 & t5 & e5 & -> & A5 & B5 & C5).
  assert (B : forall m, isset (get t5 m) = isset (get t m)) by (intros m; rewrite B5, B4, B3, B2, B1; reflexivity).
  assert (Pr : defined t5 "Server" n server_fields = present (get t) n).
  { unfold defined, present. change server_fields with server_part. induction server_part as [|f l IH]; [reflexivity|]. cbn [existsb]. rewrite IH, given_get, B. reflexivity. }
  assert (Wh : given t5 (nm ".Host"%string) && given t5 (nm ".Port"%string) && given t5 (nm ".Connections"%string) = whole (get t) n).
  { unfold whole, server_need. cbn [forallb]. rewrite !given_get, !B, andb_true_r, andb_assoc. reflexivity. }
  rewrite Pr, Wh. destruct (present (get t) n) eqn:P; cbn [negb]; [|exists None; auto].
  assert (K : forall m, (forall f, dotted [f] = true -> ~ same m (numbered_name "Server" n f)) -> get t5 m = get t m).
  { intros m Hm. rewrite A5, A4, A3, A2, A1; [reflexivity| | | | |]; apply Hm; reflexivity. }
  destruct (whole (get t) n) eqn:W.
  2: { eexists. split; [reflexivity|]. cbv iota. split; [reflexivity|]. split; [exact B|]. split; [exact K|]. split; [reflexivity|]. apply in_or_app. right. left. reflexivity. }
  eexists. split; [reflexivity|]. cbv iota. split; [reflexivity|]. split; [exact B|]. split; [exact K|]. split; [reflexivity|]. split; [reflexivity|].
  assert (T : forall f, dotted [f] = true -> existsb (fun g => sameb (str f) (str g)) [".Active"; ".JoinGroup"; ".Optional"; ".Encryption"; ".IpVersion"]%string = false ->
    get t5 (nm f) = get t (nm f)).
  { intros f Df Nf. cbn [existsb] in Nf. repeat (apply orb_false_iff in Nf as (? & Nf)).
    rewrite A5, A4, A3, A2, A1; [reflexivity| | | | |]; apply field_diff; auto; unfold dotted in *; cbn [forallb] in *; rewrite andb_true_r in Df; rewrite Df; reflexivity. }
  unfold server_of. cbv zeta. cbn [s_id s_texts s_numbers s_switches s_ip]. change (field "Server" n) with nm. split; [|split; [|split]].
  - cbn [map]. rewrite !T by reflexivity. reflexivity.
  - repeat constructor; cbn [fst snd].
    + rewrite <- T by reflexivity. apply number_value_ok.
    + rewrite <- T by reflexivity. apply number_value_ok.
    + rewrite <- T by reflexivity. apply number_value_ok.
    + rewrite <- T by reflexivity. apply number_value_ok.
    + rewrite <- T by reflexivity. apply number_value_ok.
  - repeat constructor; cbn [fst snd].
    + exact C1.
    + rewrite A1 in C2 by (apply field_diff; auto). exact C2.
    + rewrite A3, A2, A1 in C4 by (apply field_diff; auto). exact C4.
    + rewrite A2, A1 in C3 by (apply field_diff; auto). exact C3.
  - rewrite A4, A3, A2, A1 in C5 by (apply field_diff; auto). exact C5.
Qed.

Theorem servers_ok : forall k t0 t n fuel, 0 <= n -> (k < fuel)%nat -> (forall m, isset (get t m) = isset (get t0 m)) ->
  (forall j f, n <= j -> dotted [f] = true -> get t (field "Server" j f) = get t0 (field "Server" j f)) ->
  (forall i, n <= i < n + Z.of_nat k -> present (get t0) i = true) -> present (get t0) (n + Z.of_nat k) = false ->
  exists t' e l, definitions one_server fuel t n = Some (t', e, l) /\ map s_id l = filter (whole (get t0)) (numbers_from n k) /\
    Forall (server_of (get t0)) l /\ (forall i, n <= i < n + Z.of_nat k -> whole (get t0) i = false -> In (str "Server" ++ zdec i) e).
Proof.
  assert (PE : forall look look' n, (forall m, isset (look m) = isset (look' m)) -> present look n = present look' n).
  { intros look look' n H. unfold present. induction server_part as [|f l IH]; [reflexivity|]. cbn [existsb]. rewrite H, IH. reflexivity. }
  assert (WE : forall look look' n, (forall m, isset (look m) = isset (look' m)) -> whole look n = whole look' n).
  { intros look look' n H. unfold whole. induction server_need as [|f l IH]; [reflexivity|]. cbn [forallb]. rewrite H, IH. reflexivity. }
  induction k as [|k IH]; intros t0 t n fuel Hn Hk Hi Hg Hp He; (destruct fuel as [|fuel]; [lia|]); cbn [definitions].
  - destruct (one_server_ok t n Hn) as (r & -> & R). destruct r as [((t' & e) & so)|].
    + destruct R as (R & _). rewrite (PE (get t) (get t0)) in R by exact Hi. replace (n + Z.of_nat 0) with n in He by lia. congruence.
    + exists t, [], []. split; [reflexivity|]. split; [reflexivity|]. split; [constructor|]. intros i Hi'. lia.
  - destruct (one_server_ok t n Hn) as (r & -> & R). destruct r as [((t1 & e1) & so)|].
    2: { rewrite (PE (get t) (get t0)) in R by exact Hi. rewrite Hp in R by lia. discriminate. }
    destruct R as (_ & R1 & R2 & R3).
    destruct (IH t0 t1 (n + 1) fuel) as (t' & e & l & E & M & F & Er); [lia|lia| | | | |].
    + intros m. rewrite R1. apply Hi.
    + intros j f Hj Df. rewrite R2; [apply Hg; [lia|exact Df]|]. intros g Dg S1. apply numbered_inj in S1; [lia|lia|lia|exact Df|exact Dg].
    + intros i Hr. apply Hp. lia.
    + replace (n + 1 + Z.of_nat k) with (n + Z.of_nat (S k)) by lia. exact He.
    + rewrite E. assert (N : numbers_from n (S k) = n :: numbers_from (n + 1) k).
      { unfold numbers_from. cbn [seq map]. f_equal; [lia|]. rewrite <- seq_shift, map_map. apply map_ext. intros a. lia. }
      rewrite N. cbn [filter]. rewrite <- (WE (get t) (get t0) n Hi).
      exists t', (e1 ++ e), (match so with Some s => s :: l | None => l end). split; [reflexivity|].
      assert (Er' : forall i, n <= i < n + Z.of_nat (S k) -> whole (get t0) i = false -> In (str "Server" ++ zdec i) (e1 ++ e)).
      { intros i Hr Hw. apply in_or_app. destruct (Z.eq_dec i n) as [->|Hne]; [left|right; apply Er; [lia|exact Hw]].
        rewrite <- (WE (get t) (get t0) n Hi) in Hw. destruct so as [s|]; destruct R3 as (Q & R3); [congruence|exact R3]. }
      destruct so as [s|].
      * destruct R3 as (Q & Es & Hs). rewrite Q. cbn [map]. rewrite M, Es. split; [reflexivity|]. split; [|exact Er']. constructor; [|exact F].
        unfold server_of in *. cbv zeta in *. rewrite Es in *.
        assert (G : forall f, dotted [f] = true -> get t (field "Server" n f) = get t0 (field "Server" n f)) by (intros f Df; apply Hg; [lia|exact Df]).
        cbn [map] in Hs |- *. rewrite !G in Hs by reflexivity. destruct Hs as (H1 & H2 & H3 & H4). split; [exact H1|]. split; [|split].
        -- clear - H2 G. repeat match goal with H : Forall2 _ (_ :: _) _ |- _ => inversion H; subst; clear H | H : Forall2 _ [] _ |- _ => inversion H; subst; clear H end.
           cbn [fst snd] in *. rewrite !G in * by reflexivity. repeat constructor; assumption.
        -- clear - H3 G. repeat match goal with H : Forall2 _ (_ :: _) _ |- _ => inversion H; subst; clear H | H : Forall2 _ [] _ |- _ => inversion H; subst; clear H end.
           cbn [fst snd] in *. rewrite !G in * by reflexivity. repeat constructor; assumption.
        -- exact H4.
      * destruct R3 as (Q & R3). rewrite Q. split; [exact M|]. split; [exact F|exact Er'].
Qed.
