From Verif Require Import Base WriterModel WriterSpec.

(** ** Bytes *)

Lemma write_at_length s p b : (p + length b <= length s)%nat -> length (write_at s p b) = length s.
Proof.
  intros H. unfold write_at. rewrite !app_length, firstn_length, repeat_length, skipn_length. lia.
Qed.
Lemma write_at_end s b : write_at s (length s) b = s ++ b.
Proof.
  unfold write_at. rewrite firstn_all, Nat.sub_diag, skipn_all2 by lia. cbn [repeat app]. rewrite app_nil_r. reflexivity.
Qed.
Lemma write_at_right a x q b : write_at (a ++ x) (length a + q) b = a ++ write_at x q b.
Proof.
  unfold write_at. rewrite firstn_app, firstn_all2, skipn_app, skipn_all2 by lia.
  replace (length a + q - length a)%nat with q by lia. replace (length a + q + length b - length a)%nat with (q + length b)%nat by lia.
  rewrite app_length. replace (length a + q - (length a + length x))%nat with (q - length x)%nat by lia.
  cbn [app]. rewrite <- !app_assoc. reflexivity.
Qed.
Lemma write_at_left a x p b : (p + length b <= length a)%nat -> write_at (a ++ x) p b = write_at a p b ++ x.
Proof.
  intros H. unfold write_at. rewrite firstn_app, skipn_app, app_length.
  replace (p - length a)%nat with O by lia. replace (p - (length a + length x))%nat with O by lia.
  replace (p + length b - length a)%nat with O by lia. cbn [firstn skipn repeat app]. rewrite app_nil_r, <- !app_assoc. reflexivity.
Qed.
Lemma write_at_here (b x : list Z) : (length b <= length x)%nat -> write_at x 0 b = b ++ skipn (length b) x.
Proof. intros H. unfold write_at. cbn [firstn Nat.sub repeat app Nat.add]. reflexivity. Qed.

Lemma stands_other c off g p b : stands_at c off g -> (p + length b <= length c)%nat ->
  (Z.of_nat (p + length b) <= off \/ off + Z.of_nat (length g) <= Z.of_nat p) -> stands_at (write_at c p b) off g.
Proof.
  intros (x & y & -> & L) H [D | D].
  - exists (write_at x p b), y. rewrite write_at_left by lia. split; [reflexivity|]. rewrite write_at_length by lia. exact L.
  - exists x, (write_at y (p - length (x ++ g)) b). split; [|exact L].
    replace p with (length (x ++ g) + (p - length (x ++ g)))%nat at 1 by (rewrite app_length; lia).
    rewrite app_assoc, write_at_right, <- app_assoc. reflexivity.
Qed.
Lemma stands_more c off g b : stands_at c off g -> (Z.to_nat off + length g + length b <= length c)%nat ->
  stands_at (write_at c (Z.to_nat off + length g) b) off (g ++ b).
Proof.
  intros (x & y & -> & L) H. exists x, (skipn (length b) y). split; [|exact L].
  replace (Z.to_nat off + length g)%nat with (length (x ++ g) + 0)%nat by (rewrite app_length; lia).
  rewrite app_assoc, write_at_right, write_at_here; [rewrite <- !app_assoc; reflexivity|]. rewrite !app_length in H. lia.
Qed.
Lemma stands_write c off g : 0 <= off -> (Z.to_nat off + length g <= length c)%nat -> stands_at (write_at c (Z.to_nat off) g) off g.
Proof.
  intros H L. exists (firstn (Z.to_nat off) c), (skipn (Z.to_nat off + length g) c).
  unfold write_at. replace (Z.to_nat off - length c)%nat with O by lia. cbn [repeat app]. split; [reflexivity|].
  rewrite firstn_length. lia.
Qed.
Lemma stands_nil c off : 0 <= off <= Z.of_nat (length c) -> stands_at c off [].
Proof.
  intros H. exists (firstn (Z.to_nat off) c), (skipn (Z.to_nat off) c). cbn [app]. rewrite firstn_skipn. split; [reflexivity|].
  rewrite firstn_length. lia.
Qed.
Lemma stands_app c x off g : stands_at c off g -> stands_at (c ++ x) off g.
Proof. intros (a & b & -> & L). exists a, (b ++ x). rewrite <- !app_assoc. auto. Qed.
Lemma stands_len c off g : stands_at c off g -> 0 <= off /\ off + Z.of_nat (length g) <= Z.of_nat (length c).
Proof. intros (a & b & -> & L). rewrite !app_length. lia. Qed.

Lemma sized_length n l junk : length (sized n l junk) = n.
Proof. unfold sized. rewrite firstn_length, !app_length, repeat_length. lia. Qed.

Lemma nth_upd {A} (g : A -> A) l : forall i j, nth_error (upd i g l) j = if (j =? i)%nat then option_map g (nth_error l j) else nth_error l j.
Proof.
  induction l as [|x l IH]; intros [|i] [|j]; cbn [upd nth_error Nat.eqb]; try reflexivity.
  - destruct (j =? i)%nat; reflexivity.
  - apply IH.
Qed.
Lemma upd_length {A} (g : A -> A) l : forall i, length (upd i g l) = length l.
Proof. induction l as [|x l IH]; intros [|i]; cbn [upd length]; auto. Qed.

Definition seg_count (l : list art) : Z := Z.of_nat (length (filter has_seg l)).
Lemma seg_upd g l : forall i a, nth_error l i = Some a ->
  seg_count (upd i g l) = seg_count l - (if has_seg a then 1 else 0) + (if has_seg (g a) then 1 else 0).
Proof.
  unfold seg_count. induction l as [|x l IH]; intros [|i] a H; cbn [nth_error] in H; try discriminate.
  - injection H as <-. cbn [upd filter]. destruct (has_seg x), (has_seg (g x)); cbn [length]; lia.
  - cbn [upd filter]. specialize (IH i a H). destruct (has_seg x); cbn [length]; lia.
Qed.

(** ** The invariant *)

Definition dm (o : wopts) (f : wfile) : bool := o_direct o || f_force f.

(** One article. *)
Definition ainv (D : bool) (lay : Z * Z) (out : option (list Z)) (init : bool) (a : art) (x : option arrival) : Prop :=
  match x with
  | None => a_fin a = false /\ a_seg a = None /\ w_on (a_w a) = false
  | Some v =>
    fst lay <= v_off v /\ a_fin a = v_done v /\
    if v_done v then
      v_off v + Z.of_nat (length (v_got v)) <= snd lay /\
      a_off a = v_off v /\ a_size a = Z.of_nat (length (v_got v)) /\ w_on (a_w a) = false /\
      match a_seg a with
      | Some d => d = v_got v /\ (D = true -> init = true)
      | None => if D then exists c, out = Some c /\ stands_at c (v_off v) (v_got v) else a_res a = Some (v_got v)
      end
    else
      0 < v_size v /\ v_off v + v_size v <= snd lay /\ (D = true -> init = true) /\ a_seg a = None /\
      w_on (a_w a) = true /\ w_fmt (a_w a) = FYenc /\ w_off (a_w a) = v_off v /\ w_size (a_w a) = v_size v /\
      w_ptr (a_w a) = Z.of_nat (length (v_got v)) /\
      match w_data (a_w a) with
      | Some d => Z.of_nat (length d) = v_size v /\ (Z.of_nat (length (v_got v)) <= v_size v -> firstn (length (v_got v)) d = v_got v)
      | None =>
        if D then
          exists pos c, w_to (a_w a) = TOut pos /\ out = Some c /\
            (Z.of_nat (length (v_got v)) <= v_size v -> pos = (Z.to_nat (v_off v) + length (v_got v))%nat /\ stands_at c (v_off v) (v_got v))
        else w_to (a_w a) = TTmp /\ (Z.of_nat (length (v_got v)) <= v_size v -> a_tmp a = Some (v_got v))
      end
  end.

Lemma ainv_mono D L out init a x out' init' : ainv D L out init a x -> (init = true -> init' = true) ->
  (forall v c, x = Some v -> out = Some c -> exists c', out' = Some c' /\
     (v_off v + Z.of_nat (length (v_got v)) <= snd L -> stands_at c (v_off v) (v_got v) -> stands_at c' (v_off v) (v_got v))) ->
  ainv D L out' init' a x.
Proof.
  intros H I O. destruct x as [v|]; [|exact H]. cbn [ainv] in *. destruct H as (H1 & H2 & H3). split; [exact H1|]. split; [exact H2|].
  destruct (v_done v).
  - destruct H3 as (B & A1 & A2 & A3 & A4). repeat split; try assumption. destruct (a_seg a) as [d|].
    + destruct A4 as [A4 A5]. split; auto.
    + destruct D; [|exact A4]. destruct A4 as (c & E & S). destruct (O v c eq_refl E) as (c' & E' & K). exists c'. split; [exact E'|]. auto.
  - destruct H3 as (P1 & P2 & P3 & P4 & P5 & P6 & P7 & P8 & P9 & P10). repeat (split; [solve [auto]|]).
    destruct (w_data (a_w a)) as [d|]; [exact P10|]. destruct D; [|exact P10].
    destruct P10 as (pos & c & T & E & K). destruct (O v c eq_refl E) as (c' & E' & K'). exists pos, c'. repeat (split; [assumption|]).
    intros LE. destruct (K LE) as [K1 K2]. split; [exact K1|]. apply K'; [lia|exact K2].
Qed.

Definition inv (o : wopts) (n : nat) (lay : layout) (size : Z) (f : wfile) (h : history) : Prop :=
  length (f_arts f) = n /\ f_cached f = seg_count (f_arts f) /\
  (dm o f = false -> f_init f = false) /\ (f_force f = true -> f_init f = true) /\
  (f_init f = true -> f_out f <> None) /\
  (forall c, f_out f = Some c -> Z.of_nat (length c) = size \/ (f_init f = false /\ (dm o f = true -> forall i, h i = None))) /\
  (forall i, (n <= i)%nat -> h i = None) /\
  (forall i a, nth_error (f_arts f) i = Some a -> ainv (dm o f) (lay i) (f_out f) (f_init f) a (h i)).

Lemma inv_init_len o n lay size f h : inv o n lay size f h -> f_init f = true -> exists c, f_out f = Some c /\ Z.of_nat (length c) = size.
Proof.
  intros (_ & _ & _ & _ & I5 & I6 & _) H. destruct (f_out f) as [c|] eqn:E; [|exfalso; exact (I5 H eq_refl)].
  exists c. split; [reflexivity|]. destruct (I6 c eq_refl) as [L | [L _]]; [exact L|congruence].
Qed.

(** A step that concerns article [i]. *)
Lemma inv_step o n lay size f h i a g x out' init' cached' :
  inv o n lay size f h -> nth_error (f_arts f) i = Some a ->
  let f' := WFile out' init' (f_force f) cached' (upd i g (f_arts f)) in
  cached' = f_cached f - (if has_seg a then 1 else 0) + (if has_seg (g a) then 1 else 0) ->
  (f_init f = true -> init' = true) -> (dm o f = false -> init' = false) -> (init' = true -> out' <> None) ->
  (forall c, out' = Some c -> Z.of_nat (length c) = size \/ (init' = false /\ (dm o f = true -> forall j, j <> i -> h j = None) /\ (dm o f = true -> x = None))) ->
  (forall j v c, j <> i -> h j = Some v -> f_out f = Some c -> exists c', out' = Some c' /\
     (v_off v + Z.of_nat (length (v_got v)) <= snd (lay j) -> fst (lay j) <= v_off v -> (j < n)%nat -> stands_at c (v_off v) (v_got v) -> stands_at c' (v_off v) (v_got v))) ->
  ainv (dm o f) (lay i) out' init' (g a) x ->
  inv o n lay size f' (set_h i x h).
Proof.
  intros (I1 & I2 & I3 & I4 & I5 & I6 & I7 & I8) N f' C M1 M2 M3 M4 M5 A.
  assert (Ln : (i < n)%nat) by (rewrite <- I1; apply nth_error_Some; congruence).
  unfold inv, f', dm. cbn [f_arts f_cached f_init f_force f_out]. fold (dm o f). repeat split.
  - rewrite upd_length. exact I1.
  - rewrite (seg_upd _ _ _ _ N), C, I2. reflexivity.
  - exact M2.
  - auto.
  - exact M3.
  - intros c E. destruct (M4 c E) as [L | (L & K1 & K2)]; [left; exact L|right]. split; [exact L|]. intros D j. unfold set_h.
    destruct (Nat.eqb_spec j i) as [-> | NE]; auto.
  - intros j L. unfold set_h. destruct (Nat.eqb_spec j i) as [-> | NE]; [lia|auto].
  - intros j b. rewrite nth_upd. unfold set_h. destruct (Nat.eqb_spec j i) as [-> | NE].
    + rewrite N. cbn [option_map]. intros E. injection E as <-. exact A.
    + intros E. specialize (I8 j b E). assert (Lj : (j < n)%nat) by (rewrite <- I1; apply nth_error_Some; congruence).
      eapply ainv_mono; [exact I8|exact M1|]. intros v c Hv Hc. destruct (M5 j v c NE Hv Hc) as (c' & E' & K). exists c'. split; [exact E'|].
      intros B S. apply K; try assumption. rewrite Hv in I8. cbn [ainv] in I8. tauto.
Qed.

Lemma create_keeps c size : Z.of_nat (length c) = size -> create_output (Some c) size = c.
Proof. intros <-. unfold create_output. rewrite Z.eqb_refl. reflexivity. Qed.
Lemma create_length out size : 0 <= size -> Z.of_nat (length (create_output out size)) = size.
Proof.
  intros H. unfold create_output. destruct out as [c|]; [destruct (Z.eqb_spec (Z.of_nat (length c)) size) as [E | _]; [exact E|]|]; rewrite repeat_length; lia.
Qed.

Lemma unseg D L out init a x : ainv D L out init a x -> (forall v, x = Some v -> v_done v = false) -> has_seg a = false.
Proof.
  intros H N. unfold has_seg. destruct x as [v|]; cbn [ainv] in H.
  - destruct H as (_ & _ & H). rewrite (N v eq_refl) in H. destruct H as (_ & _ & _ & -> & _). reflexivity.
  - destruct H as (_ & -> & _). reflexivity.
Qed.

Lemma start_ok o n lay size f h i off asize alloc : inv o n lay size f h -> ordered n lay size ->
  (i < n)%nat -> 0 < asize -> fst (lay i) <= off -> off + asize <= snd (lay i) -> (forall v, h i = Some v -> v_done v = false) ->
  let f' := start o i FYenc size off asize alloc f in
  inv o n lay size f' (set_h i (Some (Arrival off asize [] false)) h) /\ f_force f' = f_force f /\ (dm o f = true -> f_init f' = true).
Proof.
  intros I OR Li PA LO HI ND f'. assert (f'E : f' = start o i FYenc size off asize alloc f) by reflexivity. clearbody f'. assert (I' := I). destruct I as (I1 & I2 & I3 & I4 & I5 & I6 & I7 & I8).
  destruct (nth_error (f_arts f) i) as [a|] eqn:N; [|apply nth_error_None in N; lia].
  assert (Ai := I8 i a N). assert (US := unseg _ _ _ _ _ _ Ai ND).
  assert (FS : a_fin a = false /\ a_seg a = None).
  { destruct (h i) as [v|] eqn:Hv; cbn [ainv] in Ai; [|tauto]. destruct Ai as (_ & F & R). rewrite (ND v eq_refl) in F, R. tauto. }
  destruct FS as [Fin Seg].
  destruct OR as [OR1 OR2]. destruct (OR1 i Li) as [B1 B2].
  unfold start in f'E. rewrite N in f'E. cbv zeta in f'E. replace (asize =? 0) with false in f'E by lia.
  cbn [is_yenc andb] in f'E. rewrite orb_true_r in f'E.
  remember (o_direct o && negb (f_init f)) as create eqn:CE. remember (if create then Some (create_output (f_out f) size) else f_out f) as out eqn:OE.
  remember (f_init f || create) as init eqn:IE.
  assert (K1 : dm o f = true -> init = true).
  { unfold dm. rewrite IE, CE. intros H. apply orb_true_iff in H as [H | H].
    - rewrite H. destruct (f_init f); reflexivity.
    - rewrite (I4 H). reflexivity. }
  assert (K2 : f_init f = true -> init = true) by (intros H; rewrite IE, H; reflexivity).
  assert (K3 : dm o f = false -> init = false /\ out = f_out f).
  { intros H. assert (H' := H). unfold dm in H'. apply orb_false_iff in H' as [H' _]. rewrite H' in CE. cbn [andb] in CE. subst create init out. rewrite (I3 H). split; reflexivity. }
  assert (K4 : init = true -> out <> None).
  { intros H. destruct create; [subst out; discriminate|]. rewrite orb_false_r in IE. subst out. apply I5. congruence. }
  assert (K5 : forall c, out = Some c -> Z.of_nat (length c) = size \/ (init = false /\ dm o f = false)).
  { intros c. rewrite OE, IE. destruct create eqn:C.
    - intros E. injection E as <-. left. apply create_length. lia.
    - intros E. rewrite orb_false_r. destruct (I6 c E) as [X | [X _]]; [left; exact X|]. right. split; [exact X|]. rewrite X in CE. cbn [negb] in CE.
      rewrite andb_true_r in CE. unfold dm. rewrite <- CE. destruct (f_force f) eqn:FF; [rewrite (I4 eq_refl) in X; discriminate|reflexivity]. }
  assert (K6 : forall j v c, h j = Some v -> f_out f = Some c -> out = Some c).
  { intros j v c Hj Hc. rewrite OE. destruct create; [|exact Hc]. rewrite Hc. f_equal. apply create_keeps. destruct (I6 c Hc) as [X | [_ X]]; [exact X|].
    symmetry in CE. apply andb_true_iff in CE as [C _]. unfold dm in X. rewrite C in X. rewrite (X eq_refl j) in Hj. discriminate. }
  assert (G : forall g, has_seg (g a) = false ->
    ainv (dm o f) (lay i) out init (g a) (Some (Arrival off asize [] false)) ->
    inv o n lay size (WFile out init (f_force f) (f_cached f) (upd i g (f_arts f))) (set_h i (Some (Arrival off asize [] false)) h)).
  { intros g HS A. eapply inv_step; try eassumption.
    - rewrite US, HS. lia.
    - intros H. apply K3, H.
    - intros c E. destruct (K5 c E) as [X | [X1 X2]]; [left; exact X|right]. split; [exact X1|]. split; intros; congruence.
    - intros j v c _ Hj Hc. exists c. split; [exact (K6 j v c Hj Hc)|]. auto. }
  assert (Com : forall (w : writer) (a' : art), a' = set_w w a \/ (exists t, a' = Art (a_decl a) (a_fin a) (a_off a) (a_size a) (a_seg a) t (a_res a) w) ->
    has_seg a' = false /\ a_fin a' = false /\ a_seg a' = None /\ a_w a' = w).
  { intros w a' [-> | [t ->]]; unfold has_seg; cbn; rewrite Seg; auto. }
  assert (Sz : forall junk, Z.of_nat (length (sized (Z.to_nat asize) [] junk)) = asize) by (intros; rewrite sized_length; lia).
  destruct (match alloc with Some junk => if 0 <=? asize then Some (sized (Z.to_nat asize) [] junk) else None | None => None end) as [d|] eqn:Da.
  - assert (Ld : Z.of_nat (length d) = asize).
    { destruct alloc as [junk|]; [|discriminate]. destruct (0 <=? asize); [|discriminate]. injection Da as <-. apply Sz. }
    subst f'. cbn [set_arts f_out f_init f_force f_cached]. split; [|split; [reflexivity|exact K1]]. apply G.
    + apply (Com _ _ (or_introl eq_refl)).
    + cbn. rewrite Fin, Seg. repeat (split; [solve [auto | lia]|]). reflexivity || (intros; reflexivity).
  - clear Da. assert (DM : o_direct o || f_force f = dm o f) by reflexivity. rewrite DM, andb_true_r in f'E. destruct (dm o f) eqn:D.
    + specialize (K1 eq_refl). assert (K4' := K4 K1). destruct out as [c|]; [|congruence].
      subst f'. cbn [set_arts f_out f_init f_force f_cached]. split; [|split; [reflexivity|auto]]. apply G.
      * apply (Com _ _ (or_introl eq_refl)).
      * cbn. rewrite Fin, Seg. repeat (split; [solve [auto | lia]|]). exists (seek 0 off), c. split; [reflexivity|]. split; [reflexivity|]. intros _.
        unfold seek. replace (0 <=? off) with true by lia. split; [lia|]. apply stands_nil. destruct (K5 c eq_refl) as [X | [_ X]]; [lia|discriminate].
    + subst f'. cbn [set_arts f_out f_init f_force f_cached]. split; [|split; [reflexivity|discriminate]]. apply G.
      * unfold has_seg. cbn. rewrite Seg. reflexivity.
      * cbn. rewrite Fin, Seg. repeat (split; [solve [auto | lia | discriminate]|]). split; auto.
Qed.

Lemma apart n lay size i j : ordered n lay size -> i <> j -> (i < n)%nat -> (j < n)%nat -> snd (lay i) <= fst (lay j) \/ snd (lay j) <= fst (lay i).
Proof. intros [_ O] N Li Lj. destruct (Nat.lt_ge_cases i j); [left|right]; apply O; lia. Qed.

Lemma firstn_write d g b : firstn (length g) d = g -> (length g + length b <= length d)%nat ->
  firstn (length (g ++ b)) (write_at d (length g) b) = g ++ b.
Proof.
  intros F L. rewrite <- (firstn_skipn (length g) d) at 1. rewrite F. rewrite <- (Nat.add_0_r (length g)) at 2. rewrite write_at_right.
  rewrite write_at_here by (rewrite skipn_length; lia). rewrite app_assoc, firstn_app, firstn_all, Nat.sub_diag. cbn [firstn]. apply app_nil_r.
Qed.

(** The article [i] when it is in no state to be written. *)
Lemma idle_ok o n lay size f h i a : inv o n lay size f h -> nth_error (f_arts f) i = Some a -> w_on (a_w a) = false ->
  match h i with Some v => v_done v = true | None => True end.
Proof.
  intros I N W. assert (A := proj2 (proj2 (proj2 (proj2 (proj2 (proj2 (proj2 I)))))) i a N). destruct (h i) as [v|]; [|exact Logic.I].
  cbn [ainv] in A. destruct A as (_ & _ & A). destruct (v_done v); [reflexivity|]. destruct A as (_ & _ & _ & _ & A & _). congruence.
Qed.
Lemma busy_ok o n lay size f h i a : inv o n lay size f h -> nth_error (f_arts f) i = Some a -> w_on (a_w a) = true ->
  exists v, h i = Some v /\ v_done v = false.
Proof.
  intros I N W. assert (A := proj2 (proj2 (proj2 (proj2 (proj2 (proj2 (proj2 I)))))) i a N). destruct (h i) as [v|].
  - exists v. split; [reflexivity|]. cbn [ainv] in A. destruct A as (_ & _ & A). destruct (v_done v); [|reflexivity]. destruct A as (_ & _ & _ & A & _). congruence.
  - cbn [ainv] in A. destruct A as (_ & _ & A). congruence.
Qed.
Lemma none_ok o n lay size f h i : inv o n lay size f h -> nth_error (f_arts f) i = None -> h i = None.
Proof. intros I N. apply nth_error_None in N. destruct I as (I1 & _ & _ & _ & _ & _ & I7 & _). apply I7. lia. Qed.

Lemma write_ok o n lay size f h i b : inv o n lay size f h -> ordered n lay size ->
  exists f', write i b f = Some f' /\ inv o n lay size f' (arrive h (OWrite i b)) /\ f_force f' = f_force f /\ f_init f' = f_init f.
Proof.
  intros I OR. unfold write. cbn [arrive].
  destruct (nth_error (f_arts f) i) as [a|] eqn:N; [|exists f; rewrite (none_ok _ _ _ _ _ _ _ I N); auto].
  destruct (w_on (a_w a)) eqn:W; cbn [negb].
  2:{ exists f. assert (X := idle_ok _ _ _ _ _ _ _ _ I N W). destruct (h i) as [v|]; [rewrite X|]; auto. }
  destruct (busy_ok _ _ _ _ _ _ _ _ I N W) as (v & Hv & Nd). rewrite Hv, Nd.
  assert (I' := I). destruct I as (I1 & I2 & I3 & I4 & I5 & I6 & I7 & I8). assert (A := I8 i a N). rewrite Hv in A. cbn [ainv] in A. rewrite Nd in A.
  destruct A as (A1 & A2 & A3 & A4 & A5 & A6 & A7 & A8 & A9 & A10 & A11 & A12).
  assert (Li : (i < n)%nat) by (rewrite <- I1; apply nth_error_Some; congruence).
  set (v' := Arrival (v_off v) (v_size v) (v_got v ++ b) false).
  assert (Lg : Z.of_nat (length (v_got v ++ b)) = Z.of_nat (length (v_got v)) + Z.of_nat (length b)) by (rewrite app_length; lia).
  assert (G : forall g out', has_seg (g a) = false -> (out' = f_out f \/ dm o f = true /\ exists c p, f_out f = Some c /\ (p + length b <= length c)%nat /\
       fst (lay i) <= Z.of_nat p /\ Z.of_nat (p + length b) <= snd (lay i) /\ out' = Some (write_at c p b)) ->
    ainv (dm o f) (lay i) out' (f_init f) (g a) (Some v') ->
    inv o n lay size (WFile out' (f_init f) (f_force f) (f_cached f) (upd i g (f_arts f))) (set_h i (Some v') h)).
  { intros g out' HS Ho A. eapply inv_step; try eassumption.
    - rewrite HS. unfold has_seg. rewrite A6. lia.
    - auto.
    - intros X. destruct Ho as [-> | [_ (c & p & _ & _ & _ & _ & ->)]]; [auto|discriminate].
    - intros c' Ec. destruct Ho as [-> | [D (c & p & E1 & E2 & _ & _ & ->)]].
      + destruct (I6 c' Ec) as [X | [X1 X2]]; [left; exact X|]. destruct (dm o f) eqn:D; [|right; split; [exact X1|split; discriminate]].
        rewrite (X2 eq_refl i) in Hv. discriminate.
      + injection Ec as <-. rewrite write_at_length by exact E2. destruct (I6 c E1) as [X | [X1 X2]]; [left; exact X|].
        rewrite (X2 D i) in Hv. discriminate.
    - intros j u c NE Hj Hc. destruct Ho as [-> | [D (c1 & p & E1 & E2 & E3 & E4 & ->)]].
      + exists c. auto.
      + rewrite E1 in Hc. injection Hc as ->. exists (write_at c p b). split; [reflexivity|]. intros B1 B2 Lj ST. apply stands_other; [exact ST|exact E2|].
        destruct (apart _ _ _ _ _ OR NE Lj Li); lia. }
  assert (HS : forall w t, has_seg (Art (a_decl a) (a_fin a) (a_off a) (a_size a) (a_seg a) t (a_res a) w) = false) by (intros; unfold has_seg; cbn; rewrite A6; reflexivity).
  rewrite A10, A11, <- Lg. destruct (Z.ltb_spec (v_size v) (Z.of_nat (length (v_got v ++ b)))) as [LT | GE].
  - eexists. split; [reflexivity|]. split; [|split; reflexivity]. apply G; [apply HS|left; reflexivity|].
    unfold ainv, v'. cbn. repeat (split; [solve [auto | congruence]|]). destruct (w_data (a_w a)) as [d|].
    + split; [apply A12|]. intros X. lia.
    + destruct (dm o f).
      * destruct A12 as (pos & c & E1 & E2 & _). exists pos, c. repeat (split; [assumption|]). intros X. lia.
      * split; [apply A12|]. intros X. lia.
  - destruct (w_data (a_w a)) as [d|].
    + destruct A12 as [L F]. replace (Z.of_nat (length d) <? Z.of_nat (length (v_got v ++ b))) with false by lia.
      eexists. split; [reflexivity|]. split; [|split; reflexivity]. apply G; [apply HS|left; reflexivity|].
      unfold ainv, v'. cbn. repeat (split; [solve [auto | congruence]|]). rewrite Nat2Z.id. rewrite write_at_length by lia. split; [exact L|]. intros _.
      apply firstn_write; [apply F; lia|lia].
    + destruct (dm o f) eqn:D.
      * destruct A12 as (pos & c & E1 & E2 & E3). rewrite E1, E2. destruct E3 as [E3 E4]; [lia|].
        assert (Lc : Z.of_nat (length c) = size) by (destruct (I6 c E2) as [X | [X _]]; [exact X|rewrite (A5 eq_refl) in X; discriminate]).
        destruct OR as [OR1 OR2]. destruct (OR1 i Li).
        eexists. split; [reflexivity|]. split; [|split; reflexivity]. apply G; [apply HS| |].
        -- right. split; [reflexivity|]. exists c, pos. repeat (split; [solve [auto | lia]|]). reflexivity.
        -- unfold ainv, v'. cbn. repeat (split; [solve [auto | congruence]|]). exists (pos + length b)%nat, (write_at c pos b). repeat (split; [reflexivity|]).
           intros _. split; [rewrite app_length; lia|]. subst pos. apply stands_more; [exact E4|lia].
      * destruct A12 as [E1 E2]. rewrite E1.
        eexists. split; [reflexivity|]. split; [|split; reflexivity]. apply G; [apply HS|left; reflexivity|].
        unfold ainv, v'. cbn. rewrite E2 by lia. repeat (split; [solve [auto | congruence]|]). auto.
Qed.

Lemma inv_ext o n lay size f h h' : inv o n lay size f h -> (forall j, h' j = h j) -> inv o n lay size f h'.
Proof.
  intros (I1 & I2 & I3 & I4 & I5 & I6 & I7 & I8) E. repeat (split; [assumption|]). repeat split.
  - intros c X. destruct (I6 c X) as [Y | [Y1 Y2]]; [left; exact Y|right; split; [exact Y1|]]. intros D j. rewrite E. auto.
  - intros j L. rewrite E. auto.
  - intros j a N. rewrite E. auto.
Qed.
Lemma set_h_same i x h : h i = x -> forall j, h j = set_h i x h j.
Proof. intros E j. unfold set_h. destruct (Nat.eqb_spec j i) as [-> | _]; [exact E|reflexivity]. Qed.

(** A step that leaves the output file alone and concerns an article that is known. *)
Lemma inv_local o n lay size f h i a v g x cached' : inv o n lay size f h -> nth_error (f_arts f) i = Some a -> h i = Some v ->
  cached' = f_cached f - (if has_seg a then 1 else 0) + (if has_seg (g a) then 1 else 0) ->
  ainv (dm o f) (lay i) (f_out f) (f_init f) (g a) x ->
  inv o n lay size (WFile (f_out f) (f_init f) (f_force f) cached' (upd i g (f_arts f))) (set_h i x h).
Proof.
  intros I N Hv C A. assert (I' := I). destruct I as (I1 & I2 & I3 & I4 & I5 & I6 & I7 & I8). eapply inv_step; try eassumption; auto.
  - intros c Ec. destruct (I6 c Ec) as [X | [X1 X2]]; [left; exact X|]. destruct (dm o f) eqn:D; [|right; split; [exact X1|split; discriminate]].
    rewrite (X2 eq_refl i) in Hv. discriminate.
  - intros j u c NE Hj Hc. exists c. auto.
Qed.

Lemma finish_ok o n lay size f h i ok junk : inv o n lay size f h -> proper n lay size h (OFinish i ok junk) ->
  exists f', finish o i ok junk f = Some f' /\ inv o n lay size f' (arrive h (OFinish i ok junk)) /\ f_force f' = f_force f /\ f_init f' = f_init f.
Proof.
  intros I P. unfold finish. cbn [arrive].
  destruct (nth_error (f_arts f) i) as [a|] eqn:N; [|exists f; rewrite (none_ok _ _ _ _ _ _ _ I N); auto].
  destruct (w_on (a_w a)) eqn:W; cbn [negb].
  2:{ exists f. assert (X := idle_ok _ _ _ _ _ _ _ _ I N W). destruct (h i) as [v|]; [rewrite X|]; auto. }
  destruct (busy_ok _ _ _ _ _ _ _ _ I N W) as (v & Hv & Nd). rewrite Hv, Nd.
  assert (A := proj2 (proj2 (proj2 (proj2 (proj2 (proj2 (proj2 I)))))) i a N). rewrite Hv in A. cbn [ainv] in A. rewrite Nd in A.
  destruct A as (A1 & A2 & A3 & A4 & A5 & A6 & A7 & A8 & A9 & A10 & A11 & A12).
  destruct ok; cbn [negb].
  2:{ eexists. split; [reflexivity|]. split; [|split; reflexivity]. eapply inv_local; try eassumption.
      - unfold has_seg. cbn. rewrite A6. lia.
      - cbn. auto. }
  cbn [proper] in P. specialize (P v Hv Nd). rewrite A10, A11, A8, P, Z.eqb_refl. cbn [is_yenc negb andb]. rewrite andb_true_r. fold (dm o f).
  destruct (w_data (a_w a)) as [d|].
  - eexists. split; [reflexivity|]. split; [|split; reflexivity]. eapply inv_local; try eassumption.
    + unfold has_seg. cbn. rewrite A6. lia.
    + unfold ainv. cbn. destruct A12 as [L F]. repeat (split; [solve [auto | lia]|]). split; [|exact A5].
      rewrite <- (firstn_all d), <- F by lia. f_equal. lia.
  - eexists. split; [reflexivity|]. split; [|split; reflexivity].
    destruct (dm o f) eqn:D.
    + eapply inv_local; try eassumption.
      * unfold has_seg. cbn. rewrite A6. lia.
      * rewrite D. unfold ainv. cbn. rewrite A6. repeat (split; [solve [auto | lia]|]). destruct A12 as (pos & c & _ & E2 & E3). exists c. split; [exact E2|]. apply E3. lia.
    + eapply inv_local; try eassumption.
      * unfold has_seg. cbn. rewrite A6. lia.
      * rewrite D. unfold ainv. cbn. rewrite A6. repeat (split; [solve [auto | lia]|]). destruct A12 as [_ E]. rewrite E by lia. reflexivity.
Qed.

Lemma flush_ok o n lay size f h i : inv o n lay size f h -> ordered n lay size -> o_direct o = true \/ f_force f = false ->
  inv o n lay size (flush o i f) h /\ f_force (flush o i f) = f_force f /\ f_init (flush o i f) = f_init f.
Proof.
  intros I OR M. unfold flush. destruct (nth_error (f_arts f) i) as [a|] eqn:N; [|auto].
  assert (A := proj2 (proj2 (proj2 (proj2 (proj2 (proj2 (proj2 I)))))) i a N).
  destruct (a_seg a) as [d|] eqn:SG; [|auto].
  assert (HV : exists v, h i = Some v /\ v_done v = true).
  { destruct (h i) as [v|]; cbn [ainv] in A.
    - exists v. split; [reflexivity|]. destruct A as (_ & _ & A). destruct (v_done v); [reflexivity|]. destruct A as (_ & _ & _ & A & _). congruence.
    - destruct A as (_ & A & _). congruence. }
  destruct HV as (v & Hv & Dn). rewrite Hv in A. cbn [ainv] in A. rewrite Dn, SG in A. destruct A as (A1 & A2 & A3 & A4 & A5 & A6 & -> & A8).
  assert (Li : (i < n)%nat) by (destruct I as (I1 & _); rewrite <- I1; apply nth_error_Some; congruence).
  assert (OR' := OR). destruct OR' as [OR1 _]. destruct (OR1 i Li) as [B1 B2].
  destruct (o_direct o && f_init f) eqn:C.
  - apply andb_true_iff in C as [C1 C2]. destruct (inv_init_len _ _ _ _ _ _ I C2) as (c & E & L). rewrite E, A4. unfold seek. replace (0 <=? v_off v) with true by lia.
    assert (D : dm o f = true) by (unfold dm; rewrite C1; reflexivity).
    split; [|split; reflexivity]. apply (inv_ext _ _ _ _ _ (set_h i (Some v) h)); [|apply set_h_same, Hv].
    eapply inv_step; try eassumption.
    + unfold has_seg. cbn. rewrite SG. lia.
    + auto.
    + rewrite D. discriminate.
    + discriminate.
    + intros c' Ec. injection Ec as <-. left. rewrite write_at_length by lia. exact L.
    + intros j u c1 NE Hj Hc. rewrite E in Hc. injection Hc as <-. eexists. split; [reflexivity|]. intros K1 K2 Lj ST. apply stands_other; [exact ST|lia|].
      destruct (apart _ _ _ _ _ OR NE Lj Li); lia.
    + rewrite D. unfold ainv. rewrite Dn. cbn. repeat (split; [solve [auto | congruence | lia]|]). eexists. split; [reflexivity|]. apply stands_write; lia.
  - split; [|split; reflexivity]. apply (inv_ext _ _ _ _ _ (set_h i (Some v) h)); [|apply set_h_same, Hv].
    assert (D : dm o f = false).
    { destruct (dm o f) eqn:D; [|reflexivity]. rewrite (A8 eq_refl), andb_true_r in C. unfold dm in D. rewrite C in D. cbn in D. destruct M; congruence. }
    eapply inv_local; try eassumption.
    + unfold has_seg. cbn. rewrite SG. lia.
    + rewrite D. unfold ainv. rewrite Dn. cbn. repeat (split; [solve [auto | congruence | lia]|]). reflexivity.
Qed.

Lemma upd_out {A} (g : A -> A) l : forall i, nth_error l i = None -> upd i g l = l.
Proof. induction l as [|x l IH]; intros [|i] H; cbn [nth_error upd] in *; try discriminate; try reflexivity. rewrite IH; auto. Qed.

Lemma renew_ok o n lay size f h i : inv o n lay size f h -> proper n lay size h (ONew i) ->
  inv o n lay size (renew i f) (arrive h (ONew i)) /\ f_force (renew i f) = f_force f /\ f_init (renew i f) = f_init f.
Proof.
  intros I P. cbn [proper] in P. split; [|split; reflexivity]. cbn [arrive]. unfold renew, set_arts.
  destruct (nth_error (f_arts f) i) as [a|] eqn:N.
  2:{ rewrite (none_ok _ _ _ _ _ _ _ I N), upd_out by exact N. destruct f; exact I. }
  assert (I' := I). destruct I as (I1 & I2 & I3 & I4 & I5 & I6 & I7 & I8). assert (A := I8 i a N).
  destruct (h i) as [v|] eqn:Hv; cbn [ainv] in A.
  - assert (Nd := P v eq_refl). rewrite Nd in *. destruct A as (_ & A2 & _ & _ & _ & A6 & _). eapply inv_local; try eassumption.
    + unfold has_seg. cbn. rewrite A6. lia.
    + cbn. auto.
  - apply (inv_ext _ _ _ _ _ (set_h i None h)); [|apply set_h_same, Hv]. destruct A as (A1 & A2 & _).
    eapply inv_step; try eassumption; auto.
    + unfold has_seg. cbn. rewrite A2. lia.
    + intros c Ec. destruct (I6 c Ec) as [X | [X1 X2]]; [left; exact X|right]. split; [exact X1|]. split; auto.
    + intros j u c NE Hj Hc. exists c. auto.
    + cbn. auto.
Qed.

(** The file may be flushed in the mode it is used in. *)
Definition flushable (o : wopts) (f : wfile) (x : wop) : Prop := match x with OFlush _ => o_direct o = true \/ f_force f = false | _ => True end.

Lemma step_ok o n lay size f h x : inv o n lay size f h -> ordered n lay size -> proper n lay size h x -> flushable o f x ->
  exists f', wstep o f x = Some f' /\ inv o n lay size f' (arrive h x) /\ f_force f' = f_force f /\
    (dm o f = true -> f_init f = true \/ (exists i fm fsize off asize alloc, x = OStart i fm fsize off asize alloc) -> f_init f' = true).
Proof.
  intros I OR P F. destruct x as [i fm fsize off asize alloc|i b|i ok junk|i|i]; cbn [wstep].
  - cbn [proper] in P. destruct P as (Li & -> & -> & PA & LO & HI & ND). eexists. split; [reflexivity|].
    destruct (start_ok o n lay size f h i off asize alloc I OR Li PA LO HI ND) as (R1 & R2 & R3). cbn [arrive]. auto.
  - destruct (write_ok o n lay size f h i b I OR) as (f' & E & R1 & R2 & R3). exists f'. repeat (split; [assumption|]). rewrite R3. intros _ [X | (? & ? & ? & ? & ? & ? & X)]; [exact X|discriminate].
  - destruct (finish_ok o n lay size f h i ok junk I P) as (f' & E & R1 & R2 & R3). exists f'. repeat (split; [assumption|]). rewrite R3. intros _ [X | (? & ? & ? & ? & ? & ? & X)]; [exact X|discriminate].
  - destruct (flush_ok o n lay size f h i I OR F) as (R1 & R2 & R3). eexists. split; [reflexivity|]. repeat (split; [assumption|]). rewrite R3. intros _ [X | (? & ? & ? & ? & ? & ? & X)]; [exact X|discriminate].
  - destruct (renew_ok o n lay size f h i I P) as (R1 & R2 & R3). eexists. split; [reflexivity|]. repeat (split; [assumption|]). rewrite R3. intros _ [X | (? & ? & ? & ? & ? & ? & X)]; [exact X|discriminate].
Qed.

Lemma run_ok o n lay size l : forall f h h', inv o n lay size f h -> ordered n lay size -> proper_run n lay size h l h' ->
  (o_direct o = true \/ f_force f = false \/ forall i, ~ In (OFlush i) l) ->
  exists f', wrun o f l = Some f' /\ inv o n lay size f' h' /\ f_force f' = f_force f /\ (dm o f = true -> opened f l -> f_init f' = true).
Proof.
  induction l as [|x l IH]; intros f h h' I OR P F; inversion P as [|h0 x0 l0 h1 P1 P2]; subst.
  - exists f. repeat (split; [solve [auto]|]). intros _ [X | (? & ? & ? & ? & ? & ? & [])]. exact X.
  - destruct (step_ok o n lay size f h x I OR P1) as (f1 & E1 & R1 & R2 & R3).
    { destruct x; cbn [flushable]; try exact Logic.I. destruct F as [F | [F | F]]; auto. exfalso. apply (F i). left. reflexivity. }
    assert (D1 : dm o f1 = dm o f) by (unfold dm; rewrite R2; reflexivity).
    destruct (IH f1 (arrive h x) h' R1 OR P2) as (f2 & E2 & R4 & R5 & R6).
    { rewrite R2. destruct F as [F | [F | F]]; auto. right. right. intros i X. apply (F i). right. exact X. }
    exists f2. cbn [wrun]. rewrite E1. repeat (split; [solve [auto | congruence]|]). intros D [X | (i & fm & fs & off & asz & al & [X | X])].
    + apply R6; [congruence|]. left. auto.
    + apply R6; [congruence|]. left. apply R3; [exact D|]. right. repeat eexists. exact X.
    + apply R6; [congruence|]. right. repeat eexists. exact X.
Qed.

(** ** Completion *)

(** What an article contributes to the finished file. *)
Definition part (lay : Z * Z) (here : arrival -> Prop) (a : art) (x : option arrival) : Prop :=
  match x with
  | Some v => if v_done v then a_fin a = true /\ fst lay <= v_off v /\ v_off v + Z.of_nat (length (v_got v)) <= snd lay /\ a_off a = v_off v /\
                (a_seg a = Some (v_got v) \/ (a_seg a = None /\ here v))
              else a_fin a = false
  | None => a_fin a = false
  end.
Lemma ainv_part D lay out init a x : ainv D lay out init a x ->
  part lay (fun v => if D then exists c, out = Some c /\ stands_at c (v_off v) (v_got v) else a_res a = Some (v_got v)) a x.
Proof.
  unfold ainv, part. destruct x as [v|]; [|tauto]. intros (H1 & H2 & H3). destruct (v_done v); [|exact H2].
  destruct H3 as (B & A1 & A2 & A3 & A4). repeat (split; [solve [auto]|]). destruct (a_seg a) as [d|]; [left; f_equal; tauto|right; auto].
Qed.

Lemma patch_ok n lay size h : ordered n lay size -> forall l k c, (k + length l = n)%nat -> Z.of_nat (length c) = size ->
  (forall j a, nth_error l j = Some a -> part (lay (k + j)%nat) (fun v => stands_at c (v_off v) (v_got v)) a (h (k + j)%nat)) ->
  (forall i v, (i < k)%nat -> h i = Some v -> v_done v = true -> stands_at c (v_off v) (v_got v) /\ fst (lay i) <= v_off v /\ v_off v + Z.of_nat (length (v_got v)) <= snd (lay i)) ->
  assembled n h (patch l c) /\ Z.of_nat (length (patch l c)) = size.
Proof.
  intros OR. induction l as [|a l IH]; intros k c Lk Lc R E.
  - cbn [patch length] in *. split; [|exact Lc]. intros i v Li Hv Dn. apply (E i v); auto; lia.
  - cbn [patch length] in *. assert (A := R O a eq_refl). rewrite Nat.add_0_r in A.
    assert (R' : forall c', (forall v, stands_at c (v_off v) (v_got v) -> forall j, j <> k -> (j < n)%nat -> fst (lay j) <= v_off v -> v_off v + Z.of_nat (length (v_got v)) <= snd (lay j) -> stands_at c' (v_off v) (v_got v)) ->
       Z.of_nat (length c') = size ->
       (forall v, h k = Some v -> v_done v = true -> stands_at c' (v_off v) (v_got v) /\ fst (lay k) <= v_off v /\ v_off v + Z.of_nat (length (v_got v)) <= snd (lay k)) ->
       assembled n h (patch l c') /\ Z.of_nat (length (patch l c')) = size).
    { intros c' K Lc' Hk. apply (IH (S k)); [lia|exact Lc'| |].
      - intros j b Nj. assert (X := R (S j) b Nj). replace (k + S j)%nat with (S k + j)%nat in X by lia.
        assert (Lj : (j < length l)%nat) by (apply nth_error_Some; congruence).
        unfold part in *. destruct (h (S k + j)%nat) as [v|]; [|exact X]. destruct (v_done v); [|exact X].
        destruct X as (X1 & X2 & X3 & X4 & X5). repeat (split; [assumption|]). destruct X5 as [X5 | [X5 X6]]; [left; exact X5|right]. split; [exact X5|].
        apply (K v X6 (S k + j)%nat); auto; lia.
      - intros i v Li Hv Dn. destruct (Nat.eq_dec i k) as [-> | NE]; [auto|]. destruct (E i v) as (S1 & S2 & S3); auto; [lia|]. split; [|auto].
        apply (K v S1 i); auto; lia. }
    unfold part in A. destruct (h k) as [v|] eqn:Hk; [destruct (v_done v) eqn:Dn|].
    + destruct A as (A1 & A2 & A3 & A4 & A5). destruct OR as [OR1 OR2]. destruct (OR1 k ltac:(lia)) as [B1 B2].
      destruct A5 as [A5 | [A5 A6]]; rewrite A5, ?A1.
      * rewrite A4. unfold seek. replace (0 <=? v_off v) with true by lia. apply R'.
        -- intros u ST j NE Lj K1 K2. apply stands_other; [exact ST|lia|]. assert (Lkn : (k < n)%nat) by lia. destruct (apart _ _ _ _ _ (conj OR1 OR2) NE Lj Lkn); lia.
        -- rewrite write_at_length by lia. exact Lc.
        -- intros u Hu _. injection Hu as <-. split; [|auto]. apply stands_write; lia.
      * apply R'; auto. intros u Hu _. injection Hu as <-. auto.
    + destruct (a_seg a); rewrite ?A; apply R'; auto; intros u Hu Du; congruence.
    + destruct (a_seg a); rewrite ?A; apply R'; auto; intros u Hu Du; congruence.
Qed.

Lemma join_ok n lay size h : ordered n lay size -> forall l k out lost, (k + length l = n)%nat -> Z.of_nat (length out) <= size ->
  (forall j, (k <= j < n)%nat -> Z.of_nat (length out) <= fst (lay j)) ->
  (forall j a, nth_error l j = Some a -> part (lay (k + j)%nat) (fun v => a_res a = Some (v_got v)) a (h (k + j)%nat)) ->
  (forall i v, (i < k)%nat -> h i = Some v -> v_done v = true -> stands_at out (v_off v) (v_got v)) ->
  exists out', join l out (length out) lost = (out', lost) /\ assembled n h out' /\ Z.of_nat (length out') <= size.
Proof.
  intros OR. induction l as [|a l IH]; intros k out lost Lk Ls Lo R E.
  - exists out. cbn [join length] in *. split; [reflexivity|]. split; [|exact Ls]. intros i v Li Hv Dn. apply (E i v); auto; lia.
  - cbn [join length] in *. assert (A := R O a eq_refl). rewrite Nat.add_0_r in A.
    assert (R' : forall j b, nth_error l j = Some b -> part (lay (S k + j)%nat) (fun v => a_res b = Some (v_got v)) b (h (S k + j)%nat)).
    { intros j b Nj. replace (S k + j)%nat with (k + S j)%nat by lia. apply (R (S j) b Nj). }
    assert (Z0 : a_fin a = false -> (forall v, h k = Some v -> v_done v = false) -> exists out', join l out (length out) lost = (out', lost) /\ assembled n h out' /\ Z.of_nat (length out') <= size).
    { intros _ Nd. apply (IH (S k)); auto; [lia|intros; apply Lo; lia|]. intros i v Li Hv Dn. destruct (Nat.eq_dec i k) as [-> | NE].
      - rewrite (Nd v Hv) in Dn. discriminate.
      - apply (E i v); auto; lia. }
    unfold part in A. destruct (h k) as [v|] eqn:Hk; [destruct (v_done v) eqn:Dn|].
    + destruct A as (A1 & A2 & A3 & A4 & A5). rewrite A1, A4. cbn [negb]. destruct OR as [OR1 OR2]. destruct (OR1 k ltac:(lia)) as [B1 B2].
      assert (Lk0 := Lo k ltac:(lia)). set (gap := (Z.to_nat (v_off v) - length out)%nat). rewrite write_at_end.
      assert (P1 : (length out + gap)%nat = length (out ++ repeat 0 gap)) by (rewrite app_length, repeat_length; reflexivity).
      assert (P2 : Z.of_nat (length (out ++ repeat 0 gap)) = v_off v) by (rewrite <- P1; unfold gap; lia).
      assert (SK : seek (length out + gap) (v_off v) = length (out ++ repeat 0 gap)) by (unfold seek; replace (0 <=? v_off v) with true by lia; lia).
      assert (Fin : exists out', join l ((out ++ repeat 0 gap) ++ v_got v) (length ((out ++ repeat 0 gap) ++ v_got v)) lost = (out', lost) /\ assembled n h out' /\ Z.of_nat (length out') <= size).
      { assert (LL : Z.of_nat (length ((out ++ repeat 0 gap) ++ v_got v)) = v_off v + Z.of_nat (length (v_got v))) by (rewrite (app_length (out ++ repeat 0 gap)); lia).
        apply (IH (S k)); [lia|lia| |exact R'|].
        - intros j Lj. rewrite LL. assert (X := OR2 k j ltac:(lia) ltac:(lia)). lia.
        - intros i u Li Hu Du. destruct (Nat.eq_dec i k) as [-> | NE].
          + rewrite Hk in Hu. injection Hu as <-. exists (out ++ repeat 0 gap), []. rewrite app_nil_r. auto.
          + rewrite <- app_assoc. apply stands_app. apply (E i u); auto; lia. }
      rewrite SK, P1. destruct A5 as [A5 | [A5 A6]]; rewrite A5, ?A6, write_at_end, <- app_length; exact Fin.
    + rewrite A. apply Z0; [exact A|]. intros u Hu. congruence.
    + rewrite A. apply Z0; [exact A|]. intros u Hu. congruence.
Qed.

Lemma complete_ok o n lay size f h : 0 <= size -> inv o n lay size f h -> ordered n lay size -> (dm o f = true -> f_init f = true) ->
  exists out, complete o f = Some (out, 0) /\ assembled n h out /\ Z.of_nat (length out) <= size.
Proof.
  intros SZ I OR M. assert (I' := I). destruct I as (I1 & I2 & I3 & I4 & I5 & I6 & I7 & I8). unfold complete. fold (dm o f).
  destruct (dm o f) eqn:D; cbn [andb].
  - rewrite (M eq_refl). destruct (inv_init_len _ _ _ _ _ _ I' (M eq_refl)) as (c & E & L). rewrite E.
    replace ((f_cached f <=? 0) && existsb (fun a => has_seg a && a_fin a) (f_arts f)) with false.
    2:{ symmetry. destruct (existsb _ _) eqn:X; [|apply andb_false_r]. rewrite andb_true_r. apply existsb_exists in X as (a & Ia & X). apply andb_true_iff in X as [X _].
        rewrite I2. unfold seg_count. assert (In a (filter has_seg (f_arts f))) by (apply filter_In; auto). destruct (filter has_seg (f_arts f)); [contradiction|]. cbn [length]. lia. }
    eexists. split; [reflexivity|]. destruct (patch_ok n lay size h OR (f_arts f) 0 c) as [P1 P2]; auto.
    + intros j a N. assert (X := ainv_part _ _ _ _ _ _ (I8 j a N)). cbn beta iota in X. cbn [Nat.add]. unfold part in *. destruct (h j) as [v|]; [|exact X].
      destruct (v_done v); [|exact X]. destruct X as (X1 & X2 & X3 & X4 & X5). repeat (split; [assumption|]). destruct X5 as [X5 | [X5 (c' & E' & ST)]]; [left; exact X5|right].
      split; [exact X5|]. congruence.
    + intros i v Li. lia.
    + split; [exact P1|lia].
  - destruct (join_ok n lay size h OR (f_arts f) 0 [] 0) as (out & E & A & L).
    + exact I1.
    + exact SZ.
    + intros j Lj. cbn. apply OR. lia.
    + intros j a N. exact (ainv_part _ _ _ _ _ _ (I8 j a N)).
    + intros i v Li. lia.
    + exists out. cbn [length] in E. rewrite E. auto.
Qed.

Lemma resumed_inv o n lay size f h : resumed (dm o f) n lay size f h -> inv o n lay size f h.
Proof.
  intros (R1 & R2 & R3 & R4 & R5 & R6 & R7 & R8). repeat (split; [assumption|]).
  assert (NS : forall a, In a (f_arts f) -> has_seg a = false).
  { intros a Ia. apply In_nth_error in Ia as [i N]. destruct (R8 i a N) as [_ X]. unfold has_seg. destruct (h i) as [v|].
    - destruct X as (_ & (_ & _ & _ & -> & _) & _). reflexivity.
    - destruct X as [_ ->]. reflexivity. }
  split.
  { unfold seg_count. rewrite R2. destruct (filter has_seg (f_arts f)) as [|b r] eqn:X; [reflexivity|]. assert (Ib : In b (filter has_seg (f_arts f))) by (rewrite X; left; reflexivity).
    apply filter_In in Ib as [Ib Hb]. rewrite (NS b Ib) in Hb. discriminate. }
  repeat (split; [assumption|]). split.
  { intros c E. destruct (R6 c E) as [X | [X Y]]; [left; exact X|right; split; auto]. }
  split; [exact R7|]. intros i a N. destruct (R8 i a N) as [W X]. destruct (h i) as [v|].
  - destruct X as (X1 & (X2 & X3 & X4 & X5 & X6) & X7 & X8). cbn [ainv]. rewrite X1, X5, W. repeat (split; [solve [auto | congruence]|]). exact X6.
  - cbn [ainv]. destruct X as [X1 X2]. rewrite W. auto.
Qed.

Lemma assembly_ok o n lay size f h l h' : 0 <= size -> ordered n lay size -> resumed (o_direct o || f_force f) n lay size f h ->
  proper_run n lay size h l h' -> (o_direct o = true \/ f_force f = false \/ forall i, ~ In (OFlush i) l) ->
  (o_direct o || f_force f = true -> opened f l) ->
  exists f' out, wrun o f l = Some f' /\ complete o f' = Some (out, 0) /\ assembled n h' out /\ Z.of_nat (length out) <= size.
Proof.
  intros SZ OR R P F Op. assert (I := resumed_inv o n lay size f h R).
  destruct (run_ok o n lay size l f h h' I OR P F) as (f' & E & I' & FF & In').
  destruct (complete_ok o n lay size f' h' SZ I' OR) as (out & C & A & L).
  - intros D. apply In'; [|apply Op]; unfold dm in *; rewrite FF in D; exact D.
  - exists f', out. auto.
Qed.

Lemma whole out vs : (forall k v, nth_error vs k = Some v -> stands_at out (Z.of_nat (length (concat (map v_got (firstn k vs))))) (v_got v)) ->
  vs = [] \/ exists y, out = concat (map v_got vs) ++ y.
Proof.
  destruct vs as [|v0 vs0]; [left; reflexivity|]. intros H. right. revert H. generalize (v0 :: vs0). clear v0 vs0.
  intros vs. induction vs as [|v vs IH] using rev_ind; intros H; [exists out; reflexivity|].
  destruct IH as [y Ey].
  { intros k u N. assert (Lk : (k < length vs)%nat) by (apply nth_error_Some; congruence). assert (X := H k u). rewrite nth_error_app1 in X by exact Lk. specialize (X N).
    rewrite firstn_app in X. replace (k - length vs)%nat with O in X by lia. cbn [firstn] in X. rewrite app_nil_r in X. exact X. }
  assert (X := H (length vs) v). rewrite nth_error_app2, Nat.sub_diag in X by lia. specialize (X eq_refl).
  rewrite firstn_app, firstn_all, Nat.sub_diag in X. cbn [firstn] in X. rewrite app_nil_r in X. destruct X as (a & b & E & L).
  exists b. rewrite map_app, concat_app. cbn [map concat]. rewrite app_nil_r, <- app_assoc. rewrite Ey in E.
  apply (f_equal (firstn (length a))) in E as E1. rewrite firstn_app, firstn_all2 in E1 by lia. replace (length a - length (concat (map v_got vs)))%nat with O in E1 by lia.
  cbn [firstn] in E1. rewrite app_nil_r, firstn_app, firstn_all, Nat.sub_diag in E1. cbn [firstn] in E1. rewrite app_nil_r in E1. rewrite E1, <- E. exact Ey.
Qed.

Lemma covers_ok n h size all out : covers n h size all -> assembled n h out -> Z.of_nat (length out) <= size -> out = all.
Proof.
  intros (vs & F & Of & -> & L) A Lo.
  destruct (whole out vs) as [E | [y E]].
  - intros k v N. rewrite <- (Of k v N). assert (Lk : (k < length vs)%nat) by (apply nth_error_Some; congruence).
    assert (LF : length (seq 0 n) = length vs) by (clear -F; induction F; cbn [length]; congruence). rewrite seq_length in LF.
    assert (X : h k = Some v /\ v_done v = true).
    { clear -F N Lk LF. assert (G : forall l us m, Forall2 (fun i v => h i = Some v /\ v_done v = true) l us -> nth_error us m = Some v -> exists i, nth_error l m = Some i /\ h i = Some v /\ v_done v = true).
      { intros l us m X. revert m. induction X as [|i u l us X1 X2 IH]; intros [|m] Nm; cbn [nth_error] in *; try discriminate; [injection Nm as ->; exists i; auto|apply IH, Nm]. }
      destruct (G _ _ _ F N) as (i & Ni & R). assert (i = k).
      { assert (Y := nth_error_nth _ _ O Ni). rewrite seq_nth in Y by lia. lia. }
      subst i. exact R. }
    apply (A k v); [lia|tauto|tauto].
  - subst vs. cbn in L. destruct out as [|b r]; [reflexivity|]. cbn [length] in Lo. lia.
  - rewrite E in Lo |- *. rewrite app_length in Lo. destruct y as [|b r]; [apply app_nil_r|]. cbn [length] in Lo. lia.
Qed.

(** ** The cache *)

Definition kinv (o : kopts) (k : acache) : Prop :=
  NoDup (map fst (k_live k)) /\ (forall p n, In (p, n) (k_live k) -> p < k_next k /\ 0 < n) /\
  k_alloc k = total (k_live k) /\ total (k_live k) <= k_limit o /\
  k_flag k = k_use_flag o && negb (total (k_live k) =? 0).

Lemma total_app l x : total (l ++ [x]) = total l + snd x.
Proof. unfold total. induction l as [|y l IH]; cbn [app map fold_right] in *; lia. Qed.
Lemma total_nonneg l : (forall p n, In (p, n) l -> 0 < n) -> 0 <= total l.
Proof.
  unfold total. induction l as [|[p n] l IH]; intros H; cbn [map fold_right snd]; [lia|].
  assert (0 < n) by (apply (H p n); left; reflexivity). assert (0 <= fold_right Z.add 0 (map snd l)) by (apply IH; intros; apply (H p0); right; assumption). lia.
Qed.
Lemma total_zero l : (forall p n, In (p, n) l -> 0 < n) -> total l = 0 -> l = [].
Proof.
  destruct l as [|[p n] l]; [reflexivity|]. intros H E. unfold total in E. cbn [map fold_right snd] in E. assert (0 < n) by (apply (H p n); left; reflexivity).
  assert (0 <= total l) by (apply total_nonneg; intros; apply (H p0); right; assumption). unfold total in *. lia.
Qed.
Definition held (l : list (Z * Z)) (p : Z) : Z := match find (fun x => fst x =? p) l with Some (_, n) => n | None => 0 end.
Lemma held_out l p : ~ In p (map fst l) -> held l p = 0 /\ filter (fun x => negb (fst x =? p)) l = l /\
   forall size, map (fun x => if fst x =? p then (p, size) else x) l = l.
Proof.
  unfold held. induction l as [|[q n] l IH]; intros N; [auto|]. cbn [map In fst] in N. destruct IH as (I1 & I2 & I3); [tauto|].
  cbn [find fst filter map]. replace (q =? p) with false by lia. cbn [negb]. rewrite I1, I2. split; [reflexivity|]. split; [reflexivity|]. intros. rewrite I3. reflexivity.
Qed.
Lemma total_filter l p : NoDup (map fst l) -> total (filter (fun x => negb (fst x =? p)) l) = total l - held l p.
Proof.
  unfold total. induction l as [|[q n] l IH]; intros ND; [reflexivity|]. cbn [map] in ND. inversion ND as [|x y N1 N2]; subst. cbn [filter fst] in *.
  destruct (Z.eqb_spec q p) as [-> | NE]; cbn [negb].
  - destruct (held_out l p N1) as (_ & -> & _). unfold held. cbn [find fst map fold_right snd]. rewrite Z.eqb_refl. lia.
  - cbn [map fold_right snd]. rewrite IH by exact N2. unfold held. cbn [find fst]. replace (q =? p) with false by lia. lia.
Qed.
Lemma total_resize l p size : NoDup (map fst l) -> In p (map fst l) ->
  total (map (fun x => if fst x =? p then (p, size) else x) l) = total l + (size - held l p).
Proof.
  unfold total. induction l as [|[q n] l IH]; intros ND I; [contradiction|]. cbn [map] in ND. inversion ND as [|x y N1 N2]; subst. cbn [map fst] in *.
  destruct (Z.eqb_spec q p) as [-> | NE].
  - destruct (held_out l p N1) as (_ & _ & ->). unfold held. cbn [find fst map fold_right snd]. rewrite Z.eqb_refl. lia.
  - cbn [map fold_right snd]. destruct I as [I | I]; [congruence|]. rewrite IH by assumption. unfold held. cbn [find fst]. replace (q =? p) with false by lia. lia.
Qed.
Lemma held_in l p : In p (map fst l) -> In (p, held l p) l.
Proof.
  unfold held. induction l as [|[q n] l IH]; intros I; [contradiction|]. cbn [find fst map In] in *. destruct (Z.eqb_spec q p) as [-> | NE]; [left; reflexivity|].
  right. apply IH. destruct I; [congruence|assumption].
Qed.
Lemma held_le l p : (forall p n, In (p, n) l -> 0 < n) -> 0 <= held l p <= total l.
Proof.
  intros H. unfold total, held. induction l as [|[q n] l IH]; [cbn; lia|]. cbn [find fst map fold_right snd].
  assert (0 < n) by (apply (H q n); left; reflexivity). destruct IH as [I1 I2]; [intros; apply (H p0); right; assumption|].
  assert (0 <= fold_right Z.add 0 (map snd l)) by (apply (total_nonneg l); intros; apply (H p0); right; assumption).
  destruct (q =? p); lia.
Qed.

Lemma kstep_ok o k x : 0 <= k_limit o < 2 ^ 63 -> kinv o k -> sane_op k x -> kinv o (fst (kstep o k x)).
Proof.
  intros LM (K1 & K2 & K3 & K4 & K5) SO. assert (K2' : forall p n, In (p, n) (k_live k) -> 0 < n) by (intros p n H; apply (K2 p n H)).
  assert (P0 := total_nonneg _ K2').
  destruct x as [size ok|p size ok|p]; cbn [kstep sane_op] in *.
  - unfold u64. rewrite (Z.mod_small size) by lia. rewrite (Z.mod_small (k_alloc k + size)) by lia.
    destruct ((k_alloc k + size <=? k_limit o) && ok) eqn:C; cbn [fst]; [|repeat split; assumption || (intros; eapply K2; eassumption)].
    apply andb_true_iff in C as [C _]. apply Z.leb_le in C. unfold kinv. cbn [k_live k_next k_alloc k_flag]. rewrite total_app. cbn [snd]. repeat split.
    + rewrite map_app. cbn [map fst]. apply NoDup_rev in K1. rewrite <- (rev_involutive (map fst (k_live k) ++ [k_next k])). apply NoDup_rev. rewrite rev_app_distr. cbn [rev app].
      constructor; [|exact K1]. rewrite <- in_rev. intros I. apply in_map_iff in I as ([q m] & E & I). cbn [fst] in E. destruct (K2 q m I). lia.
    + apply in_app_iff in H as [H | [H | []]]; [destruct (K2 _ _ H); lia|]. injection H as <- _. lia.
    + apply in_app_iff in H as [H | [H | []]]; [eapply K2; eassumption|]. injection H as _ <-. lia.
    + lia.
    + lia.
    + rewrite K5, K3. destruct (k_use_flag o); [|reflexivity]. cbn [andb]. replace (total (k_live k) + size =? 0) with false by lia. destruct (total (k_live k) =? 0); reflexivity.
  - destruct SO as [S1 S2]. destruct (existsb (fun x => fst x =? p) (k_live k) && ok) eqn:C; cbn [fst]; [|repeat split; assumption || (intros; eapply K2; eassumption)].
    apply andb_true_iff in C as [C _]. apply existsb_exists in C as ([q m] & I & C). cbn [fst] in C. apply Z.eqb_eq in C. subst q.
    assert (I' : In p (map fst (k_live k))) by (apply in_map_iff; exists (p, m); auto).
    assert (E := held_le _ p K2'). assert (HI := held_in _ _ I'). change (size_of k p) with (held (k_live k) p) in *.
    assert (U : u64 (k_alloc k + u64 (size - held (k_live k) p)) = total (k_live k) + (size - held (k_live k) p)).
    { unfold u64. rewrite Zplus_mod_idemp_r, K3. apply Z.mod_small. lia. }
    unfold kinv. cbn [k_live k_next k_alloc k_flag]. rewrite U, (total_resize _ _ _ K1 I'). repeat split.
    + replace (map fst (map (fun x : Z * Z => if fst x =? p then (p, size) else x) (k_live k))) with (map fst (k_live k)); [exact K1|].
      rewrite map_map. apply map_ext. intros [q n]. cbn [fst]. destruct (Z.eqb_spec q p) as [-> | _]; reflexivity.
    + apply in_map_iff in H as ([q n'] & E' & H). cbn [fst] in E'. destruct (q =? p); [injection E' as <- _; exact (proj1 (K2 _ _ HI))|injection E' as <- _; exact (proj1 (K2 _ _ H))].
    + apply in_map_iff in H as ([q n'] & E' & H). cbn [fst] in E'. destruct (q =? p); [injection E' as _ <-; lia|injection E' as _ <-; exact (proj2 (K2 _ _ H))].
    + lia.
    + rewrite K5. replace (total (k_live k) =? 0) with false; [replace (total (k_live k) + (size - held (k_live k) p) =? 0) with false by lia; reflexivity|].
      destruct (K2 _ _ HI). lia.
  - change (size_of k p) with (held (k_live k) p). assert (E := held_le _ p K2').
    destruct (negb (held (k_live k) p =? 0)) eqn:C; cbn [fst]; [|repeat split; assumption || (intros; eapply K2; eassumption)].
    assert (U : u64 (k_alloc k - held (k_live k) p) = total (k_live k) - held (k_live k) p) by (unfold u64; rewrite K3; apply Z.mod_small; lia).
    unfold kinv. cbn [k_live k_next k_alloc k_flag]. rewrite U, (total_filter _ _ K1). repeat split.
    + clear -K1. induction (k_live k) as [|[q n] l IH]; [constructor|]. cbn [map] in K1. inversion K1 as [|x y N1 N2]; subst. cbn [filter fst].
      destruct (negb (q =? p)); [|auto]. cbn [map fst]. constructor; [|auto]. intros I. apply N1. apply in_map_iff in I as (z & Ez & I). apply filter_In in I as [I _]. apply in_map_iff. exists z. auto.
    + apply filter_In in H as [H _]. exact (proj1 (K2 _ _ H)).
    + apply filter_In in H as [H _]. exact (proj2 (K2 _ _ H)).
    + lia.
    + rewrite K5. apply negb_true_iff, Z.eqb_neq in C. replace (total (k_live k) =? 0) with false by lia. destruct (k_use_flag o); [|reflexivity]. cbn [andb negb]. reflexivity.
Qed.

Lemma krun_ok o l : 0 <= k_limit o < 2 ^ 63 -> forall k, kinv o k -> sane_run o k l -> kinv o (krun o k l).
Proof.
  intros LM. induction l as [|x l IH]; intros k K R; inversion R as [|k0 x0 l0 R1 R2]; subst; cbn [krun]; [exact K|]. apply IH; [|exact R2]. apply kstep_ok; assumption.
Qed.
Lemma cache_ok o l : 0 <= k_limit o < 2 ^ 63 -> sane_run o acache0 l ->
  let k := krun o acache0 l in
  k_alloc k = total (k_live k) /\ k_alloc k <= k_limit o /\ (k_alloc k = 0 <-> k_live k = []) /\ (k_flag k = true <-> k_use_flag o = true /\ k_live k <> []).
Proof.
  intros LM R k. destruct (krun_ok o l LM acache0) as (K1 & K2 & K3 & K4 & K5); [|exact R|].
  - unfold kinv, acache0, total. cbn. repeat split; try constructor; try contradiction; try lia. all: rewrite andb_false_r; reflexivity.
  - fold k in K1, K2, K3, K4, K5. clearbody k. assert (K2' : forall p n, In (p, n) (k_live k) -> 0 < n) by (intros p n H; apply (K2 p n H)).
    repeat split; try lia.
    + intros H. apply total_zero; [exact K2'|lia].
    + intros H. rewrite K3, H. reflexivity.
    + rewrite K5 in H. apply andb_true_iff in H. tauto.
    + rewrite K5 in H. apply andb_true_iff in H as [_ H]. intros E. rewrite E in H. discriminate.
    + intros [U N]. rewrite K5, U. cbn [andb]. apply negb_true_iff, Z.eqb_neq. intros E. apply N, total_zero; assumption.
Qed.

(** The sum alone needs no conditions. *)
Definition kinv0 (k : acache) : Prop :=
  NoDup (map fst (k_live k)) /\ (forall p, In p (map fst (k_live k)) -> p < k_next k) /\ k_alloc k = u64 (total (k_live k)).
Lemma kstep_sum o k x : kinv0 k -> kinv0 (fst (kstep o k x)).
Proof.
  intros (K1 & K2 & K3). destruct x as [size ok|p size ok|p]; cbn [kstep].
  - destruct (_ && ok); cbn [fst]; [|repeat split; assumption]. unfold kinv0. cbn [k_live k_next k_alloc]. rewrite map_app, total_app. cbn [map fst snd]. repeat split.
    + apply NoDup_rev in K1. rewrite <- (rev_involutive (map fst (k_live k) ++ [k_next k])). apply NoDup_rev. rewrite rev_app_distr. cbn [rev app].
      constructor; [|exact K1]. rewrite <- in_rev. intros I. apply K2 in I. lia.
    + intros q I. apply in_app_iff in I as [I | [I | []]]; [apply K2 in I; lia|lia].
    + rewrite K3. unfold u64. rewrite Zplus_mod_idemp_r, Zplus_mod_idemp_l. reflexivity.
  - destruct (existsb (fun x => fst x =? p) (k_live k) && ok) eqn:C; cbn [fst]; [|repeat split; assumption].
    apply andb_true_iff in C as [C _]. apply existsb_exists in C as ([q m] & I & C). cbn [fst] in C. apply Z.eqb_eq in C. subst q.
    assert (I' : In p (map fst (k_live k))) by (apply in_map_iff; exists (p, m); auto).
    assert (EM : map fst (map (fun x : Z * Z => if fst x =? p then (p, size) else x) (k_live k)) = map fst (k_live k)).
    { rewrite map_map. apply map_ext. intros [q n]. cbn [fst]. destruct (Z.eqb_spec q p) as [-> | _]; reflexivity. }
    unfold kinv0. cbn [k_live k_next k_alloc]. rewrite EM, (total_resize _ _ _ K1 I'). repeat split; try assumption.
    rewrite K3. unfold u64. rewrite Zplus_mod_idemp_r, Zplus_mod_idemp_l. reflexivity.
  - destruct (negb _); cbn [fst]; [|repeat split; assumption]. unfold kinv0. cbn [k_live k_next k_alloc]. rewrite (total_filter _ _ K1). repeat split.
    + clear -K1. induction (k_live k) as [|[q n] l IH]; [constructor|]. cbn [map] in K1. inversion K1 as [|x y N1 N2]; subst. cbn [filter fst].
      destruct (negb (q =? p)); [|auto]. cbn [map fst]. constructor; [|auto]. intros I. apply N1. apply in_map_iff in I as (z & Ez & I). apply filter_In in I as [I _]. apply in_map_iff. exists z. auto.
    + intros q I. apply K2. apply in_map_iff in I as (z & Ez & I). apply filter_In in I as [I _]. apply in_map_iff. exists z. auto.
    + rewrite K3. unfold u64. rewrite Zminus_mod_idemp_l. reflexivity.
Qed.
Lemma cache_sum o l : k_alloc (krun o acache0 l) = total (k_live (krun o acache0 l)) mod 2 ^ 64.
Proof.
  assert (G : forall k, kinv0 k -> kinv0 (krun o k l)).
  { induction l as [|x r IH]; intros k K; [exact K|]. cbn [krun]. apply IH, kstep_sum, K. }
  apply G. split; [constructor|]. split; [intros p []|reflexivity].
Qed.

(** ** Memory *)

Definition minv (o : wopts) (f : wfile) (fs : nat -> option format) (h : history) : Prop :=
  forall i a, nth_error (f_arts f) i = Some a ->
    (forall d, w_data (a_w a) = Some d -> exists fm, fs i = Some fm /\ (o_direct o = true -> fm = FYenc)) /\
    (w_on (a_w a) = true -> exists v, h i = Some v /\ v_done v = false /\ w_ptr (a_w a) = Z.of_nat (length (v_got v)) /\
       match w_data (a_w a) with
       | Some d => Z.of_nat (length d) = w_size (a_w a)
       | None => w_to (a_w a) = TTmp \/ (exists p, w_to (a_w a) = TOut p) /\ f_out f <> None
       end).

Lemma minv_step o f fs h i a g x out' init' force' cached' fi : minv o f fs h -> nth_error (f_arts f) i = Some a ->
  (f_out f <> None -> out' <> None) ->
  (forall d, w_data (a_w (g a)) = Some d -> exists fm, fi = Some fm /\ (o_direct o = true -> fm = FYenc)) ->
  (w_on (a_w (g a)) = true -> exists v, x = Some v /\ v_done v = false /\ w_ptr (a_w (g a)) = Z.of_nat (length (v_got v)) /\
       match w_data (a_w (g a)) with
       | Some d => Z.of_nat (length d) = w_size (a_w (g a))
       | None => w_to (a_w (g a)) = TTmp \/ (exists p, w_to (a_w (g a)) = TOut p) /\ out' <> None
       end) ->
  minv o (WFile out' init' force' cached' (upd i g (f_arts f))) (set_f i fi fs) (set_h i x h).
Proof.
  intros M N O A1 A2 j b. cbn [f_arts f_out]. rewrite nth_upd. unfold set_f, set_h. destruct (Nat.eqb_spec j i) as [-> | NE].
  - rewrite N. cbn [option_map]. intros E. injection E as <-. auto.
  - intros E. destruct (M j b E) as [B1 B2]. split; [exact B1|]. intros W. destruct (B2 W) as (v & X1 & X2 & X3 & X4). exists v. repeat (split; [assumption|]).
    destruct (w_data (a_w b)); [exact X4|]. destruct X4 as [X4 | [X4 X5]]; [left; exact X4|right]. auto.
Qed.
Lemma minv_ext o f fs h fs' h' : minv o f fs h -> (forall j, fs' j = fs j) -> (forall j, h' j = h j) -> minv o f fs' h'.
Proof. intros M E1 E2 i a N. rewrite E1, E2. apply M, N. Qed.
(** The history of an article that is not written may be changed. *)
Lemma minv_idle o f fs h i x : minv o f fs h -> (forall a, nth_error (f_arts f) i = Some a -> w_on (a_w a) = false) -> minv o f fs (set_h i x h).
Proof.
  intros M W j a N. unfold set_h. destruct (Nat.eqb_spec j i) as [-> | NE]; [|apply M, N]. split; [apply (M i a N)|]. rewrite (W a N). discriminate.
Qed.
Lemma set_f_same i fs : forall j, fs j = set_f i (fs i) fs j.
Proof. intros j. unfold set_f. destruct (Nat.eqb_spec j i) as [-> | _]; reflexivity. Qed.
Lemma set_h_id i h : forall j, h j = set_h i (h i) h j.
Proof. intros j. unfold set_h. destruct (Nat.eqb_spec j i) as [-> | _]; reflexivity. Qed.

Lemma m_start o f fs h i fm fsize off asize alloc : minv o f fs h -> fs i = None \/ fs i = Some fm ->
  minv o (start o i fm fsize off asize alloc f) (set_f i (Some fm) fs) (arrive h (OStart i fm fsize off asize alloc)).
Proof.
  intros M F. unfold start. cbn [arrive]. destruct (nth_error (f_arts f) i) as [a|] eqn:N.
  2:{ intros j b E. unfold set_f, set_h. destruct (Nat.eqb_spec j i) as [-> | NE]; [congruence|]. apply M, E. }
  cbv zeta. remember (if asize =? 0 then a_decl a else asize) as size eqn:SZ. clear SZ.
  remember (is_yenc fm && o_direct o && negb (f_init f)) as create eqn:CE. remember (if create then Some (create_output (f_out f) fsize) else f_out f) as out eqn:OE.
  assert (O : f_out f <> None -> out <> None) by (subst out; destruct create; [discriminate|auto]). clear CE OE.
  remember (if negb (o_direct o) || is_yenc fm then match alloc with Some junk => if 0 <=? size then Some (sized (Z.to_nat size) [] junk) else None | None => None end else w_data (a_w a)) as data eqn:DE.
  assert (K : forall d, data = Some d -> (o_direct o = true -> fm = FYenc) /\ Z.of_nat (length d) = size).
  { intros d E. rewrite E in DE. destruct (negb (o_direct o) || is_yenc fm) eqn:C.
    - split.
      + intros D. rewrite D in C. destruct fm; [reflexivity|discriminate].
      + destruct alloc as [junk|]; [|discriminate]. destruct (Z.leb_spec 0 size); [|discriminate]. injection DE as ->. rewrite sized_length. lia.
    - apply orb_false_iff in C as [C1 C2]. apply negb_false_iff in C1. destruct fm; [discriminate|]. exfalso.
      destruct (proj1 (M i a N) d (eq_sym DE)) as (fm & E1 & E2). specialize (E2 C1). subst fm. destruct F as [F | F]; congruence. }
  clear DE. destruct data as [d|].
  - destruct (K d eq_refl) as [K1 K2]. apply (minv_step o f fs h i a); [exact M|exact N|exact O| |].
    + cbn. intros d0 _. exists fm. auto.
    + cbn. intros _. eexists. split; [reflexivity|]. cbn. auto.
  - destruct ((o_direct o || f_force f) && is_yenc fm).
    + destruct out as [c|].
      * apply (minv_step o f fs h i a); [exact M|exact N|exact O|discriminate|]. cbn. intros _. eexists. split; [reflexivity|]. cbn. repeat (split; [reflexivity|]). right. split; [eexists; reflexivity|discriminate].
      * apply (minv_step o f fs h i a); [exact M|exact N|exact O|discriminate|discriminate].
    + apply (minv_step o f fs h i a); [exact M|exact N|exact O|discriminate|]. cbn. intros _. eexists. split; [reflexivity|]. cbn. auto.
Qed.

Lemma m_write o f fs h i b : minv o f fs h -> exists f', write i b f = Some f' /\ minv o f' fs (arrive h (OWrite i b)).
Proof.
  intros M. unfold write. cbn [arrive]. destruct (nth_error (f_arts f) i) as [a|] eqn:N.
  2:{ exists f. split; [reflexivity|]. destruct (h i) as [v|]; [destruct (v_done v)|]; try exact M. apply minv_idle; [exact M|]. congruence. }
  destruct (w_on (a_w a)) eqn:W; cbn [negb].
  2:{ exists f. split; [reflexivity|]. destruct (h i) as [v|]; [destruct (v_done v)|]; try exact M. apply minv_idle; [exact M|]. congruence. }
  destruct (M i a N) as [M1 M2]. destruct (M2 W) as (v & Hv & Nd & P & T). rewrite Hv, Nd, P.
  assert (Lg : Z.of_nat (length (v_got v)) + Z.of_nat (length b) = Z.of_nat (length (v_got v ++ b))) by (rewrite app_length; lia). rewrite Lg.
  assert (G : forall g out', (f_out f <> None -> out' <> None) -> (forall d, w_data (a_w (g a)) = Some d -> w_data (a_w a) <> None) ->
     w_ptr (a_w (g a)) = Z.of_nat (length (v_got v ++ b)) ->
     match w_data (a_w (g a)) with
       | Some d => Z.of_nat (length d) = w_size (a_w (g a))
       | None => w_to (a_w (g a)) = TTmp \/ (exists p, w_to (a_w (g a)) = TOut p) /\ out' <> None
       end -> minv o (WFile out' (f_init f) (f_force f) (f_cached f) (upd i g (f_arts f))) fs (set_h i (Some (Arrival (v_off v) (v_size v) (v_got v ++ b) false)) h)).
  { intros g out' O D Pg Tg. apply (minv_ext _ _ (set_f i (fs i) fs) (set_h i (Some (Arrival (v_off v) (v_size v) (v_got v ++ b) false)) h)); [|apply set_f_same|reflexivity].
    apply (minv_step o f fs h i a); auto.
    - intros d Ed. destruct (w_data (a_w a)) as [d0|] eqn:E0; [eapply M1; reflexivity|]. exfalso. exact (D d Ed eq_refl).
    - intros _. eexists. split; [reflexivity|]. cbn [v_done v_got]. auto. }
  destruct (w_size (a_w a) <? Z.of_nat (length (v_got v ++ b))) eqn:C.
  - eexists. split; [reflexivity|]. apply G; auto. cbn. intros d ->. discriminate.
  - destruct (w_data (a_w a)) as [d|] eqn:Ed.
    + replace (Z.of_nat (length d) <? Z.of_nat (length (v_got v ++ b))) with false by lia. eexists. split; [reflexivity|]. apply G; auto.
      * cbn. discriminate.
      * cbn. rewrite write_at_length by lia. exact T.
    + destruct T as [-> | [[p ->] T]].
      * eexists. split; [reflexivity|]. apply G; auto; cbn; try discriminate; auto.
      * destruct (f_out f) as [c|]; [|congruence]. eexists. split; [reflexivity|]. apply G; auto; cbn; try discriminate.
        right. split; [eexists; reflexivity|discriminate].
Qed.

Lemma m_finish o f fs h i ok junk : minv o f fs h -> (ok = true -> forall v, h i = Some v -> v_done v = false -> v_got v <> []) ->
  exists f', finish o i ok junk f = Some f' /\ minv o f' fs (arrive h (OFinish i ok junk)).
Proof.
  intros M P. unfold finish. cbn [arrive].
  assert (Idle : (forall a, nth_error (f_arts f) i = Some a -> w_on (a_w a) = false) ->
     minv o f fs (match h i with
                  | Some v => if v_done v then h else if ok then set_h i (Some (Arrival (v_off v) (v_size v) (v_got v) true)) h else set_h i None h
                  | None => h
                  end)).
  { intros W. destruct (h i) as [v|]; [destruct (v_done v)|]; try exact M. destruct ok; apply minv_idle; assumption. }
  destruct (nth_error (f_arts f) i) as [a|] eqn:N; [|exists f; split; [reflexivity|]; apply Idle; congruence].
  destruct (w_on (a_w a)) eqn:W; cbn [negb]; [|exists f; split; [reflexivity|]; apply Idle; congruence].
  destruct (M i a N) as [M1 M2]. destruct (M2 W) as (v & Hv & Nd & Pt & T). rewrite Hv, Nd.
  assert (G : forall g x cached', (forall d, w_data (a_w (g a)) = Some d -> w_data (a_w a) <> None) -> w_on (a_w (g a)) = false ->
     minv o (WFile (f_out f) (f_init f) (f_force f) cached' (upd i g (f_arts f))) fs (set_h i x h)).
  { intros g x c' D Wg. apply (minv_ext _ _ (set_f i (fs i) fs) (set_h i x h)); [|apply set_f_same|reflexivity]. apply (minv_step o f fs h i a); auto.
    - intros d Ed. destruct (w_data (a_w a)) as [d0|] eqn:E0; [eapply M1; reflexivity|]. exfalso. exact (D d Ed eq_refl).
    - rewrite Wg. discriminate. }
  destruct ok; cbn [negb].
  - destruct (w_data (a_w a)) as [d|] eqn:Ed.
    + replace (negb (w_size (a_w a) =? w_ptr (a_w a)) && (w_ptr (a_w a) =? 0)) with false.
      * eexists. split; [reflexivity|]. apply G; cbn; [discriminate|reflexivity].
      * specialize (P eq_refl v Hv Nd). rewrite Pt. destruct (v_got v) as [|z r]; [congruence|]. cbn [length]. symmetry. apply andb_false_iff. right. lia.
    + eexists. split; [reflexivity|]. apply G; destruct ((o_direct o || f_force f) && is_yenc (w_fmt (a_w a))); cbn; reflexivity || discriminate.
  - eexists. split; [reflexivity|]. apply G; cbn; [congruence|reflexivity].
Qed.

Lemma m_flush o f fs h i : minv o f fs h -> minv o (flush o i f) fs h.
Proof.
  intros M. unfold flush. destruct (nth_error (f_arts f) i) as [a|] eqn:N; [|exact M]. destruct (a_seg a) as [d|]; [|exact M].
  destruct (M i a N) as [M1 M2].
  assert (G : forall g out' cached', (f_out f <> None -> out' <> None) -> a_w (g a) = a_w a -> minv o (WFile out' (f_init f) (f_force f) cached' (upd i g (f_arts f))) fs h).
  { intros g out' c' O E. apply (minv_ext _ _ (set_f i (fs i) fs) (set_h i (h i) h)); [|apply set_f_same|apply set_h_id]. apply (minv_step o f fs h i a); auto; rewrite E; [exact M1|].
    intros W. destruct (M2 W) as (v & Hv & Nd & P & T). exists v. repeat (split; [assumption|]). destruct (w_data (a_w a)); [exact T|]. destruct T as [T | [T1 T2]]; auto. }
  destruct (o_direct o && f_init f); apply G; try reflexivity; auto. destruct (f_out f); [discriminate|auto].
Qed.

Lemma m_renew o f fs h i : minv o f fs h -> minv o (renew i f) (set_f i None fs) (arrive h (ONew i)).
Proof.
  intros M. unfold renew, set_arts. cbn [arrive]. destruct (nth_error (f_arts f) i) as [a|] eqn:N.
  - apply (minv_ext _ _ (set_f i None fs) (set_h i (match h i with Some v => if v_done v then Some v else None | None => None end) h)); [|reflexivity|].
    + apply (minv_step o f fs h i a); auto; cbn; discriminate.
    + intros j. destruct (h i) as [v|] eqn:Hv; [destruct (v_done v)|]; try reflexivity; apply set_h_same; exact Hv.
  - rewrite upd_out by exact N. intros j b E. cbn [f_arts] in E. assert (NE : j <> i) by congruence. unfold set_f. replace (j =? i)%nat with false by (symmetry; apply Nat.eqb_neq; exact NE).
    destruct (M j b E) as [B1 B2]. destruct (h i) as [v|]; [destruct (v_done v)|]; auto. unfold set_h. replace (j =? i)%nat with false by (symmetry; apply Nat.eqb_neq; exact NE). auto.
Qed.

Lemma m_run o l : forall f fs h, minv o f fs h -> steady fs h l -> exists f', wrun o f l = Some f'.
Proof.
  induction l as [|x l IH]; intros f fs h M S; [exists f; reflexivity|]. cbn [wrun]. destruct x as [i fm fsize off asize alloc|i b|i ok junk|i|i]; cbn [wstep steady] in *.
  - destruct S as [S1 S2]. eapply IH; [apply m_start; eassumption|exact S2].
  - destruct (m_write o f fs h i b M) as (f' & -> & M'). eapply IH; eassumption.
  - destruct (m_finish o f fs h i ok junk M) as (f' & -> & M').
    + intros ->. apply S.
    + eapply IH; [exact M'|]. destruct ok; [apply S|exact S].
  - eapply IH; [apply m_flush, M|exact S].
  - eapply IH; [apply m_renew, M|exact S].
Qed.
Lemma memory_ok o f h l : (forall a, In a (f_arts f) -> a_w a = writer0) -> steady (fun _ => None) h l -> exists f', wrun o f l = Some f'.
Proof.
  intros B S. eapply m_run; [|exact S]. intros i a N. rewrite (B a (nth_error_In _ _ N)). split; discriminate.
Qed.

(** ** The decoder keeps its format *)
From Verif Require Import DecoderModel.
Lemma yenc_fmt d src : fmt (fst (decode_yenc d src)) = fmt d.
Proof. reflexivity. Qed.
Lemma process_fmt d s : fmt (process_yenc d s) = fmt d.
Proof.
  unfold process_yenc. destruct (prefixb _ s); [reflexivity|]. destruct (prefixb _ s); [reflexivity|]. destruct (prefixb _ s); [|reflexivity].
  match goal with |- context [let '(_, _) := ?e in _] => destruct e end. reflexivity.
Qed.
Lemma ux_fmt d s len : fmt (fst (decode_ux d s len)) = fmt d.
Proof.
  unfold decode_ux. cbv zeta. destruct (negb (mbody d) && prefixb _ s); [reflexivity|].
  match goal with |- context [if ?c then mkDec _ _ _ true _ _ _ _ _ _ _ _ _ _ _ _ _ _ else d] => destruct c end;
  match goal with |- context [if ?c then mkDec _ _ _ _ true _ _ _ _ _ _ _ _ _ _ _ _ _ else ?e] => destruct c end;
  match goal with |- context [if ?c then (_, if _ then _ else _) else _] => destruct c end; reflexivity.
Qed.
Lemma loop_fmt fuel : forall d line n buf segs, fmt d <> efUnknown -> fmt (db_dec (line_loop fuel d line n buf segs)) = fmt d.
Proof.
  induction fuel as [|fuel IH]; intros d line n buf segs F; [reflexivity|]. cbn [line_loop]. destruct (find_nl line) as [[l rest]|].
  - destruct (_ && _); [reflexivity|]. cbv zeta. destruct (fmt d) eqn:E; [congruence| |]; rewrite E.
    + assert (P := process_fmt d (cstr line)). destruct (mbody (process_yenc d (cstr line))).
      * destruct (decode_yenc (process_yenc d (cstr line)) rest) as [d3 out] eqn:Y. assert (Q := yenc_fmt (process_yenc d (cstr line)) rest). rewrite Y in Q. cbn [fst] in Q.
        destruct (mbody d3); [cbn; congruence|]. rewrite IH; congruence.
      * rewrite IH; congruence.
    + destruct (decode_ux d (cstr line) (Z.of_nat (length l))) as [d2 m] eqn:Y. assert (Q := ux_fmt d (cstr line) (Z.of_nat (length l))). rewrite Y in Q. cbn [fst] in Q. rewrite IH; congruence.
  - destruct (cstr line); reflexivity.
Qed.
Lemma buffer_fmt d b : fmt d <> efUnknown -> fmt (db_dec (decode_buffer d b)) = fmt d.
Proof.
  intros F. unfold decode_buffer. destruct (_ && _).
  - destruct (decode_yenc d b) as [d1 out] eqn:Y. assert (Q := yenc_fmt d b). rewrite Y in Q. cbn [fst] in Q. destruct (mbody d1); [exact Q|]. rewrite loop_fmt; congruence.
  - rewrite loop_fmt; [reflexivity|exact F].
Qed.
Lemma download_fmt chunks : forall d, fmt d <> efUnknown -> fmt (fst (fst (fst (download d chunks)))) = fmt d.
Proof.
  induction chunks as [|c cs IH]; intros d F; cbn [download]; destruct (meof d); try reflexivity.
  assert (B := buffer_fmt d c F). assert (X := IH (db_dec (decode_buffer d c))). rewrite B in X. specialize (X F).
  destruct (download (db_dec (decode_buffer d c)) cs) as [[[d' ws] ss] ok]. exact X.
Qed.
