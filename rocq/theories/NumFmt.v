(** Decimal and hexadecimal text, as printed by printf ("%i", "%lli", "%08x")
    and read by atoi/atoll/strtol/strtoul of the C library. *)
From Verif Require Import Base.

Definition is_digit (c : Z) : bool := (48 <=? c) && (c <=? 57).

(** C [isspace] in the "C" locale. *)
Definition is_space (c : Z) : bool := (c =? 32) || ((9 <=? c) && (c <=? 13)).

(** Digits of a non-negative number, most significant first. *)
Fixpoint udec_go (fuel : nat) (n : Z) (acc : list Z) : list Z :=
  match fuel with
  | O => acc
  | S f => let acc' := (48 + n mod 10) :: acc in
           if n <? 10 then acc' else udec_go f (n / 10) acc'
  end.

Definition udec (n : Z) : list Z := udec_go (S (Z.to_nat (Z.log2 n))) n [].

(** printf "%i" / "%lli". *)
Definition zdec (n : Z) : list Z := if n <? 0 then 45 :: udec (- n) else udec n.

(** Reading digits. *)
Fixpoint pdigits (acc : Z) (l : list Z) : Z :=
  match l with
  | c :: t => if is_digit c then pdigits (acc * 10 + (c - 48)) t else acc
  | [] => acc
  end.

Fixpoint skip_space (l : list Z) : list Z :=
  match l with
  | c :: t => if is_space c then skip_space t else l
  | [] => []
  end.

(** [atoi]/[atoll]: white space, optional sign, digits. Overflow (undefined in
    C) is not modelled: the value is the mathematical integer. *)
Definition atoll (l : list Z) : Z :=
  match skip_space l with
  | c :: t => if c =? 45 then - pdigits 0 t
              else if c =? 43 then pdigits 0 t
              else pdigits 0 (c :: t)
  | [] => 0
  end.

Definition hexval (c : Z) : option Z :=
  if is_digit c then Some (c - 48)
  else if (97 <=? c) && (c <=? 102) then Some (c - 87)
  else if (65 <=? c) && (c <=? 70) then Some (c - 55)
  else None.

Fixpoint phex (acc : Z) (l : list Z) : Z :=
  match l with
  | c :: t => match hexval c with Some v => phex (acc * 16 + v) t | None => acc end
  | [] => acc
  end.

(** [strtoul(s, nullptr, 16)] on a 64-bit [unsigned long]: white space, sign,
    optional "0x", hexadecimal digits; too large values saturate. *)
Definition strtoul16 (l : list Z) : Z :=
  let s := skip_space l in
  let '(neg, s1) := match s with
                    | c :: t => if c =? 45 then (true, t)
                                else if c =? 43 then (false, t) else (false, s)
                    | [] => (false, s) end in
  let s2 := match s1 with
            | z :: x :: c :: t =>
              if (z =? 48) && ((x =? 120) || (x =? 88)) && match hexval c with Some _ => true | None => false end
              then c :: t else s1
            | _ => s1 end in
  let v := Z.min (phex 0 s2) (2 ^ 64 - 1) in
  if neg then (- v) mod 2 ^ 64 else v.

(** printf "%08x" of a 32-bit value. *)
Definition hexdigit (v : Z) : Z := if v <? 10 then 48 + v else 87 + v.
Definition hex8 (n : Z) : list Z :=
  [ hexdigit (n / 2^28 mod 16); hexdigit (n / 2^24 mod 16); hexdigit (n / 2^20 mod 16);
    hexdigit (n / 2^16 mod 16); hexdigit (n / 2^12 mod 16); hexdigit (n / 2^8 mod 16);
    hexdigit (n / 2^4 mod 16); hexdigit (n mod 16) ].

(** ** Facts *)

Lemma udec_go_app f n acc : udec_go f n acc = udec_go f n [] ++ acc.
Proof.
  revert n acc; induction f as [|f IH]; intros n acc; [reflexivity|].
  cbn [udec_go]. destruct (n <? 10); [reflexivity|].
  rewrite IH, (IH (n / 10) [_]). rewrite <- app_assoc. reflexivity.
Qed.

Lemma pdigits_go f n : 0 <= n < 2 ^ Z.of_nat f -> forall a r, exists k,
  pdigits a (udec_go f n [] ++ r) = pdigits (a * 10 ^ Z.of_nat k + n) r /\ k = length (udec_go f n []).
Proof.
  revert n; induction f as [|f IH]; intros n Hn a r.
  { simpl in Hn. exists 0%nat. simpl. replace (a * 1 + n) with a by lia. auto. }
  cbn [udec_go].
  assert (Hd : is_digit (48 + n mod 10) = true) by (unfold is_digit; lia).
  destruct (n <? 10) eqn:E.
  - exists 1%nat. cbn [app pdigits]. rewrite Hd. split; [|reflexivity].
    f_equal. change (10 ^ Z.of_nat 1) with 10. lia.
  - rewrite udec_go_app.
    assert (Hn' : 0 <= n / 10 < 2 ^ Z.of_nat f).
    { replace (Z.of_nat (S f)) with (Z.of_nat f + 1) in Hn by lia.
      rewrite Z.pow_add_r in Hn by lia. change (2 ^ 1) with 2 in Hn. lia. }
    destruct (IH (n / 10) Hn' a ((48 + n mod 10) :: r)) as (k & Hk & Hlen).
    exists (S k). split.
    + rewrite <- app_assoc. cbn [app]. rewrite Hk. cbn [pdigits]. rewrite Hd. f_equal.
      replace (Z.of_nat (S k)) with (Z.of_nat k + 1) by lia. rewrite Z.pow_add_r by lia.
      change (10 ^ 1) with 10. lia.
    + rewrite app_length. simpl. lia.
Qed.

Lemma udec_fuel n : 0 <= n -> n < 2 ^ Z.of_nat (S (Z.to_nat (Z.log2 n))).
Proof.
  intros H. rewrite Nat2Z.inj_succ, Z2Nat.id by apply Z.log2_nonneg.
  destruct (Z.eq_dec n 0) as [->|Hn]; [simpl; lia|].
  apply Z.log2_spec. lia.
Qed.

Definition nondigit_head (r : list Z) : Prop :=
  match r with [] => True | c :: _ => is_digit c = false end.

Lemma pdigits_stop a r : nondigit_head r -> pdigits a r = a.
Proof. destruct r as [|c r]; simpl; [reflexivity|]. intros ->; reflexivity. Qed.

Lemma pdigits_udec n r : 0 <= n -> nondigit_head r -> pdigits 0 (udec n ++ r) = n.
Proof.
  intros Hn Hr. unfold udec.
  destruct (pdigits_go _ n (conj Hn (udec_fuel n Hn)) 0 r) as (k & Hk & _).
  rewrite Hk, pdigits_stop by assumption. lia.
Qed.

Lemma udec_go_digits f n acc : 0 <= n -> Forall (fun c => is_digit c = true) acc ->
  Forall (fun c => is_digit c = true) (udec_go f n acc).
Proof.
  revert n acc; induction f as [|f IH]; intros n acc Hn Ha; [exact Ha|].
  cbn [udec_go].
  assert (Hc : Forall (fun c => is_digit c = true) ((48 + n mod 10) :: acc)).
  { constructor; [unfold is_digit; lia | exact Ha]. }
  destruct (n <? 10); [exact Hc|]. apply IH; [lia | exact Hc].
Qed.

Lemma udec_digits n : 0 <= n -> Forall (fun c => is_digit c = true) (udec n).
Proof. intros H. apply udec_go_digits; [exact H | constructor]. Qed.

Lemma udec_go_nonempty f n acc : acc <> [] \/ f <> O -> udec_go f n acc <> [].
Proof.
  revert n acc; induction f as [|f IH]; intros n acc H.
  - destruct H as [H|H]; [exact H | congruence].
  - cbn [udec_go]. destruct (n <? 10); [discriminate|]. apply IH. left; discriminate.
Qed.

Lemma udec_cons n : 0 <= n -> exists c t, udec n = c :: t /\ is_digit c = true.
Proof.
  intros H. destruct (udec n) as [|c t] eqn:E.
  - exfalso. revert E. apply udec_go_nonempty. right; discriminate.
  - exists c, t. split; [reflexivity|]. assert (Hd := udec_digits n H). rewrite E in Hd.
    inversion Hd; assumption.
Qed.

Lemma skip_space_digit c t : is_digit c = true -> skip_space (c :: t) = c :: t.
Proof.
  intros H. cbn [skip_space]. replace (is_space c) with false; [reflexivity|].
  unfold is_digit in H. unfold is_space. lia.
Qed.

Lemma atoll_digit c t : is_digit c = true -> atoll (c :: t) = pdigits 0 (c :: t).
Proof.
  intros H. unfold atoll. rewrite skip_space_digit by assumption.
  unfold is_digit in H.
  replace (c =? 45) with false by lia. replace (c =? 43) with false by lia. reflexivity.
Qed.

Lemma atoll_zdec n r : nondigit_head r -> atoll (zdec n ++ r) = n.
Proof.
  intros Hr. unfold zdec. destruct (n <? 0) eqn:E.
  - rewrite <- app_comm_cons. 
    change (atoll (45 :: (udec (- n) ++ r))) with (- pdigits 0 (udec (- n) ++ r)).
    rewrite pdigits_udec by (lia || assumption). lia.
  - destruct (udec_cons n ltac:(lia)) as (c & t & Ec & Hc).
    rewrite Ec, <- app_comm_cons, atoll_digit, app_comm_cons, <- Ec by assumption.
    apply pdigits_udec; [lia | assumption].
Qed.

Lemma hexval_hexdigit v : 0 <= v < 16 -> hexval (hexdigit v) = Some v.
Proof.
  intros H. unfold hexval, hexdigit, is_digit.
  destruct (v <? 10) eqn:E.
  - replace ((48 <=? 48 + v) && (48 + v <=? 57)) with true by lia. f_equal; lia.
  - replace ((48 <=? 87 + v) && (87 + v <=? 57)) with false by lia.
    replace ((97 <=? 87 + v) && (87 + v <=? 102)) with true by lia. f_equal; lia.
Qed.

Definition nonhex_head (r : list Z) : Prop :=
  match r with [] => True | c :: _ => hexval c = None end.

Lemma phex_stop a r : nonhex_head r -> phex a r = a.
Proof. destruct r as [|c r]; simpl; [reflexivity|]. intros ->; reflexivity. Qed.

Lemma phex_hex8 n r : 0 <= n < 2 ^ 32 -> nonhex_head r -> phex 0 (hex8 n ++ r) = n.
Proof.
  intros Hn Hr. unfold hex8. cbn [app phex].
  rewrite !hexval_hexdigit by (apply Z.mod_pos_bound; lia).
  rewrite phex_stop by assumption.
  change (2 ^ 32) with 4294967296 in Hn.
  change (2^28) with 268435456. change (2^24) with 16777216. change (2^20) with 1048576.
  change (2^16) with 65536. change (2^12) with 4096. change (2^8) with 256. change (2^4) with 16.
  lia.
Qed.
