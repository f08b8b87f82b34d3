(** Common definitions: bytes, C strings, arithmetic set-up. *)
From Coq Require Import Ascii String.
From Coq Require Export ZArith List Bool Lia.
From Coq Require Export ZifyBool ZifyNat.
Export ListNotations.
Open Scope Z_scope.

Ltac Zify.zify_post_hook ::= Z.div_mod_to_equations.

(** A byte is an integer in 0..255 (C [unsigned char]). *)
Definition is_byte (b : Z) : Prop := 0 <= b < 256.
Definition is_byteb (b : Z) : bool := (0 <=? b) && (b <? 256).
Definition bytes_ok (l : list Z) : Prop := Forall is_byte l.

(** [str "abc"] : the bytes of a literal (without terminator). *)
Fixpoint str (s : string) : list Z :=
  match s with
  | EmptyString => []
  | String a r => Z.of_nat (nat_of_ascii a) :: str r
  end.

Arguments str s%string_scope.

(** Byte list equality. *)
Fixpoint beqb (a b : list Z) : bool :=
  match a, b with
  | [], [] => true
  | x :: a', y :: b' => (x =? y) && beqb a' b'
  | _, _ => false
  end.

Lemma beqb_eq a b : beqb a b = true <-> a = b.
Proof.
  revert b; induction a as [|x a IH]; intros [|y b]; simpl; try (split; congruence).
  rewrite andb_true_iff, IH, Z.eqb_eq. split; [intros [-> ->]; reflexivity | intros H; inversion H; auto].
Qed.

Lemma beqb_refl a : beqb a a = true.
Proof. apply beqb_eq; reflexivity. Qed.

Lemma beqb_neq a b : beqb a b = false <-> a <> b.
Proof.
  split.
  - intros H E. apply beqb_eq in E. congruence.
  - intros H. destruct (beqb a b) eqn:E; [apply beqb_eq in E; contradiction | reflexivity].
Qed.

(** [prefixb p s] : C [!strncmp(s, p, strlen(p))] for NUL-free [p]. *)
Fixpoint prefixb (p s : list Z) : bool :=
  match p, s with
  | [], _ => true
  | x :: p', y :: s' => (x =? y) && prefixb p' s'
  | _ :: _, [] => false
  end.

Lemma prefixb_app p s : prefixb p (p ++ s) = true.
Proof. induction p as [|x p IH]; simpl; [reflexivity|]. rewrite Z.eqb_refl; exact IH. Qed.

Lemma prefixb_iff p s : prefixb p s = true <-> exists t, s = p ++ t.
Proof.
  split.
  - revert s; induction p as [|x p IH]; intros s H; [exists s; reflexivity|].
    destruct s as [|y s]; simpl in H; [discriminate|].
    apply andb_true_iff in H as [E H]. apply Z.eqb_eq in E as ->.
    destruct (IH _ H) as [t ->]. exists t; reflexivity.
  - intros [t ->]; apply prefixb_app.
Qed.

(** C [strstr]: suffix of [s] starting at the first occurrence of [p]. *)
Fixpoint strstr (s p : list Z) : option (list Z) :=
  if prefixb p s then Some s
  else match s with [] => None | _ :: s' => strstr s' p end.

Lemma is_byteb_iff b : is_byteb b = true <-> is_byte b.
Proof. unfold is_byteb, is_byte; lia. Qed.

(** All bytes, for finite sweeps. *)
Definition all_bytes : list Z := map Z.of_nat (seq 0 256).

Lemma in_all_bytes b : is_byte b -> In b all_bytes.
Proof.
  intros H. unfold all_bytes. apply in_map_iff. exists (Z.to_nat b). split.
  - unfold is_byte in H; lia.
  - apply in_seq. unfold is_byte in H; lia.
Qed.

Lemma byte_sweep (P : Z -> bool) :
  forallb P all_bytes = true -> forall b, is_byte b -> P b = true.
Proof. intros H b Hb. rewrite forallb_forall in H. apply H, in_all_bytes, Hb. Qed.
