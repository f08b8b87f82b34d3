(** The reading of whole volumes ends. *)
From Coq Require Import String.
From Verif Require Import Base RarModel RarSpec RarProofs RarProofs4 RarProofs5.
Open Scope list_scope. Open Scope Z_scope.

Lemma read3_ends c : bytes_ok c -> zlen c < 2 ^ 62 -> prefixb sig3 c = true -> (forall p, reach3 c p -> p + 7 <= zlen c -> 0 < total3 c p < 2 ^ 62) ->
  read_volume (S (length c)) c <> Endless /\ read_volume (S (length c)) c <> Ub.
Proof.
  intros B C P T. unfold read_volume. apply prefixb_iff in P as [d ->].
  assert (D : detect (sig3 ++ d) = 3 \/ detect (sig3 ++ d) = 0).
  { destruct d as [|x d]; [right; reflexivity|left]. unfold detect. cbn [sig3 app firstn]. change (zlen [82; 97; 114; 33; 26; 7; 0; x] =? 8) with true. cbn. reflexivity. }
  destruct D as [-> | ->].
  - change (3 =? 3) with true. cbn iota. pose proof (blocks3_end _ B C T (S (length (sig3 ++ d))) v_empty 0 (R3_first _) ltac:(lia)) as [X Y]; [unfold zlen; lia|lia|].
    destruct (blocks _ _ _ _ _); split; congruence.
  - split; discriminate.
Qed.
Lemma read5_ends c : bytes_ok c -> zlen c < 2 ^ 62 -> prefixb sig5 c = true -> (forall p data next, reach5 c p -> header5 c p data next -> data < 2 ^ 62) ->
  read_volume (S (length c)) c <> Endless.
Proof.
  intros B C P T. unfold read_volume. apply prefixb_iff in P as [d ->].
  assert (D : detect (sig5 ++ d) = 5 ). { reflexivity. }
  rewrite D. change (5 =? 3) with false. change (5 =? 5) with true. cbn iota.
  pose proof (blocks5_end _ B C T (S (length (sig5 ++ d))) v_empty 8 (R5_first _) ltac:(lia)) as X. specialize (X ltac:(unfold zlen; lia) ltac:(lia)).
  destruct (blocks _ _ _ _ _); congruence.
Qed.
Lemma read_other c f : prefixb sig3 c = false -> prefixb sig5 c = false -> read_volume f c = Fail.
Proof.
  intros H3 H5. unfold read_volume.
  assert (D : detect c = 0).
  { unfold detect. destruct (zlen (firstn 8 c) =? 8); [|reflexivity]. cbn [negb].
    destruct (beqb (firstn 8 c) _) eqn:E5.
    - apply beqb_eq in E5. rewrite <- (firstn_skipn 8 c), E5, prefixb_app in H5. discriminate.
    - destruct (beqb (firstn 7 (firstn 8 c)) _) eqn:E3; [|reflexivity]. apply beqb_eq in E3. rewrite firstn_firstn in E3. change (Nat.min 7 8) with 7%nat in E3.
      rewrite <- (firstn_skipn 7 c), E3, prefixb_app in H3. discriminate. }
  rewrite D. reflexivity.
Qed.
