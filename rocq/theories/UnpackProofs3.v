(** The file with passwords; joining of split files. *)
From Coq Require Import String.
From Verif Require Import Base NumFmt LineModel UnpackModel UnpackSpec UnpackProofs UnpackProofs2.
Open Scope list_scope. Open Scope Z_scope.

(** ** Passwords *)

Lemma take_lf r : forall l n, Forall (fun c => c <> 10) l -> (length l < n)%nat -> take_line n (l ++ 10 :: r) = (l ++ [10], r).
Proof.
  induction l as [|c l IH]; intros n H L; (destruct n; [cbn in L; lia|]).
  - reflexivity.
  - inversion H; subst. cbn [app take_line]. replace (c =? 10) with false by lia. rewrite IH; [reflexivity|assumption|cbn in L; lia].
Qed.
Lemma take_end : forall l n, Forall (fun c => c <> 10) l -> (length l <= n)%nat -> take_line n l = (l, []).
Proof.
  induction l as [|c l IH]; intros n H L; [destruct n; reflexivity|]. destruct n; [cbn in L; lia|].
  inversion H; subst. cbn [take_line]. replace (c =? 10) with false by lia. rewrite IH; [reflexivity|assumption|cbn in L; lia].
Qed.
Lemma cstr_id l : Forall (fun c => c <> 0) l -> cstr l = l.
Proof. induction 1 as [|c l H _ IH]; [reflexivity|]. cbn [cstr]. replace (c =? 0) with false by lia. now rewrite IH. Qed.

Lemma trim_ok p e : (forall a, p <> a ++ [13]) -> Forall (fun c => c <> 10) p -> Forall (fun c => c = 10 \/ c = 13) e -> trim_crlf (p ++ e) = p.
Proof.
  intros N P. induction e as [|c e IH] using rev_ind; intros H.
  - rewrite app_nil_r. unfold trim_crlf. destruct p as [|x p _] using rev_ind; [reflexivity|].
    rewrite rev_app_distr. cbn [rev app]. apply Forall_app in P as [_ P]. inversion P; subst.
    assert (x <> 13) by (intros ->; exact (N p eq_refl)).
    replace ((x =? 10) || (x =? 13)) with false by lia. cbn [rev]. now rewrite rev_involutive.
  - apply Forall_app in H as [He Hc]. inversion Hc; subst. rewrite app_assoc. unfold trim_crlf. rewrite rev_app_distr. cbn [rev app].
    replace ((c =? 10) || (c =? 13)) with true by (destruct H1; subst; reflexivity). exact (IH He).
Qed.

Lemma line_facts l : pass_ok l -> Forall (fun c => c <> 10) (pass_line l) /\ Forall (fun c => c <> 0) (pass_line l) /\
  Forall (fun c => c = 10 \/ c = 13) (repeat 13 (snd l)) /\ Forall (fun c => c <> 10) (fst l).
Proof.
  intros (A & _). assert (R : Forall (fun c => c = 13) (repeat 13 (snd l))).
  { apply Forall_forall. intros x I. exact (repeat_spec _ _ _ I). }
  unfold pass_line. repeat split; try apply Forall_app; try split.
  all: try (eapply Forall_impl; [|exact A]; cbv beta; tauto).
  all: eapply Forall_impl; [|exact R]; cbv beta; intros a ->; auto; discriminate.
Qed.

Lemma pass_lines_ok : forall ls fuel rest out, Forall pass_ok ls -> (length (pass_file ls) + length rest <= fuel)%nat ->
  (forall k, (length rest <= k)%nat -> pass_lines k rest = out) -> pass_lines fuel (pass_file ls ++ rest) = map fst ls ++ out.
Proof.
  induction ls as [|l ls IH]; intros fuel rest out H L R.
  - cbn [pass_file flat_map app map]. apply R. cbn in L. lia.
  - inversion H; subst. destruct (line_facts l H2) as (A & B & C & D). pose proof H2 as (_ & E & F).
    unfold pass_file in *. cbn [flat_map] in *. rewrite !app_length in L. cbn [length] in L.
    destruct fuel as [|fuel]; [lia|]. cbn [pass_lines]. rewrite <- !app_assoc. cbn [app].
    unfold fgets. destruct (pass_line l ++ 10 :: flat_map (fun l0 => pass_line l0 ++ [10]) ls ++ rest) as [|x y] eqn:X.
    { destruct (pass_line l); discriminate. }
    rewrite <- X, take_lf; [|exact A|cbn; lia]. cbn [map app]. f_equal.
    + rewrite cstr_id. 2:{ apply Forall_app. split; [exact B|]. repeat constructor. discriminate. }
      unfold pass_line. rewrite <- app_assoc. apply trim_ok; [exact E|exact D|]. apply Forall_app. split; [exact C|]. repeat constructor.
    + apply IH; [assumption|lia|exact R].
Qed.

Lemma pass_lines_nil k : pass_lines k [] = [].
Proof. destruct k; reflexivity. Qed.

Lemma words_ok ls : Forall pass_ok ls -> filter nonempty (pass_lines (length (pass_file ls)) (pass_file ls)) = pass_words ls.
Proof.
  intros H. rewrite <- (app_nil_r (pass_file ls)) at 2. rewrite (pass_lines_ok ls _ [] []).
  - now rewrite app_nil_r.
  - exact H.
  - cbn. lia.
  - intros k _. apply pass_lines_nil.
Qed.
(** The last line need not end with a line feed. *)
Lemma words_last_ok ls l : Forall pass_ok ls -> pass_ok l ->
  filter nonempty (pass_lines (length (pass_file ls ++ pass_line l)) (pass_file ls ++ pass_line l)) = pass_words (ls ++ [l]).
Proof.
  intros H K. destruct (line_facts l K) as (A & B & C & D). pose proof K as (_ & E & F).
  destruct (pass_line l) as [|x y] eqn:PL.
  - assert (fst l = []). { unfold pass_line in PL. destruct (fst l); [reflexivity|discriminate]. }
    rewrite app_nil_r, words_ok by exact H. unfold pass_words. rewrite map_app, filter_app. cbn. rewrite H0. cbn. now rewrite app_nil_r.
  - rewrite (pass_lines_ok ls _ (x :: y) [fst l]).
    + unfold pass_words. now rewrite map_app.
    + exact H.
    + rewrite app_length. lia.
    + intros k L. destruct k as [|k]; [cbn in L; lia|]. cbn [pass_lines]. unfold fgets. rewrite take_end; [|exact A|cbn [length] in F |- *; lia].
      rewrite cstr_id by exact B. rewrite pass_lines_nil. f_equal. rewrite <- PL. unfold pass_line. apply trim_ok; assumption.
Qed.
