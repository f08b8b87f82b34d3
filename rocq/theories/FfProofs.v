(** Proofs about the reading of RSS-feeds. *)
From Coq Require Import String.
From Verif Require Import Base NumFmt WildModel WildSpec TextProofs CodecModel CodecProofs CodecProofs2 WebModel WebProofs NzbModel NzbSpec NzbProofs Rfc822Model FfModel FfSpec.
Open Scope list_scope. Open Scope Z_scope.

(** ** Texts *)
Lemma piece_trim c p : (tight p /\ exists b b', c = b ++ p ++ b' /\ Forall blank b /\ Forall blank b') -> WildModel.trim c = p.
Proof.
  intros ((T1 & T2) & b & b' & -> & B1 & B2). apply (trimmed_unique (b ++ p ++ b')); [apply trim_ok|].
  exists b, b'. split; [reflexivity|]. split; [exact B1|]. split; [exact B2|]. split.
  - intros x r Q. exact (T1 r x Q).
  - intros x r Q. exact (T2 r x Q).
Qed.
Lemma pieces_trim cs t : text_pieces cs t -> concat (map WildModel.trim cs) = t.
Proof.
  intros (_ & ps & -> & F). induction F as [|c p cs ps H _ IH]; [reflexivity|]. cbn [map concat]. rewrite (piece_trim c p H), IH. reflexivity.
Qed.
Definition opt_text (t : option (list Z)) (l : list Z) : option (list Z) := match l with [] => t | _ => Some (match t with Some u => u | None => [] end ++ l) end.
Lemma opt_text_app t a b : opt_text (opt_text t a) b = opt_text t (a ++ b).
Proof. destruct a as [|x a]; [reflexivity|]. destruct b as [|y b]; [rewrite app_nil_r; reflexivity|]. cbn [opt_text app]. f_equal. rewrite <- app_assoc. reflexivity. Qed.
Lemma run_texts cs : forall d c t r, ff_run (FS d c t) (map EText cs ++ r) = ff_run (FS d c (opt_text t (concat (map WildModel.trim cs)))) r.
Proof.
  induction cs as [|x cs IH]; intros d c t r; [reflexivity|]. cbn [map app ff_run ff_step concat]. unfold ff_text.
  destruct (WildModel.trim x) as [|y l] eqn:Q; [cbn [app]; apply IH|]. cbn [s_done s_cur]. rewrite IH. unfold content. cbn [s_text].
  rewrite <- (opt_text_app t (y :: l)). reflexivity.
Qed.
Lemma opt_text_content t : opt_text None t = match t with [] => None | _ => Some t end.
Proof. destruct t; reflexivity. Qed.
Lemma content_of d c t : content (FS d c (opt_text None t)) = t.
Proof. destruct t; reflexivity. Qed.

Lemma simple_inv n : In n simple_names -> n = str "title" \/ n = str "link" \/ n = str "category" \/ n = str "description" \/ n = str "pubDate".
Proof. cbn [simple_names map In]. intros [H|[H|[H|[H|[H|[]]]]]]; subst n; tauto. Qed.

(** ** One element *)
Definition elem_step (i : fi) (e : elem) : option fi :=
  match e with
  | Simple n _ _ t =>
    if beqb (str "title") n then match parse_subject t with Some f => Some (set_title t f i) | None => None end
    else if beqb (str "link") n then Some (match f_url i with Some (_ :: _) => i | _ => set_url t i end)
    else if beqb (str "category") n then Some (set_cat t i)
    else if beqb (str "description") n then match description (opt_text None t) with Some d => Some (set_desc d i) | None => None end
    else Some (if 0 <? parse_rfc822 t then set_time (parse_rfc822 t) i else i)
  | Enclosure a _ => enclosure a i
  | Attr _ n v _ _ => Some (attribute n v i)
  | Other _ => Some i
  end.
Lemma simple_start n a d i t : In n simple_names -> ff_start n a (FS d (Some i) t) = Some (FS d (Some i) None).
Proof. intros H. destruct (simple_inv n H) as [->|[->|[->|[->| ->]]]]; reflexivity. Qed.
Lemma unknown n m : ~ In n names -> In m names -> beqb m n = false.
Proof. intros H1 H2. destruct (beqb m n) eqn:Q; [|reflexivity]. apply beqb_eq in Q. subst. contradiction. Qed.
Ltac inn := cbn [names simple_names map In app]; tauto.
Lemma other_run e d c t : other_ev e -> exists t', ff_step (FS d c t) e = Some (FS d c t').
Proof.
  destruct e as [n a|n|x]; cbn [other_ev]; intros H.
  - exists None. cbn [ff_step]. unfold ff_start. rewrite (unknown n (str "item") H) by inn. cbn [s_cur s_done]. destruct c as [i|]; [|reflexivity].
    rewrite (unknown n (str "enclosure") H), (unknown n (str "newznab:attr") H), (unknown n (str "nZEDb:attr") H) by inn. reflexivity.
  - exists t. cbn [ff_step]. unfold ff_end. cbn [s_cur]. destruct c as [i|]; [|reflexivity].
    rewrite (unknown n (str "title") H), (unknown n (str "link") H), (unknown n (str "category") H), (unknown n (str "description") H), (unknown n (str "pubDate") H) by inn. reflexivity.
  - cbn [ff_step]. unfold ff_text. destruct (WildModel.trim x); eexists; reflexivity.
Qed.
Lemma others_run es : Forall other_ev es -> forall d c t r, exists t', ff_run (FS d c t) (es ++ r) = ff_run (FS d c t') r.
Proof.
  induction 1 as [|e es O _ IH]; intros d c t r; [exists t; reflexivity|]. cbn [app ff_run]. destruct (other_run e d c t O) as (t1 & ->). apply IH.
Qed.
Lemma elem_run e d i t r : elem_ok e -> exists t', ff_run (FS d (Some i) t) (elem_evs e ++ r) = match elem_step i e with Some j => ff_run (FS d (Some j) t') r | None => None end.
Proof.
  destruct e as [n a cs x|a cs|name n v more cs|e]; cbn [elem_ok elem_evs elem_step].
  - intros (N & P & _). cbn [app ff_run ff_step]. rewrite (simple_start n a d i t N). rewrite <- app_assoc, run_texts, (pieces_trim cs x P). cbn [app ff_run ff_step].
    unfold ff_end. cbn [s_cur s_done s_text]. rewrite content_of.
    destruct (simple_inv n N) as [->|[->|[->|[->| ->]]]].
    + exists None. change (beqb (str "title") (str "title")) with true. cbv iota. destruct (parse_subject x); reflexivity.
    + change (beqb (str "title") (str "link")) with false. change (beqb (str "link") (str "link")) with true. cbv iota.
      destruct (f_url i) as [[|y u]|]; eexists; reflexivity.
    + exists None. reflexivity.
    + exists None. change (beqb (str "title") (str "description")) with false. change (beqb (str "link") (str "description")) with false.
      change (beqb (str "category") (str "description")) with false. change (beqb (str "description") (str "description")) with true. cbv iota.
      destruct (description _); reflexivity.
    + exists None. reflexivity.
  - intros _. cbn [app ff_run ff_step]. unfold ff_start. change (beqb (str "item") (str "enclosure")) with false. cbn [s_cur].
    change (beqb (str "enclosure") (str "enclosure")) with true. cbv iota. cbn [s_done]. destruct (enclosure a i) as [j|]; [|exists None; reflexivity].
    rewrite <- app_assoc, run_texts. cbn [app ff_run ff_step]. unfold ff_end. cbn [s_cur]. eexists. reflexivity.
  - intros N. cbn [app ff_run ff_step]. unfold ff_start. cbn [s_cur s_done].
    assert (X1 : beqb (str "item") name = false) by (destruct N as [->| ->]; reflexivity). rewrite X1.
    assert (X2 : beqb (str "enclosure") name = false) by (destruct N as [->| ->]; reflexivity). rewrite X2.
    assert (X3 : beqb (str "newznab:attr") name || beqb (str "nZEDb:attr") name = true) by (destruct N as [->| ->]; reflexivity). rewrite X3.
    change (beqb (str "name") (str "name") && beqb (str "value") (str "value")) with true. cbv iota.
    rewrite <- app_assoc, run_texts. cbn [app ff_run ff_step].
    destruct N as [->| ->]; eexists; reflexivity.
  - intros O. cbn [app ff_run]. destruct (other_run e d (Some i) t O) as (t' & ->). exists t'. reflexivity.
Qed.
Fixpoint elems_step (i : fi) (es : list elem) : option fi := match es with [] => Some i | e :: r => match elem_step i e with Some j => elems_step j r | None => None end end.
Lemma elems_run es : Forall elem_ok es -> forall d i t r, exists t', ff_run (FS d (Some i) t) (flat_map elem_evs es ++ r) = match elems_step i es with Some j => ff_run (FS d (Some j) t') r | None => None end.
Proof.
  induction 1 as [|e es O _ IH]; intros d i t r; [exists t; reflexivity|]. cbn [flat_map elems_step]. rewrite <- app_assoc.
  destruct (elem_run e d i t (flat_map elem_evs es ++ r) O) as (t1 & ->). destruct (elem_step i e) as [j|]; [apply IH|exists None; reflexivity].
Qed.
