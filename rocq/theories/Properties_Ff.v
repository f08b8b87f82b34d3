(** Properties of the reading of RSS-feeds. *)
From Coq Require Import String.
From Verif Require Import Base NumFmt WildSpec WebModel NzbModel NzbSpec Rfc822Model FfModel FfSpec FfProofs FfProofs2 FfProofs3.
Open Scope list_scope. Open Scope Z_scope.

(** ** C174: the items of a feed *)
(** Every item of the feed, in the order of the feed, has the values its elements say, in whatever order they stand, and no others; what stands before the first item does not matter. *)
Theorem C174_items : forall h l, Forall no_item h -> Forall entry_ok l ->
  exists rs, parse_feed (h ++ flat_map entry_evs l) = Some rs /\ Forall2 (fun x r => item_is (e_elems x) r) l rs.
Proof. exact feed_items. Qed.
Print Assumptions C174_items.

(** For any sequence of calls the parser may make. *)
Theorem C174_count : forall l rs, parse_feed l = Some rs -> length rs = items_in l.
Proof. exact feed_count. Qed.
Print Assumptions C174_count.

(** The parser gives "Tom &amp; Jerry" in three pieces; the blanks at the pieces' ends are lost. *)
Theorem C174_blanks_refuted : exists a cs r, parse_feed (EStart (str "item") None :: elem_evs (Simple (str "title") a cs (str "Tom & Jerry")) ++ [EEnd (str "item")]) = Some [r] /\
  concat cs = str "Tom & Jerry" /\ f_title r = Some (str "Tom&Jerry").
Proof. exists None, [str "Tom "; str "&"; str " Jerry"]. eexists. split; [|split]; vm_compute; reflexivity. Qed.
Print Assumptions C174_blanks_refuted.

(** A title behind the last item, like that of the image of the channel, becomes the title of this item. *)
Theorem C174_behind_refuted : exists x t r, entry_ok x /\ texts (str "title") (e_elems x) = [str "Show"] /\
  parse_feed (entry_evs x ++ EStart (str "image") None :: elem_evs (Simple (str "title") None [t] t) ++ [EEnd (str "image")]) = Some [r] /\ f_title r = Some t /\ t <> str "Show".
Proof.
  exists (Entry None [Simple (str "title") None [str "Show"] (str "Show")] []), (str "My indexer"). eexists. split; [|split; [reflexivity|split; [vm_compute; reflexivity|split; [reflexivity|discriminate]]]].
  split; [|constructor]. constructor; [|constructor]. split; [left; reflexivity|]. split; [|split].
  - split; [exists [], []; split; [reflexivity|split; constructor]|]. exists [str "Show"]. split; [reflexivity|]. constructor; [|constructor]. split.
    + split; intros r c Q; [injection Q as <- _|apply (f_equal (@rev Z)) in Q; rewrite rev_app_distr in Q; injection Q as <- _]; unfold blank; vm_compute; intuition discriminate.
    + exists [], []. split; [reflexivity|split; constructor].
  - intros _ a r Q N. exfalso. assert (I : In 34 (str "Show")) by (rewrite Q; apply in_or_app; right; left; reflexivity). vm_compute in I. intuition discriminate.
  - discriminate.
Qed.
Print Assumptions C174_behind_refuted.

(** An empty description, an enclosure without attributes: a null pointer is used. *)
Theorem C174_null_refuted : exists e1 e2, e1 = Simple (str "description") None [] [] /\ e2 = [EStart (str "enclosure") None; EEnd (str "enclosure")] /\
  parse_feed (EStart (str "item") None :: elem_evs e1 ++ [EEnd (str "item")]) = None /\ parse_feed (EStart (str "item") None :: e2 ++ [EEnd (str "item")]) = None.
Proof. eexists _, _. split; [reflexivity|]. split; [reflexivity|]. split; vm_compute; reflexivity. Qed.
Print Assumptions C174_null_refuted.

(** A description ending with an ampersand and a word: memory behind it is read. *)
Theorem C174_ampersand_refuted : exists cs t, concat cs = t /\ t = str "by AT&T" /\
  parse_feed (EStart (str "item") None :: elem_evs (Simple (str "description") None cs t) ++ [EEnd (str "item")]) = None.
Proof. eexists [str "by AT&T"], _. split; [reflexivity|]. split; vm_compute; reflexivity. Qed.
Print Assumptions C174_ampersand_refuted.

(** An enclosure of length 0 behind the size removes it; an attribute whose value stands before its name is ignored. *)
Theorem C174_size_refuted : exists a1 a2 r1 r2, a1 = Attr (str "newznab:attr") (str "size") (str "1000") [] [] /\ a2 = EStart (str "newznab:attr") (Some [(str "value", str "1000"); (str "name", str "size")]) /\
  parse_feed (EStart (str "item") None :: elem_evs a1 ++ elem_evs (Enclosure [(str "length", str "0")] [])) = Some [r1] /\ f_size r1 = 0 /\
  parse_feed [EStart (str "item") None; a2] = Some [r2] /\ f_size r2 = 0 /\ f_attrs r2 = [].
Proof. eexists _, _, _, _. split; [reflexivity|]. split; [reflexivity|]. split; [vm_compute; reflexivity|]. split; [reflexivity|]. split; [vm_compute; reflexivity|]. split; reflexivity. Qed.
Print Assumptions C174_size_refuted.

Definition tx (s : string) : list (list Z) := [str s].
Definition C174_feed : entry := Entry None
  [Other (EText [10; 32]); Simple (str "title") None (tx " A show ""a.b.S01E02.par2"" ") (str "A show ""a.b.S01E02.par2""");
   Attr (str "newznab:attr") (str "size") (str "77") [] []; Simple (str "link") None (tx "http://x/1") (str "http://x/1");
   Enclosure [(str "url", str "http://x/get?i=1&r=2"); (str "length", str "4096"); (str "type", str "application/x-nzb")] [];
   Attr (str "newznab:attr") (str "season") (str "S01") [] []; Other (EStart (str "guid") None); Other (EText (str "abc")); Other (EEnd (str "guid"));
   Simple (str "description") None (tx "<b>Good</b>") (str "<b>Good</b>"); Simple (str "category") None (tx "TV > HD") (str "TV > HD")] [EText [10]].
Ltac piece := split; [split; intros r0 c0 Q; [first [discriminate|injection Q as <- _]|apply (f_equal (@rev Z)) in Q; rewrite rev_app_distr in Q; first [discriminate|injection Q as <- _]]; unfold blank; vm_compute; intuition discriminate|].
Ltac other_names := vm_compute; intuition discriminate.
Lemma title_one (a b c : list Z) : ~ In 34 a -> b <> [] -> (forall r, b <> 34 :: r) -> title_ok (a ++ 34 :: b).
Proof.
  intros N B1 B2 a' r Q N'. assert (a = a' /\ b = r) as (-> & ->); [|split; [exact B1|exact B2]].
  revert a' Q N'. induction a as [|x a IH]; intros [|y a'] Q N'; cbn [app] in Q; pose proof (f_equal (hd 0) Q) as Q1; pose proof (f_equal (@tl Z) Q) as Q2; cbn [hd tl] in Q1, Q2.
  - split; [reflexivity|exact Q2].
  - exfalso. apply N'. left. symmetry. exact Q1.
  - exfalso. apply N. left. exact Q1.
  - destruct (IH (fun H => N (or_intror H)) a' Q2 (fun H => N' (or_intror H))) as (-> & ->). subst. split; reflexivity.
Qed.
Example C174_ex : Forall entry_ok [C174_feed] /\
  exists r, parse_feed (EStart (str "title") None :: EText (str "Channel") :: EEnd (str "title") :: flat_map entry_evs [C174_feed]) = Some [r] /\
    f_title r = Some (str "A show ""a.b.S01E02.par2""") /\ f_file r = Some (str "a.b.S01E02") /\ f_url r = Some (str "http://x/get?i=1&r=2") /\ f_size r = 4096 /\
    f_season r = Some (str "S01") /\ f_seasonnum r = 1 /\ f_desc r = str "   Good    " /\ f_cat r = str "TV > HD" /\ f_attrs r = [(str "size", str "77"); (str "season", str "S01")].
Proof.
  split.
  - constructor; [|constructor]. split; [|constructor; [exact Logic.I|constructor]]. unfold C174_feed. cbn [e_elems].
    constructor; [exact Logic.I|].
    constructor. { split; [left; reflexivity|]. split; [|split; [|discriminate]].
      - split; [exists [32], [32]; split; [reflexivity|]; split; (constructor; [unfold blank; lia|constructor])|]. eexists [_]. split; [symmetry; apply app_nil_r|]. constructor; [|constructor].
        piece. exists [32], [32]. split; [reflexivity|]. split; (constructor; [unfold blank; lia|constructor]).
      - intros _. apply (title_one (str "A show ") (str "a.b.S01E02.par2""") []); [other_names|discriminate|intros r Q; vm_compute in Q; injection Q; discriminate]. }
    constructor; [left; reflexivity|].
    constructor. { split; [right; left; reflexivity|]. split; [|split; discriminate].
      split; [exists [], []; split; [reflexivity|split; constructor]|]. eexists [_]. split; [symmetry; apply app_nil_r|]. constructor; [|constructor].
        piece. exists [], []. split; [reflexivity|split; constructor]. }
    constructor. { constructor; [cbn [fst snd]; split; [intros _|discriminate]|constructor; [cbn [fst snd]; split; [discriminate|intros _; vm_compute; discriminate]|constructor; [cbn [fst snd]; split; discriminate|constructor]]].
      split; [discriminate|]. intros a b Q. assert (B : b = str "r=2").
      { remember (str "http://x/get?i=1") as p eqn:P. change (str "http://x/get?i=1&r=2") with (str "http://x/get?i=1" ++ 38 :: str "r=2") in Q. rewrite <- P in Q.
        assert (N : ~ In 38 p) by (subst p; other_names). assert (N2 : ~ In 38 (str "r=2")) by other_names. clear P. revert a Q. induction p as [|x p IH]; intros [|y a] Q; cbn [app] in Q; pose proof (f_equal (hd 0) Q) as Q1; pose proof (f_equal (@tl Z) Q) as Q2; cbn [hd tl] in Q1, Q2.
        - symmetry. exact Q2.
        - exfalso. apply N2. rewrite Q2. apply in_or_app. right. left. reflexivity.
        - exfalso. apply N. left. exact Q1.
        - apply (IH (fun H => N (or_intror H)) a Q2). }
      subst b. split; [discriminate|]. intros e r I Q2. cbn [In] in I. destruct I as [<-|[<-|[<-|[<-|[<-|[<-|[]]]]]]]; vm_compute in Q2; discriminate. }
    constructor; [left; reflexivity|]. constructor; [other_names|]. constructor; [exact Logic.I|]. constructor; [other_names|].
    constructor. { split; [do 3 right; left; reflexivity|]. split; [|split; [discriminate|intros _; split; [discriminate|other_names]]].
      split; [exists [], []; split; [reflexivity|split; constructor]|]. eexists [_]. split; [symmetry; apply app_nil_r|]. constructor; [|constructor].
        piece. exists [], []. split; [reflexivity|split; constructor]. }
    constructor; [|constructor]. { split; [do 2 right; left; reflexivity|]. split; [|split; discriminate].
      split; [exists [], []; split; [reflexivity|split; constructor]|]. eexists [_]. split; [symmetry; apply app_nil_r|]. constructor; [|constructor].
        piece. exists [], []. split; [reflexivity|split; constructor]. }
  - eexists. split; [vm_compute; reflexivity|]. split; [|split; [|split; [|split; [|split; [|split; [|split; [|split]]]]]]]; vm_compute; reflexivity.
Qed.

(** ** C175: names of files in titles, descriptions *)
Theorem C175_title : forall t, title_ok t -> exists f, parse_subject t = Some f /\ subject t f.
Proof. exact subject_ok. Qed.
Print Assumptions C175_title.

Theorem C175_description : forall t, t <> [] -> ~ In 38 t -> exists d, description (Some t) = Some d /\ stripped t d /\ length d = length t.
Proof.
  intros t T N. destruct (description_ok t T N) as (d & D & S1). exists d. rewrite opt_text_content in D. destruct t as [|x t]; [congruence|]. split; [exact D|]. split; [exact S1|].
  destruct S1 as (ps & l & _ & _ & E1 & E2). rewrite E1, E2, !app_length. f_equal. clear. induction ps as [|p ps IH]; [reflexivity|]. cbn [map concat]. rewrite !app_length, IH. f_equal.
  f_equal. rewrite repeat_length. cbn [length]. rewrite app_length. cbn [length]. lia.
Qed.
Print Assumptions C175_description.

(** A title whose only quote is at its end: memory behind the title is read. *)
Theorem C175_quote_refuted : exists t, t = str "Movie 12""" /\ parse_subject t = None.
Proof. eexists. split; [reflexivity|]. vm_compute. reflexivity. Qed.
Print Assumptions C175_quote_refuted.

(** Empty quotes: what follows them is taken, with a quote. *)
Theorem C175_empty_refuted : exists t f, t = str """"" (a.b) ""x""" /\ parse_subject t = Some f /\ f = str """ (a.b) ".
Proof. eexists _, _. split; [reflexivity|]. split; vm_compute; reflexivity. Qed.
Print Assumptions C175_empty_refuted.

Example C175_ex : title_ok (str "[1/5] - ""a.b.PAR2"" yEnc") /\ parse_subject (str "[1/5] - ""a.b.PAR2"" yEnc") = Some (str "a.b") /\
  description (Some (str "a <br/>b < c")) = Some (str "a      b < c").
Proof.
  split; [|split; vm_compute; reflexivity]. apply (title_one (str "[1/5] - ") (str "a.b.PAR2"" yEnc") []); [other_names|discriminate|intros r Q; vm_compute in Q; injection Q; discriminate].
Qed.
