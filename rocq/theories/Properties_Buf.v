(** C41: text buffers. *)
From Coq Require Import String.
From Verif Require Import Base FeedModel BufModel BufSpec BufProofs BufProofs2.
Open Scope list_scope. Open Scope Z_scope.

(** Fixed-size buffers: every sequence of operations stays inside the buffer, which afterwards
    holds the text cut to what fits. *)
Theorem C41_fixed : forall size ops e, 0 < size -> text_after [] ops e ->
  exists m0 m, bs_new size = Some m0 /\ bs_run m0 ops = Some m /\ zlen m = size /\
    cstr m = Some (firstn (Z.to_nat (size - 1)) e).
Proof. exact bstring_ok. Qed.
Print Assumptions C41_fixed.
Example C41_fixed_ex :
  text_after [] [OSet (str "abcdef" ++ [0]) 3; OAppendFmt (str "123"); OAppend (str "xyz" ++ [0]) 0] (str "abc123xyz") /\
  obind (bs_new 8) (fun m => obind (bs_run m [OSet (str "abcdef" ++ [0]) 3; OAppendFmt (str "123"); OAppend (str "xyz" ++ [0]) 0]) cstr) = Some (str "abc123x").
Proof.
  split; [|vm_compute; reflexivity]. apply ta_set with (s := str "abc").
  { left. split; [lia|]. exists (str "abcdef"), []. split; [reflexivity|]. split; [repeat constructor|reflexivity]. }
  apply ta_append_fmt; [repeat constructor|]. apply ta_append with (s := str "xyz"); [|exact (ta_nil _)].
  left. split; [lia|]. exists (str "xyz"), []. split; [reflexivity|]. split; [repeat constructor|reflexivity].
Qed.

(** Growing strings: every sequence of operations stays inside the storage, nothing is cut. *)
Theorem C41_growing_partial : forall ops e, ctext_after [] ops e ->
  exists m, cs_run [] ops = Some m /\ cs_text m = Some e.
Proof. intros ops e A. exact (cstring_ok ops [] e [] A (or_introl (conj eq_refl eq_refl))). Qed.
Print Assumptions C41_growing_partial.
Example C41_growing_ex :
  ctext_after [] [CFormat (str "a b  "); CTrim; CReplace 1 1 (str "--" ++ [0]) 0] (str "a--b") /\
  obind (cs_run [] [CFormat (str "a b  "); CTrim; CReplace 1 1 (str "--" ++ [0]) 0]) cs_text = Some (str "a--b").
Proof.
  split; [|vm_compute; reflexivity]. apply ca_format; [repeat constructor|]. apply ca_trim with (s := str "a b").
  { split; [exists [32; 32]; split; [reflexivity|]; constructor; [unfold blank_char; lia|]; constructor; [unfold blank_char; lia|constructor]|].
    right. exists (str "a "), 98. split; [reflexivity|]. unfold blank_char. lia. }
  change (str "a b") with (str "a" ++ [32] ++ str "b"). change 1 with (zlen (str "a")) at 1. change 1 with (zlen [32]).
  apply ca_replace with (s := str "--") (j := []); [reflexivity|repeat constructor|lia|discriminate|]. exact (ca_nil _).
Qed.
(** Replacing all occurrences ends and replaces each of them, from left to right. *)
Theorem C41_replace_all_partial : forall from to s k, is_text s -> is_text to -> from <> [] ->
  exists s' m, cs_replace_all (S (length s)) (s ++ 0 :: k) from to 0 = Some m /\ cs_text m = Some s' /\ replaced from to s s'.
Proof. exact replace_all_text. Qed.
Print Assumptions C41_replace_all_partial.
Example C41_replace_all_ex :
  obind (cs_replace_all 12 (str "a&b&&c" ++ [0]) (str "&") (str "&amp;") 0) cs_text = Some (str "a&amp;b&amp;&amp;c").
Proof. vm_compute. reflexivity. Qed.

Theorem C41_builder : forall ops e, stext_after [] ops e ->
  exists b, sb_run sb_new ops = Some b /\ cs_text (sb_mem b) = Some e /\ sb_len b = zlen e /\ sb_len b <= sb_cap b.
Proof. exact builder_text. Qed.
Print Assumptions C41_builder.
Example C41_builder_ex :
  option_map (fun b => (cs_text (sb_mem b), sb_len b, sb_cap b)) (sb_run sb_new [SReserve 4 true; SAppendFmt (str "abcd"); SAppend (str "e" ++ [0]) 0]) =
  Some (Some (str "abcde"), 5, 6).
Proof. vm_compute. reflexivity. Qed.

(** Missing from the growing strings. [Replace] of more than there is after the position, for which
    the code computes the shorter length, reads behind the string all the same. *)
Theorem C41_replace_overrun_refuted : exists mem pos len src,
  cs_text mem = Some (str "abc") /\ 0 <= pos < 3 /\ cs_replace mem pos len src 0 = None.
Proof. exists (str "abc" ++ [0]), 1, 5, (str "x" ++ [0]). split; [reflexivity|]. split; [lia|reflexivity]. Qed.
Print Assumptions C41_replace_overrun_refuted.
(** [ReplaceAll] of the empty text never ends. *)
Theorem C41_replace_empty_refuted : exists s, is_text s /\
  forall fuel, cs_replace_all fuel (s ++ [0]) [] (str "x") 0 = None.
Proof.
  exists (str "abc"). split; [repeat constructor|]. intros fuel. apply (replace_empty (str "x")) with (p := []) (s := str "abc") (k := []); [repeat constructor|repeat constructor|discriminate].
Qed.
Print Assumptions C41_replace_empty_refuted.
(** A length of 0 given for an empty part means the whole source. *)
Theorem C41_zero_length_refuted : exists size src m0 m,
  bs_new size = Some m0 /\ bs_set m0 src 0 = Some m /\ cstr m <> Some (firstn 0 src).
Proof. exists 10, (str "abc" ++ [0]). eexists _, _. split; [reflexivity|]. split; [reflexivity|]. vm_compute. discriminate. Qed.
Print Assumptions C41_zero_length_refuted.
