(** C97-C103: reading of nzb-files. *)
From Coq Require Import String.
From Coq Require Import Permutation Sorted.
From Verif Require Import Base NumFmt WildModel WildSpec CodecModel NameModel MoveSpec WebSpec NzbModel NzbSpec NzbProofs NzbProofs2 NzbProofs3 NzbProofs4 NzbProofs5 NzbProofs6 NzbProofs7.
From Verif Require StatsModel.
Open Scope list_scope. Open Scope Z_scope.

Definition at_ (n v : string) : list Z * list Z := (str n, str v).
Definition seg (num bytes id : string) : list ev :=
  [EStart (str "segment") (Some [at_ "bytes" bytes; at_ "number" num]); EText (str id); EEnd (str "segment")].
Definition file_of (subject : string) (inner : list ev) : list ev :=
  EStart (str "file") (Some [at_ "poster" "me"; at_ "date" "1400000000"; at_ "subject" subject]) :: inner ++ [EEnd (str "file")].

(** ** C97 *)

(** The files of the queue entry are those of the document which have segments, in that order; each has every part number of the document once,
    with the size and the message id of (the last) segment of that number, the groups, subject and time of the document. The document may have
    other elements and texts between those; texts may come in pieces and surrounded by blanks. *)
Theorem C97_articles : forall es fs id, doc es fs -> Forall file_ok fs ->
  exists p, ev_run (np0 id) es = Some p /\ Forall2 entry (filter (fun f => nonempty (s_segs f)) fs) (p_files p).
Proof. exact read_ok. Qed.
Print Assumptions C97_articles.
(** The same for the download as a whole, with the names of the files. *)
Theorem C97_download : forall ignore id file es fs, doc es fs -> Forall file_ok fs ->
  (exists f, In f fs /\ s_segs f <> []) -> subjects_fine es -> 0 <= id -> id + Z.of_nat (length es) < 2 ^ 31 -> file <> [] -> amps_fine file ->
  exists d names, parse_nzb ignore id file es true = Some (Some d) /\
    let kf := filter (fun f => nonempty (s_segs f)) fs in
    Forall2 entry kf (map d_src (dl_files d)) /\ map d_name (dl_files d) = map (make_valid false) names /\
    names_told_apart names (map s_subject kf) /\ names_from names (map s_subject kf) (dl_many d).
Proof. exact whole_ok. Qed.
Print Assumptions C97_download.

Definition ex_file : sfile :=
  SFile (str """a.rar"" yEnc (1/2)") 1400000000 [str "alt.test"] [Seg 2 500 (str "id2@x"); Seg 1 700 (str "id1@x"); Seg 2 400 (str "id3@x")].
Definition ex_events : list ev :=
  [EText [10]; EStart (str "nzb") (Some [])] ++
  (EStart (str "file") (Some [at_ "poster" "me"; at_ "date" "1400000000"; at_ "subject" """a.rar"" yEnc (1/2)"]) ::
   ([EStart (str "group") None; EText (str "alt."); EText (str "test "); EEnd (str "group")] ++
    seg "2" "500" "id2@x" ++ [EText [10]] ++ seg "1" "700" "id1@x" ++ seg "2" "400" "id3@x") ++ [EEnd (str "file"); EEnd (str "nzb")]).
Lemma ex_attr (l : list (string * string)) n v :
  (forall w, In (str n, w) (map (fun x => at_ (fst x) (snd x)) l) <-> w = str v) -> has_attr (map (fun x => at_ (fst x) (snd x)) l) (str n) (str v).
Proof. intros H w. apply H. Qed.
Ltac attr_tac := intros w; split;
  [intros I; cbn [In at_ fst snd map] in I; repeat (destruct I as [I | I]; [try discriminate; injection I as <-; reflexivity|]); contradiction
  |intros ->; cbn [In map at_]; repeat (try (left; reflexivity); right)].
Lemma ex_seg num bytes id z1 z2 : str num = zdec z1 -> str bytes = zdec z2 -> forallb (fun c => (33 <=? c)) (str id) = true ->
  seg_events (Seg z1 z2 (str id)) (seg num bytes id).
Proof.
  intros E1 E2 _. exists [at_ "bytes" bytes; at_ "number" num], [str id]. split; [reflexivity|]. cbn [s_num s_bytes s_msg]. rewrite <- E1, <- E2.
  split; [attr_tac|]. split; [attr_tac|]. exists [], []. cbn [concat app]. rewrite !app_nil_r. auto.
Qed.
Example C97_doc_ex : doc ex_events [ex_file].
Proof.
  unfold ex_events. cbn [app]. apply d_fill; [exact I|]. apply d_fill; [intros [H | [H | H]]; discriminate|].
  apply (d_file [at_ "poster" "me"; at_ "date" "1400000000"; at_ "subject" """a.rar"" yEnc (1/2)"]
    ([EStart (str "group") None; EText (str "alt."); EText (str "test "); EEnd (str "group")] ++
     seg "2" "500" "id2@x" ++ EText [10] :: seg "1" "700" "id1@x" ++ seg "2" "400" "id3@x" ++ []) ex_file [EEnd (str "nzb")] []).
  - attr_tac.
  - attr_tac.
  - apply b_group.
    + exists None, [str "alt."; str "test "]. split; [reflexivity|]. exists [], [32]. split; [reflexivity|]. split; [constructor|].
      constructor; [unfold blank; lia|constructor].
    + apply b_seg; [apply ex_seg; reflexivity|]. apply b_fill; [exact I|]. apply b_seg; [apply ex_seg; reflexivity|].
      apply b_seg; [apply ex_seg; reflexivity|]. constructor.
  - apply d_fill; [intros [H | [H | H]]; discriminate|constructor].
Qed.
Lemma word_by t : forallb (fun c => 33 <=? c) t = true -> t <> [] -> word_ok t.
Proof.
  intros F N. split; [exact N|]. apply Forall_forall. intros c I. rewrite forallb_forall in F. specialize (F c I). unfold blank. lia.
Qed.
Ltac word_tac := apply word_by; [reflexivity|discriminate].
Example C97_ok_ex : Forall file_ok [ex_file].
Proof.
  constructor; [|constructor]. split; [|split].
  - repeat (constructor; [split; [cbn; lia|]; split; [cbn; lia|]; split; [word_tac|cbn; lia]|]). constructor.
  - constructor; [word_tac|constructor].
  - cbn; lia.
Qed.
Example C97_ex : option_map p_files (ev_run (np0 5) ex_events) =
  Some [NFile 5 (Some (str """a.rar"" yEnc (1/2)")) 1400000000 [Some (str "alt.test")]
          [Some (NArt 700 (Some (str "<id1@x>"))); Some (NArt 400 (Some (str "<id3@x>")))]].
Proof. vm_compute. reflexivity. Qed.
Example C97_fine_ex : subjects_fine ex_events /\ amps_fine (str "&amp;").
Proof.
  split.
  - intros n atts v H I. unfold ex_events, seg in H. cbn [In app] in H.
    repeat (destruct H as [H | H]; [try discriminate; injection H as <- <-; cbn [In] in I; repeat (destruct I as [I | I]; [try discriminate|]); try contradiction|]); try contradiction.
    injection I as <-. split; [intros J; vm_compute in J; repeat (destruct J as [J | J]; [discriminate|]); contradiction|]. split; [cbn; lia|].
    intros [J | [J | (d & _ & J)]]; discriminate.
  - intros u v E. destruct u as [|c u]; injection E as E1.
    + subst v. eexists. eexists. split; [reflexivity|]. repeat split; discriminate.
    + exfalso. assert (J : In 38 (str "amp;")) by (change (str "amp;") with [97; 109; 112; 59]; rewrite H; apply in_or_app; right; left; reflexivity). cbn in J.
      repeat (destruct J as [J | J]; [discriminate|]). contradiction.
Qed.

(** ** C98 *)

(** Sizes of a file which is added to the queue: what is there, and for each part which is missing in the nzb-file as much as the first article
    with a size has. A file is added if and only if it has an article. *)
Theorem C98_sizes_partial : forall id par f g,
  StatsModel.add_file_info (id, par, slots_of f) = Some g -> Forall (fun n => 0 <= n) (sizes_of f) ->
  StatsModel.f_num g StatsModel.FRem = total (sizes_of f) /\
  StatsModel.f_num g StatsModel.FMissed = holes f * first_size (sizes_of f) /\
  StatsModel.f_num g StatsModel.FSize = total (sizes_of f) + holes f * first_size (sizes_of f) /\
  StatsModel.f_num g StatsModel.FTotal = Z.of_nat (length (nf_slots f)) /\
  StatsModel.f_num g StatsModel.FMissedArt = holes f /\
  map fst (StatsModel.f_arts g) = sizes_of f.
Proof. exact sizes_ok. Qed.
Print Assumptions C98_sizes_partial.
Theorem C98_added : forall id par f, kept f <> [] <-> exists g, StatsModel.add_file_info (id, par, slots_of f) = Some g.
Proof. exact add_some. Qed.
Print Assumptions C98_added.

Example C98_ex :
  let f := NFile 1 None 0 [] [None; Some (NArt 0 None); None; Some (NArt 100 None); None; Some (NArt 40 None)] in
  exists g, StatsModel.add_file_info (1, false, slots_of f) = Some g /\ Forall (fun n => 0 <= n) (sizes_of f) /\ holes f = 3 /\
    StatsModel.f_num g StatsModel.FSize = 440 /\ StatsModel.f_num g StatsModel.FMissed = 300.
Proof. cbv zeta. eexists. split; [vm_compute; reflexivity|]. split; [repeat (constructor; [cbn; lia|]); constructor|]. repeat split; vm_compute; reflexivity. Qed.

(** A segment without the attribute bytes has the size -1: the size of the download becomes negative; no number of bytes is refused either. *)
Theorem C98_negative_refuted : exists es p f g,
  es = file_of "x" ([EStart (str "segment") (Some [at_ "number" "1"]); EText (str "id"); EEnd (str "segment")]) /\
  ev_run (np0 1) es = Some p /\ p_files p = [f] /\ StatsModel.add_file_info (1, false, slots_of f) = Some g /\
  StatsModel.f_num g StatsModel.FSize = -1 /\ StatsModel.f_num g StatsModel.FRem = -1.
Proof.
  do 4 eexists. split; [reflexivity|]. split; [vm_compute; reflexivity|]. split; [reflexivity|]. split; [vm_compute; reflexivity|].
  split; vm_compute; reflexivity.
Qed.
Print Assumptions C98_negative_refuted.
Theorem C98_huge_refuted : exists es p f, es = file_of "x" (seg "1" "3000000000" "id") /\
  ev_run (np0 1) es = Some p /\ p_files p = [f] /\ sizes_of f = [-1294967296].
Proof. do 3 eexists. split; [reflexivity|]. split; [vm_compute; reflexivity|]. split; vm_compute; reflexivity. Qed.
Print Assumptions C98_huge_refuted.

(** ** C99 *)

(** Documents without files inside files, files or segments inside segments, and segments without text are read in a defined way: every
    article has a message id, every file a valid name. Attributes and everything else are arbitrary. *)
Theorem C99_defined_partial : forall ignore id file es ok, tame Outside es -> subjects_fine es -> 0 <= id -> id + Z.of_nat (length es) < 2 ^ 31 ->
  file <> [] -> amps_fine file ->
  exists r, parse_nzb ignore id file es ok = Some r /\ forall d, r = Some d -> Forall usable (dl_files d).
Proof. exact parse_ok. Qed.
Print Assumptions C99_defined_partial.
(** Such are all documents of C97. *)
Theorem C99_tame : forall es fs, doc es fs -> Forall file_ok fs -> tame Outside es.
Proof. exact doc_tame. Qed.
Print Assumptions C99_tame.

(** Odd but tame: segments outside of files, without attributes or with strange numbers, a file without subject. *)
Example C99_ex : let es := seg "1" "x" "id" ++ [EStart (str "file") None] ++ seg "-7" "5" "id" ++ seg "1" "abc" "id2" ++ [EEnd (str "file")] in
  tame Outside es /\ exists d, parse_nzb [] 3 [32] es true = Some (Some d) /\ map d_name (dl_files d) = [str "3"] /\ Forall usable (dl_files d).
Proof.
  cbv zeta. split.
  - assert (W : nonblank (str "id") /\ nonblank (str "id2")) by (split; apply Exists_exists; exists 105; (split; [left; reflexivity|unfold blank; lia])). destruct W as [W1 W2].
    cbn [app seg]. apply t_seg_out, t_text; [discriminate|]. apply t_seg_out_end, t_file, t_seg, t_word; [exact W1|].
    apply t_seg_end, t_seg, t_word; [exact W2|]. apply t_seg_end, t_file_end, t_nil.
  - eexists. split; [vm_compute; reflexivity|]. split; [reflexivity|]. constructor; [|constructor].
    split; [intros [H | []]; discriminate|]. constructor; [discriminate|constructor].
Qed.

(** A file element inside of a file element: the end of the outer one uses a null pointer. *)
Theorem C99_nested_refuted : exists es, es = file_of "x" (file_of "y" (seg "1" "5" "id")) /\ forall file ok, parse_nzb [] 1 file es ok = None.
Proof. eexists. split; [reflexivity|]. intros file ok. reflexivity. Qed.
Print Assumptions C99_nested_refuted.
(** A segment without text. *)
Theorem C99_empty_segment_refuted : exists es, es = file_of "x" (seg "1" "5" "") /\ forall file ok, parse_nzb [] 1 file es ok = None.
Proof. eexists. split; [reflexivity|]. intros file ok. reflexivity. Qed.
Print Assumptions C99_empty_segment_refuted.
(** A segment inside a segment: an article without message id remains, of which the length is taken. *)
Theorem C99_inner_segment_refuted : exists es, es = file_of "x"
   [EStart (str "segment") (Some [at_ "number" "1"]); EStart (str "segment") (Some [at_ "number" "2"]); EText (str "id"); EEnd (str "segment"); EEnd (str "segment")] /\
  (exists p, ev_run (np0 1) es = Some p) /\ forall file, parse_nzb [] 1 file es true = None.
Proof. eexists. split; [reflexivity|]. split; [eexists; vm_compute; reflexivity|]. intros file. vm_compute. reflexivity. Qed.
Print Assumptions C99_inner_segment_refuted.
(** The reader of the password writes before the buffer if the nzb-file has meanwhile become empty. *)
Theorem C99_empty_file_refuted : exists es, tame Outside es /\ subjects_fine es /\ parse_nzb [] 1 [] es true = None.
Proof.
  exists ([EStart (str "meta") (Some [at_ "type" "password"]); EText (str "pw"); EEnd (str "meta")] ++ file_of "x" (seg "1" "5" "id")).
  assert (M : ~ special (str "meta")) by (intros [H | [H | H]]; discriminate).
  split; [|split; [|vm_compute; reflexivity]].
  - cbn [app seg file_of]. apply t_start; [exact M|discriminate|]. apply t_text; [discriminate|]. apply t_end; [exact M|].
    apply t_file, t_seg, t_word; [apply Exists_exists; exists 105; (split; [left; reflexivity|unfold blank; lia])|]. apply t_seg_end, t_file_end, t_nil.
  - intros n atts v H I. cbn [In app file_of seg] in H.
    repeat (destruct H as [H | H]; [try discriminate; injection H as <- <-; cbn [In] in I; repeat (destruct I as [I | I]; [try discriminate|]); try contradiction|]); try contradiction.
    injection I as <-. split; [intros [J | []]; discriminate|]. split; [cbn; lia|]. intros [J | [J | (d & _ & J)]]; discriminate.
Qed.
Print Assumptions C99_empty_file_refuted.

(** ** C100 *)

(** The name in the first pair of quotation marks is the name of the file, if it has a dot after its first character. *)
Theorem C100_quoted_partial : forall a c r b, nonul (a ++ 34 :: (c :: r) ++ 34 :: b) -> Z.of_nat (length (a ++ 34 :: (c :: r) ++ 34 :: b)) <= 1023 ->
  ~ In 34 a -> ~ In 34 (c :: r) -> In 46 r ->
  parse_subject true (a ++ 34 :: (c :: r) ++ 34 :: b) = Some (c :: r).
Proof. exact quoted_ok. Qed.
Print Assumptions C100_quoted_partial.
(** Without quotation marks: the last word which looks like a name, apart from the counter of parts. *)
Theorem C100_words_partial : forall quotes s a w b, nonul s -> Z.of_nat (length s) <= 1022 -> ~ In 34 s -> ~ odd_subject s ->
  core s (a ++ w ++ b) -> word_at a w b -> like_name w ->
  (forall a' w' b', b = a' ++ w' ++ b' -> word_at a' w' b' -> ~ like_name w') ->
  parse_subject quotes s = Some w.
Proof. exact words_ok. Qed.
Print Assumptions C100_words_partial.
(** If no word looks like a name: the last word. *)
Theorem C100_last_word_partial : forall quotes s a w b, nonul s -> Z.of_nat (length s) <= 1022 -> ~ In 34 s -> ~ odd_subject s ->
  core s (a ++ w ++ b) -> word_at a w b -> (forall c, In c b -> c = 32) ->
  (forall a' w' b', a ++ w ++ b = a' ++ w' ++ b' -> word_at a' w' b' -> ~ like_name w') ->
  parse_subject quotes s = Some w.
Proof. exact last_word_ok. Qed.
Print Assumptions C100_last_word_partial.
(** In all other cases there is some name. *)
Theorem C100_some_partial : forall quotes s, nonul s -> Z.of_nat (length s) <= 1022 -> ~ odd_subject s ->
  exists n, parse_subject quotes s = Some n /\ n <> [] /\ nonul n.
Proof. exact subject_defined. Qed.
Print Assumptions C100_some_partial.
(** The counter of parts is determined by the subject. *)
Theorem C100_core : forall s t t', core s t -> core s t' -> t = t'.
Proof. exact core_unique. Qed.
Print Assumptions C100_core.

Example C100_ex : let s := str "great post b.rar c d yEnc (1/20)" in
  core s (str "great post " ++ str "b.rar" ++ str " c d") /\ word_at (str "great post ") (str "b.rar") (str " c d") /\ like_name (str "b.rar") /\
  parse_subject true s = Some (str "b.rar") /\ parse_subject true (str "x ""a b.rar"" y") = Some (str "a b.rar") /\
  parse_subject true (str "one two yEnc (1/2)") = Some (str "two").
Proof.
  cbv zeta. split; [|split; [|split; [|repeat split; vm_compute; reflexivity]]].
  - left. split; [discriminate|]. exists (str "1"), (str "20").
    split; [apply Forall_forall; intros c J; cbn in J; unfold digit; lia|]. split; [apply Forall_forall; intros c J; cbn in J; unfold digit; lia|]. reflexivity.
  - split; [discriminate|]. split; [intros I; cbn in I; lia|]. split; [right; exists (str "great post"); reflexivity|].
    right. exists (str "c d"). reflexivity.
  - exists (str "b"), (str "rar"). split; [reflexivity|]. split; [intros I; cbn in I; lia|discriminate].
Qed.

(** The beginning of these subjects is looked for before the buffer. *)
Theorem C100_odd_refuted : exists l, l = [[]; str ")"; str "/5)"] /\ Forall (fun s => forall q, parse_subject q s = None) l.
Proof. eexists. split; [reflexivity|]. repeat (constructor; [intros []; vm_compute; reflexivity|]). constructor. Qed.
Print Assumptions C100_odd_refuted.
(** A subject of 1023 bytes fills the buffer; behind its last word the terminator is skipped and the byte after the buffer is read. *)
Theorem C100_long_refuted : exists s, nonul s /\ Z.of_nat (length s) = 1023 /\ ~ odd_subject s /\ parse_subject true s = None.
Proof.
  exists (repeat 97 (Z.to_nat 1023)). split; [intros I; apply repeat_spec in I; discriminate|]. split; [rewrite repeat_length; reflexivity|].
  split; [|vm_compute; reflexivity]. intros [H | [H | (d & _ & H)]]; discriminate.
Qed.
Print Assumptions C100_long_refuted.
(** A quotation mark before the first character of the name, a dot in a later text, and the wrong text becomes the name. *)
Theorem C100_wrong_refuted : exists s, s = str "post """"x.y"" is ""real.rar""" /\ parse_subject true s = Some (str """x.y").
Proof. eexists. split; [reflexivity|]. vm_compute. reflexivity. Qed.
Print Assumptions C100_wrong_refuted.

(** ** C101 *)

(** At most two files of a download have the same name although their subjects differ, and that not if there are only two files. All names come from
    the subjects in the same way. *)
Theorem C101_apart : forall subjects names many, build_names subjects = Some (names, many) ->
  length names = length subjects /\ names_told_apart names subjects /\ names_from names subjects many.
Proof. exact build_names_ok. Qed.
Print Assumptions C101_apart.

(** If the names in quotation marks tell the files apart, those are taken. *)
Theorem C101_quoted : forall subjects names, Forall2 (fun n s => parse_subject true s = Some n) names subjects ->
  (forall i j n s1 s2, nth_error names i = Some n -> nth_error names j = Some n -> nth_error subjects i = Some s1 -> nth_error subjects j = Some s2 -> s1 = s2) ->
  build_names subjects = Some (names, false).
Proof. exact names_at_once. Qed.
Print Assumptions C101_quoted.

Example C101_ex_quoted : build_names [str "1 ""a.rar"""; str "1 ""a.rar"""; str "3 ""b.rar"""] = Some ([str "a.rar"; str "a.rar"; str "b.rar"], false).
Proof. vm_compute. reflexivity. Qed.
Example C101_ex : build_names [str "1 ""a.rar"" yEnc (1/2)"; str "2 ""a.rar"" yEnc (1/2)"; str "3 ""b.rar"""] =
    Some ([str "a.rar"; str "a.rar"; str "b.rar"], false) /\
  build_names [str "1 x"; str "2 x"; str "3 x"] = Some ([str "1 x"; str "2 x"; str "3 x"], true) /\
  build_names [str """x.y"" a.b"; str """x.y"" c.d"] = Some ([str "a.b"; str "c.d"], false).
Proof. repeat split; vm_compute; reflexivity. Qed.

(** After that the names are made valid for the file system, and files can have the same name again, in whatever number. *)
Theorem C101_valid_refuted : exists es d, parse_nzb [] 1 [32] es true = Some (Some d) /\
  es = file_of "one ""a?b.rar""" (seg "1" "5" "i1") ++ file_of "two ""a*b.rar""" (seg "1" "5" "i2") ++ file_of "three ""a:b.rar""" (seg "1" "5" "i3") /\
  map d_name (dl_files d) = [str "a_b.rar"; str "a_b.rar"; str "a_b.rar"] /\ dl_many d = false.
Proof. do 2 eexists. split; [|split; [reflexivity|]]; [vm_compute; reflexivity|]. split; reflexivity. Qed.
Print Assumptions C101_valid_refuted.
(** And a name can become empty. *)
Theorem C101_empty_refuted : exists es d, parse_nzb [] 1 [32] es true = Some (Some d) /\ es = file_of "..." (seg "1" "5" "i1") /\
  map d_name (dl_files d) = [[]].
Proof. do 2 eexists. split; [|split; [reflexivity|]]; [vm_compute; reflexivity|]. reflexivity. Qed.
Print Assumptions C101_empty_refuted.

(** ** C102 *)

(** The order of the files in the nzb-file does not matter. *)
Theorem C102_order_partial : forall ignore l l', NoDup (map d_name l) -> Permutation l l' -> calc_hashes ignore l = calc_hashes ignore l'.
Proof. exact hashes_order. Qed.
Print Assumptions C102_order_partial.
(** The hash of the content is that of the message ids of all files, in descending order of the names; the filtered hash is that of the files which
    are par2-files or have no ignored extension. *)
Theorem C102_content_partial : forall ignore l, NoDup (map d_name l) -> Forall usable l ->
  exists full filt, calc_hashes ignore l = Some (full, filt) /\
    (forall l', descending l' -> (forall f, In f l' <-> In f l) -> full = chain (message_ids l')) /\
    (forall l', descending l' -> (forall f, In f l' <-> In f l /\ counts ignore f) ->
       filt = if Z.of_nat (length (message_ids l')) <? Z.of_nat (length l) / 2 then 0 else chain (message_ids l')).
Proof. exact hashes_ok. Qed.
Print Assumptions C102_content_partial.
(** The hash function is the one of Bob Jenkins, and a number of 32 bits. *)
Theorem C102_function : forall bs r init, Forall (fun b : list Z => length b = 12%nat) bs -> (length r < 12)%nat ->
  hash_bj96 (concat bs ++ r) init = jenkins bs r init /\ 0 <= jenkins bs r init < 2 ^ 32.
Proof. intros bs r init F L. split; [exact (hash_ok bs r init F L)|apply jenkins_range]. Qed.
Print Assumptions C102_function.

Definition one_file (name id : string) : dfile := DFile (NFile 1 None 0 [] [Some (NArt 5 (Some (str id)))]) (str name) false.
Example C102_ex : let l := [one_file "a.rar" "<i1>"; one_file "c.nfo" "<i3>"; one_file "b.rar" "<i2>"] in
  NoDup (map d_name l) /\ Forall usable l /\ descending [one_file "c.nfo" "<i3>"; one_file "b.rar" "<i2>"; one_file "a.rar" "<i1>"] /\
  calc_hashes (str ".sfv, .nfo") l = Some (chain [str "<i3>"; str "<i2>"; str "<i1>"], chain [str "<i2>"; str "<i1>"]) /\
  chain [str "<i2>"; str "<i1>"] <> chain [str "<i1>"; str "<i2>"].
Proof.
  cbv zeta. split.
  { cbn [map d_name one_file]. repeat (constructor; [intros I; cbn [In] in I; repeat (destruct I as [I | I]; [discriminate|]); contradiction|]). constructor. }
  split.
  { repeat (constructor; [split; [intros I; cbn in I; repeat (destruct I as [I | I]; [discriminate|]); contradiction|constructor; [discriminate|constructor]]|]). constructor. }
  split.
  { assert (B : forall x y r s, x < y -> bytes_before (x :: r) (y :: s)) by (intros x y r s H; right; exists [], x, y, r, s; auto).
    assert (AB : bytes_before (str "a.rar") (str "b.rar")) by (apply (B 97 98 (str ".rar") (str ".rar")); lia).
    assert (AC : bytes_before (str "a.rar") (str "c.nfo")) by (apply (B 97 99 (str ".rar") (str ".nfo")); lia).
    assert (BC : bytes_before (str "b.rar") (str "c.nfo")) by (apply (B 98 99 (str ".rar") (str ".nfo")); lia).
    constructor; [constructor; [constructor; [constructor|constructor]|constructor; [exact AB|constructor]]|constructor; [exact BC|constructor; [exact AC|constructor]]]. }
  split; [vm_compute; reflexivity|]. vm_compute. discriminate.
Qed.

(** Files of the same name: the hash depends on their order. *)
Theorem C102_same_name_refuted : exists l l' h h', Permutation l l' /\ calc_hashes [] l = Some h /\ calc_hashes [] l' = Some h' /\ fst h <> fst h'.
Proof.
  exists [one_file "a.rar" "<i1>"; one_file "a.rar" "<i2>"], [one_file "a.rar" "<i2>"; one_file "a.rar" "<i1>"]. do 2 eexists.
  split; [apply perm_swap|]. split; [vm_compute; reflexivity|]. split; [vm_compute; reflexivity|]. vm_compute. discriminate.
Qed.
Print Assumptions C102_same_name_refuted.
(** The filtered hash is meant to be used only if at least half of the files remain; but the articles are counted: one of four files remains. *)
Definition two_arts (name : string) : dfile :=
  DFile (NFile 1 None 0 [] [Some (NArt 5 (Some (str "<i1>"))); Some (NArt 5 (Some (str "<i2>")))]) (str name) false.
Theorem C102_half_refuted : exists l h, l = [two_arts "a.rar"; one_file "b.nfo" "<j>"; one_file "c.nfo" "<k>"; one_file "d.nfo" "<l>"] /\
  calc_hashes (str ".nfo") l = Some h /\ snd h <> 0.
Proof. do 2 eexists. split; [reflexivity|]. split; [vm_compute; reflexivity|]. vm_compute. discriminate. Qed.
Print Assumptions C102_half_refuted.

(** ** C103 *)

(** The password is taken from the file as it is written there, only the entities are replaced. *)
Theorem C103_password_partial : forall a e w rest, nonul a -> (forall x y, a ++ pw_tag = x ++ pw_tag ++ y -> y = []) -> escaped e w -> rest <> [] ->
  Z.of_nat (length (a ++ pw_tag ++ e ++ str "</meta>")) <= 4095 ->
  read_password (a ++ pw_tag ++ e ++ str "</meta>" ++ rest) = Some (Some w).
Proof. exact password_ok. Qed.
Print Assumptions C103_password_partial.
(** A download has a password just if the document has such an element, and then it is that of the file. *)
Theorem C103_none : forall ignore id file es ok d, parse_nzb ignore id file es ok = Some (Some d) -> (forall e, In e es -> ~ password_start e) -> dl_pw d = None.
Proof. exact no_password. Qed.
Print Assumptions C103_none.
Theorem C103_taken_partial : forall ignore id file es ok d e texts before after w, parse_nzb ignore id file es ok = Some (Some d) ->
  password_start e -> es = before ++ (e :: map EText texts ++ [EEnd (str "meta")]) ++ after -> read_password file = Some (Some w) -> dl_pw d = Some w.
Proof. exact password_taken. Qed.
Print Assumptions C103_taken_partial.
Example C103_ex_taken : exists d d', parse_nzb [] 1 (pw_tag ++ str "a b</meta></nzb>")
    ([EStart (str "meta") (Some [at_ "type" "password"]); EText (str "a b"); EEnd (str "meta")] ++ file_of "x.y" (seg "1" "5" "i1")) true = Some (Some d) /\ dl_pw d = Some (str "a b") /\
  parse_nzb [] 1 (pw_tag ++ str "a b</meta></nzb>")
    ([EStart (str "meta") (Some [at_ "type" "title"]); EText (str "a b"); EEnd (str "meta")] ++ file_of "x.y" (seg "1" "5" "i1")) true = Some (Some d') /\ dl_pw d' = None.
Proof. do 2 eexists. split; [vm_compute; reflexivity|]. split; [reflexivity|]. split; [vm_compute; reflexivity|reflexivity]. Qed.
(** The parser has it without blanks at the ends of its pieces. *)
Example C103_parsed : exists es p, ev_run (np0 1) es = Some p /\
  es = [EStart (str "meta") (Some [at_ "type" "password"]); EText (str " a "); EText (str "b "); EEnd (str "meta")] /\ p_pw p = Some (str "ab").
Proof. do 2 eexists. split; [|split; [reflexivity|]]; [vm_compute; reflexivity|reflexivity]. Qed.

Example C103_ex : escaped (str " a &lt;b" ++ [9]) (str " a <b" ++ [9]) /\
  read_password (str "<nzb>" ++ pw_tag ++ (str " a &lt;b" ++ [9]) ++ str "</meta>" ++ str "</nzb>") = Some (Some (str " a <b" ++ [9])).
Proof.
  split; [|vm_compute; reflexivity]. change (escaped [32; 97; 32; 38; 108; 116; 59; 98; 9] [32; 97; 32; 60; 98; 9]).
  do 3 (apply es_plain; [lia|lia|lia|]). apply (es_entity (str "lt") 60 (98 :: [9])); [left; reflexivity|].
  do 2 (apply es_plain; [lia|lia|lia|]). constructor.
Qed.

(** Beyond the first 4095 bytes the password of the parser remains, without blanks. *)
Theorem C103_far_refuted : exists evs file d, parse_nzb [] 1 file evs true = Some (Some d) /\
  file = repeat 32 (Z.to_nat 4096) ++ pw_tag ++ str " a b " ++ str "</meta></nzb>" /\
  evs = [EStart (str "meta") (Some [at_ "type" "password"]); EText (str " a b "); EEnd (str "meta")] ++ file_of "x.y" (seg "1" "5" "i1") /\
  dl_pw d = Some (str "a b").
Proof. do 3 eexists. split; [|split; [reflexivity|split; [reflexivity|]]]; [vm_compute; reflexivity|reflexivity]. Qed.
Print Assumptions C103_far_refuted.
(** Numeric entities: the digits of the password after the semicolon belong to the number. *)
Theorem C103_numeric_refuted : exists file, file = pw_tag ++ str "&#65;7b" ++ str "</meta></nzb>" /\ read_password file = Some (Some (str "Ab")).
Proof. eexists. split; [reflexivity|]. vm_compute. reflexivity. Qed.
Print Assumptions C103_numeric_refuted.
