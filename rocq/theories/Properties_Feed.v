(** Feed filters and feed history: C33, C34, C68-C73. *)
From Coq Require Import String.
From Verif Require Import Base NumFmt WildSpec WildModel InfoModel FeedModel FeedSpec FeedProofs FeedProofs2 FeedProofs3 FeedProofs4 FeedProofs5.
Open Scope list_scope. Open Scope Z_scope.

(** An environment and items for the examples. *)
Definition ex_env : fenv := mkEnv (fun _ _ => None) 1000000 (fun _ => 0) (fun _ _ => 0) (fun _ _ _ => false).
Definition ex_item (title : list Z) (size : Z) : fitem :=
  mkItem title title (str "http://x") (str "TV") [] [] [] size 900000 0 0 0 0 None 0 None 0.
Definition ex_opts : fopts := mkOpts [] false 0 [] 0 0.

(** ** C33: formulas *)
(** Any rule whose text after the command is a formula (a conjunction or disjunction of
    words and groups, the groups in parentheses) matches exactly when the formula is true. *)
Theorem C33_formula : forall e room s c r rest f i o v,
  compile_command (trim s) = Some (c, r, rest) -> c <> frComment -> trim rest = ftext f -> fwell f ->
  Forall (fun w => visible w /\ plain_word w /\ word_means e (wants_refs r) i o w (v w)) (fwords f) ->
  exists u r', compile_rule e room s = COk u /\ u_cmd u = c /\ rule_match e u i o = Some (feval v f, r').
Proof. exact rule_formula. Qed.
Print Assumptions C33_formula.

(** The same for a whole filter consisting of one Accept rule. *)
Theorem C33_accept_filter : forall e f i v category pause priority, fwell f ->
  (forall o, Forall (fun w => visible w /\ plain_word w /\ clean w /\ word_means e false i o w (v w)) (fwords f)) ->
  exists r, filter_item e (str "A: " ++ ftext f) category pause priority i = Some r /\
    m_status r = if feval v f then msAccepted else msIgnored.
Proof. exact accept_filter. Qed.
Print Assumptions C33_accept_filter.

(** A minus sign in front of a word negates the word. *)
Theorem C33_negation : forall e want i o w b, hd 0 w <> 45 -> hd 0 w <> 43 ->
  word_means e want i o w b -> word_means e want i o (45 :: w) (negb b).
Proof. exact negation. Qed.
Print Assumptions C33_negation.

(** Every expression the rules can produce has a verdict: the rewriting stops. *)
Theorem C33_total : forall s, exists b, expr_verdict s = Some b.
Proof. exact verdict_total. Qed.
Print Assumptions C33_total.

Definition ex_formula : fexp := FAny [FAll [FWord (str "linux"); FWord (str "-beta")]; FWord (str "bsd")].
Example C33_formula_text : ftext ex_formula = str "( linux -beta ) | bsd".
Proof. vm_compute. reflexivity. Qed.
Example C33_formula_well : fwell ex_formula.
Proof. cbn. repeat split; discriminate. Qed.
Example C33_formula_ex :
  map (fun t => match filter_item ex_env (str "A: ( linux -beta ) | bsd") [] false 0 (ex_item (str t) 5) with
                | Some r => Some (m_status r) | None => None end)
      ["linux.iso"; "linux.beta.iso"; "beta.bsd"; "other"]%string
  = [Some msAccepted; Some msIgnored; Some msAccepted; Some msIgnored].
Proof. vm_compute. reflexivity. Qed.
Example C33_formula_words : forall o,
  Forall (fun w => visible w /\ plain_word w /\ clean w /\
     word_means ex_env false (ex_item (str "linux.iso") 5) o w (existsb (beqb w) [str "linux"; str "-beta"])) (fwords ex_formula).
Proof.
  intros o. repeat constructor; try discriminate; try (vm_compute; intuition discriminate);
    eexists; eexists; (split; [vm_compute; reflexivity|split; reflexivity]).
Qed.

(** A minus sign in front of a group has no effect. *)
Theorem C33_negated_group_refuted : exists e i,
  (exists r, filter_item e (str "A: linux") [] false 0 i = Some r /\ m_status r = msAccepted) /\
  (exists r, filter_item e (str "A: -( linux )") [] false 0 i = Some r /\ m_status r = msAccepted).
Proof.
  exists ex_env, (ex_item (str "linux.iso") 5).
  split; eexists; (split; [vm_compute; reflexivity|reflexivity]).
Qed.
Print Assumptions C33_negated_group_refuted.

(** ** C34: the first decisive rule *)
Theorem C34_first_decisive_rule : forall e i l o res,
  filter_match e l 0 i o = Some res <-> outcome e i l 0 o res.
Proof. intros. split; [apply filter_outcome|apply outcome_filter]. Qed.
Print Assumptions C34_first_decisive_rule.
Theorem C34_later_rules : forall e i pre u post post' o res,
  filter_match e (pre ++ Some u :: post) 0 i o = Some res -> m_rule res = Z.of_nat (length pre) + 1 ->
  filter_match e (pre ++ Some u :: post') 0 i o = Some res.
Proof. exact later_rules. Qed.
Print Assumptions C34_later_rules.
(** What a rule's options do; options it does not mention keep what the feed or an earlier
    rule has set. *)
Theorem C34_options : forall r i o, options_set r i o (apply_options r i o).
Proof. exact apply_options_ok. Qed.
Print Assumptions C34_options.
Example C34_ex :
  map (fun t => match filter_item ex_env (str "O(c:isos): linux%Q: size:>10MB%R: beta%A: *%R: zebra") [] false 0
                        (ex_item (str (fst t)) (snd t)) with
                | Some r => Some (m_status r, m_rule r, p_category (m_opts r)) | None => None end)
      [("linux.iso", 20000000); ("linux.iso", 2000); ("x.beta", 20000000); ("zebra", 20000000)]%string
  = [Some (msAccepted, 4, str "isos"); Some (msRejected, 2, str "isos"); Some (msRejected, 3, []); Some (msAccepted, 4, [])].
Proof. vm_compute. reflexivity. Qed.

(** ** C68: text terms *)
(** The separators of words are the punctuation characters and the blank. *)
Theorem C68_separators : forall c, In c word_seps <-> punctuation c.
Proof. exact seps_punct. Qed.
Print Assumptions C68_separators.
(** A word of a rule is true when a word of the title matches it as mask; when it has
    separators in it, or is enclosed in asterisks, when any part of the title matches. *)
Theorem C68_text_term : forall e want i o w, simple_text w -> ~ In 0 (i_title i) ->
  exists b, word_means e want i o w b /\
    (anywhere word_seps w -> (b = true <-> inside w (i_title i))) /\
    (~ anywhere word_seps w -> (b = true <-> exists x, word_of word_seps (i_title i) x /\ glob wild_char w x)).
Proof. exact text_term. Qed.
Print Assumptions C68_text_term.
Example C68_simple : simple_text (str "lin*x").
Proof. repeat split; try discriminate; vm_compute; intuition discriminate. Qed.
Example C68_not_anywhere : ~ anywhere word_seps (str "lin*x").
Proof.
  intros [(m & E)|(c & H & K & N)]; [discriminate E|]. apply seps_punct in K. unfold punctuation in K. vm_compute in H.
  repeat (destruct H as [<-|H]; [lia|]); contradiction.
Qed.
Example C68_anywhere : anywhere word_seps (str "x.iso").
Proof. right. exists 46. repeat split; try discriminate; vm_compute; intuition. Qed.

(** ** C69: size and age terms *)
Theorem C69_size_term : forall e want i o n u mult sg R, sign sg R -> unit_text u mult -> 0 <= n -> n * mult < 2 ^ 53 ->
  exists b, word_means e want i o (str "size:" ++ sg ++ udec n ++ u) b /\ (b = true <-> R (i_size i) (n * mult)).
Proof. exact size_term. Qed.
Print Assumptions C69_size_term.
Theorem C69_age_term : forall e want i o n u mult sg R, sign sg R -> age_text u mult -> 0 <= n -> n * mult < 2 ^ 53 ->
  exists b, word_means e want i o (str "age:" ++ sg ++ udec n ++ u) b /\ (b = true <-> R (e_now e - i_time i) (n * mult)).
Proof. exact age_term. Qed.
Print Assumptions C69_age_term.
Example C69_ex : str "size:" ++ str ">=" ++ udec 200 ++ str "MB" = str "size:>=200MB" /\
  str "age:" ++ str "<" ++ udec 3 ++ str "h" = str "age:<3h" /\
  sign (str ">=") (fun a b => a >= b) /\ unit_text (str "MB") 1048576 /\ age_text (str "h") 3600.
Proof. split; [vm_compute; reflexivity|]. split; [vm_compute; reflexivity|]. repeat constructor; cbn; tauto. Qed.

(** ** C70: references *)
(** When no group is empty, the references are the matched parts of the text. *)
Theorem C70_references_partial : forall s g off, Forall (fun p => 0 < snd p) g ->
  ref_values true s off g = map (fun p => firstn (Z.to_nat (snd p)) (skipn (Z.to_nat (fst p)) s)) (skipn off g).
Proof. exact refs_ok. Qed.
Print Assumptions C70_references_partial.
Example C70_ex : exists r, filter_item ex_env (str "A(c:${1}-${2}): s*e??") [] false 0 (ex_item (str "show.s01e42.x") 5) = Some r /\
    p_category (m_opts r) = str "01-42".
Proof. eexists. split; [vm_compute; reflexivity|vm_compute; reflexivity]. Qed.
(** A mask searched anywhere in the text: the references are the parts of the text the
    asterisks of the mask as the user wrote it stand for, in order. Missing: masks with
    question marks after an asterisk and groups that match nothing. *)
Theorem C70_inside_partial : forall param s refs, ~ In 0 s -> anywhere word_seps param ->
  Forall (fun m => m <> 63 /\ m <> 35) param -> match_text true param s = Some (true, refs) ->
  exists a m b g, s = a ++ m ++ b /\ division (Z.of_nat (length a)) (items param) m g /\
    (Forall (fun p => 0 < snd p) g -> firstn (length g) refs = map (group_text s) g).
Proof. exact inside_refs. Qed.
Print Assumptions C70_inside_partial.
(** A mask matched word by word: the references are parts of one word. *)
Theorem C70_word_partial : forall param s refs, ~ In 0 s -> ~ anywhere word_seps param ->
  (forall a b, param = a ++ 42 :: b -> Forall (fun m => m <> 63 /\ m <> 35) b) ->
  match_text true param s = Some (true, refs) ->
  exists w g, word_of word_seps s w /\ division 0 (items param) w g /\
    (Forall (fun p => 0 < snd p) g -> refs = map (group_text w) g).
Proof. exact word_refs. Qed.
Print Assumptions C70_word_partial.
(** Up to 100 references in an option are replaced by what they mean, the rest of the option
    stays. *)
Theorem C70_expand : forall i refs n src out, expands i refs n src out -> (n <= 100)%nat ->
  expand_refs 100 i refs src = out.
Proof. exact expand_ok100. Qed.
Print Assumptions C70_expand.
Example C70_expand_ex :
  expands (ex_item [] 5) [str "ab"; str "cd"] 2 (str "x${2}-y${1}z") (str "xcd-yabz") /\
  match_text true (str "a*c.d*f") (str "xx abbc.deefg") = Some (true, [str "bb"; str "ee"; str "g"]).
Proof.
  split; [|vm_compute; reflexivity].
  apply (ex_ref _ _ 1 (str "x") (str "2") (str "cd") (str "-y${1}z") (str "-yabz")).
  - vm_compute. intuition discriminate.
  - right. right. exists 1%nat. split; [reflexivity|]. split; reflexivity.
  - vm_compute. intuition discriminate.
  - apply (ex_ref _ _ 0 (str "-y") (str "1") (str "ab") (str "z") (str "z")).
    + vm_compute. intuition discriminate.
    + right. right. exists 0%nat. split; [reflexivity|]. split; reflexivity.
    + vm_compute. intuition discriminate.
    + constructor. vm_compute. intuition discriminate.
Qed.
(** An asterisk that matches nothing gives the rest of the word instead of the empty text. *)
Theorem C70_empty_group_refuted : exists e i r, i_title i = str "ab" /\
  filter_item e (str "A(c:${1}): a*b") [] false 0 i = Some r /\ p_category (m_opts r) = str "b".
Proof. eexists ex_env, (ex_item (str "ab") 5), _. split; [reflexivity|]. split; [vm_compute; reflexivity|reflexivity]. Qed.
Print Assumptions C70_empty_group_refuted.

(** ** C71: compiling a filter reads inside the filter text *)
(** Unless the text ends in one of ) ( : - + %. *)
Theorem C71_reads_inside_partial : forall e s c, ~ In c [41; 58; 40; 45; 43; 37] -> compile_filter e (s ++ [c]) <> None.
Proof. exact compile_filter_safe. Qed.
Print Assumptions C71_reads_inside_partial.
Example C71_ex : exists l, compile_filter ex_env (str "A(c:x): a | ( b c:d )%R:%#-%O(p:1)size:<5 ") = Some l.
Proof. eexists. vm_compute. reflexivity. Qed.
(** An empty term at the end of the text is read past the end of the text. *)
Theorem C71_reads_inside_refuted : exists e s, compile_filter e s = None.
Proof. exists ex_env, (str "A:"). vm_compute. reflexivity. Qed.
Print Assumptions C71_reads_inside_refuted.

(** ** C72: feed history *)
(** Over any sequence of fetches of any feeds and completed downloads, no url is queued
    twice, and none that was in the history before. *)
Theorem C72_queued_once : forall ops hist h2 added, feed_run ops hist = (h2, added) ->
  NoDup added /\ (forall u, In u added -> ~ In u (map h_url hist)).
Proof. intros ops hist h2 added H. destruct (feed_run_ok _ _ _ _ H) as (A & B & _). auto. Qed.
Print Assumptions C72_queued_once.
(** One fetch queues exactly the urls not in the history, or none on a first fetch with backlog. *)
Theorem C72_new_urls : forall now fin f urls hist f' h2 added, process_feed now fin f urls hist = (f', h2, added) ->
  forall u, In u added <-> ~ (f_last f = 0 /\ f_backlog f = true) /\ In u urls /\ ~ In u (map h_url hist).
Proof.
  intros now fin f urls hist f' h2 added H u. unfold process_feed in H.
  destruct (process_urls _ _ urls hist) as [h3 a3] eqn:E. inversion H; subst; clear H.
  destruct (process_urls_ok _ _ _ _ _ _ E) as (_ & _ & C). rewrite C.
  destruct (f_last f =? 0) eqn:L, (f_backlog f); cbn [andb]; intuition (try discriminate); lia.
Qed.
Print Assumptions C72_new_urls.
(** The clean-up keeps every url that the feed listed when it was fetched last, when the
    fetch took less than FeedHistory days. *)
Theorem C72_listed_kept : forall now fin f urls hist f' h2 added now2 days feeds u,
  process_feed now fin f urls hist = (f', h2, added) -> In f' feeds -> In u urls -> fin - days * 86400 <= now ->
  hist_find (cleanup_history now2 days feeds h2) u = true.
Proof. exact listed_kept. Qed.
Print Assumptions C72_listed_kept.
Theorem C72_cleanup : forall now days feeds hist h, In h (cleanup_history now days feeds hist) ->
  In h hist /\ oldest_update now feeds - days * 86400 <= h_seen h.
Proof. exact cleanup_drops. Qed.
Print Assumptions C72_cleanup.
Example C72_ex : snd (feed_run [OFetch 10 11 (mkFeed true 15 5 0 0) [str "a"; str "b"; str "a"]; OCompleted 12 (str "c");
    OFetch 20 21 (mkFeed true 15 11 0 0) [str "b"; str "c"; str "d"]] []) = [str "a"; str "b"; str "d"].
Proof. vm_compute. reflexivity. Qed.
(** With FeedHistory=0 (allowed and documented) a url listed in every fetch is queued again
    when the clock moves on during the fetch. *)
Theorem C72_zero_history_refuted : exists f url t, f_last f > 0 /\
  let '(f1, h1, a1) := process_feed t (t + 1) f [url] [] in
  let h2 := cleanup_history (t + 2) 0 [f1] h1 in
  let '(_, _, a2) := process_feed (t + 900) (t + 900) f1 [url] h2 in
  a1 = [url] /\ a2 = [url].
Proof. exists (mkFeed false 15 5 0 0), (str "u"), 100. vm_compute. auto. Qed.
Print Assumptions C72_zero_history_refuted.

(** ** C73: waiting after failed updates *)
(** One minute after the first failure, doubled with every further one, never more than the
    interval of the feed. *)
Theorem C73_backoff : forall times t f, 0 < f_interval f -> f_lastint f = 0 ->
  let f' := fail_times (times ++ [t]) f in
  f_lastint f' = Z.min (60 * 2 ^ Z.of_nat (length times)) (60 * f_interval f) /\ f_next f' = t + f_lastint f'.
Proof. exact backoff. Qed.
Print Assumptions C73_backoff.
Theorem C73_success : forall now f, f_next (next_update now true f) = now + 60 * f_interval f /\
  f_lastint (next_update now true f) = 0.
Proof. intros. cbn [next_update f_next f_lastint]. lia. Qed.
Print Assumptions C73_success.
(** Between the update and the time set for the next one the feed is not due; then it is. *)
Theorem C73_due : forall now now2 ok f, 0 < f_interval f -> 0 <= f_lastint f -> 0 < now -> now <= now2 ->
  (feed_due now2 (next_update now ok f) = true <-> f_next (next_update now ok f) <= now2).
Proof.
  intros now now2 ok f I L N H. unfold feed_due. destruct ok; cbn [next_update f_next f_interval]; lia.
Qed.
Print Assumptions C73_due.
Example C73_ex : map (fun n => f_lastint (fail_times (repeat 1000 n) (mkFeed false 15 0 0 0))) [1; 2; 3; 4; 5; 6]%nat
  = [60; 120; 240; 480; 900; 900].
Proof. vm_compute. reflexivity. Qed.
