(** A decoder which remembers the yEnc format reads a yEnc article like a new one. *)
From Coq Require Import String.
From Verif Require Import Base NumFmt YencModel YencSpec CrcModel CrcSpec DecoderModel DecoderSpec DecoderProofs ArticleProofs.
Open Scope list_scope. Open Scope Z_scope.

Lemma prefix_cut p l r : nolf p -> prefixb p (l ++ r) = true -> In 10 l -> prefixb p l = true.
Proof.
  intros P H I. apply in_split in I as (a & b & ->). replace ((a ++ 10 :: b) ++ r) with ((a ++ [10]) ++ (b ++ r)) in H by (rewrite <- !app_assoc; reflexivity).
  replace (a ++ 10 :: b) with ((a ++ [10]) ++ b) by (rewrite <- app_assoc; reflexivity). rewrite prefixb_line in * by exact P. exact H.
Qed.

Lemma retry_run chunks : forall d lb, fmt d = efUnknown -> mbody d = false -> meof d = false -> linebuf d = lb -> nonul (lb ++ concat chunks) -> ~ In 10 lb ->
  prefixb (str "=ybegin ") (lb ++ concat chunks) = true -> In 10 (concat chunks) ->
  download (set_fmt d efYenc) chunks = download d chunks.
Proof.
  induction chunks as [|c cs IH]; intros d lb F B E L N NL P I; [contradiction|].
  cbn [concat] in *. cbn [download]. replace (meof (set_fmt d efYenc)) with false by (symmetry; exact E). rewrite E.
  assert (Nc : nonul (lb ++ c)) by (apply nonul_app; rewrite !nonul_app in N; tauto).
  assert (AB : append_buf (linebuf d) c = lb ++ c) by (unfold append_buf; rewrite L, strncpy_pad_id; [reflexivity|apply nonul_app in Nc; tauto]).
  assert (D : forall x, fmt x = efUnknown \/ fmt x = efYenc -> mbody x = false -> linebuf x = lb -> decode_buffer x c = line_loop (S (length (lb ++ c))) (set_linebuf x (lb ++ c)) (lb ++ c) 0 c []).
  { intros x _ Bx Lx. unfold decode_buffer. rewrite Bx. cbn [andb]. rewrite Lx, <- L, AB, L. reflexivity. }
  rewrite (D d (or_introl F) B L), (D (set_fmt d efYenc) (or_intror eq_refl) B L). clear D.
  cbn [line_loop]. destruct (find_nl (lb ++ c)) as [[l rest]|] eqn:FN.
  - assert (FN' := find_nl_some _ _ _ FN). destruct FN' as (EL & a0 & -> & NA).
    assert (Pl : prefixb (str "=ybegin ") (lb ++ c) = true).
    { apply (prefix_cut _ _ (concat cs)); [apply nolf_lit; reflexivity|rewrite <- app_assoc; exact P|]. rewrite EL. apply in_app_iff. left. apply in_app_iff. right. left. reflexivity. }
    rewrite (cstr_id _ Nc). assert (Hd : nth 0 (lb ++ c) 0 = 61) by (apply prefixb_iff in Pl as [t ->]; reflexivity). rewrite Hd. change (61 =? 46) with false. cbn [andb]. cbv zeta.
    assert (Fd : fmt (set_linebuf d (lb ++ c)) = efUnknown) by exact F. rewrite Fd.
    assert (DF : detect_format (lb ++ c) (Z.of_nat (length (a0 ++ [10]))) = efYenc) by (unfold detect_format; rewrite Pl; reflexivity). rewrite DF.
    change (fmt (set_linebuf (set_fmt d efYenc) (lb ++ c))) with efYenc.
    change (set_linebuf (set_fmt d efYenc) (lb ++ c)) with (set_fmt (set_linebuf d (lb ++ c)) efYenc). reflexivity.
  - assert (NF := find_nl_none _ Nc FN). rewrite (cstr_id _ Nc).
    assert (IC : In 10 (concat cs)).
    { apply in_app_iff in I as [I | I]; [|exact I]. unfold nolf in NF. rewrite Forall_forall in NF. exfalso. apply (NF 10); [apply in_app_iff; right; exact I|reflexivity]. }
    assert (NL' : ~ In 10 (lb ++ c)) by (intros X; unfold nolf in NF; rewrite Forall_forall in NF; apply (NF 10 X); reflexivity).
    assert (IH' := IH (set_linebuf d (lb ++ c)) (lb ++ c) F B E eq_refl). rewrite <- app_assoc in IH'. specialize (IH' N NL' P IC).
    destruct (lb ++ c) as [|x y] eqn:LC.
    + cbn [db_dec db_len db_buf db_segs db_ok]. change (set_linebuf (set_linebuf (set_fmt d efYenc) []) []) with (set_fmt (set_linebuf d []) efYenc).
      change (set_linebuf (set_linebuf d []) []) with (set_linebuf d []). rewrite IH'. reflexivity.
    + cbn [db_dec db_len db_buf db_segs db_ok]. change (set_linebuf (set_linebuf (set_fmt d efYenc) (x :: y)) (x :: y)) with (set_fmt (set_linebuf d (x :: y)) efYenc).
      change (set_linebuf (set_linebuf d (x :: y)) (x :: y)) with (set_linebuf d (x :: y)). rewrite IH'. reflexivity.
Qed.

Lemma retry_ok cc before part fs offset name data chunks :
  before = efUnknown \/ before = efYenc -> bytes_ok data -> clean_name name -> 0 <= fs -> 0 <= offset ->
  concat chunks = article part fs offset name data ->
  let '(d, w, _, ok) := download (set_fmt (dec_init cc) before) chunks in
  ok = true /\ w = data /\ meof d = true /\ check d = dsFinished /\
  fname d = name /\ msize d = fs /\ beginpos d = offset + 1 /\
  endpos d = offset + Z.of_nat (length data).
Proof.
  intros Fb Hb Hn Hfs Ho Hch.
  assert (E : download (set_fmt (dec_init cc) before) chunks = download (dec_init cc) chunks).
  { destruct Fb as [-> | ->]; [reflexivity|]. apply (retry_run chunks (dec_init cc) []); try reflexivity; try rewrite Hch; cbn [app].
    - apply Forall_forall. intros x Hx ->. exact (article_nonul part fs offset name data Hb Hn Hx).
    - intros [].
    - unfold article, article_head. change (str "=ybegin part=") with (str "=ybegin " ++ str "part="). rewrite <- !app_assoc. apply prefixb_app.
    - unfold article. rewrite !in_app_iff. right. right. right. right. right. left. reflexivity. }
  rewrite E. exact (article_roundtrip cc part fs offset name data chunks Hb Hn Hfs Ho Hch).
Qed.
