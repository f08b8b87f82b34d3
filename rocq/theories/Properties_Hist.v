(** C134-C139: how long items of the history stay, editing them, keeping the files of a download, its statistics and articles
    when it is taken back into the queue, downloading from scratch, files listed twice. *)
From Coq Require Import String.
From Coq Require Import Permutation.
From Verif Require Import Base InfoModel InfoSpec InfoProofs StatsModel StatsSpec StatsProofs StatsProofs2 HistModel HistSpec
  HistProofs HistProofs2 HistProofs3 HistProofs4 HistProofs5 HistProofs6 HistProofs7.
Open Scope list_scope. Open Scope Z_scope.

Definition hx_item (id : Z) (k : hkind) (time : Z) (name : string) : hitem :=
  mkH id k time (str name) [] [] [] 0 0 0 false 0 (str "/d/" ++ str name) (str "/n/" ++ str name ++ str "|/n/more").
Definition hx_disk : disk := mkDisk [str "/d/a"; str "/d/b"; str "/d/c"] [str "/n/a"; str "/n/b"; str "/n/more"; str "/n/x"].
Definition hx_hist : list hitem := [hx_item 1 hkNzb 2000000 "a"; hx_item 2 hkUrl 100 "b"; hx_item 3 hkDup 50 "c"; hx_item 4 hkNzb 100 "b"].

(** ** C134: how long items stay *)

(** Hidden items and items not older than KeepHistory days stay; older ones are hidden or removed; of files only the
    nzb-files of the items that leave are deleted, and only if asked for. *)
Theorem C134_kept_as_long_as_configured : forall nc dc keep now l d l' d',
  service_work nc dc keep now l d = Some (l', d') ->
  cleaned dc (now - keep * 86400) l l' /\ d_dirs d' = d_dirs d /\
  (forall x, In x (d_files d') <-> In x (d_files d) /\
     ~ (nc = true /\ exists h, In h l /\ h_kind h = hkNzb /\ h_time h < now - keep * 86400 /\ named_in x (h_nzb h))).
Proof. exact service_ok. Qed.
Print Assumptions C134_kept_as_long_as_configured.

Theorem C134_runs : forall nc dc keep now l d, 0 <= keep < 24856 -> service_work nc dc keep now l d <> None.
Proof. exact service_some. Qed.
Print Assumptions C134_runs.

Example C134_ex : exists l' d', service_work true true 1 2000000 hx_hist hx_disk = Some (l', d') /\
  map h_id l' = [1; 3; 4] /\ map h_kind l' = [hkNzb; hkDup; hkDup] /\ d_files d' = [str "/n/a"; str "/n/x"] /\ 0 <= 1 < 24856.
Proof. eexists. eexists. split; [vm_compute; reflexivity|]. vm_compute. repeat split; discriminate. Qed.

(** The number of days is multiplied in an int: from 24856 days on the behaviour is undefined. *)
Theorem C134_long_refuted : exists keep, forall nc dc now l d, 0 < keep <= 2147483647 /\ service_work nc dc keep now l d = None.
Proof. exists 24856. intros. split; [lia|]. reflexivity. Qed.
Print Assumptions C134_long_refuted.

(** The documentation of KeepHistory says that the files of failed items are deleted when they leave the history; they
    never are. *)
Theorem C134_failed_refuted : exists h d d', h_kind h = hkNzb /\ h_failed h = true /\ In (h_dir h) (d_dirs d) /\
  service_work true false 1 2000000 [h] d = Some ([], d') /\ In (h_dir h) (d_dirs d').
Proof.
  exists (mkH 1 hkNzb 5 (str "a") [] [] [] 0 0 0 true 0 (str "/d/a") (str "/n/a")), hx_disk. eexists.
  split; [reflexivity|]. split; [reflexivity|]. split; [left; reflexivity|]. split; [vm_compute; reflexivity|]. left. reflexivity.
Qed.
Print Assumptions C134_failed_refuted.

(** ** C135: editing *)

(** Items that are not named stay as they are. *)
Theorem C135_others : forall nc dc ps nd a ids s,
  others ids (hs_hist (edit_list nc dc ps nd a ids s)) = others ids (hs_hist s).
Proof. exact edit_others. Qed.
Print Assumptions C135_others.

(** No item gets lost or doubled, unless it is deleted: it is in the history or in the queue. *)
Theorem C135_none_lost : forall nc dc ps nd a ids s, ~ deletes a ->
  Permutation (map h_id (hs_hist (edit_list nc dc ps nd a ids s) ++ hs_queue (edit_list nc dc ps nd a ids s)))
              (map h_id (hs_hist s ++ hs_queue s)).
Proof. exact edit_none_lost. Qed.
Print Assumptions C135_none_lost.

(** Settings are changed for just the items named. *)
Theorem C135_settings : forall nc dc ps nd a ids s, setter a -> NoDup (map h_id (hs_hist s)) ->
  let s' := edit_list nc dc ps nd a ids s in
  hs_queue s' = hs_queue s /\ hs_disk s' = hs_disk s /\
  Forall2 (fun h h' => if listed ids h then set_to a h h' else h' = h) (hs_hist s) (hs_hist s').
Proof. exact set_list. Qed.
Print Assumptions C135_settings.

Theorem C135_parameter : forall nc dc ps nd n v l h r q d ok, NoDup (map h_id (l ++ h :: r)) -> ~ In 61 n ->
  h_kind h <> hkDup -> NoDup (keys (h_params h)) ->
  let s' := edit_list nc dc ps nd (HSetParameter (n ++ 61 :: v)) [h_id h] (mkHS (l ++ h :: r) q d ok) in
  hs_ok s' = true /\ exists h', hs_hist s' = l ++ h' :: r /\
    forall m, find_parameter (h_params h') m =
      if same_nocase n m then match v with [] => None | _ => Some v end else find_parameter (h_params h) m.
Proof.
  intros nc dc ps nd n v l h r q d ok N E K P s'.
  destruct (param_single nc dc ps nd n v l h r q d ok N E K) as (A & h' & B & C). split; [exact A|].
  exists h'. split; [exact B|]. intro m. rewrite C. apply find_set. exact P.
Qed.
Print Assumptions C135_parameter.

(** A download is taken back if what is needed for it is there; it keeps its settings. *)
Theorem C135_taken_back : forall nc dc ps nd a l h r q d ok, takes a -> NoDup (map h_id (l ++ h :: r)) ->
  let s' := edit_list nc dc ps nd a [h_id h] (mkHS (l ++ h :: r) q d ok) in
  (taken ps d a h -> hs_hist s' = l ++ r /\ exists h', hs_queue s' = h' :: q /\ kept_settings h h') /\
  (~ taken ps d a h -> hs_hist s' = l ++ h :: r /\ hs_queue s' = q) /\
  d_files (hs_disk s') = d_files d /\
  (forall x, In x (d_dirs (hs_disk s')) <-> In x (d_dirs d) /\
     ~ (taken ps d a h /\ a = HRedownload /\ h_kind h = hkNzb /\ (x = h_dir h \/ x = nd h))).
Proof. exact take_single. Qed.
Print Assumptions C135_taken_back.

(** Deleting: the item is removed or, for the duplicate check, hidden; of files its nzb-files are deleted if asked for,
    and its directory if it failed or was deleted before. *)
Theorem C135_deleted : forall nc dc ps nd fin l h r q d ok, NoDup (map h_id (l ++ h :: r)) ->
  let s' := edit_list nc dc ps nd (HDelete fin) [h_id h] (mkHS (l ++ h :: r) q d ok) in
  hs_ok s' = true /\ hs_queue s' = q /\
  (fin = true \/ dc = false \/ h_kind h = hkUrl -> hs_hist s' = l ++ r) /\
  (fin = false -> dc = true -> h_kind h = hkNzb -> exists h', hs_hist s' = l ++ h' :: r /\ hidden_of h h') /\
  (fin = false -> dc = true -> h_kind h = hkDup -> hs_hist s' = l ++ h :: r) /\
  (forall x, In x (d_files (hs_disk s')) <->
     In x (d_files d) /\ ~ (h_kind h = hkNzb /\ nc = true /\ named_in x (h_nzb h))) /\
  (forall x, In x (d_dirs (hs_disk s')) <->
     In x (d_dirs d) /\ ~ (h_kind h = hkNzb /\ x = h_dir h /\ (h_deleted h <> 0 \/ h_failed h = true))).
Proof. exact delete_single. Qed.
Print Assumptions C135_deleted.

(** The answer "false" for a single item means that nothing was changed. *)
Theorem C135_refused : forall nc dc ps nd a id s, let s' := edit_list nc dc ps nd a [id] s in
  hs_ok s' = false -> hs_hist s' = hs_hist s /\ hs_queue s' = hs_queue s /\ hs_disk s' = hs_disk s.
Proof. exact single_ok. Qed.
Print Assumptions C135_refused.

Definition hx_state : hstate := mkHS hx_hist [] hx_disk false.
Definition hx_edit (a : haction) (ids : list Z) : hstate := edit_list true true (fun _ => true) h_dir a ids hx_state.
Example C135_ex : NoDup (map h_id hx_hist) /\ setter (HSetName (str "new")) /\
  map h_name (hs_hist (hx_edit (HSetName (str "new")) [3; 1; 9])) = [str "new"; str "b"; str "new"; str "b"] /\
  map h_id (hs_hist (hx_edit HRetry [2; 4])) = [1; 2; 3] /\ map h_id (hs_queue (hx_edit HRetry [2; 4])) = [4] /\
  taken (fun _ => true) hx_disk HRetry (hx_item 4 hkNzb 100 "b") /\ ~ taken (fun _ => true) hx_disk HRetry (hx_item 2 hkUrl 100 "b") /\
  map h_kind (hs_hist (hx_edit (HDelete false) [1; 2])) = [hkDup; hkDup; hkNzb] /\
  d_files (hs_disk (hx_edit (HDelete false) [1; 2])) = [str "/n/b"; str "/n/x"] /\
  hs_ok (hx_edit (HSetCategory (str "tv")) [3]) = false /\
  map h_params (hs_hist (hx_edit (HSetParameter (str "a=b=c")) [4])) = [[]; []; []; [(str "a", str "b=c")]].
Proof.
  split.
  { cbn. repeat (apply NoDup_cons; [cbn; intuition discriminate|]). apply NoDup_nil. }
  split; [exact I|]. split; [vm_compute; reflexivity|]. split; [vm_compute; reflexivity|]. split; [vm_compute; reflexivity|].
  split; [split; [reflexivity|right; left; reflexivity]|]. split; [intros [H _]; discriminate|].
  vm_compute. repeat split.
Qed.

(** With several items the answer is that of the last one found: changes of the others are made, but reported as failed
    and not saved. *)
Theorem C135_answer_refuted : exists s a id1 id2,
  hs_ok (edit_list true true (fun _ => true) h_dir a [id1] s) = true /\
  hs_ok (edit_list true true (fun _ => true) h_dir a [id1; id2] s) = false /\
  map h_cat (hs_hist (edit_list true true (fun _ => true) h_dir a [id1; id2] s)) <> map h_cat (hs_hist s).
Proof. exists hx_state, (HSetCategory (str "tv")), 1, 3. split; [reflexivity|]. split; [reflexivity|]. vm_compute. discriminate. Qed.
Print Assumptions C135_answer_refuted.

(** The answer is "true" though the download could not be taken back. *)
Theorem C135_silent_refuted : exists s a id, takes a /\ hs_ok (edit_list true true (fun _ => true) h_dir a [id] s) = true /\
  hs_hist (edit_list true true (fun _ => true) h_dir a [id] s) = hs_hist s /\
  hs_queue (edit_list true true (fun _ => true) h_dir a [id] s) = hs_queue s /\ exists h, In h (hs_hist s) /\ h_id h = id.
Proof.
  exists hx_state, HRetry, 2. split; [exact I|]. split; [reflexivity|]. split; [reflexivity|]. split; [reflexivity|].
  exists (hx_item 2 hkUrl 100 "b"). split; [right; left; reflexivity|reflexivity].
Qed.
Print Assumptions C135_silent_refuted.

(** A merged download has several nzb-files; though all of them exist it cannot be downloaded again. *)
Theorem C135_merged_refuted : exists h s, In h (hs_hist s) /\ h_kind h = hkNzb /\
  (forall x, named_in x (h_nzb h) -> In x (d_files (hs_disk s))) /\
  hs_queue (edit_list true true (fun _ => true) h_dir HRedownload [h_id h] s) = hs_queue s.
Proof.
  exists (hx_item 1 hkNzb 2000000 "a"), hx_state. split; [left; reflexivity|]. split; [reflexivity|]. split.
  - intros x H. apply parts_in in H. vm_compute in H. destruct H as [<-|[<-|[]]]; [left|right; right; left]; reflexivity.
  - vm_compute. reflexivity.
Qed.
Print Assumptions C135_merged_refuted.

(** ** C136: the files of a download *)

(** The files of a download are kept until they are not needed any more. *)
Theorem C136_kept : forall par unpack deleted parking wiped g cs,
  (forall x, saved x -> g_st g x = summary x (g_files g) (g_done g)) ->
  Forall (fun f => f_num f FActive = 0) (g_files g) ->
  let '(g', cs', n) := add_to_history par unpack deleted parking wiped g cs in
  (not_needed par unpack deleted parking wiped (g_done g') -> cs' = []) /\
  (~ not_needed par unpack deleted parking wiped (g_done g') -> cs' = cs ++ map (mkC cfNone) (g_files g)) /\
  (n = 0 <-> Forall (fun c => c_status c <> cfNone) cs' /\ (forall a c, cs' = a ++ [c] -> c_status c <> cfPartial)).
Proof. exact keep_ok. Qed.
Print Assumptions C136_kept.

(** A failed download that was not deleted keeps all its files. *)
Theorem C136_failed : forall par unpack g cs, par = 2 \/ unpack = 2 \/ unpack = 4 \/ unpack = 5 ->
  (forall x, saved x -> g_st g x = summary x (g_files g) (g_done g)) ->
  Forall (fun f => f_num f FActive = 0) (g_files g) ->
  snd (fst (add_to_history par unpack 0 false false g cs)) = cs ++ map (mkC cfNone) (g_files g).
Proof.
  intros par unpack g cs U H A. pose proof (keep_ok par unpack 0 false false g cs H A) as K.
  destruct (add_to_history par unpack 0 false false g cs) as [[g' cs'] n]. destruct K as (_ & K & _). cbn [fst snd].
  apply K. unfold not_needed. intros [E|(_ & [E|[E|[E|E]]])]; try lia; try congruence.
Qed.
Print Assumptions C136_failed.

(** The statistics of the item are the totals of all its files. *)
Theorem C136_sums : forall par unpack deleted parking wiped g cs,
  (forall x, saved x -> g_st g x = summary x (g_files g) (g_done g)) ->
  Forall (fun f => f_num f FActive = 0) (g_files g) ->
  let '(g', cs', n) := add_to_history par unpack deleted parking wiped g cs in
  g_files g' = [] /\ g_done g' = rev (g_files g) ++ g_done g /\ history_sums g' (g_done g') /\
  (cs' = [] \/ cs' = cs ++ map (mkC cfNone) (g_files g)).
Proof. exact history_ok. Qed.
Print Assumptions C136_sums.

(** A file with the given articles, as it is in or leaves the queue. *)
Definition hx_file (id : Z) (par : bool) (arts : list art) : finfo :=
  mkF id (fun x => match x with
                   | FSize => arts_size (fun _ => true) arts
                   | FRem => arts_size open_art arts
                   | FSucc => arts_size good_art arts
                   | FFail => arts_size bad_art arts
                   | FTotal => Z.of_nat (length arts)
                   | FSuccArt => arts_count good_art arts
                   | FFailArt => arts_count bad_art arts
                   | FCompl => arts_count good_art arts + arts_count bad_art arts
                   | _ => 0
                   end) false par false false arts [].
Definition hx_whole := hx_file 1 false [(10, aiFinished); (10, aiFinished)].
Definition hx_half := hx_file 2 false [(10, aiFinished); (10, aiFailed); (7, aiUndefined)].
Definition hx_lost := hx_file 3 false [(10, aiFailed); (5, aiFailed)].
Definition hx_par := hx_file 4 true [(10, aiUndefined); (5, aiUndefined)].
Definition hx_done : list cfile := [mkC cfSuccess hx_whole; mkC cfPartial hx_half; mkC cfFailure hx_lost].
Definition hx_group : group :=
  mkG (fun x => summary x [hx_par] (map c_f hx_done)) [hx_par] (map c_f hx_done) [] [] false false false [] 0.

Lemma hx_ok : forall id par arts, file_ok (hx_file id par arts).
Proof.
  intros. constructor; try reflexivity; cbn [f_num hx_file f_arts]; try lia. rewrite all_sums. lia.
Qed.

Example C136_ex : (forall x, saved x -> g_st hx_group x = summary x (g_files hx_group) (g_done hx_group)) /\
  Forall (fun f => f_num f FActive = 0) (g_files hx_group) /\
  (let '(g', cs', n) := add_to_history 2 0 0 false false hx_group hx_done in
   cs' = hx_done ++ [mkC cfNone hx_par] /\ n = 1 /\ g_st g' Size = 77 /\ g_st g' Failed = 25) /\
  (let '(g', cs', n) := add_to_history 3 3 0 false false hx_group hx_done in cs' = [] /\ n = 0).
Proof. split; [reflexivity|]. split; [constructor; [reflexivity|constructor]|]. vm_compute. repeat split. Qed.

(** ** C137 and C138: taken back *)

(** The statistics are the totals over the files that are downloaded again and those that are not. *)
Theorem C137_sums_after_return_partial : forall w rf g l rest, Forall left_queue l -> Forall (disk_has w) l ->
  g_files g = [] -> history_sums g (map c_f l ++ rest) ->
  let '(g', l') := retry w rf g l in
  forall x, g_st g' x = summary x (g_files g') (map c_f l' ++ rest).
Proof.
  intros w rf g l rest A B C D. pose proof (retry_ok w rf g l rest A B C D) as K.
  destruct (retry w rf g l) as [g' l']. tauto.
Qed.
Print Assumptions C137_sums_after_return_partial.

(** Files that left the queue by themselves or by deletion have a status that says what became of them. *)
Theorem C137_status : forall f, file_ok f -> Forall (fun a : art => snd a <> aiRunning) (f_arts f) ->
  f_num f FActive = 0 -> left_queue (mkC (status_of f) f).
Proof. exact status_ok. Qed.
Print Assumptions C137_status.

(** Just the files of which something is missing are downloaded again, and of them just the articles that are missing. *)
Theorem C138_only_what_is_missing : forall w rf g l rest, Forall left_queue l -> Forall (disk_has w) l ->
  g_files g = [] -> history_sums g (map c_f l ++ rest) ->
  let '(g', l') := retry w rf g l in
  l' = filter (fun c => negb (wanted w rf c)) l /\ Forall2 (back w rf) (filter (wanted w rf) l) (g_files g').
Proof.
  intros w rf g l rest A B C D. pose proof (retry_ok w rf g l rest A B C D) as K.
  destruct (retry w rf g l) as [g' l']. tauto.
Qed.
Print Assumptions C138_only_what_is_missing.

(** The disk of the example: descriptions of all files, state of the second one, whose output file exists. *)
Definition hx_desc (f : finfo) : finfo :=
  mkF (f_id f) (fun x => match x with
                         | FSize | FMissed | FTotal | FMissedArt => f_num f x
                         | FRem => f_num f FSize - f_num f FMissed
                         | _ => 0
                         end) false (f_par f) false false (map (fun a : art => (fst a, aiUndefined)) (f_arts f)) [].
Definition hx_world : world :=
  mkW (fun id => if id =? 2 then Some (hx_desc hx_half) else if id =? 3 then Some (hx_desc hx_lost)
                 else if id =? 4 then Some (hx_desc hx_par) else None)
      (fun id => if id =? 2 then Some hx_half else None) (fun id => id =? 2) (fun _ => false).
Definition hx_all : list cfile := hx_done ++ [mkC cfNone hx_par].
Definition hx_item_stats : group :=
  mkG (fun x => if fld_eqb x Active then 0 else total (finished x) (map c_f hx_all)) [] [] [] [] false false false [] 0.

Lemma hx_desc_ok : forall f, described f (hx_desc f).
Proof. intro f. repeat split; try (intros []; reflexivity). Qed.

Example C137_status_ex : map status_of [hx_whole; hx_half; hx_lost; hx_par] = [cfSuccess; cfPartial; cfFailure; cfNone].
Proof. reflexivity. Qed.
Example C137_ex : Forall left_queue hx_all /\ Forall (disk_has hx_world) hx_all /\ g_files hx_item_stats = [] /\
  history_sums hx_item_stats (map c_f hx_all ++ []) /\
  (let '(g', l') := retry hx_world true hx_item_stats hx_all in
   map f_id (g_files g') = [2; 3; 4] /\ map (fun f => map snd (f_arts f)) (g_files g') =
     [[aiFinished; aiUndefined; aiUndefined]; [aiUndefined; aiUndefined]; [aiUndefined; aiUndefined]] /\
   g_st g' Remaining = 47 /\ g_st g' CurSuccess = 30 /\ g_st g' CurFailed = 0) /\
  (let '(g', l') := retry hx_world false hx_item_stats hx_all in
   map f_id (g_files g') = [2; 4] /\ map (fun f => map snd (f_arts f)) (g_files g') =
     [[aiFinished; aiFailed; aiUndefined]; [aiUndefined; aiUndefined]] /\ g_st g' Remaining = 22 /\ g_st g' CurFailed = 25).
Proof.
  assert (LQ : forall s id par arts, Forall (fun a : art => snd a <> aiRunning) arts ->
    match s with
    | cfNone => arts_count good_art arts = 0 /\ arts_count bad_art arts = 0
    | cfFailure => Z.of_nat (length arts) = arts_count bad_art arts
    | _ => True
    end -> left_queue (mkC s (hx_file id par arts))).
  { intros s id par arts R Q. split; [apply hx_ok|]. split; [exact R|]. split; [reflexivity|]. destruct s; auto. }
  assert (NR : forall l : list art, forallb (fun a => match snd a with aiRunning => false | _ => true end) l = true ->
    Forall (fun a : art => snd a <> aiRunning) l).
  { intros l H. apply Forall_forall. intros a Ia E. rewrite forallb_forall in H. specialize (H a Ia). rewrite E in H. discriminate. }
  split. { unfold hx_all, hx_done. cbn [app]. repeat (apply Forall_cons; [apply LQ; [apply NR; reflexivity|vm_compute; auto]|]). apply Forall_nil. }
  split. { unfold hx_all, hx_done. cbn [app].
    apply Forall_cons. { split; intros d H; cbn in H; discriminate H. }
    apply Forall_cons. { split; intros d H; cbn in H; injection H as <-; [apply hx_desc_ok|]. repeat split; try (intros []; reflexivity). }
    apply Forall_cons. { split; intros d H; cbn in H; [injection H as <-; apply hx_desc_ok|discriminate]. }
    apply Forall_cons. { split; intros d H; cbn in H; [injection H as <-; apply hx_desc_ok|discriminate]. }
    apply Forall_nil. }
  split; [reflexivity|]. split. { intros x Hx. rewrite app_nil_r. destruct x; cbn in Hx; try tauto; vm_compute; reflexivity. }
  vm_compute. repeat split.
Qed.

(** What was downloaded of a paused file counts twice: it is parked as a file that was not started, its state is not read
    when it is taken back, and its articles are downloaded once more. *)
Theorem C137_paused_refuted : exists w g f, file_ok f /\ 0 < f_num f FSuccArt /\
  (forall x, saved x -> g_st g x = summary x (g_files g) (g_done g)) /\ g_files g = [f] /\
  (let '(g1, l1, _) := add_to_history 2 0 0 false false g [] in
   Forall (disk_has w) l1 /\
   let '(g2, _) := retry w true g1 l1 in
   map f_id (g_files g2) = [f_id f] /\ 0 < g_st g2 CurSuccess /\ g_st g2 CurSuccess + g_st g2 Remaining > g_st g2 Size).
Proof.
  set (f := hx_file 2 true [(10, aiFinished); (10, aiUndefined)]).
  exists (mkW (fun id => if id =? 2 then Some (hx_desc f) else None) (fun id => if id =? 2 then Some f else None) (fun _ => true) (fun _ => false)).
  exists (mkG (fun x => summary x [f] []) [f] [] [] [] false false false [] 0), f.
  split; [apply hx_ok|]. split; [reflexivity|]. split; [reflexivity|]. split; [reflexivity|].
  unfold add_to_history. cbn [g_files fold_left park_one fst snd]. cbn [forget_files]. split.
  - apply Forall_cons; [|apply Forall_nil]. split; intros d H; cbn in H; injection H as <-; [apply hx_desc_ok|].
    repeat split; try (intros []; reflexivity).
  - vm_compute. repeat split.
Qed.
Print Assumptions C137_paused_refuted.

(** The servers' counts of a file that failed as a whole stay when it is taken back, those of other files are taken off. *)
Theorem C137_servers_refuted : exists w g c, left_queue c /\ disk_has w c /\ c_status c = cfFailure /\
  g_srv g = f_srv (c_f c) /\ (let '(g', l') := retry w true g [c] in
  map f_id (g_files g') = [f_id (c_f c)] /\ l' = [] /\ bad_of (g_srv g') 1 = 2).
Proof.
  set (f := with_srv [mkS 1 0 2] hx_lost).
  exists (mkW (fun id => if id =? 3 then Some (hx_desc f) else None) (fun _ => None) (fun _ => false) (fun _ => false)).
  exists (mkG (fun _ => 0) [] [] [mkS 1 0 2] [] false false false [] 0), (mkC cfFailure f).
  split. { split; [pose proof (hx_ok 3 false [(10, aiFailed); (5, aiFailed)]) as H; destruct H; constructor; assumption|].
    split; [apply Forall_cons; [discriminate|apply Forall_cons; [discriminate|apply Forall_nil]]|]. split; reflexivity. }
  split. { split; intros d H; cbn in H; [injection H as <-; apply hx_desc_ok|discriminate]. }
  split; [reflexivity|]. split; [reflexivity|]. vm_compute. repeat split.
Qed.
Print Assumptions C137_servers_refuted.

(** "Download remaining files" is offered though there is none: a last file of which every article was tried counts as
    parked. *)
Theorem C138_remaining_refuted : exists l, parked_count l <> 0 /\
  forall w, Forall (fun c => w_load w (f_id (c_f c)) <> None) l -> filter (wanted w false) l = [].
Proof.
  exists [mkC cfPartial (hx_file 2 false [(10, aiFinished); (10, aiFailed)])]. split; [vm_compute; discriminate|].
  intros w _. cbn [filter]. unfold wanted. cbn [c_status c_f]. cbn [f_id hx_file].
  destruct (w_load w 2); [|reflexivity]. destruct (w_state w 2); reflexivity.
Qed.
Print Assumptions C138_remaining_refuted.

(** Downloading from scratch: the files of the nzb-file, all of them paused or none, and statistics accordingly. *)
Theorem C138_from_scratch : forall name paused src g,
  NoDup (map (fun x : Z * bool * list (option Z) => fst (fst x)) src) ->
  g_st g Extra = 0 -> g_st g Active = 0 -> g_deleting g = false -> g_parking g = false ->
  let g' := redownload name paused (new_group src) g in
  (forall x, g_st g' x = summary x (g_files g') []) /\
  (exists p, g_files g' = filter p (map (with_paused paused) (add_files src)) /\
     forall f, In f (map (with_paused paused) (add_files src)) ->
       (p f = true <-> ~ smaller_twin name (map (with_paused paused) (add_files src)) f)) /\
  Forall file_ok (g_files g') /\
  (forall id, ok_of (g_srv g') id = 0 /\ bad_of (g_srv g') id = 0).
Proof. exact redownload_ok. Qed.
Print Assumptions C138_from_scratch.

(** Files 1 and 3 have the same name. *)
Definition hx_name (f : finfo) : list Z := if f_id f =? 2 then str "b" else str "a".
Definition hx_src : list (Z * bool * list (option Z)) := [(1, false, [Some 5; Some 5]); (2, true, [Some 7]); (3, false, [Some 9; None; Some 9])].
Example C138_scratch_ex : let g' := redownload hx_name true (new_group hx_src) hx_item_stats in
  map f_id (g_files g') = [2; 3] /\ g_st g' Size = 34 /\ g_st g' PausedSize = 25 /\ g_st g' Failed = 9 /\ g_st g' FileCount = 2 /\
  g_st hx_item_stats Extra = 0 /\ g_st hx_item_stats Active = 0.
Proof. vm_compute. repeat split. Qed.

(** ** C139: files listed twice *)

(** Of two files of the same name the smaller one is dropped, of files of the same size the later one; if more than two
    have the name all stay.  The statistics follow. *)
Theorem C139_twins : forall name g, inv g -> Forall (fun f => f_num f FActive = 0) (g_files g) ->
  inv (check_dupe_files name g) /\ g_done (check_dupe_files name g) = g_done g /\
  g_deleting (check_dupe_files name g) = g_deleting g /\
  exists p, g_files (check_dupe_files name g) = filter p (g_files g) /\
    forall f, In f (g_files g) -> (p f = true <-> ~ smaller_twin name (g_files g) f).
Proof. exact check_dupe_ok. Qed.
Print Assumptions C139_twins.

Example C139_ex : inv (new_group hx_src) /\ Forall (fun f => f_num f FActive = 0) (g_files (new_group hx_src)) /\
  map f_id (g_files (check_dupe_files hx_name (new_group hx_src))) = [2; 3] /\
  map f_id (g_files (check_dupe_files (fun _ => str "a") (new_group hx_src))) = [1; 2; 3] /\
  map f_id (g_files (check_dupe_files (fun _ => str "a") (new_group [(1, false, [Some 5]); (2, false, [Some 5])]))) = [1] /\
  smaller_twin hx_name (g_files (new_group hx_src)) (nth 0 (g_files (new_group hx_src)) hx_par).
Proof.
  split. { apply new_group_inv. cbn. repeat (apply NoDup_cons; [cbn; intuition discriminate|]). apply NoDup_nil. }
  split. { eapply Forall_impl; [|apply (add_files_fresh hx_src)]. intros f [ ]. assumption. }
  split; [vm_compute; reflexivity|]. split; [vm_compute; reflexivity|]. split; [vm_compute; reflexivity|].
  apply dupe_list_ok. vm_compute. left. reflexivity.
Qed.
