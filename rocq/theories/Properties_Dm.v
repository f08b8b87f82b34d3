(** C169: which duplicates are used for repair. *)
From Coq Require Import String.
From Verif Require Import Base WildModel NumFmt DmModel DmSpec DmProofs.
From Verif Require NzbModel WebModel.
Open Scope list_scope. Open Scope Z_scope.

(** Sizes are near if they differ by less than the given percentage of the larger one. *)
Theorem C169_near : forall s1 s2 limit, 0 < s1 -> 0 < s2 -> (size_diff_ok s1 s2 limit = true <-> near s1 s2 limit).
Proof. exact size_diff_iff. Qed.
Print Assumptions C169_near.
Example C169_near_example : near 90 100 20 /\ ~ near 80 100 20.
Proof. unfold near. split; lia. Qed.
(** Reading an archive: the largest file is found, or reading ends early at the largest until then, which is larger than or near to the expected size. *)
Theorem C169_archive : forall e best ps m c b, ps <> [] -> Forall packed_ok ps -> rar_largest e best (flat_map printed ps) = (m, c, b) ->
  exists pre post p, ps = pre ++ post /\ largest pre p /\ m = p_size p /\ b = Some (cut (p_name p)) /\ (c = false <-> stored p) /\
  (post = [] \/ (exists q, pre = q ++ [p]) /\ (e < m \/ near m e 20)).
Proof. exact rar_ok. Qed.
Print Assumptions C169_archive.
(** A directory without archives: the largest file. *)
Theorem C169_plain : forall own unrar lines files m c b, Forall (fun f => ~ rar_name (fst f)) files -> (exists f, In f files /\ 0 < snd f) -> find_largest own unrar lines files = (m, c, b) ->
  c = false /\ (forall f, In f files -> snd f <= m) /\ exists n, In (n, m) files /\ b = Some (cut n).
Proof. exact plain_ok. Qed.
Print Assumptions C169_plain.
(** If the own main file has about the expected size: exactly the duplicates are used whose main file has the same size and compression. *)
Theorem C169_sources : forall unrar expected own dupes l mx comp b, find_largest None unrar (d_lines own) (d_files own) = (mx, comp, b) -> 0 < mx -> 0 < expected -> near mx expected 20 ->
  sources unrar expected own dupes = Used l -> forall d, In d l <-> In d dupes /\ exists n, find_largest (Some mx) unrar (d_lines d) (d_files d) = (mx, comp, Some n).
Proof. exact sources_ok. Qed.
Print Assumptions C169_sources.
Definition x_file (n : string) (size : Z) : packed := P (str n) size (str "RAR 3.0(v29) -m0 -md=64K") [str " Packed size: 1"] [str "        Date: x"].
Definition x_dir (vol : Z) (ps : list packed) : dir := D [(str "a.nfo", 3); (str "a.part01.rar", vol); (str "a.part02.rar", vol)] (str "Archive: a.part01.rar" :: flat_map printed ps).
Example C169_archive_example : packed_ok (x_file "main.mkv" 1000) /\ stored (x_file "main.mkv" 1000) /\
  find_largest None true (d_lines (x_dir 500 [x_file "sample.mkv" 60; x_file "main.mkv" 1000])) (d_files (x_dir 500 [])) = (1000, false, Some (str "main.mkv")).
Proof.
  split; [|split; [|vm_compute; reflexivity]].
  - unfold packed_ok, x_file, quiet. cbn [p_size p_before p_after]. split; [lia|]. split; (constructor; [repeat split; vm_compute; reflexivity|constructor]).
  - exists (str " Compression: RAR 3.0(v29)"), (str " -md=64K"). vm_compute. reflexivity.
Qed.
Example C169_sources_example : sources true 1050 (x_dir 500 [x_file "main.mkv" 1000]) [x_dir 200 [x_file "m.mkv" 1000]; x_dir 500 [x_file "other.mkv" 900]] = Used [x_dir 200 [x_file "m.mkv" 1000]].
Proof. vm_compute. reflexivity. Qed.
(** While the own main file is determined the size of a volume is taken for the expected one: a file larger than a volume but smaller than the main file ends the search,
    the comparison is given up, and duplicates with other contents are used. *)
Theorem C169_volume_refuted : exists vol ps p qs q, largest ps p /\ largest qs q /\ p_size q <> p_size p /\ Forall packed_ok (ps ++ qs) /\
  sources true (p_size p) (x_dir vol ps) [x_dir vol qs] = Used [x_dir vol qs].
Proof.
  exists 50, [x_file "sample.mkv" 60; x_file "main.mkv" 1000], (x_file "main.mkv" 1000), [x_file "other.mkv" 700], (x_file "other.mkv" 700).
  split; [exists [x_file "sample.mkv" 60], []; split; [reflexivity|split; [intros x [<-|[]]; cbn; lia|intros x []]]|].
  split; [exists [], []; split; [reflexivity|split; intros x []]|]. split; [cbn; lia|]. split; [|vm_compute; reflexivity].
  assert (Q : forall n v, 0 <= v -> packed_ok (x_file n v)).
  { intros n v H. unfold packed_ok, x_file, quiet. cbn [p_size p_before p_after]. split; [exact H|]. split; (constructor; [repeat split; vm_compute; reflexivity|constructor]). }
  repeat constructor; apply Q; lia.
Qed.
Print Assumptions C169_volume_refuted.
(** A directory without files: the name printed was never set. *)
Theorem C169_empty_refuted : exists expected own dupes, 0 < expected /\ sources true expected own dupes = Undefined.
Proof. exists 10, (D [] []), [D [] []]. split; [lia|reflexivity]. Qed.
Print Assumptions C169_empty_refuted.
