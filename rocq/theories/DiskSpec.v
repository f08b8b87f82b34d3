(** Vocabulary for statements about saving and loading the queue. *)
From Verif Require Import Base WildModel InfoModel LineModel LineSpec DiskModel.

(** Texts that fit the output line, and texts that also fit a 1024 byte input buffer. *)
Definition text (s : list Z) : Prop := line_text s /\ (length s <= 1023)%nat.
Definition short_text (s : list Z) : Prop := line_text s /\ (length s <= 1022)%nat.

(** An optional hash: a non-empty text without comma. *)
Definition hash_ok (o : option (list Z)) : Prop :=
  match o with
  | None => True
  | Some h => h <> [] /\ line_text h /\ ~ In 44 h /\ (length h <= 400)%nat
  end.

Definition opt_text (o : option (list Z)) : Prop :=
  match o with None => True | Some s => s <> [] /\ short_text s end.

Definition cfile_ok (c : cfile) : Prop :=
  in_i32 (cf_id c) /\ in_i32 (cf_status c) /\ in_u32 (cf_crc c) /\
  hash_ok (cf_hash c) /\ hash_ok (cf_set c) /\ short_text (cf_name c) /\ opt_text (cf_orig c).

(** Parameters as kept by the program: names different without regard to
    case, values not empty; a name must not contain '='. *)
Definition params_ok (l : list param) : Prop :=
  NoDup (map (fun p : param => map lower (fst p)) l) /\
  Forall (fun p : param => ~ In 61 (fst p) /\ snd p <> [] /\ line_text (fst p) /\ line_text (snd p) /\
                           (length (fst p) + length (snd p) <= 1022)%nat) l.

Definition script_ok (s : Z * list Z) : Prop :=
  in_i32 (fst s) /\ line_text (snd s) /\ (length (snd s) <= 1000)%nat.

Definition stat_ok (s : sstat) : Prop := in_i32 (sv_id s) /\ in_i32 (sv_ok s) /\ in_i32 (sv_bad s).

(** The list of news servers has not changed since the state was saved, and
    every server with statistics is in it. *)
Definition servers_ok (servers : list server) (l : list sstat) : Prop :=
  Forall (fun sv : server => fst sv = snd sv) servers /\
  Forall (fun s => In (sv_id s) (map fst servers)) l /\ NoDup (map sv_id l).

Definition count_ok {A} (l : list A) : Prop := Z.of_nat (length l) < 2 ^ 31.

(** A queue entry whose attributes fit the file format. *)
Record nzb_ok (servers : list server) (n : nzb) : Prop := mk_nzb_ok {
  ok_ints : Forall in_i32 [n_id n; n_kind n; n_priority n; n_feed n; n_par_status n; n_unpack_status n;
                           n_move_status n; n_par_rename n; n_rar_rename n; n_direct_rename n;
                           n_delete_status n; n_mark_status n; n_url_status n; n_file_count n; n_parked n;
                           n_messages n; n_min_time n; n_max_time n; n_extra_blocks n; n_articles n;
                           n_ok_articles n; n_bad_articles n; n_dupe_mode n; n_dupe_score n; n_dupe_hint n;
                           n_download_sec n; n_post_sec n; n_par_sec n; n_repair_sec n; n_unpack_sec n];
  ok_texts : Forall text [n_url n; n_filename n; n_dest n; n_final n; n_queued n; n_name n; n_category n; n_dupe_key n];
  ok_name : n_name n <> [];
  ok_hashes : in_u32 (n_full_hash n) /\ in_u32 (n_filtered_hash n);
  ok_sizes : Forall in_i64 [n_size n; n_success n; n_failed n; n_par_size n; n_par_success n; n_par_failed n; n_downloaded n];
  ok_post : match n_post n with Some p => 0 <= po_stage p < 2 ^ 31 - 1 | None => True end;
  ok_completed : Forall cfile_ok (n_completed n) /\ count_ok (n_completed n);
  ok_params : params_ok (n_params n) /\ count_ok (n_params n);
  ok_scripts : Forall script_ok (n_scripts n) /\ count_ok (n_scripts n);
  ok_stats : Forall stat_ok (n_stats n) /\ count_ok (n_stats n) /\ servers_ok servers (n_stats n);
  ok_files : Forall (fun f => in_i32 (qf_id f)) (n_files n) /\ count_ok (n_files n);
  (** url downloads are only saved while waiting or after a failure *)
  ok_url : n_kind n = 0 \/ n_url_status n = 0 \/ 3 <= n_url_status n }.

(** Every saved attribute except duplicate mode, duplicate hint and the
    post-processing stage is equal. *)
Record same_attributes (n m : nzb) : Prop := mk_same {
  sa_id : n_id m = n_id n; sa_kind : n_kind m = n_kind n; sa_url : n_url m = n_url n;
  sa_filename : n_filename m = n_filename n; sa_dest : n_dest m = n_dest n; sa_final : n_final m = n_final n;
  sa_queued : n_queued m = n_queued n; sa_name : n_name m = n_name n; sa_category : n_category m = n_category n;
  sa_priority : n_priority m = n_priority n;
  sa_flags : n_delete_paused m = n_delete_paused n /\ n_many_dupes m = n_many_dupes n /\
             n_cleaned m = n_cleaned n /\ n_health_paused m = n_health_paused n /\
             n_url_paused m = n_url_paused n /\ n_par_full m = n_par_full n;
  sa_feed : n_feed m = n_feed n;
  sa_status : n_par_status m = n_par_status n /\ n_unpack_status m = n_unpack_status n /\
              n_move_status m = n_move_status n /\ n_par_rename m = n_par_rename n /\
              n_rar_rename m = n_rar_rename n /\ n_direct_rename m = n_direct_rename n /\
              n_delete_status m = n_delete_status n /\ n_mark_status m = n_mark_status n /\
              n_url_status m = n_url_status n;
  sa_counts : n_file_count m = n_file_count n /\ n_parked m = n_parked n /\ n_messages m = n_messages n /\
              n_extra_blocks m = n_extra_blocks n /\ n_articles m = n_articles n /\
              n_ok_articles m = n_ok_articles n /\ n_bad_articles m = n_bad_articles n;
  sa_times : n_min_time m = n_min_time n /\ n_max_time m = n_max_time n;
  sa_hashes : n_full_hash m = n_full_hash n /\ n_filtered_hash m = n_filtered_hash n;
  sa_sizes : n_size m = n_size n /\ n_success m = n_success n /\ n_failed m = n_failed n /\
             n_par_size m = n_par_size n /\ n_par_success m = n_par_success n /\
             n_par_failed m = n_par_failed n /\ n_downloaded m = n_downloaded n;
  sa_dupe : n_dupe_key m = n_dupe_key n /\ n_dupe_score m = n_dupe_score n;
  sa_secs : n_download_sec m = n_download_sec n /\ n_post_sec m = n_post_sec n /\ n_par_sec m = n_par_sec n /\
            n_repair_sec m = n_repair_sec n /\ n_unpack_sec m = n_unpack_sec n;
  sa_completed : n_completed m = n_completed n; sa_params : n_params m = n_params n;
  sa_scripts : n_scripts m = n_scripts n; sa_stats : n_stats m = n_stats n;
  (** files marked as deleted are not saved *)
  sa_files : n_files m = filter (fun f => negb (qf_deleted f)) (n_files n);
  (** post-processing: present, with its flags *)
  sa_post : match n_post n, n_post m with
            | None, None => True
            | Some p, Some q => po_force_par q = po_force_par p /\ po_force_repair q = po_force_repair p
            | _, _ => False
            end }.

(** History entries. *)
Definition dup_ok (d : dup) : Prop :=
  in_i32 (d_id d) /\ in_i32 (d_status d) /\ in_i64 (d_size d) /\ in_u32 (d_full_hash d) /\
  in_u32 (d_filtered_hash d) /\ in_i32 (d_score d) /\ in_i32 (d_mode d) /\
  short_text (d_name d) /\ short_text (d_key d).

Definition hentry_ok (servers : list server) (h : hentry) : Prop :=
  in_i32 (fst h) /\
  match snd h with
  | HNzb n => nzb_ok servers n /\ n_post n = None
  | HUrl n => nzb_ok servers n /\ n_post n = None
  | HDup d => dup_ok d
  end.

Definition same_hentry (h k : hentry) : Prop :=
  fst k = fst h /\
  match snd h, snd k with
  | HNzb n, HNzb m => same_attributes n m
  | HUrl n, HUrl m => same_attributes n m
  | HDup d, HDup e => e = d
  | _, _ => False
  end.
