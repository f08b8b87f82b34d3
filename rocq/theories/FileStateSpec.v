(** Vocabulary for statements about saved files and their download state. *)
From Verif Require Import Base InfoModel LineModel LineSpec DiskModel DiskSpec FileStateModel.

Definition part_ok (p : fpart) : Prop := in_i32 (p_number p) /\ in_i32 (p_size p) /\ short_text (p_msgid p).

Definition finfo_ok (f : finfo) : Prop :=
  short_text (fi_subject f) /\ short_text (fi_filename f) /\ opt_text (fi_orig f) /\
  in_i32 (fi_time f) /\ in_i64 (fi_size f) /\ in_i64 (fi_missed f) /\
  in_i32 (fi_total f) /\ in_i32 (fi_missed_articles f) /\
  Forall short_text (fi_groups f) /\ count_ok (fi_groups f) /\
  Forall part_ok (fi_parts f) /\ count_ok (fi_parts f).

(** An article whose offset fits 32 bits. *)
Definition art_ok (a : fart) : Prop :=
  in_i32 (a_status a) /\ in_u32 (a_offset a) /\ in_i32 (a_size a) /\ in_u32 (a_crc a).

Definition fstate_ok (servers : list server) (s : fstate) : Prop :=
  in_i32 (fs_ok s) /\ in_i32 (fs_bad s) /\
  in_i64 (fs_remaining s) /\ in_i64 (fs_success s) /\ in_i64 (fs_failed s) /\
  short_text (fs_name s) /\ opt_text (fs_hash s) /\ opt_text (fs_set s) /\
  Forall stat_ok (fs_stats s) /\ count_ok (fs_stats s) /\ servers_ok servers (fs_stats s) /\
  Forall art_ok (fs_arts s) /\ count_ok (fs_arts s).

(** Articles still to be downloaded. *)
Definition pending (a : fart) : Prop := a_status a = aiUndefined \/ a_status a = aiRunning.

(** What a restart makes of an article: a running download starts again. *)
Definition restarted (a b : fart) : Prop :=
  a_offset b = a_offset a /\ a_size b = a_size a /\ a_crc b = a_crc a /\
  (pending a -> a_status b = aiUndefined) /\ (~ pending a -> a_status b = a_status a).

(** Two states that agree in everything but running downloads. *)
Definition same_fstate (s t : fstate) : Prop :=
  fs_ok t = fs_ok s /\ fs_bad t = fs_bad s /\ fs_remaining t = fs_remaining s /\ fs_success t = fs_success s /\
  fs_failed t = fs_failed s /\ fs_name t = fs_name s /\ fs_hash t = fs_hash s /\ fs_set t = fs_set s /\
  fs_par t = fs_par s /\ fs_stats t = fs_stats s /\ Forall2 restarted (fs_arts s) (fs_arts t).

(** The articles that are not to be downloaded any more. *)
Definition settled (l : list fart) : list fart :=
  filter (fun a => negb ((a_status a =? aiUndefined) || (a_status a =? aiRunning))) l.
