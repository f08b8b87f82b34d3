{
 "claims": [
  {
   "property": "C01",
   "status": "proved",
   "theorems": [
    "C01_yenc_roundtrip",
    "C01_encoded_no_nul"
   ],
   "note": "scalar decoder and NServ encoder; SIMD variants not modelled"
  },
  {
   "property": "C02",
   "status": "proved",
   "theorems": [
    "C02_chunk_independent",
    "C02_decoder_is_byte_machine"
   ],
   "note": ""
  },
  {
   "property": "C03",
   "status": "proved",
   "theorems": [
    "C03_crc_slicing"
   ],
   "note": ""
  },
  {
   "property": "C04",
   "status": "proved",
   "theorems": [
    "C04_crc_combine",
    "C04_crc_of_file"
   ],
   "note": "segments shorter than 2^32 bytes (the length parameter is a 32-bit unsigned)"
  },
  {
   "property": "C05",
   "status": "proved",
   "theorems": [
    "C05_accepted_iff",
    "C05_written_is_decoded_refuted"
   ],
   "note": "acceptance is exactly the stated condition on the decoded bytes; the written bytes can differ for an article with two bodies in one buffer (refuted)"
  },
  {
   "property": "C06",
   "status": "partial",
   "theorems": [
    "C06_xml_encode_standard",
    "C06_xml_encode_any",
    "C06_xml_roundtrip_partial",
    "C06_xml_roundtrip_refuted"
   ],
   "note": "encoder proved against a strict XML reader for all text; the program's own decoder inverts it only for ASCII (refuted for other text)"
  },
  {
   "property": "C07",
   "status": "partial",
   "theorems": [
    "C07_json_encode_standard",
    "C07_json_encode_any",
    "C07_json_lossless_refuted",
    "C07_json_roundtrip_partial",
    "C07_json_roundtrip_refuted"
   ],
   "note": "encoder proved against a strict JSON reader; characters beyond U+FFFF are lost; own decoder wrong after \\u followed by a hex digit"
  },
  {
   "property": "C08",
   "status": "partial",
   "theorems": [
    "C08_url_roundtrip_partial",
    "C08_url_roundtrip_refuted",
    "C08_url_no_blank",
    "C08_url_printable_refuted"
   ],
   "note": "'%' and unprintable bytes are not escaped"
  },
  {
   "property": "C09",
   "status": "partial",
   "theorems": [
    "C09_no_write_behind",
    "C09_inplace_is_pure",
    "C09_unquote_safe",
    "C09_url_safe_partial",
    "C09_json_safe_partial",
    "C09_xml_safe_partial",
    "C09_entities_safe_partial",
    "C09_over_read_refuted"
   ],
   "note": "no write behind the terminator for all five; over-reads exist exactly for truncated escapes"
  },
  {
   "property": "C10",
   "status": "partial",
   "theorems": [
    "C10_json_string_partial",
    "C10_json_string_refuted",
    "C10_json_plain"
   ],
   "note": "wrong for strings with adjacent escapes"
  },
  {
   "property": "C100",
   "status": "partial",
   "theorems": [
    "C100_quoted_partial",
    "C100_words_partial",
    "C100_last_word_partial",
    "C100_some_partial",
    "C100_core",
    "C100_odd_refuted",
    "C100_long_refuted",
    "C100_wrong_refuted"
   ],
   "note": "Proved for subjects up to 1022 bytes; a few odd subjects and subjects of 1023 bytes are read outside of the buffer, and empty quotes give a wrong name (refuted)."
  },
  {
   "property": "C101",
   "status": "partial",
   "theorems": [
    "C101_apart",
    "C101_quoted",
    "C101_valid_refuted",
    "C101_empty_refuted"
   ],
   "note": "Told apart as stated before the names are made valid; after that names can be equal or empty (refuted)."
  },
  {
   "property": "C102",
   "status": "partial",
   "theorems": [
    "C102_order_partial",
    "C102_content_partial",
    "C102_function",
    "C102_same_name_refuted",
    "C102_half_refuted"
   ],
   "note": "Proved when names differ; with equal names the order matters, and articles instead of files are counted when deciding whether enough remains (refuted)."
  },
  {
   "property": "C103",
   "status": "partial",
   "theorems": [
    "C103_password_partial",
    "C103_none",
    "C103_taken_partial",
    "C103_far_refuted",
    "C103_numeric_refuted"
   ],
   "note": "Proved for passwords near the beginning written with the usual entities; passwords far from the beginning and numeric entities are refuted."
  },
  {
   "property": "C104",
   "status": "partial",
   "theorems": [
    "C104_complete_partial",
    "C104_answered",
    "C104_page_refuted",
    "C104_packed_refuted",
    "C104_huge_refuted",
    "C104_empty_refuted"
   ],
   "note": "Proved for answers with code 200 and lengths below 2^31 (for packed data relative to the unpacker). The page of a redirection without location, packed data cut off and a length of 4 GB are accepted wrongly, an empty file never arrives (refuted)."
  },
  {
   "property": "C105",
   "status": "partial",
   "theorems": [
    "C105_parts_partial",
    "C105_v6_refuted",
    "C105_port_refuted",
    "C105_query_refuted",
    "C105_nohost_refuted"
   ],
   "note": "Proved for hosts without colon and resources that start with a slash; IPv6, an empty port, a query without path and an empty host are read wrongly (refuted)."
  },
  {
   "property": "C106",
   "status": "partial",
   "theorems": [
    "C106_followed",
    "C106_host_partial",
    "C106_bound",
    "C106_query_refuted",
    "C106_other_refuted",
    "C106_long_refuted"
   ],
   "note": "Proved up to 1000 bytes; a path with an address in its query, an address with host but without protocol and long locations go wrong (refuted)."
  },
  {
   "property": "C107",
   "status": "partial",
   "theorems": [
    "C107_quoted",
    "C107_bare",
    "C107_plain",
    "C107_missing_refuted",
    "C107_more_refuted",
    "C107_escaped_refuted"
   ],
   "note": "An empty name is read in front of the buffer, further parameters and escaped quotes give wrong names (refuted)."
  },
  {
   "property": "C108",
   "status": "proved",
   "theorems": [
    "C108_bound",
    "C108_total",
    "C108_unreachable",
    "C108_failing",
    "C108_missing",
    "C108_unusable"
   ],
   "note": ""
  },
  {
   "property": "C109",
   "status": "partial",
   "theorems": [
    "C109_request_partial",
    "C109_ports",
    "C109_long_refuted",
    "C109_login_refuted"
   ],
   "note": "Proved up to 1008 bytes; longer resources lose the line end, and credentials of the address are never sent (refuted)."
  },
  {
   "property": "C11",
   "status": "proved",
   "theorems": [
    "C11_base64_roundtrip",
    "C11_base64_length"
   ],
   "note": ""
  },
  {
   "property": "C110",
   "status": "partial",
   "theorems": [
    "C110_request_partial",
    "C110_waits_partial",
    "C110_defined_partial",
    "C110_own_refuted",
    "C110_least_refuted"
   ],
   "note": "Proved when the number of blocks fits into an int. If the par-set itself has too few blocks, files of other par-sets are resumed in place of its own, and the choice is not the least one (refuted)."
  },
  {
   "property": "C111",
   "status": "partial",
   "theorems": [
    "C111_name_partial",
    "C111_subject_partial",
    "C111_other",
    "C111_together",
    "C111_unique",
    "C111_main_refuted"
   ],
   "note": "Proved for names below 1024 bytes. The main file of a par-set with a name like x.vol1-2 is taken for one of its volumes (refuted)."
  },
  {
   "property": "C112",
   "status": "proved",
   "theorems": [
    "C112_sets",
    "C112_once"
   ],
   "note": "For names below 1024 bytes (file systems allow 255)."
  },
  {
   "property": "C113",
   "status": "partial",
   "theorems": [
    "C113_progress_partial",
    "C113_rest",
    "C113_loaded",
    "C113_giveup",
    "C113_lost_refuted"
   ],
   "note": "A file deleted between the request and the resetting of the flag is not noticed; the checker then waits forever (refuted); proved when that does not happen."
  },
  {
   "property": "C114",
   "status": "proved",
   "theorems": [
    "C114_jobs_bounded"
   ],
   "note": "For executions in which the user does not delete a job at the one wrong moment (C120)."
  },
  {
   "property": "C115",
   "status": "proved",
   "theorems": [
    "C115_started_when_allowed",
    "C115_paused_only_forced"
   ],
   "note": "As C114."
  },
  {
   "property": "C116",
   "status": "proved",
   "theorems": [
    "C116_limits"
   ],
   "note": "As C114."
  },
  {
   "property": "C117",
   "status": "proved",
   "theorems": [
    "C117_highest_priority_first",
    "C117_possible_jobs",
    "C117_loop_ends",
    "C117_waits_only_if_full",
    "C117_idle_queue_is_done"
   ],
   "note": "As C114."
  },
  {
   "property": "C118",
   "status": "proved",
   "theorems": [
    "C118_jobs_counted"
   ],
   "note": "As C114."
  },
  {
   "property": "C119",
   "status": "partial",
   "theorems": [
    "C119_script_statuses",
    "C119_requested_check_done_refuted"
   ],
   "note": "The statuses are proved; a par-check requested by a script is not done, and the statuses of the scripts are lost (refuted)."
  },
  {
   "property": "C12",
   "status": "partial",
   "theorems": [
    "C12_match_iff",
    "C12_match_iff_strict",
    "C12_hash_refuted",
    "C12_positions_partial",
    "C12_positions_refuted"
   ],
   "note": "verdict proved for all masks and texts; '#' also matches '#'; reported positions right only when no ?/# follows a *"
  },
  {
   "property": "C120",
   "status": "partial",
   "theorems": [
    "C120_no_lost_jobs",
    "C120_deletion_safe_refuted"
   ],
   "note": "Safe if the job is working or not taken up yet; a job deleted between its end and the next look at the queue leaves a dangling entry, the next look uses a null pointer (refuted)."
  },
  {
   "property": "C121",
   "status": "partial",
   "theorems": [
    "C121_success_is_real",
    "C121_success_is_seen",
    "C121_defined",
    "C121_failure",
    "C121_nothing_found",
    "C121_reads_inside_refuted"
   ],
   "note": "Success is proved real and seen; already the message about success of 7-Zip is compared with memory before its start (refuted; the outcome does not depend on it for messages with the name of the program in front, C121_defined)."
  },
  {
   "property": "C122",
   "status": "partial",
   "theorems": [
    "C122_in_order",
    "C122_all_tried",
    "C122_file_partial",
    "C122_last_line_partial",
    "C122_long_refuted"
   ],
   "note": "Proved for lines below 510 bytes; longer ones are tried in pieces (refuted)."
  },
  {
   "property": "C123",
   "status": "partial",
   "theorems": [
    "C123_joined_is_complete_partial",
    "C123_complete_is_joined_partial",
    "C123_two_sets_refuted",
    "C123_two_complete_refuted",
    "C123_single_refuted"
   ],
   "note": "Proved if the directory holds parts of one file only. With parts of two files a truncated file is reported as success or complete files are refused; a file of a single part after a good par-check divides by zero (refuted)."
  },
  {
   "property": "C124",
   "status": "partial",
   "theorems": [
    "C124_setting",
    "C124_last",
    "C124_cmdline",
    "C124_fixed",
    "C124_crash_refuted"
   ],
   "note": "Proved for all settings; without a configuration file an obsolete option on the command line uses a null pointer (refuted)."
  },
  {
   "property": "C125",
   "status": "partial",
   "theorems": [
    "C125_references",
    "C125_none_left",
    "C125_order_refuted",
    "C125_loop_refuted",
    "C125_defaults_refuted"
   ],
   "note": "Proved for names up to 99 characters and values without further references. Known names behind an unknown one stay, a reference to itself hangs the program, and defaults do not follow MainDir (refuted)."
  },
  {
   "property": "C126",
   "status": "partial",
   "theorems": [
    "C126_number",
    "C126_no_number",
    "C126_word",
    "C126_no_word",
    "C126_tables",
    "C126_meaning",
    "C126_default",
    "C126_silent_refuted",
    "C126_bounds_refuted"
   ],
   "note": "Proved for numbers within an int and the tables with the right count. Empty and too large numbers are taken silently; the counts of the tables of ParCheck and FileNaming are too large, unknown words read behind them (refuted)."
  },
  {
   "property": "C127",
   "status": "partial",
   "theorems": [
    "C127_lines",
    "C127_hang_refuted",
    "C127_cut_refuted"
   ],
   "note": "Proved for files of at least two bytes that end with a line end or have several lines. A file of one LF hangs, a single line without line end is cut (refuted)."
  },
  {
   "property": "C128",
   "status": "partial",
   "theorems": [
    "C128_times",
    "C128_sane",
    "C128_days",
    "C128_bad_days",
    "C128_incomplete_refuted",
    "C128_minute_refuted"
   ],
   "note": "Well-formed lists are proved; incomplete ones like '12:' and '1-' are taken, the minute of '*' is not set (refuted)."
  },
  {
   "property": "C129",
   "status": "partial",
   "theorems": [
    "C129_servers",
    "C129_tasks",
    "C129_commands",
    "C129_command_refuted",
    "C129_ip_refuted"
   ],
   "note": "A task with an unknown command is reported but then pauses downloads; a definition with an IP version only ends the list silently (refuted). Checks of the command lines of processes are not modelled."
  },
  {
   "property": "C13",
   "status": "proved",
   "theorems": [
    "C13_tokens",
    "C13_fields",
    "C13_trim_unique",
    "C13_no_separator"
   ],
   "note": ""
  },
  {
   "property": "C130",
   "status": "partial",
   "theorems": [
    "C130_names",
    "C130_values",
    "C130_ends",
    "C130_decode",
    "C130_buffer",
    "C130_modern",
    "C130_scripts",
    "C130_case_refuted"
   ],
   "note": "Old names of fields of categories and feeds are renamed only in the usual letter case (refuted for others)."
  },
  {
   "property": "C131",
   "status": "proved",
   "theorems": [
    "C131_category"
   ],
   "note": ""
  },
  {
   "property": "C132",
   "status": "partial",
   "theorems": [
    "C132_saved",
    "C132_glued_refuted",
    "C132_inject_refuted",
    "C132_blanks_refuted"
   ],
   "note": "Proved for files that end with a line end and settings without line feeds and blanks at the end. Otherwise the last comment swallows the first new setting, values inject settings, blanks are lost (refuted)."
  },
  {
   "property": "C133",
   "status": "partial",
   "theorems": [
    "C133_restricted",
    "C133_shown",
    "C133_long_refuted"
   ],
   "note": "Proved for names up to 1023 characters; beyond, secrets are shown (refuted)."
  },
  {
   "property": "C134",
   "status": "partial",
   "theorems": [
    "C134_kept_as_long_as_configured",
    "C134_runs",
    "C134_long_refuted",
    "C134_failed_refuted"
   ],
   "note": "Proved below 24856 days; from there on an int overflows. Against the documentation the files of failed items are not deleted when they leave (refuted)."
  },
  {
   "property": "C135",
   "status": "partial",
   "theorems": [
    "C135_others",
    "C135_none_lost",
    "C135_settings",
    "C135_parameter",
    "C135_taken_back",
    "C135_deleted",
    "C135_refused",
    "C135_answer_refuted",
    "C135_silent_refuted",
    "C135_merged_refuted"
   ],
   "note": "The answer for several items is that of the last one, and 'true' also if a download could not be taken back; merged downloads cannot be downloaded again (refuted). Marks are not modelled here."
  },
  {
   "property": "C136",
   "status": "proved",
   "theorems": [
    "C136_kept",
    "C136_failed",
    "C136_sums"
   ],
   "note": ""
  },
  {
   "property": "C137",
   "status": "partial",
   "theorems": [
    "C137_sums_after_return_partial",
    "C137_status",
    "C137_paused_refuted",
    "C137_servers_refuted"
   ],
   "note": "Proved if files parked as not started have no downloaded articles; otherwise articles count twice. Counts of servers for failed files stay (refuted)."
  },
  {
   "property": "C138",
   "status": "partial",
   "theorems": [
    "C138_only_what_is_missing",
    "C138_from_scratch",
    "C138_remaining_refuted"
   ],
   "note": "Proved; but remaining files are offered for download though there are none (refuted)."
  },
  {
   "property": "C139",
   "status": "proved",
   "theorems": [
    "C139_twins"
   ],
   "note": ""
  },
  {
   "property": "C14",
   "status": "partial",
   "theorems": [
    "C14_split_partial",
    "C14_buffer",
    "C14_empty_argument_refuted",
    "C14_long_argument_refuted"
   ],
   "note": "empty arguments are dropped and arguments over 1023 bytes are cut"
  },
  {
   "property": "C140",
   "status": "partial",
   "theorems": [
    "C140_rar3_partial",
    "C140_rar3_single",
    "C140_rar5",
    "C140_other_files",
    "C140_next_refuted",
    "C140_no_end_refuted",
    "C140_size_refuted"
   ],
   "note": "Proved for volumes with a block at the end (format 3: with the number of the volume if another one follows). Without number the successor is forgotten, without the block at the end the volume is refused, and packed sizes near 4 GiB overflow (refuted)."
  },
  {
   "property": "C141",
   "status": "partial",
   "theorems": [
    "C141_rar3_partial",
    "C141_rar5_partial",
    "C141_rar3_endless_refuted",
    "C141_rar5_endless_refuted",
    "C141_rar5_undefined_refuted"
   ],
   "note": "Proved if every block has a length (format 3) or sizes of data are below 2^62 (format 5); otherwise the reading may go on forever, and too long numbers are shifted too far (refuted)."
  },
  {
   "property": "C142",
   "status": "partial",
   "theorems": [
    "C142_nothing_lost",
    "C142_all_directories",
    "C142_directory_refuted"
   ],
   "note": "Proved for up to 14200 volumes (old names run out then) and names below 1000 bytes. Files may leave their directory: volumes of earlier directories are not forgotten and are completed with those of later ones (refuted)."
  },
  {
   "property": "C143",
   "status": "partial",
   "theorems": [
    "C143_sets_are_sets",
    "C143_sets_end",
    "C143_sets_found",
    "C143_same_name",
    "C143_renamed",
    "C143_first_free_name",
    "C143_well_named_stays",
    "C143_shared_refuted",
    "C143_single_refuted",
    "C143_number_refuted"
   ],
   "note": "Proved if no volume belongs to two sets; otherwise only one set gets it. A single archive of format 5 named x.rar is renamed, and numbers in names are cut to 32 bits (refuted)."
  },
  {
   "property": "C144",
   "status": "proved",
   "theorems": [
    "C144_checked",
    "C144_no_second_try"
   ],
   "note": ""
  },
  {
   "property": "C145",
   "status": "partial",
   "theorems": [
    "C145_ends",
    "C145_kept",
    "C145_kept_refuted"
   ],
   "note": "Proved if no file, and no file described, has the ending .bad of damaged par2-files; otherwise a damaged par2-file replaces one put aside before (refuted)."
  },
  {
   "property": "C146",
   "status": "partial",
   "theorems": [
    "C146_fate",
    "C146_placed",
    "C146_read",
    "C146_order_refuted"
   ],
   "note": "Proved; but a name that is taken when its file is met and becomes free later stays unused (refuted)."
  },
  {
   "property": "C147",
   "status": "proved",
   "theorems": [
    "C147_missing"
   ],
   "note": ""
  },
  {
   "property": "C148",
   "status": "partial",
   "theorems": [
    "C148_packet",
    "C148_only",
    "C148_needed",
    "C148_renamed",
    "C148_first_free",
    "C148_only_refuted"
   ],
   "note": "Proved but for packets of 2 GB and more, whose length is cut: files with such a beginning count as par2-files though the packet does not end in the file (refuted)."
  },
  {
   "property": "C149",
   "status": "partial",
   "theorems": [
    "C149_hash",
    "C149_par_partial",
    "C149_one_piece_refuted",
    "C149_again_refuted"
   ],
   "note": "The hash is proved. The kind is proved for the first attempt if some piece begins after the first 64 bytes. A par2-file that arrives in one piece is not recognised, and the kind seen in a failed attempt is kept (refuted)."
  },
  {
   "property": "C15",
   "status": "proved",
   "theorems": [
    "C15_timegm_epoch",
    "C15_timegm_next_day",
    "C15_timegm_injective",
    "C15_timegm_onto",
    "C15_month_carry",
    "C15_day_carry"
   ],
   "note": ""
  },
  {
   "property": "C150",
   "status": "partial",
   "theorems": [
    "C150_names",
    "C150_on_disk",
    "C150_disk_partial",
    "C150_disk_refuted",
    "C150_distinct_refuted"
   ],
   "note": "Proved if the names wanted by files on the disk are free; otherwise files are overwritten (refuted for shuffled names). Two par2-files in progress may get one name (refuted)."
  },
  {
   "property": "C151",
   "status": "partial",
   "theorems": [
    "C151_choice",
    "C151_start",
    "C151_once",
    "C151_late_refuted"
   ],
   "note": "Proved but for one case: if the par2-file with priority is the last to be completed, the renaming is never started (refuted)."
  },
  {
   "property": "C152",
   "status": "proved",
   "theorems": [
    "C152_sums",
    "C152_file"
   ],
   "note": ""
  },
  {
   "property": "C153",
   "status": "partial",
   "theorems": [
    "C153_exact",
    "C153_status",
    "C153_outside_refuted",
    "C153_message_refuted"
   ],
   "note": "Proved; but links are followed, files outside of the directory are deleted, and the message may say that there was nothing to do (refuted)."
  },
  {
   "property": "C154",
   "status": "partial",
   "theorems": [
    "C154_moved",
    "C154_not_made",
    "C154_one_device",
    "C154_hidden_refuted",
    "C154_full_disk_refuted",
    "C154_directories_refuted"
   ],
   "note": "Proved for files on one device or with room for the copy. Hidden files that could not be moved are deleted with the directory; on another device a full disk is not noticed and directories are not moved (refuted)."
  },
  {
   "property": "C155",
   "status": "partial",
   "theorems": [
    "C155_deleted",
    "C155_whole",
    "C155_outside_refuted"
   ],
   "note": "Proved; but links are followed: the contents of directories outside are deleted (refuted)."
  },
  {
   "property": "C156",
   "status": "partial",
   "theorems": [
    "C156_event",
    "C156_unique",
    "C156_none",
    "C156_2038_refuted"
   ],
   "note": "Proved for times before 2038; from then on events for downloaded files are never handled (refuted)."
  },
  {
   "property": "C157",
   "status": "partial",
   "theorems": [
    "C157_one",
    "C157_next",
    "C157_seen",
    "C157_all_run",
    "C157_order_refuted",
    "C157_starved_refuted"
   ],
   "note": "One at a time and none lost: proved. The last waiting item is started whatever its priority, and an item may wait for ever (refuted)."
  },
  {
   "property": "C158",
   "status": "partial",
   "theorems": [
    "C158_commands",
    "C158_determined",
    "C158_assigned",
    "C158_injected_refuted",
    "C158_endless_refuted",
    "C158_undefined_refuted",
    "C158_cut_refuted",
    "C158_comma_refuted"
   ],
   "note": "Proved for lines that fit into the buffers and downloads whose name does not look like a command. Otherwise the name of the download is executed as a command, the program calls itself endlessly, reads memory behind the text, or cuts values; scripts with a comma in the name are not executed (refuted)."
  },
  {
   "property": "C159",
   "status": "partial",
   "theorems": [
    "C159_commands",
    "C159_parameters",
    "C159_category",
    "C159_unpack_refuted",
    "C159_injected_refuted"
   ],
   "note": "Proved for lines that fit and messages that do not look like commands. A new category does not bring its choice about unpacking, and the name of a file can act as a command (refuted)."
  },
  {
   "property": "C16",
   "status": "proved",
   "theorems": [
    "C16_split_join",
    "C16_join_split",
    "C16_halves_in_range"
   ],
   "note": ""
  },
  {
   "property": "C160",
   "status": "partial",
   "theorems": [
    "C160_environment",
    "C160_ambiguous_refuted"
   ],
   "note": "The variables are exactly described; but one variable may have two values (refuted)."
  },
  {
   "property": "C161",
   "status": "partial",
   "theorems": [
    "C161_override",
    "C161_others",
    "C161_null_refuted"
   ],
   "note": "Proved for scripts with a dot in the path; otherwise a null pointer is used (refuted)."
  },
  {
   "property": "C162",
   "status": "partial",
   "theorems": [
    "C162_asked",
    "C162_connected",
    "C162_request",
    "C162_refused_refuted"
   ],
   "note": "Proved for connections newly made; after failed authorization the connection stays open and the next try to connect is told to be good at once (refuted)."
  },
  {
   "property": "C163",
   "status": "partial",
   "theorems": [
    "C163_group_partial",
    "C163_groups_partial",
    "C163_lost_refuted"
   ],
   "note": "Proved if no connection is opened again after an error; after an error the group is remembered for the new connection though nothing was sent (refuted)."
  },
  {
   "property": "C164",
   "status": "partial",
   "theorems": [
    "C164_commands",
    "C164_one_line_partial",
    "C164_injected_refuted",
    "C164_cut_refuted"
   ],
   "note": "Proved for names without line ends of at most 1000 bytes; otherwise names bring commands of their own or commands lose their end (refuted)."
  },
  {
   "property": "C165",
   "status": "partial",
   "theorems": [
    "C165_login",
    "C165_wrong",
    "C165_long_refuted",
    "C165_outside_refuted"
   ],
   "note": "Proved: nothing is done without the right login. A password of 32 or more bytes locks the own client out, and for one who sends its first bytes the comparison reads behind the structure (refuted)."
  },
  {
   "property": "C166",
   "status": "partial",
   "theorems": [
    "C166_round_trip",
    "C166_url_refuted",
    "C166_edit_refuted"
   ],
   "note": "Proved for all commands of the client. A request made by another program with the right password can make the daemon read outside of its memory (refuted)."
  },
  {
   "property": "C167",
   "status": "proved",
   "theorems": [
    "C167_size",
    "C167_list_size",
    "C167_read",
    "C167_list"
   ],
   "note": ""
  },
  {
   "property": "C168",
   "status": "partial",
   "theorems": [
    "C168_last",
    "C168_from_partial",
    "C168_from_refuted",
    "C168_negative_refuted",
    "C168_scripts_refuted"
   ],
   "note": "Proved for positive numbers of lines and for identifiers below 2^31. Otherwise the whole log is sent or a negative number announced; the history shows successful scripts as failed (refuted)."
  },
  {
   "property": "C169",
   "status": "partial",
   "theorems": [
    "C169_near",
    "C169_archive",
    "C169_plain",
    "C169_sources",
    "C169_volume_refuted",
    "C169_empty_refuted"
   ],
   "note": "Proved if the own main file is found. While it is searched the size of a volume is used as the expected size, the search may end at a smaller file and then duplicates with other contents are used; for an empty directory memory never set is printed (refuted)."
  },
  {
   "property": "C17",
   "status": "partial",
   "theorems": [
    "C17_statistics_partial",
    "C17_statistics_any_partial",
    "C17_recount",
    "C17_deleting_refuted",
    "C17_lost_refuted",
    "C17_recount_servers_refuted"
   ],
   "note": "all 22 statistics proved for every history without group deletion, vanished temporary files and active direct renaming; each exclusion is shown necessary"
  },
  {
   "property": "C170",
   "status": "partial",
   "theorems": [
    "C170_success",
    "C170_all",
    "C170_only",
    "C170_answers",
    "C170_wakes",
    "C170_gives_up",
    "C170_stopped",
    "C170_lost_refuted",
    "C170_twice_refuted",
    "C170_stuck_refuted",
    "C170_null_refuted",
    "C170_closed_refuted"
   ],
   "note": "Success, answers and waking are proved for all interleavings. Refuted for some schedules: a volume reported between the look into the directory and the waiting is lost; an archive is unpacked twice; unrar started just after the deletion waits for ever; a null pointer and a closed file are used."
  },
  {
   "property": "C171",
   "status": "partial",
   "theorems": [
    "C171_main",
    "C171_archive",
    "C171_line",
    "C171_question",
    "C171_number_refuted",
    "C171_again_refuted"
   ],
   "note": "Proved for numbers of volumes of up to nine digits, names up to 900 bytes and output without backspaces. Larger numbers are cut to 32 bits; output beginning with a backspace repeats the line before (refuted)."
  },
  {
   "property": "C172",
   "status": "partial",
   "theorems": [
    "C172_append",
    "C172_edit",
    "C172_rate",
    "C172_resume",
    "C172_log",
    "C172_servers",
    "C172_edit_refuses",
    "C172_log_refuses",
    "C172_negative",
    "C172_missing",
    "C172_mode_refuses",
    "C172_password_refuted",
    "C172_escapes_refuted",
    "C172_id_refuted",
    "C172_ampersand_refuted",
    "C172_offset_refuted",
    "C172_rate_refuted",
    "C172_untyped_refuted"
   ],
   "note": "Proved for all well-formed requests (append in its form since version 13) with texts without two escapes in a row, non-empty distinct post-processing parameters taken undecoded, and rates below 2 GB/s. Refuted otherwise: post-processing parameters are not decoded; adjacent escapes; the identifier behind a shortened append; an encoded ampersand; editqueue by address without the offset; overflow of large rates; XML-texts without a type."
  },
  {
   "property": "C173",
   "status": "partial",
   "theorems": [
    "C173_inside",
    "C173_ends",
    "C173_behind_refuted"
   ],
   "note": "Every procedure ends; reading stays inside for XML and addresses always, for JSON if the request ends with a bracket, a brace or a blank. A JSON request breaking off behind a value is read behind its end (refuted)."
  },
  {
   "property": "C174",
   "status": "partial",
   "theorems": [
    "C174_items",
    "C174_count",
    "C174_blanks_refuted",
    "C174_behind_refuted",
    "C174_null_refuted",
    "C174_ampersand_refuted",
    "C174_size_refuted"
   ],
   "note": "Proved for texts not split at blanks, titles with something between the quotes, non-empty descriptions without ampersands, enclosures with addresses without entities and lengths other than 0. Refuted otherwise: blanks at pieces of a text are lost (Tom & Jerry); a title behind the last item replaces its title; empty descriptions and enclosures without attributes use a null pointer; a description ending in AT&T is read behind its end; a length of 0 removes the size; attributes with the value first are ignored."
  },
  {
   "property": "C175",
   "status": "partial",
   "theorems": [
    "C175_title",
    "C175_description",
    "C175_quote_refuted",
    "C175_empty_refuted"
   ],
   "note": "Proved for titles whose first quote is followed by another byte than a quote and for descriptions without ampersands. A title ending with its only quote is read behind its end; after empty quotes the following text is taken (refuted)."
  },
  {
   "property": "C176",
   "status": "partial",
   "theorems": [
    "C176_ids",
    "C176_refuses",
    "C176_behind_refuted"
   ],
   "note": "Proved for lists of ids and ranges of ids up to 2147483647, and the refusal of pieces that begin with something else than a digit, a plus sign or white space and of 0. What stands behind a number is dropped without an error (5x7, 1-2-900) (refuted)."
  },
  {
   "property": "C177",
   "status": "partial",
   "theorems": [
    "C177_append",
    "C177_refuses",
    "C177_word_refuted",
    "C177_several_refuted",
    "C177_behind_refuted"
   ],
   "note": "Proved for settings before the file in any order and letter case. Refuted otherwise: a file named like a setting is taken for it; of several files only the first is added, without an error; with a setting behind the file the value of the setting is added instead of the file, because the words are counted in the order getopt made of its copy."
  },
  {
   "property": "C178",
   "status": "partial",
   "theorems": [
    "C178_edit",
    "C178_move",
    "C178_group_only",
    "C178_unknown",
    "C178_missing",
    "C178_no_id",
    "C178_param",
    "C178_behind_refuted",
    "C178_scope_refuted"
   ],
   "note": "Proved for all commands of the help text with settings before the command. Refuted: with a setting behind the names the command is for the value of the setting; deleting with parking and sorting are not refused for files, splitting not for groups, the ids are then those of other things."
  },
  {
   "property": "C179",
   "status": "proved",
   "theorems": [
    "C179_commands",
    "C179_too_many",
    "C179_bare",
    "C179_unknown",
    "C179_server"
   ],
   "note": "For pausing, resuming, listing, scanning, shutdown, reload and version, with configuration file and options before the command; the rate, the log and regular expressions of listings are not covered."
  },
  {
   "property": "C18",
   "status": "partial",
   "theorems": [
    "C18_merge_partial",
    "C18_merge_servers",
    "C18_merge_extra_refuted",
    "C18_split_adds_up_partial",
    "C18_split_sums_partial",
    "C18_split_paused_refuted",
    "C18_split_missed_refuted",
    "C18_split_extra_refuted"
   ],
   "note": "merge loses the extra-priority count; split gets paused count, missed sizes and extra priority wrong"
  },
  {
   "property": "C180",
   "status": "partial",
   "theorems": [
    "C180_wait",
    "C180_interval",
    "C180_wakes",
    "C180_check",
    "C180_back_refuted"
   ],
   "note": "Proved for a clock that is not set back. After it is set back by less than the interval of a service the wait is longer than the interval (refuted)."
  },
  {
   "property": "C181",
   "status": "proved",
   "theorems": [
    "C181_disk",
    "C181_required",
    "C181_released"
   ],
   "note": "The temporary pauses are those of WorkState; that downloading and post-processing honour them is covered elsewhere or not at all, see DESIGN.md."
  },
  {
   "property": "C19",
   "status": "partial",
   "theorems": [
    "C19_move_up",
    "C19_move_down",
    "C19_permutation",
    "C19_move_top",
    "C19_move_bottom",
    "C19_move_before",
    "C19_move_after",
    "C19_move_to_selected",
    "C19_move_to_unknown",
    "C19_offset_overflow_refuted"
   ],
   "note": "proved for all queues, selections and targets while index + offset fits into int; an offset near INT_MAX overflows (undefined behaviour)"
  },
  {
   "property": "C20",
   "status": "proved",
   "theorems": [
    "C20_order_meaning",
    "C20_strict_weak",
    "C20_sort_all",
    "C20_sort_selection",
    "C20_unique"
   ],
   "note": "std::stable_sort is modelled as insertion sort"
  },
  {
   "property": "C21",
   "status": "partial",
   "theorems": [
    "C21_next_partial",
    "C21_once",
    "C21_extra_refuted",
    "C21_paused_refuted"
   ],
   "note": "Search ends, finds an article iff one is left, best file under the condition that extra-priority groups have something to download; no article is handed out twice. Without the condition a lower priority wins; with direct renaming first articles of paused and deleted files are fetched (refuted)."
  },
  {
   "property": "C22",
   "status": "partial",
   "theorems": [
    "C22_unique_partial",
    "C22_twice_refuted"
   ],
   "note": "New identifiers are never equal to a live one, for every history of creations, removals and restarts from states without repeated ids. A kill between saving queue and history leaves a download with the same id in both (C22_twice_refuted)."
  },
  {
   "property": "C23",
   "status": "partial",
   "theorems": [
    "C23_killed",
    "C23_histories",
    "C23_completed",
    "C23_first_save_refuted",
    "C23_discard_refuted",
    "C23_plain_refuted"
   ],
   "note": "proved for files that were saved once; the first save, discarded files and non-transactional files are refuted"
  },
  {
   "property": "C24",
   "status": "partial",
   "theorems": [
    "C24_entry_partial",
    "C24_queue_partial",
    "C24_history_partial",
    "C24_dupe_mode_refuted",
    "C24_stage_refuted",
    "C24_time_refuted"
   ],
   "note": "all attributes except duplicate mode, hint and post-processing stage; these are refuted, as are times after 2038"
  },
  {
   "property": "C25",
   "status": "partial",
   "theorems": [
    "C25_write_in_bounds",
    "C25_read_resync",
    "C25_round_trip_partial",
    "C25_overflow_refuted",
    "C25_lost_character_refuted",
    "C25_line_break_refuted"
   ],
   "note": "proved for lines of up to 1022 bytes; longer lines refuted"
  },
  {
   "property": "C26",
   "status": "partial",
   "theorems": [
    "C26_health_partial",
    "C26_health_decreases",
    "C26_critical",
    "C26_par_failed_refuted"
   ],
   "note": "Range, monotonicity, and 1000 exactly when no non-par data failed. With failed par data alone the health stays 1000 (refuted)."
  },
  {
   "property": "C27",
   "status": "proved",
   "theorems": [
    "C27_defined",
    "C27_exclusive",
    "C27_limit",
    "C27_options",
    "C27_request",
    "C27_available",
    "C27_available_refuted"
   ],
   "note": "the availability part needs that Changed follows an activation (the refuted theorem shows a history without it)"
  },
  {
   "property": "C28",
   "status": "partial",
   "theorems": [
    "C28_failed_partial",
    "C28_fatal_refuted",
    "C28_bounded",
    "C28_defined"
   ],
   "note": "refuted for articles that cannot be written: a damaged yEnc header from one server ends the download without asking the others; proved for all other runs"
  },
  {
   "property": "C29",
   "status": "partial",
   "theorems": [
    "C29_assembled_partial",
    "C29_whole_file_partial",
    "C29_new_file",
    "C29_uuencoded_refuted",
    "C29_forced_flush_refuted",
    "C29_restart_refuted",
    "C29_too_long_refuted",
    "C29_memory_in_file_refuted"
   ],
   "note": "Proved for yEnc articles which keep to their places, for every order, any attempts, cache and flush decisions, restarts. False for UUEncoded articles in the cache, for forced direct writing with a flushed cache, after a restart without further articles, and for articles longer than announced, which the decoder accepts."
  },
  {
   "property": "C30",
   "status": "partial",
   "theorems": [
    "C30_sum",
    "C30_balance_partial",
    "C30_grow_refuted",
    "C30_empty_block_refuted"
   ],
   "note": "The sum is always right. The limit holds unless a block is enlarged; a block of size zero is never released."
  },
  {
   "property": "C31",
   "status": "partial",
   "theorems": [
    "C31_best_partial",
    "C31_failed",
    "C31_url_refuted"
   ],
   "note": "Best backup, first among equals, strictly above successes and queued NZBs, none if good. Queued URLs of the title are not counted (refuted)."
  },
  {
   "property": "C32",
   "status": "partial",
   "theorems": [
    "C32_queue",
    "C32_history_partial",
    "C32_hint_refuted"
   ],
   "note": "Copies are always marked, except downloads brought back by hand, where a good duplicate in front hides the copy (refuted)."
  },
  {
   "property": "C33",
   "status": "partial",
   "theorems": [
    "C33_formula",
    "C33_accept_filter",
    "C33_negation",
    "C33_total",
    "C33_negated_group_refuted"
   ],
   "note": "proved for formulas with negated words; a minus sign in front of a group is ignored"
  },
  {
   "property": "C34",
   "status": "proved",
   "theorems": [
    "C34_first_decisive_rule",
    "C34_later_rules",
    "C34_options"
   ],
   "note": ""
  },
  {
   "property": "C35",
   "status": "partial",
   "theorems": [
    "C35_total",
    "C35_days_partial",
    "C35_days_refuted",
    "C35_clock_refuted"
   ],
   "note": "totals and array bounds proved for every clock up to 2038; per-day volumes when no report is from a day before the first one, otherwise refuted; faults from 2038 on"
  },
  {
   "property": "C36",
   "status": "partial",
   "theorems": [
    "C36_usage_partial",
    "C36_reports_partial",
    "C36_fault",
    "C36_fault_refuted",
    "C36_late_refuted"
   ],
   "note": "proved when the clock is not before the first recorded day; otherwise the check faults; nothing is counted from 2033-01-15 on"
  },
  {
   "property": "C37",
   "status": "partial",
   "theorems": [
    "C37_due_times",
    "C37_once_partial",
    "C37_states",
    "C37_startup",
    "C37_zone_refuted"
   ],
   "note": "proved for a constant local time offset; a changing offset executes a task twice"
  },
  {
   "property": "C38",
   "status": "partial",
   "theorems": [
    "C38_newest_partial",
    "C38_ids",
    "C38_startup_refuted",
    "C38_renumber_refuted"
   ],
   "note": "proved after every message once options are read; reading the options itself leaves the log above the limit and renumbers messages"
  },
  {
   "property": "C39",
   "status": "proved",
   "theorems": [
    "C39_mul",
    "C39_mul_only",
    "C39_assoc",
    "C39_comm",
    "C39_distr",
    "C39_div",
    "C39_div_mul",
    "C39_pow",
    "C39_no_zero_divisors",
    "C39_table_indices"
   ],
   "note": "operator ^= (unused) is not the power: C39_power_assign_refuted"
  },
  {
   "property": "C40",
   "status": "proved",
   "theorems": [
    "C40_repair",
    "C40_process",
    "C40_create",
    "C40_bases",
    "C40_block_limit"
   ],
   "note": ""
  },
  {
   "property": "C41",
   "status": "partial",
   "theorems": [
    "C41_fixed",
    "C41_growing_partial",
    "C41_replace_all_partial",
    "C41_builder",
    "C41_replace_overrun_refuted",
    "C41_replace_empty_refuted",
    "C41_zero_length_refuted"
   ],
   "note": "Byte-level memory model: every sequence of operations stays inside the storage. CString::Replace beyond the end reads outside, ReplaceAll of the empty text never ends (refuted)."
  },
  {
   "property": "C42",
   "status": "proved",
   "theorems": [
    "C42_last_assignment",
    "C42_others_unaffected",
    "C42_cases",
    "C42_names_distinct",
    "C42_values_nonempty",
    "C42_copy"
   ],
   "note": ""
  },
  {
   "property": "C43",
   "status": "proved",
   "theorems": [
    "C43_pointwise",
    "C43_one_entry",
    "C43_set"
   ],
   "note": ""
  },
  {
   "property": "C44",
   "status": "partial",
   "theorems": [
    "C44_safe",
    "C44_unchanged",
    "C44_rest",
    "C44_nice",
    "C44_empty_refuted"
   ],
   "note": "Safe, idempotent, rest of the name kept. A name can become empty (refuted)."
  },
  {
   "property": "C45",
   "status": "proved",
   "theorems": [
    "C45_check",
    "C45_served",
    "C45_login"
   ],
   "note": ""
  },
  {
   "property": "C46",
   "status": "partial",
   "theorems": [
    "C46_inside_partial",
    "C46_long_refuted"
   ],
   "note": "Proved for web directories of up to 1023 bytes; longer ones are cut (refuted)."
  },
  {
   "property": "C47",
   "status": "proved",
   "theorems": [
    "C47_status",
    "C47_url"
   ],
   "note": "Defined, never INTERNAL_ERROR; first word characterised for every combination of results."
  },
  {
   "property": "C48",
   "status": "partial",
   "theorems": [
    "C48_decoder_chunk_independent",
    "C48_article_roundtrip",
    "C48_single_part_refuted",
    "C48_nul_byte_refuted"
   ],
   "note": "proved for NUL-free well-formed multi-part articles; refuted for single-part articles with a part= field in =yend and for raw NUL bytes"
  },
  {
   "property": "C49",
   "status": "partial",
   "theorems": [
    "C49_retry_partial",
    "C49_retry_refuted",
    "C49_clear_partial"
   ],
   "note": "Holds unless an earlier attempt was taken for UUEncode; Clear keeps the detected format."
  },
  {
   "property": "C50",
   "status": "partial",
   "theorems": [
    "C50_uudecode_refuted"
   ],
   "note": "false of the code: the decoded bytes stay in the line buffer, raw input bytes are written"
  },
  {
   "property": "C51",
   "status": "partial",
   "theorems": [
    "C51_raw_eof_refuted",
    "C51_raw_eof_sound",
    "C51_raw_eof_partial"
   ],
   "note": "sound always; complete only for buffers of at least four bytes"
  },
  {
   "property": "C52",
   "status": "proved",
   "theorems": [
    "C52_encoders_fit"
   ],
   "note": ""
  },
  {
   "property": "C53",
   "status": "proved",
   "theorems": [
    "C53_latin1"
   ],
   "note": ""
  },
  {
   "property": "C54",
   "status": "partial",
   "theorems": [
    "C54_stale_selection_refuted"
   ],
   "note": "refuted: an id list without any queued group sorts the whole queue"
  },
  {
   "property": "C55",
   "status": "partial",
   "theorems": [
    "C55_file_order_refuted",
    "C55_not_strict_weak_refuted"
   ],
   "note": "refuted: the comparison has a cycle"
  },
  {
   "property": "C56",
   "status": "proved",
   "theorems": [
    "C56_pause_all",
    "C56_pause_extra_with_index",
    "C56_pause_extra_smallest"
   ],
   "note": ""
  },
  {
   "property": "C57",
   "status": "partial",
   "theorems": [
    "C57_reorder",
    "C57_duplicate_refuted"
   ],
   "note": "proved for id lists without repetition; a repeated id loses its place"
  },
  {
   "property": "C58",
   "status": "partial",
   "theorems": [
    "C58_completed_file_discarded_refuted",
    "C58_not_without_renaming",
    "C17_statistics_any_partial"
   ],
   "note": "refuted: a one-article par2-file completed last while direct renaming runs is discarded"
  },
  {
   "property": "C59",
   "status": "partial",
   "theorems": [
    "C59_split_moves_selection",
    "C59_split_foreign_refuted"
   ],
   "note": "proved for selections within one group; files of other groups put null pointers into the new group"
  },
  {
   "property": "C60",
   "status": "proved",
   "theorems": [
    "C60_total_status"
   ],
   "note": ""
  },
  {
   "property": "C61",
   "status": "partial",
   "theorems": [
    "C61_rings_partial",
    "C61_minutes_refuted"
   ],
   "note": "seconds proved; minutes and hours proved unless reports are one to 60 minutes (1 to 24 hours) apart, where refuted"
  },
  {
   "property": "C62",
   "status": "proved",
   "theorems": [
    "C62_periods",
    "C36_usage_partial"
   ],
   "note": ""
  },
  {
   "property": "C63",
   "status": "partial",
   "theorems": [
    "C63_speed_partial",
    "C63_backwards_refuted"
   ],
   "note": "proved for a clock that does not run backwards; negative speed otherwise"
  },
  {
   "property": "C64",
   "status": "proved",
   "theorems": [
    "C64_replay",
    "C64_order"
   ],
   "note": ""
  },
  {
   "property": "C65",
   "status": "proved",
   "theorems": [
    "C65_wakeup"
   ],
   "note": ""
  },
  {
   "property": "C66",
   "status": "proved",
   "theorems": [
    "C66_from",
    "C66_newest"
   ],
   "note": "fewer than 2^31 messages"
  },
  {
   "property": "C67",
   "status": "proved",
   "theorems": [
    "C67_servers"
   ],
   "note": "clock up to 2038"
  },
  {
   "property": "C68",
   "status": "proved",
   "theorems": [
    "C68_text_term",
    "C68_separators"
   ],
   "note": "titles without zero bytes"
  },
  {
   "property": "C69",
   "status": "proved",
   "theorems": [
    "C69_size_term",
    "C69_age_term"
   ],
   "note": "products below 2^53, exact in the double arithmetic used"
  },
  {
   "property": "C70",
   "status": "partial",
   "theorems": [
    "C70_references_partial",
    "C70_inside_partial",
    "C70_word_partial",
    "C70_expand",
    "C70_empty_group_refuted"
   ],
   "note": "proved for non-empty groups and masks without question mark after an asterisk; an empty group gives the rest of the word"
  },
  {
   "property": "C71",
   "status": "partial",
   "theorems": [
    "C71_reads_inside_partial",
    "C71_reads_inside_refuted"
   ],
   "note": "filter texts whose last character is not ) ( : - + or %"
  },
  {
   "property": "C72",
   "status": "partial",
   "theorems": [
    "C72_queued_once",
    "C72_new_urls",
    "C72_listed_kept",
    "C72_cleanup",
    "C72_zero_history_refuted"
   ],
   "note": "clean-up claim false for FeedHistory=0"
  },
  {
   "property": "C73",
   "status": "proved",
   "theorems": [
    "C73_backoff",
    "C73_success",
    "C73_due"
   ],
   "note": ""
  },
  {
   "property": "C74",
   "status": "partial",
   "theorems": [
    "C74_consecutive_partial",
    "C74_one_block",
    "C74_enough_blocks_refuted",
    "C74_row_order_refuted"
   ],
   "note": "proved for consecutive exponents and for one missing block; false in general"
  },
  {
   "property": "C75",
   "status": "partial",
   "theorems": [
    "C75_fits_partial",
    "C75_disk_full_lost",
    "C75_disk_full_refuted"
   ],
   "note": "false: the result of writing is never checked"
  },
  {
   "property": "C76",
   "status": "partial",
   "theorems": [
    "C76_restart_partial",
    "C76_killed_partial",
    "C76_lost_refuted",
    "C76_stale_progress_refuted",
    "C76_first_progress_refuted",
    "C76_wiped_refuted"
   ],
   "note": "each file separately is old or new; together refuted"
  },
  {
   "property": "C77",
   "status": "partial",
   "theorems": [
    "C77_resumed",
    "C77_scripts_refuted",
    "C77_moving_refuted"
   ],
   "note": "the loaded stage is one too high"
  },
  {
   "property": "C78",
   "status": "partial",
   "theorems": [
    "C78_round_trip_partial",
    "C78_never_stuck",
    "C78_large_offset_refuted"
   ],
   "note": "offsets below 4 GiB"
  },
  {
   "property": "C79",
   "status": "partial",
   "theorems": [
    "C79_round_trip_partial",
    "C79_time_refuted"
   ],
   "note": "times before 2038"
  },
  {
   "property": "C80",
   "status": "proved",
   "theorems": [
    "C80_levels",
    "C80_main_servers_refuted"
   ],
   "note": "by design nothing is downloaded when all servers of the lowest level are inactive (refuted theorem)"
  },
  {
   "property": "C81",
   "status": "partial",
   "theorems": [
    "C81_retries_partial",
    "C81_retries_refuted",
    "C81_retention",
    "C28_bounded"
   ],
   "note": "proved without lost connections and server groups; refuted when a connection is lost between two retries: the next server inherits the remaining retries"
  },
  {
   "property": "C82",
   "status": "partial",
   "theorems": [
    "C82_rfc822_partial",
    "C82_half_hour_east_refuted"
   ],
   "note": "zones less than an hour east of Greenwich are taken for west"
  },
  {
   "property": "C83",
   "status": "partial",
   "theorems": [
    "C83_repairable_partial",
    "C83_unrepairable_partial",
    "C83_par_failed_refuted"
   ],
   "note": "Holds while no par data failed; with failed par data a repairable download is taken for unrepairable (refuted)."
  },
  {
   "property": "C84",
   "status": "partial",
   "theorems": [
    "C84_success",
    "C84_failure_partial",
    "C84_exact",
    "C84_move_refuted",
    "C84_health_refuted"
   ],
   "note": "SUCCESS texts always count as success. FAILURE texts count as failure except FAILURE/MOVE and unprocessed downloads of low health (refuted)."
  },
  {
   "property": "C85",
   "status": "partial",
   "theorems": [
    "C85_final_partial",
    "C85_inter",
    "C85_header_refuted",
    "C85_empty_refuted",
    "C85_split_refuted"
   ],
   "note": "Holds for categories without steps upwards and names of which something is left. A category sent by a web server leaves the directory; a name can become empty; the name of a split download is not made safe (refuted)."
  },
  {
   "property": "C86",
   "status": "proved",
   "theorems": [
    "C86_unique",
    "C86_bak"
   ],
   "note": "First free numbered name; termination."
  },
  {
   "property": "C87",
   "status": "partial",
   "theorems": [
    "C87_taken_partial",
    "C87_taken_finally",
    "C87_taken_in_time",
    "C87_changed_refuted"
   ],
   "note": "Size unchanged since the previous look and first seen long enough ago. The time of the last change is never updated, so a file which changed a second ago is taken (refuted)."
  },
  {
   "property": "C88",
   "status": "proved",
   "theorems": [
    "C88_url"
   ],
   "note": ""
  },
  {
   "property": "C89",
   "status": "partial",
   "theorems": [
    "C89_decision",
    "C89_key",
    "C89_queue",
    "C89_defined",
    "C89_refused_refuted"
   ],
   "note": "Decision characterised exactly. A refused download can already have driven queued ones of lower score out (refuted)."
  },
  {
   "property": "C90",
   "status": "proved",
   "theorems": [
    "C90_hide",
    "C90_cleanup"
   ],
   "note": "For downloads whose health is defined."
  },
  {
   "property": "C91",
   "status": "partial",
   "theorems": [
    "C91_stream",
    "C91_pieces",
    "C91_download",
    "C91_send",
    "C91_write_line_refuted"
   ],
   "note": "Everything except WriteLine, which reports success after a partial send (refuted)."
  },
  {
   "property": "C92",
   "status": "partial",
   "theorems": [
    "C92_one_partial",
    "C92_session_partial",
    "C92_redirect_refuted",
    "C92_smuggled_refuted"
   ],
   "note": "One response for all addresses except /nzbget, which gets two; what follows is served exactly if the client asked to keep the connection; the body of a refused request is taken for the next request (refuted)."
  },
  {
   "property": "C93",
   "status": "partial",
   "theorems": [
    "C93_head_partial",
    "C93_origin_partial",
    "C93_origin_refuted"
   ],
   "note": "Complete while the whole head fits 1023 bytes (an Origin of up to 300 bytes always does); cut otherwise (refuted)."
  },
  {
   "property": "C94",
   "status": "partial",
   "theorems": [
    "C94_rights",
    "C94_get_partial",
    "C94_jsonp_refuted",
    "C94_hidden_partial",
    "C94_multicall_refuted",
    "C94_shown"
   ],
   "note": "Rights proved for all calls. JSON-P runs everything by GET; calls inside system.multicall use rights that were never set (refuted)."
  },
  {
   "property": "C95",
   "status": "partial",
   "theorems": [
    "C95_defined_partial",
    "C95_empty_refuted",
    "C95_percent_refuted"
   ],
   "note": "Addresses that are not empty and have no percent sign; the others are refuted."
  },
  {
   "property": "C96",
   "status": "proved",
   "theorems": [
    "C96_memory",
    "C96_one_format"
   ],
   "note": ""
  },
  {
   "property": "C97",
   "status": "proved",
   "theorems": [
    "C97_articles",
    "C97_download"
   ],
   "note": ""
  },
  {
   "property": "C98",
   "status": "partial",
   "theorems": [
    "C98_sizes_partial",
    "C98_added",
    "C98_negative_refuted",
    "C98_huge_refuted"
   ],
   "note": "Proved for sizes that are not negative. A segment without stated size counts as -1, and sizes above 2^31 come out negative (refuted)."
  },
  {
   "property": "C99",
   "status": "partial",
   "theorems": [
    "C99_defined_partial",
    "C99_tame",
    "C99_nested_refuted",
    "C99_empty_segment_refuted",
    "C99_inner_segment_refuted",
    "C99_empty_file_refuted"
   ],
   "note": "Proved for documents without nesting of files or segments and without empty segments; those, and an nzb-file that becomes empty before the password is read, are undefined (refuted)."
  }
 ]
}