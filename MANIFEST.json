{
 "claims": [
  {
   "property": "C01",
   "status": "partial",
   "theorems": [
    "C01_reads_are_replay_partial",
    "C01_update_succeeds_partial",
    "C01_coherence_preserved_partial",
    "C01_reads_are_replay_refuted",
    "C01_lost_update_refuted"
   ],
   "note": "False in general: Rollback compares Version with the begin point off by one. Proved for every history in which no Rollback happens with the snapshot exactly one transaction past Begin; the excluded case is refuted."
  },
  {
   "property": "C02",
   "status": "partial",
   "theorems": [
    "C02_failed_do_no_trace_partial",
    "C02_failed_do_returns_partial",
    "C02_successful_do_keeps_all",
    "C02_failed_do_no_trace_refuted",
    "C02_undo_inside_do_refuted"
   ],
   "note": "False in general (two witnesses); proved outside the two excluded situations."
  },
  {
   "property": "C03",
   "status": "proved",
   "theorems": [
    "C03_rollbackn_undoes_exactly_n",
    "C03_rollbackn_too_many",
    "C03_rollback_zero"
   ],
   "note": ""
  },
  {
   "property": "C04",
   "status": "proved",
   "theorems": [
    "C04_history_append_only"
   ],
   "note": ""
  },
  {
   "property": "C05",
   "status": "proved",
   "theorems": [
    "C05_last_writer_wins"
   ],
   "note": ""
  },
  {
   "property": "C06",
   "status": "partial",
   "theorems": [
    "C06_entry_history_exact_partial",
    "C06_every_version_has_a_cut",
    "C06_too_old_is_an_error",
    "C06_negative_version_crashes_refuted"
   ],
   "note": "Exact for every non-negative version; 'never crashes' is false for negative versions."
  },
  {
   "property": "C07",
   "status": "partial",
   "theorems": [
    "C07_store_history_exact_partial",
    "C07_too_old_is_an_error",
    "C07_negative_version_crashes_refuted"
   ],
   "note": "Exact for every non-negative version; 'never crashes' is false for negative versions."
  },
  {
   "property": "C08",
   "status": "proved",
   "theorems": [
    "C08_bad_transaction_reported"
   ],
   "note": ""
  },
  {
   "property": "C09",
   "status": "proved",
   "theorems": [
    "C09_nversions_counts",
    "C09_last_updated"
   ],
   "note": ""
  },
  {
   "property": "C10",
   "status": "partial",
   "theorems": [
    "C10_save_iff_no_transaction",
    "C10_save_refused_inside_transaction",
    "C10_commit_rollback_need_begin",
    "C10_nested_begin_refuted"
   ],
   "note": "All but the documented panic of a nested Begin, which does not exist (refuted)."
  },
  {
   "property": "C11",
   "status": "partial",
   "theorems": [
    "C11_merge_is_union_partial",
    "C11_merge_succeeds_iff_partial",
    "C11_same_time_refuted"
   ],
   "note": "False when different transactions share a timestamp (refuted) and in the look-alike case of C16; proved otherwise, for all logs and forks."
  },
  {
   "property": "C12",
   "status": "partial",
   "theorems": [
    "C12_replicas_converge_partial",
    "C12_same_conflicts_partial",
    "C12_answers_converge",
    "C12_replicas_diverge_refuted"
   ],
   "note": "Proved outside the look-alike case of C16, in which it is false (refuted)."
  },
  {
   "property": "C13",
   "status": "partial",
   "theorems": [
    "C13_merge_idempotent",
    "C13_resync_changes_nothing_partial",
    "C13_grouping_partial",
    "C13_grouping_refuted"
   ],
   "note": "Proved outside the look-alike case of C16; there the grouping matters (refuted)."
  },
  {
   "property": "C14",
   "status": "proved",
   "theorems": [
    "C14_merge_never_poisons",
    "C14_resolved_merge_never_poisons"
   ],
   "note": ""
  },
  {
   "property": "C15",
   "status": "partial",
   "theorems": [
    "C15_conflicts_exact",
    "C15_conflict_reported_partial",
    "C15_conflict_missed_refuted"
   ],
   "note": "Every report is exact; a conflict can go unreported only in the look-alike case of C16 (refuted)."
  },
  {
   "property": "C16",
   "status": "partial",
   "theorems": [
    "C16_fast_path_sound_partial",
    "C16_fast_path_sound_subset_partial",
    "C16_fast_path_loses_data_refuted"
   ],
   "note": "False with three machines (refuted); holds for two logs that forked once and for logs of which one contains the other."
  },
  {
   "property": "C17",
   "status": "proved",
   "theorems": [
    "C17_choose_delete"
   ],
   "note": ""
  },
  {
   "property": "C18",
   "status": "partial",
   "theorems": [
    "C18_choose_restore_partial",
    "C18_mixed_choices",
    "C18_restore_leaves_deleted_refuted"
   ],
   "note": "The merged log is exactly as asked; the entry is visible again unless it was deleted on both sides (refuted)."
  },
  {
   "property": "C19",
   "status": "proved",
   "theorems": [
    "C19_resolution_settles",
    "C19_corrupt_log_never_settles_refuted"
   ],
   "note": "Second theorem: the hypothesis that each log replays cannot be dropped."
  },
  {
   "property": "C20",
   "status": "partial",
   "theorems": [
    "C20_clean_merge_completes_partial",
    "C20_forced_merge_completes_partial",
    "C20_conflict_prompt_never_completes_refuted"
   ],
   "note": "False for every delete/set conflict and every input (the prompt loop has no exit); merges without one complete."
  },
  {
   "property": "C21",
   "status": "partial",
   "theorems": [
    "C21_merge_never_crashes_partial",
    "C21_first_merge_partial",
    "C21_empty_logs_crash_refuted",
    "C21_force_crashes_refuted"
   ],
   "note": "False for two empty logs and for Force on a delete/set conflict; proved otherwise for replayable logs and all chains of answers."
  },
  {
   "property": "C22",
   "status": "proved",
   "theorems": [
    "C22_unrelated_never_merged",
    "C22_merge_needs_force"
   ],
   "note": ""
  },
  {
   "property": "C23",
   "status": "proved",
   "theorems": [
    "C23_names_unique_and_present",
    "C23_operations_no_crash",
    "C23_taken_name_refused",
    "C23_rename_to_taken_refused",
    "C23_new_creates",
    "C23_rename_renames"
   ],
   "note": ""
  },
  {
   "property": "C24",
   "status": "partial",
   "theorems": [
    "C24_names_unique_after_merge_partial",
    "C24_names_present_after_merge",
    "C24_duplicate_names_refuted"
   ],
   "note": "False when the same name is given on two machines (refuted); unique if no name was ever given to two entries, and every merged entry has a name."
  },
  {
   "property": "C25",
   "status": "proved",
   "theorems": [
    "C25_protected_refused",
    "C25_others_accepted"
   ],
   "note": ""
  },
  {
   "property": "C26",
   "status": "partial",
   "theorems": [
    "C26_name_and_updated_kept_partial",
    "C26_other_protected_deleted_refuted",
    "C26_case_not_folded_refuted"
   ],
   "note": "DeleteKey protects only the exact keys name and updated (refuted for totp, salt, iv, mkey and other letter cases)."
  },
  {
   "property": "C27",
   "status": "proved",
   "theorems": [
    "C27_set_changes_one_key",
    "C27_deletekey_changes_one_key"
   ],
   "note": ""
  },
  {
   "property": "C28",
   "status": "proved",
   "theorems": [
    "C28_lookup_exact",
    "C28_lookup_deterministic"
   ],
   "note": ""
  },
  {
   "property": "C29",
   "status": "partial",
   "theorems": [
    "C29_search_exact_partial",
    "C29_empty_query_matches_all",
    "C29_order_irrelevant_partial",
    "C29_search_crashes_refuted",
    "C29_search_misses_refuted"
   ],
   "note": "Exact for names that are well-formed UTF-8 whose lower case is not longer; otherwise the search can crash (refuted)."
  },
  {
   "property": "C30",
   "status": "partial",
   "theorems": [
    "C30_label_search_exact_partial",
    "C30_label_search_refuted"
   ],
   "note": "Exact when no entry repeats a label; false otherwise (refuted)."
  },
  {
   "property": "C31",
   "status": "partial",
   "theorems": [
    "C31_addlabel_appends",
    "C31_removelabel_partial",
    "C31_removelabel_loses_labels_refuted",
    "C31_removed_label_stays_refuted",
    "C31_negative_index_crashes_refuted",
    "C31_comma_label_refuted"
   ],
   "note": "AddLabel holds for comma-free labels; RemoveLabel is right only for one label or the first of two (refuted for all longer lists)."
  },
  {
   "property": "C32",
   "status": "partial",
   "theorems": [
    "C32_reports_duplicates_partial",
    "C32_nothing_renamed_refuted"
   ],
   "note": "Duplicates are reported exactly but nothing is ever renamed (refuted for every store)."
  },
  {
   "property": "C33",
   "status": "proved",
   "theorems": [
    "C33_stamp_after_set",
    "C33_stamp_after_deletekey",
    "C33_stamp_after_new",
    "C33_stamp_after_rename"
   ],
   "note": ""
  },
  {
   "property": "C34",
   "status": "partial",
   "theorems": [
    "C34_findone_partial",
    "C34_order_irrelevant_partial",
    "C34_duplicates_ambiguous_refuted"
   ],
   "note": "Proved for names on which searching does not crash (C29); with duplicate names the choice depends on iteration order (refuted)."
  },
  {
   "property": "C35",
   "status": "proved",
   "theorems": [
    "C35_newsync_fresh_name"
   ],
   "note": ""
  },
  {
   "property": "C36",
   "status": "partial",
   "theorems": [
    "C36_users_exact",
    "C36_username_recovered",
    "C36_other_names_partial",
    "C36_split_no_crash",
    "C36_split_inner_refuted"
   ],
   "note": "Users is exact and usernames are recovered; SplitUsername also accepts names that merely contain user/ (refuted)."
  },
  {
   "property": "C37",
   "status": "partial",
   "theorems": [
    "C37_fold",
    "C37_fold_more",
    "C37_match_is_subsequence_partial",
    "C37_no_false_match",
    "C37_ascii_names_exact",
    "C37_match_no_crash_refuted",
    "C37_match_is_subsequence_refuted"
   ],
   "note": "Exact for well-formed names whose lower case is not longer; a match reported is always real; otherwise crashes or misses (refuted). MatchFold, which only the tests use, is Match of the lower cases."
  },
  {
   "property": "C38",
   "status": "partial",
   "theorems": [
    "C38_pad_round_trip",
    "C38_pad_is_rfc5652",
    "C38_unpad_no_crash",
    "C38_unpad_accepts_partial",
    "C38_unpad_accepts_refuted",
    "C38_large_block_refuted"
   ],
   "note": "Round trip and format proved for block sizes 1..255; Unpad accepts more than Pad produces (refuted)."
  },
  {
   "property": "C39",
   "status": "partial",
   "theorems": [
    "C39_single_round_trip_partial",
    "C39_empty_passphrase_refuted"
   ],
   "note": "Proved for every passphrase but the empty one, with which files can be made but not reopened (refuted)."
  },
  {
   "property": "C40",
   "status": "partial",
   "theorems": [
    "C40_multi_round_trip_partial",
    "C40_enrol",
    "C40_empty_name_refuted"
   ],
   "note": "Proved for up to 9999 users with non-empty names; an empty name can be enrolled but never opens the file (refuted)."
  },
  {
   "property": "C41",
   "status": "partial",
   "theorems": [
    "C41_integrity",
    "C41_same_body",
    "C41_magic_line",
    "C41_other_rows_partial",
    "C41_iv_exact",
    "C41_iv_users",
    "C41_iv_refuted"
   ],
   "note": "Proved whenever the decoded body is the same (magic line, other users' rows). False for the file's IV (refuted): a change of its AES part is accepted exactly if the hash changes by the same bytes (C41_iv_exact, C41_iv_users), which needs no collision. Alterations of the user's own salt, IV and wrapped key change the keys and are only covered by the body hash check (C41_integrity)."
  },
  {
   "property": "C42",
   "status": "partial",
   "theorems": [
    "C42_unknown_user_partial",
    "C42_unknown_user_crash_refuted"
   ],
   "note": "Genuine files never open for an unknown user unless SHA-512 collides; not an error but a crash on small files (refuted)."
  },
  {
   "property": "C43",
   "status": "partial",
   "theorems": [
    "C43_is_multi_user_partial",
    "C43_foreign_partial",
    "C43_single_crash_partial",
    "C43_short_file_refuted",
    "C43_truncated_refuted",
    "C43_negative_count_refuted",
    "C43_wrong_passphrase_refuted"
   ],
   "note": "False for short, truncated and negative-count files and for some wrong passphrases (refuted); foreign magic and versions are reported, and the single-user crash condition is exact."
  },
  {
   "property": "C44",
   "status": "proved",
   "theorems": [
    "C44_success_needs_key",
    "C44_single_refused",
    "C44_multi_refused"
   ],
   "note": ""
  },
  {
   "property": "C45",
   "status": "proved",
   "theorems": [
    "C45_mode_agrees"
   ],
   "note": ""
  },
  {
   "property": "C46",
   "status": "partial",
   "theorems": [
    "C46_bad_sizes_refused",
    "C46_unknown_version_refused",
    "C46_accepted",
    "C46_no_crash_partial",
    "C46_missing_master_refuted",
    "C46_too_many_users_refuted"
   ],
   "note": "What is accepted is characterised exactly; a missing master key crashes and more than 9999 users write a wrong count (refuted)."
  },
  {
   "property": "C47",
   "status": "partial",
   "theorems": [
    "C47_meets_request",
    "C47_impossible_partial",
    "C47_all_off_refuted",
    "C47_otherwise_generated"
   ],
   "note": "Proved without overflow for all lengths; with all classes off and length 0 the empty password is given out instead of an error (refuted)."
  },
  {
   "property": "C48",
   "status": "partial",
   "theorems": [
    "C48_no_crash_partial",
    "C48_multiple_of_256_refuted",
    "C48_overflow_refuted"
   ],
   "note": "The exact crash condition is proved; every positive multiple of 256 crashes, as do minima whose sum wraps around (refuted). Allocation limits are not modelled."
  },
  {
   "property": "C49",
   "status": "proved",
   "theorems": [
    "C49_saves",
    "C49_round_trip",
    "C49_log_round_trip",
    "C49_readers_agree",
    "C49_save_again",
    "C49_injective",
    "C49_null_refuted",
    "C49_escapes",
    "C49_lone_surrogate"
   ],
   "note": "Versions below 2^64 and times in int64, as in the Go types. Beyond the statement: a file containing null gives a nil store without an error and crashes NewLog (C49_null_refuted)."
  },
  {
   "property": "C50",
   "status": "partial",
   "theorems": [
    "C50_log_partial",
    "C50_preserved_iff_partial",
    "C50_once_partial",
    "C50_any",
    "C50_any_again",
    "C50_any_log",
    "C50_latin1_refuted",
    "C50_collision_refuted",
    "C50_lost_field_refuted"
   ],
   "note": "Holds exactly for valid UTF-8; every other byte becomes U+FFFD, so passwords change, collide, and fields of a snapshot can be lost (refuted)."
  },
  {
   "property": "C51",
   "status": "partial",
   "theorems": [
    "C51_single_partial",
    "C51_multi_partial",
    "C51_created_partial",
    "C51_created_only",
    "C51_created_refused",
    "C51_user_entry_refuted",
    "C51_no_users_refuted",
    "C51_first_entry",
    "C51_other_entries_unused",
    "C51_twins_refuted"
   ],
   "note": "Proved for stores in good order (valid UTF-8, users with credentials); a multi-user store with an entry user/\u2026 lacking credentials, or with no user left, can never be saved (refuted). If two machines add the same user and then sync, the user has two entries and each save decides by map iteration order which of the two passphrases opens the file (C51_twins_refuted)."
  },
  {
   "property": "C52",
   "status": "partial",
   "theorems": [
    "C52_adduser_multi_partial",
    "C52_adduser_first_partial",
    "C52_rekey_user_partial",
    "C52_rekey_self_partial",
    "C52_passwd_self_partial",
    "C52_passwd_single",
    "C52_rekey_single",
    "C52_no_password",
    "C52_adduser_taken",
    "C52_passwd_other_refuted",
    "C52_old_password_returns_refuted",
    "C52_empty_password_refuted",
    "C52_interrupted_refuted",
    "C52_adduser_error_refuted",
    "C52_adduser_unsavable_refuted",
    "C52_rekey_created_refuted"
   ],
   "note": "Proved for adduser, rekey and passwd on the user themselves; passwd for another user changes one's own password, rekey can bring the old one back, adduser accepts an empty password and an interrupted adduser blocks saving (refuted)."
  },
  {
   "property": "C53",
   "status": "partial",
   "theorems": [
    "C53_rest_partial",
    "C53_locked_out_refuted"
   ],
   "note": "False: printed passwords unlock the old master key while the file is under the new one (refuted for every run); only the other fields of all entries are proved to survive."
  },
  {
   "property": "C54",
   "status": "partial",
   "theorems": [
    "C54_exact_partial",
    "C54_single",
    "C54_last_user",
    "C54_self_refused",
    "C54_not_confirmed_partial",
    "C54_absent",
    "C54_mode_lost_refuted",
    "C54_cannot_delete_refuted"
   ],
   "note": "Proved when user/ occurs in the name only at its beginning; an entry such as work/user/<me> counts as the user's own entry (refuted)."
  },
  {
   "property": "C55",
   "status": "partial",
   "theorems": [
    "C55_shows_single",
    "C55_shows_multi",
    "C55_past",
    "C55_nothing_written",
    "C55_unnamed_refuted"
   ],
   "note": "Proved for single- and multi-user files, all times and all sessions; a time that falls inside one command's transactions shows an entry without a name, on which ls crashes (refuted)."
  },
  {
   "property": "C56",
   "status": "partial",
   "theorems": [
    "C56_before_and_after_partial",
    "C56_emptied_refuted",
    "C56_cut_off_refuted"
   ],
   "note": "WriteFile empties the file first: a crash leaves neither version (refuted); before the write and after it the file is readable."
  },
  {
   "property": "C57",
   "status": "partial",
   "theorems": [
    "C57_read_back",
    "C57_read_back_partial",
    "C57_no_cr",
    "C57_crlf_refuted",
    "C57_empty_record_refuted",
    "C57_go_reads_partial",
    "C57_table_partial",
    "C57_one_table",
    "C57_same_file",
    "C57_current",
    "C57_earlier",
    "C57_csv",
    "C57_nothing",
    "C57_format",
    "C57_no_file",
    "C57_stale_refuted",
    "C57_blank_refuted"
   ],
   "note": "The file is read back as the table of the snapshot, for all values; but the snapshot is not brought up to date first, so what was added last is missing (refuted), and a key with an empty value looks like a missing key (refuted). Go's own CSV reader reads it as the table too, but turns CR LF inside values into LF (refuted)."
  },
  {
   "property": "C58",
   "status": "partial",
   "theorems": [
    "C58_reads",
    "C58_one_reading",
    "C58_refused",
    "C58_lengths",
    "C58_read_text",
    "C58_text_partial",
    "C58_any_partial",
    "C58_first_line",
    "C58_quoted_header_refuted",
    "C58_notes_refuted",
    "C58_imports_partial",
    "C58_imports_asked_partial",
    "C58_declined",
    "C58_values",
    "C58_underscores",
    "C58_old",
    "C58_names",
    "C58_header_refuted",
    "C58_format",
    "C58_fields_refuted",
    "C58_failed",
    "C58_lpass_failed",
    "C58_read_failed",
    "C58_label_refuted"
   ],
   "note": "Every record becomes an entry of its own with its values under a free name and nothing else changes; but the header becomes an entry too, fields are not counted (a quoted header crashes) and groups become labels that cannot be typed (refuted). The text of the file is read with the modelled CSV reader: exactly the texts of an RFC 4180 grammar are accepted, as the records they write; CR LF inside a quoted field becomes LF (refuted)."
  },
  {
   "property": "C59",
   "status": "partial",
   "theorems": [
    "C59_cases",
    "C59_accepted",
    "C59_accepted_unasked",
    "C59_refused",
    "C59_short_line_refuted",
    "C59_unknown",
    "C59_remembered",
    "C59_saved",
    "C59_saved_text",
    "C59_saved_gone_refuted"
   ],
   "note": "A host is accepted exactly when its first known line has the key, or when the user says yes to an unknown one; a known line with fewer than four words crashes, and saving a host for an entry that is gone poisons the log (refuted)."
  },
  {
   "property": "C60",
   "status": "partial",
   "theorems": [
    "C60_marked",
    "C60_named",
    "C60_alike",
    "C60_opened",
    "C60_retry",
    "C60_stops",
    "C60_user",
    "C60_other",
    "C60_pushed",
    "C60_sync_partial",
    "C60_merged",
    "C60_same_keys",
    "C60_later_key",
    "C60_mode",
    "C60_rekeyed",
    "C60_single_partial",
    "C60_shared_partial",
    "C60_nothing_new",
    "C60_both_agree_partial",
    "C60_moved_refuted",
    "C60_unchanged_refuted",
    "C60_alike_refuted",
    "C60_conflict_refuted",
    "C60_short_refuted",
    "C60_url_refuted",
    "C60_scheme_refuted",
    "C60_empty_remote_refuted",
    "C60_latest_refuted",
    "C60_mode_refuted",
    "C60_users_opened",
    "C60_users_keys",
    "C60_users_shared_partial"
   ],
   "note": "Whenever anything is pushed, all logs that could be opened were merged, it is one file that saving would write, and it goes only to remotes that were opened or did not exist; a sync that ends well reaches all of them; two machines sharing a file end up the same, with one user (C60_shared_partial) and with several (C60_users_shared_partial: same users and master key on both). Refuted in full generality: the url may have moved with the merge, remotes that look alike do not get what others had, delete/edit conflicts are never resolved, short files, bad urls, other schemes and empty remote logs crash, and with two remotes the key or mode kept can be the wrong one. How urls are parsed and what ssh servers do is an input of the model."
  },
  {
   "property": "C61",
   "status": "proved",
   "theorems": [
    "C61_all_or_nothing",
    "C61_aborted",
    "C61_no_merge",
    "C61_same"
   ],
   "note": "In every run either the merge succeeded or nothing was pushed and log, credentials and transaction point are as before; the snapshot is brought up to date."
  },
  {
   "property": "C62",
   "status": "partial",
   "theorems": [
    "C62_read_partial",
    "C62_read_spaces_refuted",
    "C62_read_big_refuted",
    "C62_read_exact",
    "C62_complaint",
    "C62_not_found",
    "C62_crash_refuted",
    "C62_crash_only",
    "C62_send_partial",
    "C62_send_bare_partial",
    "C62_send_newline_refuted",
    "C62_send_length",
    "C62_response",
    "C62_confirmed_refuted"
   ],
   "note": "Received bytes are exact for every server; names with white space and files of 2^31 bytes are refused, a negative length crashes, a line feed in the name breaks the message and success is reported from the sink's first byte (refuted). ssh itself is not modelled."
  },
  {
   "property": "C63",
   "status": "partial",
   "theorems": [
    "C63_unescape",
    "C63_distinct",
    "C63_password_partial",
    "C63_no_data",
    "C63_cancelled",
    "C63_any_escape_refuted",
    "C63_two_lines_refuted",
    "C63_long_line",
    "C63_no_panic",
    "C63_none",
    "C63_only",
    "C63_program"
   ],
   "note": "The three escapes that pinentry has to use are undone exactly; other escapes and data in several lines are not understood (refuted)."
  },
  {
   "property": "C64",
   "status": "partial",
   "theorems": [
    "C64_line_partial",
    "C64_line_ctx_partial",
    "C64_stored_partial",
    "C64_trailing_refuted",
    "C64_tab_refuted",
    "C64_blanks_refuted"
   ],
   "note": "Proved for texts that do not end in white space and keys that may be set; white space at the end is lost, a tab after set drops a word and double blanks are refused (refuted)."
  },
  {
   "property": "C65",
   "status": "partial",
   "theorems": [
    "C65_result_partial",
    "C65_shown_as_set_partial",
    "C65_no_crash_partial",
    "C65_error_partial",
    "C65_settings",
    "C65_toggle",
    "C65_blank_line_refuted",
    "C65_length_refuted",
    "C65_impossible_accepted_refuted"
   ],
   "note": "Proved for tame inputs; a line of blanks or a length of 256 crashes, and after impossible settings y hands out an empty password never shown (refuted)."
  },
  {
   "property": "C66",
   "status": "partial",
   "theorems": [
    "C66_typed_partial",
    "C66_last_blank_refuted",
    "C66_result",
    "C66_error"
   ],
   "note": "Exact except that an empty line just before the end is lost (refuted)."
  },
  {
   "property": "C67",
   "status": "proved",
   "theorems": [
    "C67_complete"
   ],
   "note": ""
  },
  {
   "property": "C68",
   "status": "partial",
   "theorems": [
    "C68_string",
    "C68_menu",
    "C68_menu_typed",
    "C68_int_partial",
    "C68_int_range_refuted"
   ],
   "note": "getString and getMenuChoice are exact; getInt does not check the range (refuted; it is called nowhere)."
  },
  {
   "property": "C69",
   "status": "proved",
   "theorems": [
    "C69_command",
    "C69_session"
   ],
   "note": "Panics end the session without saving. sync is an oracle assumed to leave the store in good order (C84_settled, C84_text show what of it the modelled sync keeps)."
  },
  {
   "property": "C70",
   "status": "proved",
   "theorems": [
    "C70_append"
   ],
   "note": ""
  },
  {
   "property": "C71",
   "status": "proved",
   "theorems": [
    "C71_add",
    "C71_add_taken",
    "C71_add_failed",
    "C71_addsync",
    "C71_addsync_failed"
   ],
   "note": "Names and uuids are free; key generation and path functions are oracles."
  },
  {
   "property": "C72",
   "status": "partial",
   "theorems": [
    "C72_set",
    "C72_set_asked",
    "C72_set_pass_asked",
    "C72_set_totp",
    "C72_set_url_refused",
    "C72_set_none",
    "C72_rmk",
    "C72_rmk_name",
    "C72_rmk_none",
    "C72_mv",
    "C72_mv_taken",
    "C72_mv_absent",
    "C72_edit",
    "C72_edit_empty",
    "C72_edit_given_up",
    "C72_edit_protected",
    "C72_label",
    "C72_label_read",
    "C72_rmlabel_absent",
    "C72_rmlabel_only",
    "C72_set_protected_refuted",
    "C72_rmk_absent_refuted",
    "C72_rmlabel_refuted",
    "C72_label_comma_refuted"
   ],
   "note": "Each command is characterised exactly; set of a protected key and rmk of an absent one report success without effect, rmlabel drops other labels, and a label with a comma becomes two (refuted)."
  },
  {
   "property": "C73",
   "status": "partial",
   "theorems": [
    "C73_get",
    "C73_get_totp",
    "C73_get_none",
    "C73_show",
    "C73_ls",
    "C73_labels_partial",
    "C73_show_negative_refuted"
   ],
   "note": "get, show, ls and labels (entries without repeated labels) are exact; show with a negative number crashes (refuted)."
  },
  {
   "property": "C74",
   "status": "partial",
   "theorems": [
    "C74_other_errors",
    "C74_add_partial",
    "C74_addsync_partial",
    "C74_rm_partial",
    "C74_label_partial",
    "C74_loop_ends",
    "C74_nothing_saved",
    "C74_passwd_refuted",
    "C74_set_pass_refuted",
    "C74_edit_refuted",
    "C74_lost_refuted"
   ],
   "note": "Holds for add, addsync, rm and label; passwd, set pass and a failing editor end the program without saving (refuted)."
  },
  {
   "property": "C75",
   "status": "partial",
   "theorems": [
    "C75_wiped_partial",
    "C75_not_run_refuted",
    "C75_status_refuted"
   ],
   "note": "Holds after an editor that exits with status 0; not if it cannot be run or exits with another status (refuted)."
  },
  {
   "property": "C76",
   "status": "partial",
   "theorems": [
    "C76_single_partial",
    "C76_single_saves_partial",
    "C76_add_refuted",
    "C76_mv_refuted",
    "C76_rmk_refuted"
   ],
   "note": "Proved for single-user sessions and every command but sync and adduser (any mode and adduser: C80_keys, C80_any); in a multi-user session add, mv and rmk can make saving impossible (refuted)."
  },
  {
   "property": "C77",
   "status": "partial",
   "theorems": [
    "C77_status_refuted",
    "C77_status_partial"
   ],
   "note": "The error is overwritten before the status is computed, so the status is 0 (refuted); only an error of closing the terminal shows."
  },
  {
   "property": "C78",
   "status": "proved",
   "theorems": [
    "C78_means",
    "C78_words",
    "C78_typed",
    "C78_one_meaning",
    "C78_skip",
    "C78_nothing",
    "C78_get",
    "C78_cp",
    "C78_quick",
    "C78_mv",
    "C78_rmk",
    "C78_cd",
    "C78_cd_out",
    "C78_cd_none",
    "C78_ls",
    "C78_exit",
    "C78_refused",
    "C78_login"
   ],
   "note": "All lines; the rest of the words of a line is given by the model of strings.Fields, for printable words with single blanks they are the words typed. The command login only reads but is refused in a read-only session (C78_login)."
  },
  {
   "property": "C79",
   "status": "proved",
   "theorems": [
    "C79_reads",
    "C79_turns",
    "C79_one_course",
    "C79_rest",
    "C79_ends_well",
    "C79_end",
    "C79_exit",
    "C79_broken"
   ],
   "note": "The sync command is an oracle here, assumed to read its input in order; C84_reads shows it of the modelled sync."
  },
  {
   "property": "C80",
   "status": "partial",
   "theorems": [
    "C80_words",
    "C80_saved_partial",
    "C80_saved_passwd_partial",
    "C80_any_partial",
    "C80_keys",
    "C80_only_store",
    "C80_spared",
    "C80_still",
    "C80_users_partial",
    "C80_lost_refuted",
    "C80_saved_text_partial",
    "C80_saved_text_passwd_partial"
   ],
   "note": "Sessions in which sync is not run (sessions with sync: C84), for logs of UTF-8 text (which they are when UTF-8 is typed) shorter than 2^64. Single-user sessions are saved whatever is typed (C80_saved*); for sessions of any mode, C80_any_partial needs that everything called user/... has credentials at the end (add, mv and rmk can break that: C76), and C80_users_partial that no user's entry is touched. Refuted: a multi-user session in which an entry is renamed to user/... ends well but is never saved."
  },
  {
   "property": "C81",
   "status": "proved",
   "theorems": [
    "C81_cuts",
    "C81_cut",
    "C81_password",
    "C81_command",
    "C81_loop"
   ],
   "note": "The editor, url and ssh libraries are oracles assumed to give text for text; the clock fits int64."
  },
  {
   "property": "C82",
   "status": "partial",
   "theorems": [
    "C82_read_back_partial",
    "C82_file",
    "C82_target_partial",
    "C82_added_partial",
    "C82_absolute_refuted",
    "C82_port",
    "C82_signed_port_refuted",
    "C82_name",
    "C82_slash_refuted",
    "C82_crash",
    "C82_synced",
    "C82_text_partial",
    "C82_file_text",
    "C82_spelled_once",
    "C82_spelled_apart",
    "C82_asked"
   ],
   "note": "Proved for ports of digits, hosts net/url can read and paths without a leading slash; an absolute path becomes a relative one, a port with a sign or a host with other bytes is stored but never synced, and a url without a path crashes (refuted). The text of the urls is proved byte by byte. net/url is transcribed from Go 1.18."
  },
  {
   "property": "C83",
   "status": "partial",
   "theorems": [
    "C83_pull_trusted",
    "C83_push_trusted",
    "C83_changed_key",
    "C83_pull_exact",
    "C83_push_exact",
    "C83_pull_host",
    "C83_push_host",
    "C83_round_trip",
    "C83_missing",
    "C83_command_partial",
    "C83_command_refuted",
    "C83_forgotten_refuted"
   ],
   "note": "Trust and exactness hold for every server and input; but the path is put into the shell command unquoted, and a host accepted in a push that then fails is forgotten (refuted). The ssh library's own checks (signatures, encryption) are assumed."
  },
  {
   "property": "C84",
   "status": "partial",
   "theorems": [
    "C84_alone",
    "C84_users_keys",
    "C84_users_saved_partial",
    "C84_users_failed_partial",
    "C84_reads",
    "C84_ssh_order",
    "C84_turns",
    "C84_origin",
    "C84_settled",
    "C84_text",
    "C84_ssh_text",
    "C84_key_partial",
    "C84_saved_partial",
    "C84_failed_partial",
    "C84_names_refuted"
   ],
   "note": "Input order, replayability and text hold for every run of sync; that the file opens again is proved for single-user sessions whose remotes are single-user files too and which do not use adduser, and (C84_users_saved_partial) for every user of a multi-user session whose remotes have the same master key and which do not change keys or users, if names stay distinct and the table of users is sound at the end. That names stay unique after a sync is refuted (C84_names_refuted)."
  },
  {
   "property": "C85",
   "status": "partial",
   "theorems": [
    "C85_reads",
    "C85_stamp",
    "C85_one",
    "C85_epoch",
    "C85_next_day",
    "C85_time_of_day",
    "C85_order",
    "C85_different",
    "C85_at_partial",
    "C85_shows_partial",
    "C85_shows_multi_partial",
    "C85_readonly_partial",
    "C85_bad",
    "C85_year_one_refuted",
    "C85_readonly_refuted",
    "C85_2500_refuted",
    "C85_1500_refuted"
   ],
   "note": "Every text is read as the time it writes or refused, numbers of seconds follow the calendar, and for the years 1678 to 2261 the file shows the log up to that instant (single- and multi-user) and is not written. Refuted for 0001-01-01 00:00:00, which is Go's zero time (the file is opened for writing), and for other years, whose nanoseconds wrap around. time.Parse, time.Date and UnixNano are transcribed from Go 1.18."
  },
  {
   "property": "C86",
   "status": "partial",
   "theorems": [
    "C86_file_partial",
    "C86_file_refuted",
    "C86_only",
    "C86_version",
    "C86_gen",
    "C86_gen_alone",
    "C86_export_partial",
    "C86_export_past_partial",
    "C86_synced",
    "C86_session_export_partial",
    "C86_export_refuted",
    "C86_import_new_partial",
    "C86_import_partial",
    "C86_failed",
    "C86_status_refuted",
    "C86_terminal_refuted",
    "C86_users_open",
    "C86_users_export_partial",
    "C86_users_session_partial",
    "C86_users_import_partial",
    "C86_users_import_refuted"
   ],
   "note": "Whole runs of main from the values of the flags on: which file, version, gen, export and import, and sessions on multi-user files without syncing (C86_users_*). Refuted: an import with a record called user/... into a multi-user file is lost, a file given that is the default one gives way to $BPASS, an export without --time can lack what was added last, a failed run has the status of a good one, and without a terminal the program panics. The flag parser itself (flaggy) is not modelled."
  },
  {
   "property": "C87",
   "status": "partial",
   "theorems": [
    "C87_parts",
    "C87_short_partial",
    "C87_one",
    "C87_short_refuted"
   ],
   "note": "Name and number of directories are always kept; each directory is cut to its first character if that is ASCII; otherwise the first byte is taken for a character (refuted)."
  },
  {
   "property": "C88",
   "status": "partial",
   "theorems": [
    "C88_names",
    "C88_unchanged",
    "C88_closed",
    "C88_ls",
    "C88_unnamed_refuted",
    "C88_commands",
    "C88_missing_refuted",
    "C88_next",
    "C88_line_partial",
    "C88_entered_refuted",
    "C88_blank_refuted"
   ],
   "note": "All names are offered, in order, the log never changes and every word offered is a command, names and keys are offered after exactly the commands that take them; refuted: login, dump, dumpall and rekeyall are not offered, an entry without a name ends the program, and names with blanks or offered inside an entered entry make other lines. How the readline library uses the words is not modelled."
  },
  {
   "property": "C89",
   "status": "partial",
   "theorems": [
    "C89_typed_partial",
    "C89_keys_partial",
    "C89_text",
    "C89_ended",
    "C89_broken",
    "C89_space_refuted",
    "C89_empty_refuted",
    "C89_byte_refuted",
    "C89_stale_refuted",
    "C89_torn_refuted",
    "C89_lines",
    "C89_end_refuted"
   ],
   "note": "Proved for all text without Backspace in whole characters, and key by key with Backspace for ASCII; refuted: Backspace on an empty line crashes, takes back a byte of a character, and when it arrives with other keys it takes all later keys with it; white space around a passphrase is lost; the end of input ends the session without saving."
  },
  {
   "property": "C90",
   "status": "partial",
   "theorems": [
    "C90_prompts_partial",
    "C90_prompt_refuted",
    "C90_errors",
    "C90_editor",
    "C90_editor_mac",
    "C90_browser",
    "C90_arguments_refuted"
   ],
   "note": "Holds for all prompts but the empty one, which shows the one before (refuted); the program and its argument are exact, so that $EDITOR with arguments is not found (refuted)."
  },
  {
   "property": "C91",
   "status": "partial",
   "theorems": [
    "C91_bare_key",
    "C91_set_bare",
    "C91_set_url",
    "C91_text",
    "C91_base32",
    "C91_every_key",
    "C91_padded",
    "C91_no_base32",
    "C91_lines_refuted",
    "C91_capitals_refuted",
    "C91_code",
    "C91_get",
    "C91_digits",
    "C91_period",
    "C91_options_refuted",
    "C91_blanks_refuted",
    "C91_overwritten_refuted",
    "C91_no_key_refuted",
    "C91_counted_refuted",
    "C91_url_key",
    "C91_url_name",
    "C91_url_code",
    "C91_url_set",
    "C91_url_get"
   ],
   "note": "Holds for bare keys in base32 and for urls with any label and values, whose first secret counts. Digits, period and algorithm of an url are ignored, a key with blanks is stored but never gives a code, an url without a secret gives the code of the empty key, hotp urls are stored but never shown, and set without a value replaces the key by the empty one (all refuted). HMAC-SHA1 and unicode.ToUpper are parameters; the library otp is transcribed from memory of v1.3.0, as its source is not in the repository; its floating point counter is an integer division here."
  },
  {
   "property": "C92",
   "status": "partial",
   "theorems": [
    "C92_accepted",
    "C92_usual",
    "C92_scheme_needed",
    "C92_set",
    "C92_open",
    "C92_open_none",
    "C92_set_open",
    "C92_nowhere_refuted",
    "C92_mail_refuted",
    "C92_option_refuted"
   ],
   "note": "The texts taken are characterised exactly by a grammar, and a link that was set is what openurl opens. Links without a host such as https: are taken, mailto: is refused, and a text stored by edit (or import, or sync) is not checked, so that openurl can pass an option to the browser (refuted). net/url is transcribed from Go 1.18."
  },
  {
   "property": "C93",
   "status": "proved",
   "theorems": [
    "C93_basic",
    "C93_history",
    "C93_marshal",
    "C93_merge_no_diff",
    "C93_merge_append",
    "C93_merge_compare",
    "C93_merge_conflict",
    "C93_merge_conflicts",
    "C93_merge_root",
    "C93_transactions",
    "C93_do",
    "C93_rollback_n",
    "C93_versions",
    "C93_last_updated",
    "C93_fuzzy",
    "C93_fuzzy_fold",
    "C93_padding",
    "C93_unpad_errors",
    "C93_gen_passwd",
    "C93_params",
    "C93_crypt",
    "C93_crypt_multi"
   ],
   "note": "Each theorem is one test function, over all values it leaves to chance. Left out: that the plain text cannot be seen in the file (a matter of the ciphers), TestKeyDerivation (scrypt is a parameter), TestDecryptV0 (skipped by the project), and scpsync's tests, which talk to a real sshd (C62 models its side)."
  },
  {
   "property": "C94",
   "status": "partial",
   "theorems": [
    "C94_topics",
    "C94_topic_refuted",
    "C94_usages",
    "C94_commands",
    "C94_unknown",
    "C94_too_few",
    "C94_taken",
    "C94_typed_partial",
    "C94_inside",
    "C94_set_refuted"
   ],
   "note": "The usages are read out of the texts and compared with the commands, both ways. An unknown topic prints nothing at all, and set typed as the help prints it, with two blanks, is refused (refuted)."
  },
  {
   "property": "C95",
   "status": "partial",
   "theorems": [
    "C95_exact",
    "C95_in_order",
    "C95_commands_partial",
    "C95_reading",
    "C95_answers",
    "C95_one",
    "C95_valid_refuted",
    "C95_secret_refuted"
   ],
   "note": "The lines are characterised exactly. A line that lacks an argument is kept although line_editing.go says valid commands, and a secret on the line of set is kept with it (refuted); they are in memory only."
  },
  {
   "property": "C96",
   "status": "partial",
   "theorems": [
    "C96_last_refuted",
    "C96_idle_refuted",
    "C96_idle_users_refuted",
    "C96_in_turn_partial",
    "C96_idle_in_turn_partial",
    "C96_reader",
    "C96_past"
   ],
   "note": "Holds for runs one after the other. The file is not locked and not read again before it is written, so for runs that overlap the one that ends last overwrites it: even a session in which nothing is typed undoes whatever was saved since it was opened, with one user or several (refuted)."
  },
  {
   "property": "C97",
   "status": "partial",
   "theorems": [
    "C97_width",
    "C97_column",
    "C97_one_column",
    "C97_columns_partial",
    "C97_columns_refuted",
    "C97_order_refuted",
    "C97_bad_width_refuted",
    "C97_multi_partial",
    "C97_multi_refuted",
    "C97_readable_partial",
    "C97_forged_refuted",
    "C97_forged_labels_refuted",
    "C97_entries_refuted",
    "C97_rekey_partial",
    "C97_rekey_refuted"
   ],
   "note": "Proved with colours off, which are parameters of the model. A key as long as the width moves its value by a column, the width itself depends on map iteration order, an end of line in a passphrase or in labels looks like further keys, white space around a value of several lines is not shown, and rekeyall aligns only names of equal length (refuted). fmt's padding is transcribed from Go 1.18."
  },
  {
   "property": "C98",
   "status": "partial",
   "theorems": [
    "C98_quiet_partial",
    "C98_copy",
    "C98_set",
    "C98_set_refuted",
    "C98_session",
    "C98_session_copy",
    "C98_words",
    "C98_conflict_refuted"
   ],
   "note": "The classes of commands are proved exact for the texts in the model; what adduser and sync print is not modelled but for the question about a conflict, so both are counted among the commands that give out values. set prints a passphrase that was typed without an echo or generated, and the question about a conflict never tells what happened, because it looks at the kind of the delete (refuted)."
  },
  {
   "property": "C99",
   "status": "partial",
   "theorems": [
    "C99_sync_partial",
    "C99_kept_partial",
    "C99_converge_partial",
    "C99_round_partial",
    "C99_command_partial",
    "C99_conflict_refuted",
    "C99_overlap_refuted",
    "C99_command_users_partial"
   ],
   "note": "For one shared file, times that no two machines share and no change of an entry after its deletion elsewhere; the shortcut that takes logs of the same length, first and last time for the same is proved harmless in this setting (it is not with more than one file, C16). A change after a deletion elsewhere stops the syncs of that machine for good (refuted). The step is shown to be what the sync command does, for files without users and with several users. Pulls and pushes of two machines must not overlap: if they do, two logs can pass for each other and no further sync mends it (refuted)."
  }
 ]
}