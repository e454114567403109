{
 "claims": [
  {
   "property": "C01",
   "status": "proved",
   "theorems": [
    "C01_added_record_is_listed",
    "C01_article_record_bytes",
    "C01_article_record_codec",
    "C01_image_keeps_fields"
   ],
   "note": "codec round trip and the listing after an addition, in every sane world"
  },
  {
   "property": "C02",
   "status": "partial",
   "theorems": [
    "C02_image_unchanged_iff",
    "C02_money_and_mode_lost_refuted",
    "C02_update_image_partial"
   ],
   "note": "statement refuted by a witness; exact effect of writing a record back proved"
  },
  {
   "property": "C03",
   "status": "partial",
   "theorems": [
    "C03_histories_refine_lists",
    "C03_histories_terminate",
    "C03_huge_index_refuted",
    "C03_update_is_local",
    "C03_update_past_end"
   ],
   "note": "refinement of lists for every history with indices below 2^56; a huge index is proved to wrap round to another record"
  },
  {
   "property": "C04",
   "status": "proved",
   "theorems": [
    "C04_any_index_is_listed",
    "C04_article_record_fields",
    "C04_short_input_panics",
    "C04_slot_count",
    "C04_slots_determined"
   ],
   "note": "every regular file content is listed, slot by slot, each slot decoded at the C offsets"
  },
  {
   "property": "C05",
   "status": "partial",
   "theorems": [
    "C05_directory_never_ends_refuted",
    "C05_other_lists_never_end_refuted",
    "C05_statement_refuted",
    "C05_terminates_unless_directory_partial"
   ],
   "note": "terminates for everything but directories; diverges on every directory (refuted)"
  },
  {
   "property": "C06",
   "status": "proved",
   "theorems": [
    "C06_concurrent_additions_merge"
   ],
   "note": "every number of adding clients, every schedule; the merged order is exhibited"
  },
  {
   "property": "C07",
   "status": "partial",
   "theorems": [
    "C07_crash_content",
    "C07_earlier_records_survive",
    "C07_later_addition_damaged_refuted",
    "C07_later_additions_refuted",
    "C07_recovery_partial"
   ],
   "note": "the state at every crash point proved, old records survive, a recovering reader sees them all; a later addition is damaged after a partial write (refuted)"
  },
  {
   "property": "C08",
   "status": "proved",
   "theorems": [
    "C08_concurrent_creations",
    "C08_created_article_is_new",
    "C08_only_the_reported_files"
   ],
   "note": "every number of concurrent creators (both creation calls), every schedule, clock and random stream, at every moment; and the single call"
  },
  {
   "property": "C09",
   "status": "partial",
   "theorems": [
    "C09_full_second_refuted",
    "C09_missing_board_refuted",
    "C09_returns_if_time_goes_on_partial",
    "C09_returns_when_a_name_is_free_partial"
   ],
   "note": "statement refuted: never returns while the board directory is missing, or (with a fixed date) when the 4096 names of the second are taken; proved to return when a tried name is free, and for the DB call whenever the clock goes on and the directory is finite"
  },
  {
   "property": "C10",
   "status": "partial",
   "theorems": [
    "C10_exact_when_not_longer",
    "C10_old_tail_remains_refuted",
    "C10_write_then_read_partial"
   ],
   "note": "statement refuted (a shorter text leaves the old tail); proved exact when not shorter, and the exact content always"
  },
  {
   "property": "C11",
   "status": "proved",
   "theorems": [
    "C11_append_extends",
    "C11_append_to_missing_fails",
    "C11_concurrent_appends"
   ],
   "note": "sequential and concurrent parts"
  },
  {
   "property": "C12",
   "status": "proved",
   "theorems": [
    "C12_board_header_bytes",
    "C12_board_header_roundtrip"
   ],
   "note": "round trip for every representable header, and the exact bytes of every header"
  },
  {
   "property": "C13",
   "status": "proved",
   "theorems": [
    "C13_any_board_file_is_listed",
    "C13_board_header_fields",
    "C13_board_list_refines",
    "C13_short_input_panics"
   ],
   "note": "decoding, every file content, and refinement of lists for every history of additions"
  },
  {
   "property": "C14",
   "status": "partial",
   "theorems": [
    "C14_at_the_end",
    "C14_beyond_the_end",
    "C14_negative_fails",
    "C14_negative_wraps_refuted",
    "C14_removed_from_the_listing",
    "C14_removes_exactly_one_partial",
    "C14_statement_refuted"
   ],
   "note": "exact for every index inside the file and every sequence of read sizes; negative indices fail; indices beyond the end grow the file and -2^56 removes record 0 (both refuted)"
  },
  {
   "property": "C15",
   "status": "proved",
   "theorems": [
    "C15_crash_keeps_other_boards"
   ],
   "note": "every crash point, partial writes included, no alignment assumption"
  },
  {
   "property": "C16",
   "status": "partial",
   "theorems": [
    "C16_added_board_is_lost_refuted",
    "C16_at_every_moment",
    "C16_only_boards_added_meanwhile_are_lost_partial"
   ],
   "note": "statement refuted: a schedule loses the added board; proved for one remover and any number of adders under every schedule: only boards added between the start and the end of the removal can be lost, all others are kept whole and in order, at every moment"
  },
  {
   "property": "C17",
   "status": "partial",
   "theorems": [
    "C17_note_cut_refuted",
    "C17_role_lost_refuted",
    "C17_user_record_bytes",
    "C17_user_record_fields",
    "C17_user_record_roundtrip_partial"
   ],
   "note": "all fields but the role survive; the role and the 39th byte of the note are proved lost; offsets proved both ways"
  },
  {
   "property": "C18",
   "status": "partial",
   "theorems": [
    "C18_counters_lost_refuted",
    "C18_online_user_fields",
    "C18_online_user_image_partial"
   ],
   "note": "exact image of every entry; three counters proved lost; offsets proved"
  },
  {
   "property": "C19",
   "status": "proved",
   "theorems": [
    "C19_saved_trees_are_loaded",
    "C19_saving_again_changes_nothing"
   ],
   "note": "every tree with right counters and fitting titles: bytes laid out as in fav.h, loaded as the same tree; a second save and load returns the identical structure"
  },
  {
   "property": "C20",
   "status": "proved",
   "theorems": [
    "C20_a_loaded_file_starts_the_data",
    "C20_every_laid_out_file_is_loaded",
    "C20_loading_is_total",
    "C20_panics_only_without_room",
    "C20_trailing_bytes_are_ignored",
    "C20_truncated_files_are_errors"
   ],
   "note": "every byte string; accepted exactly when it starts with a laid-out file; truncation is an error, trailing bytes ignored; panics only when the slice has no room for the version"
  },
  {
   "property": "C21",
   "status": "partial",
   "theorems": [
    "C21_favourites_with_names",
    "C21_never_panics_refuted",
    "C21_no_file_no_entries"
   ],
   "note": "names, shape and the missing-file case proved through the database call; panics exactly when a number is 0 or beyond the list (refuted)"
  },
  {
   "property": "C22",
   "status": "proved",
   "theorems": [
    "C22_answers_exactly",
    "C22_depends",
    "C22_shape"
   ],
   "note": "Shape, exact dependence on key and salt, and the exact condition for the panic."
  },
  {
   "property": "C23",
   "status": "partial",
   "theorems": [
    "C23_accepts_crypt3",
    "C23_accepts_exactly",
    "C23_never_panics_refuted",
    "C23_own_password_accepted",
    "C23_panics_exactly"
   ],
   "note": "Acceptance is exact, in terms of the hash and in terms of crypt(3); the own password is accepted, also after the record went through the file; the exact condition for the panic. The clause 'never panics' is false of the code (C23_never_panics_refuted): an empty slot of the password file makes it panic."
  },
  {
   "property": "C24",
   "status": "proved",
   "theorems": [
    "C24_resume",
    "C24_seeded_hash_is_fnv1a",
    "C24_seeds_stay_apart"
   ],
   "note": "For every seed below 2^32 and every list of writes the hash is FNV-1a of the concatenation from that seed; resuming from a hash value equals hashing the concatenation; different seeds never collide on the same bytes."
  },
  {
   "property": "C25",
   "status": "proved",
   "theorems": [
    "C25_below_home",
    "C25_different_files",
    "C25_empty_name_panics",
    "C25_leaves_home_refuted",
    "C25_nonempty_name_no_panic"
   ],
   "note": "different objects have different files below the home for plain names; escapes by .. and panics on empty names are proved too"
  },
  {
   "property": "C26",
   "status": "partial",
   "theorems": [
    "C26_crash_leaves_prefix_partial",
    "C26_crash_loses_draft_refuted",
    "C26_delete_missing_fails",
    "C26_draft_reads_last_write"
   ],
   "note": "sequential behaviour proved; a crash while writing can lose the old draft (refuted), it always leaves a prefix"
  },
  {
   "property": "C27",
   "status": "partial",
   "theorems": [
    "C27_last_open_wins_partial",
    "C27_shared_connector_refuted",
    "C27_unknown_driver"
   ],
   "note": "statement refuted; proved: the last open decides for every handle"
  },
  {
   "property": "C28",
   "status": "partial",
   "theorems": [
    "C28_bell_eats_text_refuted",
    "C28_coloured_idempotent_partial",
    "C28_colours_removed",
    "C28_exact",
    "C28_idempotent_partial",
    "C28_idempotent_refuted",
    "C28_plain_unchanged",
    "C28_subsequence"
   ],
   "note": "C28_exact characterises the result for every byte string; subsequence, escape-free texts and colour sequences proved in full. Stripping twice is not the same as stripping once (C28_idempotent_refuted) and a bell eats visible text (C28_bell_eats_text_refuted); idempotence proved where no introducer is left and for coloured texts."
  },
  {
   "property": "C29",
   "status": "partial",
   "theorems": [
    "C29_colon_refuted",
    "C29_line_parsed_partial",
    "C29_not_a_comment",
    "C29_one_letter_refuted",
    "C29_other_answers",
    "C29_parse_exact",
    "C29_record",
    "C29_repeated_stamp_refuted",
    "C29_text_with_colons"
   ],
   "note": "C29_parse_exact says for every line what is parsed; malformed lines are reported as no comments. The comment text is returned unchanged when it has no colon and does not repeat the stamp; otherwise false of the code (C29_colon_refuted, C29_repeated_stamp_refuted, C29_one_letter_refuted), and C29_text_with_colons says what is returned."
  },
  {
   "property": "C30",
   "status": "proved",
   "theorems": [
    "C30_always_answers",
    "C30_comments_exact",
    "C30_floors",
    "C30_long_line_cuts",
    "C30_long_line_refuted",
    "C30_missing_article",
    "C30_order"
   ],
   "note": "C30_comments_exact: the answer is exactly the numbered comment lines (relation numbered, stated with the declarative readings of C28 and C29), or a time error when a line has an impossible date; floors 1,2,3,...; a line of 64 KiB silently ends the search (C30_long_line_cuts, C30_long_line_refuted). Hypothesis: fewer than 2^32 lines, since the floor is a uint32."
  },
  {
   "property": "C31",
   "status": "partial",
   "theorems": [
    "C31_answers",
    "C31_membership",
    "C31_nameless_board_panics",
    "C31_never_panics_refuted",
    "C31_no_board_file",
    "C31_user_articles_exact"
   ],
   "note": "Exact answer for every board file whose indexes are files or missing, membership form, error when the board file is missing. False of the code: a board without a name makes the call panic (C31_nameless_board_panics, C31_never_panics_refuted)."
  },
  {
   "property": "C32",
   "status": "partial",
   "theorems": [
    "C32_bad_date_refuted",
    "C32_board_comments_exact",
    "C32_first_failure",
    "C32_missing_article_refuted",
    "C32_user_comments_exact"
   ],
   "note": "Exact answer when every article listed can be read. False of the code: the first article that is missing or has a comment with an impossible date makes the whole call fail (C32_first_failure, C32_missing_article_refuted, C32_bad_date_refuted)."
  },
  {
   "property": "C33",
   "status": "partial",
   "theorems": [
    "C33_errors",
    "C33_line_decoded_exactly",
    "C33_listing",
    "C33_long_line_is_fatal",
    "C33_reports_errors_refuted",
    "C33_written_lines"
   ],
   "note": "Every line: decoded exactly when it spells the time and host; otherwise the two errors, never a panic. Listing keeps all lines in order. False of the code for a file with a line of 65536 bytes or more: the program ends (C33_reports_errors_refuted, C33_long_line_is_fatal)."
  },
  {
   "property": "C34",
   "status": "partial",
   "theorems": [
    "C34_file_round_trip_partial",
    "C34_host_changed_refuted",
    "C34_line_read_exactly",
    "C34_never_panics_refuted",
    "C34_panics_exactly",
    "C34_round_trip_partial",
    "C34_short_id_lost_refuted",
    "C34_weekday"
   ],
   "note": "Every line is read exactly as it is spelled; the exact condition for the panic; round trip for every entry with an id of 2 to 12 visible characters or none, and for whole files; the weekday written is right for every date. False of the code: one-character ids are lost, hosts starting with ? or @ are changed, short lines panic (three refuted theorems)."
  },
  {
   "property": "C35",
   "status": "partial",
   "theorems": [
    "C35_lookups_read_the_entry",
    "C35_online_user_lookup_refuted",
    "C35_opens",
    "C35_positions_are_C_offsets",
    "C35_range_not_checked_refuted",
    "C35_shipped_command_refuted"
   ],
   "note": "For every geometry with non-zero alignment and every memory content the version, id and money lookups return the entry asked for, and the positions are the C compiler's offsets for int alignments 1, 2 and 4. False of the code: the online-user lookup always panics (C35_online_user_lookup_refuted), the shipped command panics (C35_shipped_command_refuted), user numbers are not range-checked (C35_range_not_checked_refuted)."
  },
  {
   "property": "C36",
   "status": "partial",
   "theorems": [
    "C36_always_answers_refuted",
    "C36_answers_exactly",
    "C36_tables_loaded",
    "C36_token_iff_crypt3",
    "C36_token_only_with_password"
   ],
   "note": "A token is given only by a POST to the token endpoint whose user name's first record accepts the password (in terms of crypt(3) for stored hashes), and every case of the answer is determined; the tables are exactly the slots of the files. The clause 'otherwise it answers an error' is false of the code for a record without a hash (C36_always_answers_refuted): the handler panics."
  },
  {
   "property": "C37",
   "status": "partial",
   "theorems": [
    "C37_authorization_ignored",
    "C37_information_exact_partial",
    "C37_information_only_by_path",
    "C37_token_required_refuted",
    "C37_tokens_expired_refuted"
   ],
   "note": "False of the code: no token is needed (C37_token_required_refuted), the header is ignored by every endpoint, and every token issued is already expired (C37_tokens_expired_refuted). Proved: exactly what is disclosed, and by which requests."
  },
  {
   "property": "C38",
   "status": "proved",
   "theorems": [
    "C38_flags_are_bits",
    "C38_flags_are_independent",
    "C38_unknown_user"
   ],
   "note": "Every accessor of the answer is one bit of the first record with that id, independent of all other bits; an unknown id is an error. The table the code searches is never filled in production (see findings)."
  },
  {
   "property": "C39",
   "status": "proved",
   "theorems": [
    "C39_every_argument_list",
    "C39_options_have_their_last_value"
   ],
   "note": "Every argument list is decomposed into options with values and plain words, plus possibly a valueless option at the end which is ignored; the map holds exactly the last value of each option."
  },
  {
   "property": "C40",
   "status": "partial",
   "theorems": [
    "C40_board_listings_leak_refuted",
    "C40_calls_close_partial",
    "C40_creating_closes",
    "C40_creating_with_map_closes",
    "C40_removing_closes",
    "C40_statement_refuted",
    "C40_user_listings_leak_refuted"
   ],
   "note": "all calls but the board and user listings close what they open, however the file system answers; each board or user listing leaks one descriptor (refuted)"
  },
  {
   "property": "C41",
   "status": "partial",
   "theorems": [
    "C41_c_string_cut",
    "C41_c_string_longest",
    "C41_owner_not_cut_refuted"
   ],
   "note": "first clause proved; second clause refuted for the article owner"
  },
  {
   "property": "C42",
   "status": "proved",
   "theorems": [
    "C42_any_formosa_index_is_listed",
    "C42_formosa_record_fields"
   ],
   "note": "decoding and every index content"
  },
  {
   "property": "C43",
   "status": "partial",
   "theorems": [
    "C43_connection_strings",
    "C43_file_path",
    "C43_key",
    "C43_never_panics",
    "C43_other_schemes_rejected",
    "C43_paths_with_colon_refuted",
    "C43_plain_path"
   ],
   "note": "Exact meaning of every connection string; plain paths, file: and shmkey: for colon-free paths; other schemes rejected; never panics. The full statement is false for paths with a colon (C43_paths_with_colon_refuted): they are cut or rejected, and junk after the key is ignored."
  },
  {
   "property": "C44",
   "status": "proved",
   "theorems": [
    "C44_board_flags_are_bits",
    "C44_board_flags_survive_the_file",
    "C44_class",
    "C44_class_survives_the_file",
    "C44_moderators",
    "C44_moderators_of_any_header",
    "C44_moderators_survive_the_file",
    "C44_same_class"
   ],
   "note": "Every query is exactly its bit, also after the header went through the file; the moderator list is the cut of the field at the slashes, hence the list it was written from; the class is the number in decimal digits, equal for equal numbers only."
  },
  {
   "property": "C45",
   "status": "proved",
   "theorems": [
    "C45_file_url",
    "C45_plain_path"
   ],
   "note": "plain paths and file URLs"
  },
  {
   "property": "C46",
   "status": "proved",
   "theorems": [
    "C46_hash_is_crypt3",
    "C46_other_salts"
   ],
   "note": "For every password and every salt of two letters the code computes crypt(3) as specified from FIPS 46-3 (S_Crypt.v); other 7-bit salts behave as some letter."
  },
  {
   "property": "C47",
   "status": "partial",
   "theorems": [
    "C47_created_record_time",
    "C47_listed_time",
    "C47_statement_refuted"
   ],
   "note": "statement refuted: always listed at 2288912640"
  },
  {
   "property": "C48",
   "status": "proved",
   "theorems": [
    "C48_listing_is_prefix",
    "C48_listings_and_additions"
   ],
   "note": "clients that add and list in any mix, every schedule; exact answers and the prefix form"
  },
  {
   "property": "C49",
   "status": "partial",
   "theorems": [
    "C49_add_recommend",
    "C49_only_the_count",
    "C49_wraps_refuted"
   ],
   "note": "proved whenever the sum fits int8; wrap proved (refuted) otherwise"
  },
  {
   "property": "C50",
   "status": "proved",
   "theorems": [
    "C50_every_path_below",
    "C50_panics_exactly",
    "C50_user_and_item"
   ],
   "note": "Exact splitting for every path below the endpoint, hence no panic there; in general it panics exactly on paths with fewer than three slashes."
  },
  {
   "property": "C51",
   "status": "proved",
   "theorems": [
    "C51_histories_refine_map",
    "C51_histories_terminate"
   ],
   "note": "whole-store refinement for every history"
  },
  {
   "property": "C52",
   "status": "partial",
   "theorems": [
    "C52_clients_linearize",
    "C52_draft_read_while_written_refuted",
    "C52_every_moment_explained",
    "C52_listing_during_updates_refuted",
    "C52_new_article_read_while_written_refuted",
    "C52_separate_files"
   ],
   "note": "all pools, at every moment: any calls on files with one user; adds, updates, writes, appends, reads and listings on shared files; refuted by witnesses for a listing during in-place updates, a draft read while it is rewritten, and a new article read while it is first written"
  },
  {
   "property": "C53",
   "status": "partial",
   "theorems": [
    "C53_errors_reported_refuted",
    "C53_home_is_used_refuted",
    "C53_missing_article_is_reported",
    "C53_show_board_article",
    "C53_show_board_article_list",
    "C53_show_board_list",
    "C53_show_user_article_list",
    "C53_show_user_comment_list",
    "C53_show_user_list",
    "C53_showing_changes_nothing",
    "C53_unknown_command"
   ],
   "note": "all six commands exact, and nothing is changed in any world at any moment; an unreadable index is shown as empty and a home name with '?' is not used (both refuted)"
  },
  {
   "property": "C54",
   "status": "proved",
   "theorems": [
    "C54_added_board_is_listed",
    "C54_id_kept_refuted",
    "C54_ids_stay_unique_refuted",
    "C54_missing_options",
    "C54_one_record_is_appended"
   ],
   "note": "one record appended, listed and shown; ids are neither unique nor kept (refuted)"
  },
  {
   "property": "C56",
   "status": "partial",
   "theorems": [
    "C56_board_commands_partial",
    "C56_boards_and_users_never_panic",
    "C56_never_panics_refuted",
    "C56_no_home_panics",
    "C56_user_commands_partial"
   ],
   "note": "refuted for the article commands by five witnesses; proved for the others in every world, and for these under the exact conditions"
  },
  {
   "property": "C55",
   "status": "proved",
   "theorems": [
    "C55_add_board_article",
    "C55_all_or_nothing_refuted",
    "C55_missing_options",
    "C55_missing_text",
    "C55_posted_article_is_listed",
    "C55_returns"
   ],
   "note": "success case exact for every world, termination, listing afterwards, missing options and missing text; all-or-nothing is refuted (an index that is a directory leaves an empty article)"
  },
  {
   "property": "C57",
   "status": "proved",
   "theorems": [
    "C57_always_written_refuted",
    "C57_concurrent_posts",
    "C57_crash_leaves_empty_article_refuted"
   ],
   "note": "all pools and schedules; that a listed article always has its text is refuted, for a reader in between and for a crash"
  },
  {
   "property": "C58",
   "status": "proved",
   "theorems": [
    "C58_all_or_nothing_refuted",
    "C58_crash_of_calls",
    "C58_crash_of_post",
    "C58_later_calls",
    "C58_sessions"
   ],
   "note": "every sequence of calls and every number of sessions; posting as well; all-or-nothing is refuted (a draft being overwritten)"
  },
  {
   "property": "C59",
   "status": "proved",
   "theorems": [
    "C59_after_close",
    "C59_careful_programs",
    "C59_create_keeps_others_refuted",
    "C59_create_kills_others_refuted",
    "C59_created_key_opens_refuted",
    "C59_created_zero",
    "C59_distinct_keys_refuted",
    "C59_fields_start",
    "C59_put_get",
    "C59_same_connection_string",
    "C59_same_file",
    "C59_same_key",
    "C59_second_close_harmless_refuted",
    "C59_shared_memory",
    "C59_stat_fits_refuted",
    "C59_stat_layout"
   ],
   "note": "all histories over a model of mmap and System V memory, up to the first use of a closed handle; five hopes beyond that are refuted by witnesses"
  },
  {
   "property": "C60",
   "status": "partial",
   "theorems": [
    "C60_boards",
    "C60_boards_of_home",
    "C60_bytes_as_text",
    "C60_every_reply",
    "C60_information",
    "C60_one_instant",
    "C60_titles_do_not_matter",
    "C60_titles_shown_refuted",
    "C60_token",
    "C60_user_missing"
   ],
   "note": "all replies; the clause that the board list tells the titles is refuted (C60_titles_shown_refuted, and C60_titles_do_not_matter for every table), everything else is proved"
  },
  {
   "property": "C61",
   "status": "proved",
   "theorems": [
    "C61_connect_gets_nothing",
    "C61_information_only_of_named",
    "C61_information_reachable",
    "C61_one_spelling",
    "C61_panics_only_for_tokens",
    "C61_plain_paths_answered",
    "C61_redirected_once",
    "C61_stays_on_host"
   ],
   "note": "all requests; http.ServeMux and path.Clean of Go 1.14 written out and compared with a walk over the elements"
  },
  {
   "property": "C62",
   "status": "proved",
   "theorems": [
    "C62_lists_grow",
    "C62_one_history",
    "C62_own_posts_are_listed",
    "C62_own_posts_are_shown"
   ],
   "note": "any number of clients posting, listing and reading on a model of single system calls; one invariant of the world and of what each client has heard"
  },
  {
   "property": "C63",
   "status": "partial",
   "theorems": [
    "C63_listed_articles_open_partial",
    "C63_refuted",
    "C63_texts_stay"
   ],
   "note": "that a listed article shows its text is refuted (C63_refuted); proved: it can be opened and shows the whole text or nothing (C63_listed_articles_open_partial), and a text that was seen stays (C63_texts_stay)"
  },
  {
   "property": "C64",
   "status": "partial",
   "theorems": [
    "C64_article_index_file",
    "C64_board_directory_refuted",
    "C64_board_file",
    "C64_directories_are_never_read",
    "C64_formosa_index_file",
    "C64_online_user_file",
    "C64_online_users_in_a_directory",
    "C64_user_file"
   ],
   "note": "all files for all five readers; that a directory is reported is refuted for four readers (C64_board_directory_refuted, C64_directories_are_never_read) and proved for the online users"
  },
  {
   "property": "C65",
   "status": "proved",
   "theorems": [
    "C65_answers"
   ],
   "note": "all requests with a plainly spelled path (C61 says where the others are sent); the answer to a request for a token is in C36"
  },
  {
   "property": "C66",
   "status": "partial",
   "theorems": [
    "C66_every_line",
    "C66_joined_options_refuted",
    "C66_other_lines_are_refused",
    "C66_settings_anywhere_refuted",
    "C66_settings_come_first"
   ],
   "note": "every command line; that settings can stand anywhere and that options can be joined to their values is refuted (C66_settings_anywhere_refuted, C66_joined_options_refuted), everything else is proved"
  },
  {
   "property": "C67",
   "status": "partial",
   "theorems": [
    "C67_always_expired",
    "C67_base64url_is_unambiguous",
    "C67_half_an_hour_refuted",
    "C67_ids_refuted",
    "C67_other_users_other_tokens",
    "C67_tokens_name_their_user"
   ],
   "note": "every issued token and every signing function; that a token lives for half an hour and that names that are no UTF-8 text get tokens of their own is refuted (C67_half_an_hour_refuted, C67_ids_refuted), everything else is proved; the signature itself is a function given to the model"
  },
  {
   "property": "C68",
   "status": "partial",
   "theorems": [
    "C68_creation",
    "C68_failed_draft_refuted",
    "C68_histories",
    "C68_later_addition_refuted",
    "C68_made_up_board_refuted",
    "C68_removal",
    "C68_removal_refuted",
    "C68_success_means_done_partial",
    "C68_unreadable_draft_refuted"
   ],
   "note": "every sequence of calls on every failing disk (C68_histories), every removal and creation; that success means done is proved for the calls other than listings and reading drafts (C68_success_means_done_partial) and refuted for those and for removals (C68_unreadable_draft_refuted, C68_made_up_board_refuted, C68_removal_refuted); that failure means unchanged is refuted (C68_failed_draft_refuted, C68_later_addition_refuted)"
  },
  {
   "property": "C69",
   "status": "partial",
   "theorems": [
    "C69_arrives_exactly",
    "C69_escaped_slash_refuted",
    "C69_every_path_has_an_address",
    "C69_everything_can_be_sent",
    "C69_fields_as_sent",
    "C69_fields_exact",
    "C69_information",
    "C69_other_bodies_ignored",
    "C69_password_in_body_refuted",
    "C69_refused_exactly",
    "C69_token"
   ],
   "note": "reading of fields and addresses is exact and total, tokens and information follow from C36, C37 and C61 for every spelling; that passwords are only taken from the body is refuted (C69_password_in_body_refuted), and so is that an escaped slash is part of a name (C69_escaped_slash_refuted)"
  },
  {
   "property": "C70",
   "status": "partial",
   "theorems": [
    "C70_always_answers",
    "C70_boards",
    "C70_changed_password_refuted",
    "C70_information",
    "C70_later_changes_unseen",
    "C70_redirected",
    "C70_token",
    "C70_unanswered"
   ],
   "note": "all sentences but the last are proved (C70_always_answers, C70_information, C70_boards, C70_token, C70_redirected, C70_unanswered); that the answers follow the files is refuted (C70_changed_password_refuted), what is true instead is C70_later_changes_unseen"
  },
  {
   "property": "C71",
   "status": "partial",
   "theorems": [
    "C71_done_is_listed_refuted",
    "C71_failed_is_not_listed_refuted",
    "C71_posts",
    "C71_reported_is_listed",
    "C71_reported_is_written",
    "C71_second_try_refuted"
   ],
   "note": "Proved for every sequence of posts on a failing disk (C71_posts, C71_reported_is_written, C71_reported_is_listed). The last clause is false of the code: C71_failed_is_not_listed_refuted (the index is written before the text), C71_second_try_refuted (a second try lists the message twice), and C71_done_is_listed_refuted (after a record cut off halfway a post reported as done is not in the listing)."
  },
  {
   "property": "C72",
   "status": "partial",
   "theorems": [
    "C72_blank_board_refuted",
    "C72_boards",
    "C72_forgotten_users_refuted",
    "C72_information",
    "C72_listens_refuted",
    "C72_never_read_again",
    "C72_starts",
    "C72_token",
    "C72_unanswered"
   ],
   "note": "Proved for every start on a failing disk (C72_starts, C72_token, C72_information, C72_boards, C72_unanswered, C72_never_read_again). The last sentence is false of the code: C72_forgotten_users_refuted (an error at opening is only printed and the table stays empty), C72_blank_board_refuted (a failed read is taken for a record of zero bytes), C72_listens_refuted (while reads fail the loop goes on)."
  },
  {
   "property": "C73",
   "status": "partial",
   "theorems": [
    "C73_followed_once",
    "C73_location",
    "C73_login_refuted",
    "C73_page",
    "C73_query_refuted",
    "C73_same_answer"
   ],
   "note": "Proved for every target (C73_location, C73_followed_once, C73_same_answer for GET, C73_page). The last sentence is false: C73_login_refuted (a login sent to another spelling comes back as a GET and gets an empty page with status 200), C73_query_refuted (what follows a number sign in the query is lost)."
  },
  {
   "property": "C74",
   "status": "partial",
   "theorems": [
    "C74_bytes_refuted",
    "C74_comes_back",
    "C74_comments_refuted",
    "C74_cut_off",
    "C74_cut_refuted",
    "C74_decoded",
    "C74_encoded",
    "C74_fits",
    "C74_listed",
    "C74_posted_refuted",
    "C74_read_in_pieces",
    "C74_same_bytes",
    "C74_shown",
    "C74_title_refuted",
    "C74_written_in_pieces"
   ],
   "note": "what is read and written exactly: C74_decoded, C74_encoded; piece by piece: C74_read_in_pieces, C74_written_in_pieces; the way back: C74_comes_back, C74_same_bytes, C74_cut_off, C74_fits; in articles: C74_shown, C74_listed. The five clauses of the last sentence are refuted by C74_cut_refuted, C74_posted_refuted, C74_bytes_refuted, C74_title_refuted, C74_comments_refuted"
  },
  {
   "property": "C75",
   "status": "proved",
   "theorems": [
    "C75_calls",
    "C75_covers_crashes",
    "C75_like_a_failing_disk",
    "C75_listed_stays",
    "C75_posts",
    "C75_removal",
    "C75_reported_is_listed",
    "C75_reported_is_written"
   ],
   "note": "stopping is like failing from then on (C75_like_a_failing_disk) and covers the interruptions of C58 (C75_covers_crashes); calls: C75_calls; removal: C75_removal; posts: C75_posts, C75_reported_is_written, C75_reported_is_listed, C75_listed_stays. That the condition of the last sentence is needed is shown by C71_done_is_listed_refuted"
  },
  {
   "property": "C76",
   "status": "proved",
   "theorems": [
    "C76_covers_schedules",
    "C76_covers_stops",
    "C76_listed_stays",
    "C76_posts",
    "C76_reported_is_listed",
    "C76_reported_is_written"
   ],
   "note": "C76_posts is the statement at every moment; C76_reported_is_written, C76_listed_stays, C76_reported_is_listed are what users see; the executions include those of C57 (C76_covers_schedules) and the stops of C75 (C76_covers_stops)"
  },
  {
   "property": "C77",
   "status": "partial",
   "theorems": [
    "C77_article",
    "C77_author_refuted",
    "C77_comment_read",
    "C77_text_refuted"
   ],
   "note": "true when the mark ends in an ASCII character and no pair of bytes inside the text reads C2 9B (C77_comment_read, C77_article); a two-byte character at the end of the mark can lend its second byte to the author (C77_author_refuted), and a character ending in C2 followed by one starting with 9B is taken for a control sequence (C77_text_refuted)"
  },
  {
   "property": "C78",
   "status": "proved",
   "theorems": [
    "C78_board_added",
    "C78_information",
    "C78_posted_title"
   ],
   "note": "C78_information from the bytes of the password file to the JSON text, C78_board_added and C78_posted_title from the command line to the list of boards or articles"
  },
  {
   "property": "C79",
   "status": "proved",
   "theorems": [
    "C79_content",
    "C79_files_grow",
    "C79_listed_at_one_moment",
    "C79_listed_at_one_moment_refuted",
    "C79_nothing_else",
    "C79_nothing_is_lost",
    "C79_read_at_one_moment",
    "C79_together",
    "C79_whole"
   ],
   "note": "C79_together gives the order; C79_content, C79_files_grow, C79_nothing_is_lost, C79_nothing_else, C79_read_at_one_moment and C79_listed_at_one_moment are what users see of it; C79_whole says when no addition was torn; without that condition a listing can show the records of two moments (C79_listed_at_one_moment_refuted)"
  },
  {
   "property": "C80",
   "status": "proved",
   "theorems": [
    "C80_any_names",
    "C80_kept",
    "C80_kept_refuted",
    "C80_saved",
    "C80_shown"
   ],
   "note": "C80_shown for reading, C80_saved and C80_kept for saving, C80_any_names for all names; for names that do not fit loading and saving loses characters (C80_kept_refuted: a name with a pair of bytes that stands for two characters is cut before the second)"
  },
  {
   "property": "C81",
   "status": "proved",
   "theorems": [
    "C81_lost_refuted",
    "C81_panics",
    "C81_result",
    "C81_shown",
    "C81_wrong_board_refuted"
   ],
   "note": "C81_result says what the call comes to, C81_shown which names are shown, C81_panics when it panics; for lists of fewer than 2^32-1 records read. Not true, and not claimed: that the favourites given without an error are those of the file (C81_lost_refuted) or that they have the names of the right boards (C81_wrong_board_refuted)"
  }
 ]
}