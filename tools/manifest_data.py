NOTES={
"C01":("proved","codec round trip and the listing after an addition, in every sane world"),
"C02":("partial","statement refuted by a witness; exact effect of writing a record back proved"),
"C03":("partial","refinement of lists for every history with indices below 2^56; a huge index is proved to wrap round to another record"),
"C04":("proved","every regular file content is listed, slot by slot, each slot decoded at the C offsets"),
"C05":("partial","terminates for everything but directories; diverges on every directory (refuted)"),
"C12":("proved","round trip for every representable header, and the exact bytes of every header"),
"C13":("proved","decoding, every file content, and refinement of lists for every history of additions"),
"C17":("partial","all fields but the role survive; the role and the 39th byte of the note are proved lost; offsets proved both ways"),
"C18":("partial","exact image of every entry; three counters proved lost; offsets proved"),
"C25":("proved","different objects have different files below the home for plain names; escapes by .. and panics on empty names are proved too"),
"C27":("partial","statement refuted; proved: the last open decides for every handle"),
"C41":("partial","first clause proved; second clause refuted for the article owner"),
"C42":("proved","decoding and every index content"),
"C45":("proved","plain paths and file URLs"),
"C49":("partial","proved whenever the sum fits int8; wrap proved (refuted) otherwise"),
"C10":("partial","statement refuted (a shorter text leaves the old tail); proved exact when not shorter, and the exact content always"),
"C06":("proved","every number of adding clients, every schedule; the merged order is exhibited"),
"C48":("proved","clients that add and list in any mix, every schedule; exact answers and the prefix form"),
"C52":("partial","all pools, at every moment: any calls on files with one user; adds, updates, writes, appends, reads and listings on shared files; refuted by witnesses for a listing during in-place updates, a draft read while it is rewritten, and a new article read while it is first written"),
"C11":("proved","sequential and concurrent parts"),
"C26":("partial","sequential behaviour proved; a crash while writing can lose the old draft (refuted), it always leaves a prefix"),
"C47":("partial","statement refuted: always listed at 2288912640"),
"C51":("proved","whole-store refinement for every history"),
"C07":("partial","the state at every crash point proved, old records survive, a recovering reader sees them all; a later addition is damaged after a partial write (refuted)"),
"C14":("partial","exact for every index inside the file and every sequence of read sizes; negative indices fail; indices beyond the end grow the file and -2^56 removes record 0 (both refuted)"),
"C15":("proved","every crash point, partial writes included, no alignment assumption"),
"C16":("partial","statement refuted: a schedule loses the added board; proved for one remover and any number of adders under every schedule: only boards added between the start and the end of the removal can be lost, all others are kept whole and in order, at every moment"),
"C40":("partial","all calls but the board and user listings close what they open, however the file system answers; each board or user listing leaks one descriptor (refuted)"),
}
NOTES.update({
"C08":("proved","every number of concurrent creators (both creation calls), every schedule, clock and random stream, at every moment; and the single call"),
"C09":("partial","statement refuted: never returns while the board directory is missing, or (with a fixed date) when the 4096 names of the second are taken; proved to return when a tried name is free, and for the DB call whenever the clock goes on and the directory is finite"),
})
NOTES.update({
"C19":("proved","every tree with right counters and fitting titles: bytes laid out as in fav.h, loaded as the same tree; a second save and load returns the identical structure"),
"C20":("proved","every byte string; accepted exactly when it starts with a laid-out file; truncation is an error, trailing bytes ignored; panics only when the slice has no room for the version"),
"C21":("partial","names, shape and the missing-file case proved through the database call; panics exactly when a number is 0 or beyond the list (refuted)"),
})
NOTES.update({
"C24": ("proved", "For every seed below 2^32 and every list of writes the hash is FNV-1a of the concatenation from that seed; resuming from a hash value equals hashing the concatenation; different seeds never collide on the same bytes."),
"C38": ("proved", "Every accessor of the answer is one bit of the first record with that id, independent of all other bits; an unknown id is an error. The table the code searches is never filled in production (see findings)."),
"C39": ("proved", "Every argument list is decomposed into options with values and plain words, plus possibly a valueless option at the end which is ignored; the map holds exactly the last value of each option."),
"C43": ("partial", "Exact meaning of every connection string; plain paths, file: and shmkey: for colon-free paths; other schemes rejected; never panics. The full statement is false for paths with a colon (C43_paths_with_colon_refuted): they are cut or rejected, and junk after the key is ignored."),
"C44": ("proved", "Every query is exactly its bit, also after the header went through the file; the moderator list is the cut of the field at the slashes, hence the list it was written from; the class is the number in decimal digits, equal for equal numbers only."),
})
NOTES.update({
"C22": ("proved", "Shape, exact dependence on key and salt, and the exact condition for the panic."),
"C23": ("partial", "Acceptance is exact, in terms of the hash and in terms of crypt(3); the own password is accepted, also after the record went through the file; the exact condition for the panic. The clause 'never panics' is false of the code (C23_never_panics_refuted): an empty slot of the password file makes it panic."),
"C46": ("proved", "For every password and every salt of two letters the code computes crypt(3) as specified from FIPS 46-3 (S_Crypt.v); other 7-bit salts behave as some letter."),
})
NOTES.update({
"C35": ("partial", "For every geometry with non-zero alignment and every memory content the version, id and money lookups return the entry asked for, and the positions are the C compiler's offsets for int alignments 1, 2 and 4. False of the code: the online-user lookup always panics (C35_online_user_lookup_refuted), the shipped command panics (C35_shipped_command_refuted), user numbers are not range-checked (C35_range_not_checked_refuted)."),
"C36": ("partial", "A token is given only by a POST to the token endpoint whose user name's first record accepts the password (in terms of crypt(3) for stored hashes), and every case of the answer is determined; the tables are exactly the slots of the files. The clause 'otherwise it answers an error' is false of the code for a record without a hash (C36_always_answers_refuted): the handler panics."),
"C37": ("partial", "False of the code: no token is needed (C37_token_required_refuted), the header is ignored by every endpoint, and every token issued is already expired (C37_tokens_expired_refuted). Proved: exactly what is disclosed, and by which requests."),
"C50": ("proved", "Exact splitting for every path below the endpoint, hence no panic there; in general it panics exactly on paths with fewer than three slashes."),
})
NOTES.update({
"C33": ("partial", "Every line: decoded exactly when it spells the time and host; otherwise the two errors, never a panic. Listing keeps all lines in order. False of the code for a file with a line of 65536 bytes or more: the program ends (C33_reports_errors_refuted, C33_long_line_is_fatal)."),
"C34": ("partial", "Every line is read exactly as it is spelled; the exact condition for the panic; round trip for every entry with an id of 2 to 12 visible characters or none, and for whole files; the weekday written is right for every date. False of the code: one-character ids are lost, hosts starting with ? or @ are changed, short lines panic (three refuted theorems)."),
})
NOTES.update({
"C28": ("partial", "C28_exact characterises the result for every byte string; subsequence, escape-free texts and colour sequences proved in full. Stripping twice is not the same as stripping once (C28_idempotent_refuted) and a bell eats visible text (C28_bell_eats_text_refuted); idempotence proved where no introducer is left and for coloured texts."),
"C29": ("partial", "C29_parse_exact says for every line what is parsed; malformed lines are reported as no comments. The comment text is returned unchanged when it has no colon and does not repeat the stamp; otherwise false of the code (C29_colon_refuted, C29_repeated_stamp_refuted, C29_one_letter_refuted), and C29_text_with_colons says what is returned."),
})
NOTES.update({
"C30": ("proved", "C30_comments_exact: the answer is exactly the numbered comment lines (relation numbered, stated with the declarative readings of C28 and C29), or a time error when a line has an impossible date; floors 1,2,3,...; a line of 64 KiB silently ends the search (C30_long_line_cuts, C30_long_line_refuted). Hypothesis: fewer than 2^32 lines, since the floor is a uint32."),
"C31": ("partial", "Exact answer for every board file whose indexes are files or missing, membership form, error when the board file is missing. False of the code: a board without a name makes the call panic (C31_nameless_board_panics, C31_never_panics_refuted)."),
"C32": ("partial", "Exact answer when every article listed can be read. False of the code: the first article that is missing or has a comment with an impossible date makes the whole call fail (C32_first_failure, C32_missing_article_refuted, C32_bad_date_refuted)."),
})
NOTES.update({
"C53":("partial","all six commands exact, and nothing is changed in any world at any moment; an unreadable index is shown as empty and a home name with '?' is not used (both refuted)"),
"C54":("proved","one record appended, listed and shown; ids are neither unique nor kept (refuted)"),
"C56":("partial","refuted for the article commands by five witnesses; proved for the others in every world, and for these under the exact conditions"),
})
NOTES.update({
"C55":("proved","success case exact for every world, termination, listing afterwards, missing options and missing text; all-or-nothing is refuted (an index that is a directory leaves an empty article)"),
"C57":("proved","all pools and schedules; that a listed article always has its text is refuted, for a reader in between and for a crash"),
})
NOTES.update({
"C58":("proved","every sequence of calls and every number of sessions; posting as well; all-or-nothing is refuted (a draft being overwritten)"),
})
NOTES.update({
"C59":("proved","all histories over a model of mmap and System V memory, up to the first use of a closed handle; five hopes beyond that are refuted by witnesses"),
})
NOTES.update({
"C60":("partial","all replies; the clause that the board list tells the titles is refuted (C60_titles_shown_refuted, and C60_titles_do_not_matter for every table), everything else is proved"),
})
NOTES.update({
"C61":("proved","all requests; http.ServeMux and path.Clean of Go 1.14 written out and compared with a walk over the elements"),
})
NOTES.update({
"C62":("proved","any number of clients posting, listing and reading on a model of single system calls; one invariant of the world and of what each client has heard"),
"C63":("partial","that a listed article shows its text is refuted (C63_refuted); proved: it can be opened and shows the whole text or nothing (C63_listed_articles_open_partial), and a text that was seen stays (C63_texts_stay)"),
})
NOTES.update({
"C64":("partial","all files for all five readers; that a directory is reported is refuted for four readers (C64_board_directory_refuted, C64_directories_are_never_read) and proved for the online users"),
"C65":("proved","all requests with a plainly spelled path (C61 says where the others are sent); the answer to a request for a token is in C36"),
})
NOTES.update({
"C66":("partial","every command line; that settings can stand anywhere and that options can be joined to their values is refuted (C66_settings_anywhere_refuted, C66_joined_options_refuted), everything else is proved"),
})
NOTES.update({
"C67":("partial","every issued token and every signing function; that a token lives for half an hour and that names that are no UTF-8 text get tokens of their own is refuted (C67_half_an_hour_refuted, C67_ids_refuted), everything else is proved; the signature itself is a function given to the model"),
})
NOTES.update({
"C68":("partial","every sequence of calls on every failing disk (C68_histories), every removal and creation; that success means done is proved for the calls other than listings and reading drafts (C68_success_means_done_partial) and refuted for those and for removals (C68_unreadable_draft_refuted, C68_made_up_board_refuted, C68_removal_refuted); that failure means unchanged is refuted (C68_failed_draft_refuted, C68_later_addition_refuted)"),
})
NOTES.update({
"C69":("partial","reading of fields and addresses is exact and total, tokens and information follow from C36, C37 and C61 for every spelling; that passwords are only taken from the body is refuted (C69_password_in_body_refuted), and so is that an escaped slash is part of a name (C69_escaped_slash_refuted)"),
})
NOTES.update({
"C70":("partial","all sentences but the last are proved (C70_always_answers, C70_information, C70_boards, C70_token, C70_redirected, C70_unanswered); that the answers follow the files is refuted (C70_changed_password_refuted), what is true instead is C70_later_changes_unseen"),
})
NOTES.update({
"C71":("partial","Proved for every sequence of posts on a failing disk (C71_posts, C71_reported_is_written, C71_reported_is_listed). The last clause is false of the code: C71_failed_is_not_listed_refuted (the index is written before the text), C71_second_try_refuted (a second try lists the message twice), and C71_done_is_listed_refuted (after a record cut off halfway a post reported as done is not in the listing)."),
})
NOTES.update({
"C72":("partial","Proved for every start on a failing disk (C72_starts, C72_token, C72_information, C72_boards, C72_unanswered, C72_never_read_again). The last sentence is false of the code: C72_forgotten_users_refuted (an error at opening is only printed and the table stays empty), C72_blank_board_refuted (a failed read is taken for a record of zero bytes), C72_listens_refuted (while reads fail the loop goes on)."),
})
NOTES.update({
"C73":("partial","Proved for every target (C73_location, C73_followed_once, C73_same_answer for GET, C73_page). The last sentence is false: C73_login_refuted (a login sent to another spelling comes back as a GET and gets an empty page with status 200), C73_query_refuted (what follows a number sign in the query is lost)."),
})
NOTES.update({
"C74":("partial","what is read and written exactly: C74_decoded, C74_encoded; piece by piece: C74_read_in_pieces, C74_written_in_pieces; the way back: C74_comes_back, C74_same_bytes, C74_cut_off, C74_fits; in articles: C74_shown, C74_listed. The five clauses of the last sentence are refuted by C74_cut_refuted, C74_posted_refuted, C74_bytes_refuted, C74_title_refuted, C74_comments_refuted"),
})
NOTES.update({
"C75":("proved","stopping is like failing from then on (C75_like_a_failing_disk) and covers the interruptions of C58 (C75_covers_crashes); calls: C75_calls; removal: C75_removal; posts: C75_posts, C75_reported_is_written, C75_reported_is_listed, C75_listed_stays. That the condition of the last sentence is needed is shown by C71_done_is_listed_refuted"),
})
NOTES.update({
"C76":("proved","C76_posts is the statement at every moment; C76_reported_is_written, C76_listed_stays, C76_reported_is_listed are what users see; the executions include those of C57 (C76_covers_schedules) and the stops of C75 (C76_covers_stops)"),
})
NOTES.update({
"C77":("partial","true when the mark ends in an ASCII character and no pair of bytes inside the text reads C2 9B (C77_comment_read, C77_article); a two-byte character at the end of the mark can lend its second byte to the author (C77_author_refuted), and a character ending in C2 followed by one starting with 9B is taken for a control sequence (C77_text_refuted)"),
})
NOTES.update({
"C78":("proved","C78_information from the bytes of the password file to the JSON text, C78_board_added and C78_posted_title from the command line to the list of boards or articles"),
})
NOTES.update({
"C79":("proved","C79_together gives the order; C79_content, C79_files_grow, C79_nothing_is_lost, C79_nothing_else, C79_read_at_one_moment and C79_listed_at_one_moment are what users see of it; C79_whole says when no addition was torn; without that condition a listing can show the records of two moments (C79_listed_at_one_moment_refuted)"),
})
NOTES.update({
"C80":("proved","C80_shown for reading, C80_saved and C80_kept for saving, C80_any_names for all names; for names that do not fit loading and saving loses characters (C80_kept_refuted: a name with a pair of bytes that stands for two characters is cut before the second)"),
})
NOTES.update({
"C81":("proved","C81_result says what the call comes to, C81_shown which names are shown, C81_panics when it panics; for lists of fewer than 2^32-1 records read. Not true, and not claimed: that the favourites given without an error are those of the file (C81_lost_refuted) or that they have the names of the right boards (C81_wrong_board_refuted)"),
})
