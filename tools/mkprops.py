#!/usr/bin/env python3
"""Writes /verif/properties.jsonl (one JSON object per line)."""
import json, os
P = []
def p(id, title, statement, quantifier, why, anchors):
    P.append(dict(id=id, title=title, statement=statement, quantifier=quantifier,
                  why_tests_cant=why, anchors=anchors))

p("C01","A stored article record is listed back unchanged",
 "If a caller adds an article record to a board and lists the board, the last record listed has the same file name, owner, date, title, recommend count and modification second as the record added, provided each text fits its fixed-width slot, contains no NUL at its ends and the modification time is representable as an unsigned 32-bit Unix time.",
 "every article record whose texts fit their slots, every Big5 codec that round-trips the title, every previous content of the board index whose size is a whole number of records",
 "Tests add one hand-written record; the field slots can clip, overlap or be byte-swapped for other values of any field.",
 ["pttbbs/file.go:NewFileHeaderWithByte","pttbbs/file.go:MarshalToByte","pttbbs/file.go:AppendFileHeaderFileRecord","pttbbs/file.go:OpenFileHeaderFile","bbs.go:AddArticleRecordFileRecord"])
p("C02","Updating an article record keeps the fields that were not changed",
 "Reading a board's records, changing nothing, and writing one of them back leaves every field that listing reports (including money, announcement uid, vote limits and file mode flags) as it was. (False of the code: money, vote limits and file mode are erased; the exact loss is characterised.)",
 "every board index content, every index in range, every record",
 "Tests only update records whose money and mode are zero, where the loss is invisible.",
 ["pttbbs/file.go:MarshalToByte","pttbbs/file.go:UpdateFileHeaderFileRecord","bbs.go:UpdateArticleRecordFileRecord"])
p("C03","Board index operations behave like operations on a list of records",
 "For every history of adding and updating article records on any number of boards, listing a board returns exactly the records of that board in order, each update changes exactly the record at its index, and no operation on one board changes what listing another board returns.",
 "every finite history of add/update/list calls over every set of board names that are plain path components",
 "The number of histories is infinite; tests run one or two calls.",
 ["pttbbs/file.go:AppendFileHeaderFileRecord","pttbbs/file.go:UpdateFileHeaderFileRecord","pttbbs/file.go:OpenFileHeaderFile","pttbbs/path.go:GetBoardArticlesDirectoryPath"])
p("C04","Every board index file can be listed and every slot is decoded at the C structure's offsets",
 "For every regular file used as a board index, listing terminates without panic or error, returns one record per 128 bytes (a trailing partial record counts as one, padded with zero bytes), and each returned field is the decoding of the byte range that the C fileheader_t assigns to that field.",
 "every byte string as file content",
 "Tests parse three sample files.",
 ["pttbbs/file.go:OpenFileHeaderFile","pttbbs/file.go:NewFileHeaderWithByte"])
p("C05","Listing always terminates, whatever the path designates",
 "Listing a board index terminates for every path, returning a list or an error. (False of the code: when the path designates a directory the read error is ignored and the loop never ends; it is proved to terminate for every path that does not designate a directory.)",
 "every file system state and path",
 "A test that diverges cannot be written; tests only open regular files.",
 ["pttbbs/file.go:OpenFileHeaderFile","pttbbs/board.go:OpenBoardHeaderFile","pttbbs/passwd.go:OpenUserecFile","formosabbs/file.go:OpenFormosaBBSFileHeaderFile"])
p("C06","Concurrent additions to one board lose and tear nothing",
 "If any number of callers add records to the same board concurrently, then for every interleaving of their system calls the final listing is the original listing followed by a merge of the callers' records: every record appears exactly once, whole, and each caller's own records keep their order.",
 "every number of callers, every list of records per caller, every schedule",
 "Tests are single-threaded and the set of schedules is unbounded; the advisory lock in the code is a no-op, so only the O_APPEND behaviour gives safety.",
 ["pttbbs/file.go:AppendFileHeaderFileRecord","filelock/filelock.go:Lock"])
p("C07","A crash while adding an article record never damages earlier records, and later additions stay readable",
 "If the process dies at any system call or part-way through a write while a record is being added, all earlier records are still listed unchanged and at most one extra record appears; and additions made after recovery are listed intact. (The last part is false of the code: a torn record shifts all later ones. The first part is proved, and the last part is proved when the crash leaves a whole number of records.)",
 "every board index, every record, every crash point including every partial write length",
 "Crash points cannot be enumerated by unit tests.",
 ["pttbbs/file.go:AppendFileHeaderFileRecord"])
p("C08","Creating an article never reuses or damages an existing file name",
 "Whenever creating an article record succeeds, the file name it returns did not exist on that board before, now exists and is empty, and no other file is changed; concurrent creations on one board always return pairwise different names, for every schedule and every outcome of the random generator and clock.",
 "every file system, every sequence of clock and random values, every number of concurrent creators, every schedule",
 "Name collisions need coinciding clock and random values under a particular schedule.",
 ["pttbbs/pttbbs_write_article_connector.go:CreateBoardArticleFilename","pttbbs/pttbbs_write_article_connector.go:NewArticleRecord"])
p("C09","Creating an article terminates",
 "Creating an article record returns a record or an error. (False of the code: if the board directory does not exist, or when the creation date is fixed by the caller and the 4096 names of that second are all taken, the call never returns. Proved: it returns as soon as one candidate name is free and the directory exists.)",
 "every file system, clock and random stream",
 "Non-termination cannot be observed by a test.",
 ["pttbbs/pttbbs_write_article_connector.go:CreateBoardArticleFilename","pttbbs/pttbbs_write_article_connector.go:NewArticleRecordWithMap"])
p("C10","Writing an article replaces its content",
 "After writing content to an article file, reading the article returns exactly that content. (False of the code when the old content is longer: the old tail remains. Proved: the result is the new content followed by what the old content had beyond that length, hence exact when the old content was not longer; other files are untouched.)",
 "every old content, every new content, every file system",
 "Tests write to fresh files only.",
 ["pttbbs/pttbbs_write_article_connector.go:WriteBoardArticleFile","bbs.go:WriteBoardArticleFile"])
p("C11","Appending to an article only ever extends it",
 "Appending to an existing article makes its content the old content followed by the new bytes and changes nothing else; appending to a missing article fails and creates nothing; for any number of concurrent appenders and any schedule, the final content is the old content followed by all appended pieces, each intact, each appender's pieces in order.",
 "every content, every number of appenders, every schedule",
 "Schedules and contents are unbounded.",
 ["pttbbs/pttbss_append_new_line.go:AppendBoardArticleFile","bbs.go:AppendBoardArticleFile"])
p("C12","A stored board header is read back unchanged",
 "Writing a board header and reading it back gives the same name, title, moderators, attribute flags, limits, times, counters, links and post types, provided each text fits its slot without NUL at its ends and numbers fit their widths; and the bytes written are at the offsets of the C boardheader_t.",
 "every board header whose fields fit, every Big5 codec that round-trips its texts",
 "30 fields, each of which may clip or overlap for some value.",
 ["pttbbs/board.go:UnmarshalBoardHeader","pttbbs/board.go:MarshalBinary"])
p("C13","The board list behaves like a list",
 "For every history of adding boards, listing boards returns the previous boards followed by the added ones in order; listing any regular .BRD file terminates without panic and returns one board per 256 bytes.",
 "every .BRD content, every history of additions",
 "Unbounded histories.",
 ["pttbbs/board.go:OpenBoardHeaderFile","pttbbs/board.go:AppendBoardHeaderFileRecord","pttbbs/pttbbs_write_board_connector.go:AddBoardRecordFileRecord"])
p("C14","Removing a board record removes exactly that record",
 "Removing the record at an index from the board file leaves all other records in order and shortens the file by one record, however the kernel splits the copy into reads; a negative index fails without change; an index outside the file leaves the file unchanged. (The last clause is false of the code for indices beyond the end: the file grows by zero records.)",
 "every file content, every index, every sequence of read sizes",
 "The code relies on overlapping in-place copy; tests do not cover it at all.",
 ["pttbbs/board.go:RemoveBoardHeaderFileRecord"])
p("C15","A crash while removing a board record loses no other board",
 "If the process dies at any point while a board record is being removed, even in the middle of a write, the file holds every other board record whole and in order, plus at most one extra slot, which is a record or a mix of two neighbouring old records.",
 "every file content, every index inside it, every crash point including partial writes, every sequence of read sizes",
 "Crash points cannot be enumerated by unit tests.",
 ["pttbbs/board.go:RemoveBoardHeaderFileRecord"])
p("C16","Removing a board record concurrently with adding one keeps the added one",
 "When one caller removes a board record while another adds one, the final file contains the added record. (False of the code: the file lock does nothing, so there is a schedule in which the added record is lost. Proved: with one remover and any number of callers that add boards, all other old boards and every board added before the removal began or after it had ended are in the file, whole and in order; only boards added meanwhile can be lost, and of those one run of consecutive ones. At every moment in between the file holds all these boards in order with at most one further slot.)",
 "every number of callers and boards, every schedule of their system calls, every chunk size of the copy",
 "Needs a particular interleaving of system calls.",
 ["filelock/filelock.go:Lock","pttbbs/board.go:RemoveBoardHeaderFileRecord","pttbbs/board.go:AppendBoardHeaderFileRecord"])
p("C17","A stored user record is read back unchanged",
 "Encoding a user record and decoding it gives the same record for every field, provided texts fit and numbers fit. (False of the code for the role field, which is not encoded, and for the 39th byte of the registration note. All other fields are proved to survive, at the offsets of the C userec_t.)",
 "every user record whose fields fit, every Big5 codec that round-trips its texts",
 "60 fields, tests use one record with zero role.",
 ["pttbbs/passwd.go:UnmarshalUserec","pttbbs/passwd.go:MarshalBinary","pttbbs/passwd.go:OpenUserecFile"])
p("C18","An online-user cache entry is read back unchanged",
 "Encoding an online-user entry and decoding it gives the same entry. (False of the code: the Chinese-chess tie counter shares bytes with the gomoku tie counter, and the chess rating and go counters share bytes with Chinese-chess counters. The exact image of every entry is proved.)",
 "every online-user entry whose fields fit",
 "Tests compare one entry in which the overlapping counters are zero.",
 ["pttbbs/userinfo.go:UnmarshalUserInfo","pttbbs/userinfo.go:MarshalBinary"])
p("C19","Favourites survive saving and loading",
 "Encoding a favourites tree and decoding it gives the same tree: same items in the same order with the same attributes, board numbers, visit times, folder titles and nesting, for every tree whose counts match its items and whose titles fit.",
 "every favourites tree of any depth and size",
 "Recursive data of unbounded depth; tests use two files.",
 ["pttbbs/fav.go:UnmarshalFavFile","pttbbs/fav.go:MarshalBinary"])
p("C20","Loading a favourites file is total",
 "Loading any byte string as a favourites file terminates and either returns a tree or an error, never reads past the data and never panics when the slice has room for the two version bytes; a proper prefix of a saved favourites file is always rejected; trailing bytes are ignored.",
 "every byte string",
 "All byte strings; fuzzing samples only finitely many.",
 ["pttbbs/fav.go:UnmarshalFavFile","pttbbs/fav.go:UnmarshalFavFolder"])
p("C21","Favourites are resolved to board names",
 "Reading a user's favourites returns, for each board entry anywhere in the tree, the name of the board at that one-based position of the board list, and never panics. (The last clause is false of the code: an entry whose number is 0 or beyond the list panics. Proved: it panics exactly in that case.)",
 "every favourites tree and every board list",
 "Depends on the combination of two files, tests use consistent ones.",
 ["pttbbs/pttbbs.go:ReadUserFavoriteRecordsFile","pttbbs/pttbbs.go:appendBoardID"])
p("C22","The password hash depends exactly on the documented part of its inputs and has the documented shape",
 "For every password and every salt of two 7-bit characters, hashing yields the two salt characters (NUL replaced by 'A'), eleven characters of the crypt alphabet and a NUL; it ignores everything beyond the eighth password byte or the first NUL, the top bit of each byte, and everything beyond the second salt byte; it panics exactly when the salt is shorter than two bytes or one of its first two bytes is not 7-bit.",
 "every key and salt byte string",
 "2^56 keys and 2^14 salts.",
 ["crypt/bbscrypt.go:Fcrypt","crypt/utils.go","crypt/const.go"])
p("C23","Password verification accepts exactly the passwords whose hash is stored",
 "Verification of a password against a stored record succeeds if and only if hashing the password with the first two stored characters gives the stored string; hence the password from which the stored hash was made is always accepted; verification never panics. (The last clause is false of the code: a record with fewer than two password characters makes it panic.)",
 "every stored record and every password",
 "All passwords; tests use a few.",
 ["pttbbs/passwd.go:VerifyPassword","crypt/bbscrypt.go:Fcrypt"])
p("C24","Seeded FNV hashing is FNV-1a started from the seed",
 "Hashing from a given 32-bit seed equals folding the bytes with the FNV-1a step from that seed; splitting the input over several writes does not matter, and resuming from a previous hash value equals hashing the concatenation.",
 "every seed, every byte string, every split",
 "All inputs.",
 ["pttbbs/internal/fnv/fnv.go:New32aWith"])
p("C25","Different BBS objects live in different files below the BBS home",
 "For names that are plain path components, the index, article, draft, mail, favourites, login-history and treasure files of different boards or users, and different kinds of file of the same board or user, are different files, all below the BBS home. (Without the plain-component condition it is false: names with '..' leave the home. Empty names panic.)",
 "every home directory, every pair of names and kinds",
 "All pairs of names.",
 ["pttbbs/path.go:GetBoardArticlesDirectoryPath","pttbbs/path.go:GetBoardArticleFilePath","pttbbs/path.go:GetUserDraftPath","pttbbs/path.go:GetUserFavoritePath","pttbbs/path.go:GetBoardTreasureFilePath"])
p("C26","Drafts are independent read/write/delete cells",
 "For every history of writing, deleting and reading drafts, reading a draft returns the content last written to the same user and draft id, or an empty draft if it was never written or was deleted since; other drafts and files are unaffected; deleting a missing draft fails; a crash during a write leaves the old or the new content. (The last clause is false of the code: a crash can leave an empty or cut draft.)",
 "every history over every set of plain user and draft ids, every crash point",
 "Unbounded histories and crash points.",
 ["pttbbs/draft.go:ReadUserDraft","pttbbs/draft.go:WriteUserDraft","pttbbs/draft.go:DeleteUserDraft","bbs.go:GetUserDrafts"])
p("C27","Two opened databases do not influence each other",
 "Opening a second database with the same driver does not change which BBS home the first one reads. (False of the code: all databases of a driver share one connector, so the last successful Open decides for all.)",
 "every sequence of Register and Open calls",
 "Depends on history; tests open one database.",
 ["bbs.go:Register","bbs.go:Open","pttbbs/pttbbs.go:Open"])
p("C28","Stripping terminal control sequences keeps exactly the visible text",
 "Stripping control sequences from a text returns a subsequence of its characters, returns texts without escape characters unchanged, and removes every colour sequence from a text made of escape-free pieces and colour sequences, leaving the pieces; stripping twice equals stripping once. (The last clause is false of the code.)",
 "every byte string as text",
 "All texts; regular-expression semantics.",
 ["ansi.go:FilterStringANSI"])
p("C29","A comment line is parsed into its author, text and time",
 "For a line consisting of a mark, an author id, a colon, a comment text and a month/day hour:minute stamp, parsing returns that author, text and time. (False of the code when the text contains colons or repeats the stamp. Proved when it does not; malformed lines are reported as not being comments.)",
 "every author id, text and time",
 "All texts; tests use five lines.",
 ["user_comment_record.go:NewUserCommentRecord","user_comment_record.go:parseUserComment"])
p("C30","The comments of an article are numbered consecutively in file order",
 "The comment records returned for an article are exactly the comment lines of the article after stripping control sequences, in order, with floor numbers 1, 2, 3, ..., for every article whose lines are shorter than 64 KiB. (A longer line silently ends the scan.)",
 "every article content",
 "All contents.",
 ["bbs.go:GetBoardArticleCommentRecords","user_comment_record.go:NewUserCommentRecord"])
p("C31","The articles of a user are exactly those the user owns",
 "Asking for a user's articles returns exactly the records owned by that user on every board except ALLPOST, in board order and then index order, each with the right board, title and file name; boards without an index contribute nothing; the call never panics. (The last clause is false: a board entry with an empty name panics.)",
 "every board list and every index content",
 "All BBS contents.",
 ["bbs.go:GetUserArticleRecordFile","bbs.go:ReadBoardArticleRecordsFile"])
p("C32","The comments of a user are exactly the user's comments in all articles",
 "Asking for a user's comments returns exactly the comment records by that user over all boards and articles in order, and a malformed line or missing article only affects itself. (The last clause is false of the code: one line with an impossible date, or one missing article file, makes the whole call fail.)",
 "every BBS content",
 "All BBS contents.",
 ["bbs.go:GetUserCommentRecordFile","bbs.go:GetBoardUserCommentRecord"])
p("C33","Login history lines are decoded correctly",
 "Every line made of a date, a time and a host separated by single spaces is decoded to that time and host; a line with fewer fields or an impossible date is reported as an error; listing a history file keeps order.",
 "every line, every file of lines",
 "All lines.",
 ["pttbbs/login_recent.go:NewLoginRecentRecord","pttbbs/login_recent.go:OpenLoginRecentFile"])
p("C34","Failed-login lines survive formatting and parsing",
 "Formatting a failed-login entry and parsing it back returns the same entry, and parsing never panics. (False of the code for one-character user ids and hosts starting with '?' or '@'; empty or short lines panic. Proved for the remaining entries.)",
 "every entry, every line",
 "All entries and lines.",
 ["pttbbs/bad_logins.go:UnmarshalText","pttbbs/bad_logins.go:MarshalText","pttbbs/bad_logins.go:OpenBadLoginFile"])
p("C35","Shared-memory lookups read the entry asked for",
 "For every cache geometry with non-zero alignment, the id and money tables do not overlap, lie inside the region, and looking up the id or money of a user number below the maximum returns the bytes of that entry; a lookup of the online-user entry succeeds. (The last clause is false of the code: it always panics; with zero alignment, as used by the shipped command, opening panics.)",
 "every geometry, every region content, every user number",
 "All geometries and contents.",
 ["pttbbs/cache.go:caculatePos","pttbbs/cache.go:UserID","pttbbs/cache.go:Money","pttbbs/cache.go:UserInfo","pttbbs/cmd/main.go:main"])
p("C36","A token is issued only to a caller that knows the password",
 "The token endpoint returns a token for a user name if and only if the first user record with that id exists and verifies the submitted password; otherwise it answers an error and no token.",
 "every user table, every request",
 "All requests and tables.",
 ["serverlet/route_token.go:postToken","serverlet/route_token.go:findUserecByID"])
p("C37","Protected endpoints require a valid token",
 "The user information, favourites and article endpoints answer only requests carrying a valid token for that user. (False of the code: the permission check accepts everything, and issued tokens are already expired.)",
 "every request",
 "A negative property over all requests.",
 ["serverlet/permissions.go:checkTokenPermission","serverlet/route_token.go:newAccessTokenWithUsername"])
p("C38","User settings flags report exactly their bit",
 "Each user-settings accessor returns true if and only if its bit is set in the user's flag word, and changing any other bit does not change it.",
 "every 32-bit flag word",
 "2^32 flag words.",
 ["pttbbs/usersettings.go:getUserFlagAllByID","pttbbs/const.go"])
p("C39","Command-line options are mapped to their values",
 "Arguments made of '--name value' pairs after the sub-command are mapped so that each name has the value of its last occurrence and no other names are present; parsing never panics.",
 "every argument list",
 "All argument lists.",
 ["cmd/bbstool/main.go:parseArgsToMap"])
p("C40","Reading does not leak file descriptors",
 "Every read or write call closes every file it opened. (False of the code for the board list, user list and login files, which leave their file open; proved for the others.)",
 "every file system state, every call",
 "Leaks show only over long histories.",
 ["pttbbs/file.go:OpenFileHeaderFile","pttbbs/board.go:OpenBoardHeaderFile","pttbbs/passwd.go:OpenUserecFile"])
p("C41","C strings are cut at the first NUL",
 "Converting a fixed-width C string yields the longest NUL-free prefix, and every text field of every record is decoded that way. (The second clause is false of the code: several fields only drop NULs at both ends and keep bytes after an interior NUL.)",
 "every byte string",
 "All byte strings.",
 ["cstr.go:CstrToBytes","cstr.go:CstrToString","pttbbs/file.go:NewFileHeaderWithByte"])
p("C42","Formosa BBS article indexes are decoded at the documented offsets",
 "Listing a Formosa BBS index returns one record per 248 bytes whose file name, post number, owner, time and title are decoded from the documented byte ranges.",
 "every byte string",
 "All byte strings.",
 ["formosabbs/file.go:NewFomosaBBSFileHeaderWithByte","formosabbs/file.go:OpenFormosaBBSFileHeaderFile"])
p("C43","Cache connection strings select the right backend",
 "A connection string 'shmkey:N' opens the shared memory segment with key N, 'file:P' or a plain path opens the file P, and everything else is rejected. (False of the code for paths containing a colon, which are cut.)",
 "every connection string",
 "All strings.",
 ["cache/cache.go:NewCache"])
p("C44","Board attribute queries and moderator lists are exact",
 "Each board attribute query returns true exactly when its bit is set; the moderator list of a header written from a list of names without slash is that list; the class of a board is the number of its class in decimal digits, so that two boards name the same class exactly when their numbers are equal.",
 "every attribute word, every moderator list",
 "All words and lists.",
 ["pttbbs/board.go:IsGroupBoard","pttbbs/board.go:BM","pttbbs/board.go:ClassID","pttbbs/const.go"])
p("C45","The data source name selects the BBS home",
 "Opening a database with a plain path uses that path as home; with 'file://' the prefix is dropped and anything from the first '?' on is ignored.",
 "every data source name",
 "All strings.",
 ["pttbbs/pttbbs.go:Open"])
p("C46","The password hash is the traditional DES crypt(3)",
 "For every password and every valid salt the hash equals 25 iterations of textbook DES with salted expansion, encoded in the crypt base-64 alphabet.",
 "every key and salt",
 "2^70 inputs.",
 ["crypt/crypt.go:cFcrypt","crypt/crypt.go:desSetKey","crypt/crypt.go:body","crypt/utils.go","crypt/const.go"])
p("C47","A newly created article is listed with a sensible modification time",
 "An article created without an explicit modification time and added to a board is listed with the time of creation or zero. (False of the code: it is always listed with Unix time 2288912640, in July 2042.)",
 "every creation",
 "Tests do not look at the time.",
 ["pttbbs/pttbbs_write_article_connector.go:NewArticleRecord","pttbbs/file.go:MarshalToByte"])
p("C48","Listing while others add returns a consistent prefix",
 "Listing a board while any number of callers add records returns, for every schedule, a list that extends the records present at the start and is a prefix of the records present at the end, with no torn record.",
 "every schedule",
 "Schedules are unbounded.",
 ["pttbbs/file.go:OpenFileHeaderFile","pttbbs/file.go:AppendFileHeaderFileRecord"])
p("C49","Adding to the recommend count adds",
 "Adding n to an article's recommend count makes it the old count plus n. (False of the code at the 8-bit limits, where it wraps; proved whenever the sum fits.)",
 "every count and increment",
 "All pairs are needed for the boundary.",
 ["pttbbs/file.go:AddRecommend"])
p("C50","User paths of the web service are split into user and item",
 "For every request path below the users endpoint, the handler obtains the segment after the prefix as the user and the next one as the item, and never panics.",
 "every request path",
 "All paths.",
 ["serverlet/route_users.go:parseUserPath"])
p("C51","The bulletin board is a map of independent files",
 "Every history of calls (adding, updating and listing records, writing, appending and reading articles, writing, deleting and reading drafts, adding and listing boards, listing users) behaves as the same history on a finite map from objects to contents: each call changes only its own object, each answer depends only on that object, and every call returns.",
 "every history of calls, every starting content, every set of well-formed names",
 "Histories are unbounded and interference between two files would need a lucky pair of names.",
 ["pttbbs/path.go","pttbbs/file.go","pttbbs/pttbbs.go","pttbbs/board.go","pttbbs/pttbbs_write_article_connector.go","pttbbs/draft.go"])
p("C52","Simultaneous clients agree on one order of their calls",
 "For any number of clients, each performing any list of calls (adding, updating and listing records, writing, appending to and reading articles, writing, reading and deleting drafts, adding boards, listing boards and users), and every schedule of their system calls, the final files and every answer are those of one merged history executed one call at a time, in which each client's calls keep their order; at every earlier moment the files are explained by a prefix of that history. (False when a board is listed while its records are replaced in place, as the listing can combine records that never existed together; when a draft is read by one client while another rewrites it, as the reader can get nothing; and when a new article is read while it is first written. Proved for any calls on files that one client uses, together with any calls on files that several clients use except in these situations.)",
 "every number of clients, every list of calls, every schedule, every starting content",
 "The schedules are unbounded; the advisory locks in the code do nothing, so atomicity rests on single write calls in append mode.",
 ["pttbbs/file.go","pttbbs/board.go","pttbbs/pttbbs.go","pttbbs/pttbss_append_new_line.go","filelock/filelock.go"])
p("C53","The showing commands of bbstool print what is stored and change nothing",
 "Given a home directory that exists, show_board_list prints the title of every board, show_user_list the id of every user that has one, show_board_article_list one line per article of the board (name, author, date, title), show_board_article the text of the article, show_user_article_list and show_user_comment_list the user's articles and comments on all boards, all in stored order; a missing article is reported; whatever is typed and whatever the file system holds, at no moment does such a command change a file. (False in two corners: an index that cannot be read is shown as empty without an error; a home name with a question mark is checked under one name and read under another.)",
 "every file content, every command line, every home directory",
 "The commands print to the terminal and have no tests; the claim is about all contents.",
 ["cmd/bbstool/main.go","cmd/bbstool/articles.go"])
p("C54","add_board adds exactly one board",
 "bbstool add_board appends one record holding the id and the title and changes nothing else; afterwards the boards are the old ones followed by the new one, and show_board_list shows its title; without an id or a title it prints an error and changes nothing. (The hope that ids stay unique and are kept is false: a used id is added again and a long id is cut without an error.)",
 "every content of the board file, every id and title",
 "The command is not tested; the claim is about all contents and names.",
 ["cmd/bbstool/main.go:addboard","pttbbs/pttbbs_write_board_connector.go","pttbbs/board.go"])
p("C56","bbstool does not panic",
 "Whatever is typed and whatever the files hold, bbstool does not panic. (False of the commands about articles: they panic when the home cannot be opened or the driver is unknown, when the board is the empty text, when the user is not given, and when some board has no name. Proved for all other commands without any condition, and for these when none of that is the case.)",
 "every command line, every file system",
 "Panics need particular combinations of missing options and files.",
 ["cmd/bbstool/main.go","cmd/bbstool/articles.go"])
p("C55","add_board_article posts one article or nothing",
 "bbstool add_board_article prints a name that no article of the board had; the article under that name holds exactly the given text (or the text of the given file), the index of the board is the old one followed by one record with that name, author, date and title, and nothing else changes; afterwards the articles listed are the old ones and the new one, and show_board_article prints the text. It ends when the board has a directory and the clock goes on; a missing option is named and nothing changes. (The hope that after an error there is no new article is false: when the index cannot be written an empty article stays behind.)",
 "every file content, every clock and source of random numbers, every command line with the options",
 "The names depend on the clock and on random numbers; the command has no tests.",
 ["cmd/bbstool/articles.go:addBoardArticle","pttbbs/pttbbs_write_article_connector.go","pttbbs/file.go"])
p("C57","Clients that post at the same time lose nothing",
 "For any number of clients, each posting any list of articles on any boards, and every schedule of their system calls, the index of each board is the old one followed by one record per listed post; no two posts of a board have the same name, and none has the name of an older article; a client that has finished was told the names of its posts in order, all of them are listed, and each holds exactly its text; nothing else changes. (The hope that a listed article always has its text is false: the index is written first, so a reader or a crash in between finds a listed article that is empty.)",
 "every number of clients, every list of messages, every schedule, every starting content",
 "The schedules are unbounded, and a collision of names needs two clients in the same second.",
 ["cmd/bbstool/articles.go:addBoardArticle","pttbbs/pttbbs_write_article_connector.go","pttbbs/file.go"])
p("C58","A crash damages at most the call it interrupts",
 "When the process stops anywhere in any sequence of calls, the calls before that point are complete, with their full effect, the calls after it have done nothing, and the one in between has left its own file unchanged or has written a prefix of its data (a deleted draft is there or gone); no other file is touched; later calls work on what is left as on any other content; so after any number of crashes. A post that is interrupted leaves nothing, or an empty article with a new name, or that and a prefix of its index record, or the whole record and a prefix of the text. (The hope that calls are all or nothing is false: overwriting a draft destroys the old text first.)",
 "every sequence of calls, every point of interruption, every length of the partial write, every starting content",
 "Crashes cannot be placed at will in a test, and the states left behind are unboundedly many.",
 ["pttbbs/file.go","pttbbs/board.go","pttbbs/draft.go","pttbbs/pttbbs_write_article_connector.go","pttbbs/pttbss_append_new_line.go","cmd/bbstool/articles.go:addBoardArticle"])
p("C59","Shared memory behaves as a table of named areas",
 "Whatever processes create, open, remove, close, read and write shared memory by key or by path, in any order and at whatever addresses the kernel chooses, every reply is the one of a table from names to areas of bytes: a created file is all zeros and has the size asked for, an existing key is opened with its content, a byte written through one handle is what every handle on the same area reads, in every process, and nothing else changes; removing a name leaves the open handles working; an index past the length panics. This holds until a handle is used after it was closed. Two processes that call NewCache with the same connection string share the same bytes. Right after Close any access to the bytes kills the process, and a second Close is an error. (The hopes that other keys are other memory, that a created key can be opened, that CreateMmap leaves the memory of others alone, that a second Close harms nobody, and that the kernel's answer fits the structure given to it are false.)",
 "every sequence of operations of every number of processes, every choice of addresses, every starting file system",
 "Needs many processes and choices of the kernel; the tests open one area once.",
 ["cache/mmap.go","cache/mmap_unix.go","cache/systemvshm.go","cache/systemvshm_unix.go","cache/systemvshm_linux.go","cache/cache.go:NewCache"])
p("C60","The replies of the web service are JSON texts that say what is stored",
 "Whatever the records hold (quotes, control characters, bytes that are no UTF-8, HTML) and whatever is asked, a reply has no body, is the plain notice of a missing page, or is a JSON text without a character that has a meaning in HTML. Read back as RFC 8259 says, the information of a user has exactly the eleven documented members with the stored texts, numbers and the time of the last login, the board list has one object per board in stored order with the stored values, a token reply has the token, an error names its reason; times name the stored instant in the zone of the server, and no text names two instants. (The hope that the board list tells the titles is false: whatever the titles and moderators are, the reply is the same.)",
 "every request, every content of the records, every zone of whole minutes",
 "The contents that break a JSON text or a date are among unboundedly many; the handlers have no tests of their texts.",
 ["serverlet/route_users.go","serverlet/route_token.go","serverlet/route_boards.go","pttbbs/board.go"])
p("C61","Paths of the web service are walked before they are answered",
 "Every path leads to one place (\".\" and empty elements stay, \"..\" goes back, not beyond the root) that has one plain spelling. A request with the plain spelling is answered, every other one is sent to it, and following that gives an answer at once; a redirection never leaves the host. So the information of every user with a proper name can be fetched without a redirection, and that of an empty slot, or of a user named \".\" or \"..\", not at all. CONNECT is told nothing. Only a request for a token can make a handler panic.",
 "every request, every table",
 "Spellings of paths are unboundedly many; the service has no test of its routes.",
 ["serverlet/main.go","serverlet/route_users.go"])
p("C62","Clients that post, list and read at the same time see one history",
 "For any number of clients, each posting articles, listing boards and reading articles in any order, and every schedule of their system calls, there is one history of posts that explains every answer: each list is exactly the records the board had at first followed by the records of a beginning of the history (the posts of that board, in order), with no damaged, missing or doubled record; the beginnings only grow for each client, so a later list of a board begins with the earlier one; a client's own posts are in all its later lists, and reading one of them shows its whole text; reading an article of before shows its old text. Every client that has finished has its posts in the history in their order. (A client that still looks for a free name, or whose listing does not come to an end because others keep posting, has no answer; the claims are about the answers given.)",
 "every number of clients, every list of actions, every schedule, every starting content made of whole records",
 "The schedules are unbounded; a reader that meets half a record or misses one needs a lucky moment.",
 ["bbs.go:ReadBoardArticleRecordsFile","bbs.go:ReadBoardArticleFile","pttbbs/pttbbs.go:ReadBoardArticleFile","pttbbs/file.go","cmd/bbstool/articles.go:addBoardArticle","pttbbs/pttbbs_write_article_connector.go"])
p("C63","An article that a list has shown can be read",
 "While other clients post, an article that a client has found in a list of a board can be opened by that client afterwards and shows the text of a post of that board; a text that a client has seen is what it sees at every later reading. (The first half is false: the index is written before the text, so a reader can find a listed article empty. Proved: it can always be opened, and shows the whole text or, when another client posts it, nothing, but never a part of it.)",
 "every number of clients, every list of actions, every schedule, every starting content made of whole records",
 "The moment between the index and the text is short and cannot be met at will in a test.",
 ["cmd/bbstool/articles.go:addBoardArticle","pttbbs/pttbbs_write_article_connector.go","pttbbs/pttbbs.go:ReadBoardArticleFile"])

p("C64","Every record file is read as the list of its slots",
 "The readers of article indexes, board files, user files, tables of online users and Formosa indexes return one record per slot of the file, in order, the last one completed with zeros when the file ends inside it, change no file, and stop for every file, however long; where there is no file they say so. A directory in the place of the file is reported. (The last clause is false of four of the five readers: they test only for the end of the file, so they never return when each read fails; the reader of online users reports the error.)",
 "every content and length of the file, every file system",
 "Files have unboundedly many contents and lengths; a reader that does not return cannot be told from a slow one.",
 ["pttbbs/file.go","pttbbs/board.go","pttbbs/passwd.go","pttbbs/userinfo.go","formosabbs/file.go"])
p("C65","Every place of the web service has one answer",
 "A request for a plainly spelled path, other than one for a token, gets exactly the answer of a table: the list of boards at /v1/boards, status 501 below /v1/classes/, the record of the first user with that id (or status 500 and the reason when there is none) at /v1/users/<id>/information and below, 501 at /v1/users/<id>/favorites and below, 404 without a body at every other path below /v1/users/, an empty 200 for these places with another method, and the plain notice of a missing page everywhere else.",
 "every request, every table of users and boards",
 "Paths and methods are unboundedly many; the service has no test of its routes.",
 ["serverlet/main.go","serverlet/route_users.go","serverlet/route_boards.go","serverlet/route_classes.go","serverlet/route_token.go"])
p("C66","The command line of bbstool selects the home, the driver and the command",
 "The settings --driver and --bbshome, each written with one or two dashes and with an equals sign or as two words, come first; of several the last one counts, without one the defaults hold; the words from the first one that does not begin with a dash (or after --) are the command and its options. Every other line (an unknown setting, a setting without a value or without a name) is refused and nothing is done. A setting can stand anywhere, and an option of a command can be joined to its value by an equals sign. (The last sentence is false: a setting after the command is ignored, and the command then works on the default home /home/bbs; a joined option is not seen.)",
 "every command line, every file system",
 "Command lines are unboundedly many and the command has no tests.",
 ["cmd/bbstool/main.go:main", "cmd/bbstool/main.go:init", "cmd/bbstool/main.go:parseArgsToMap"])
p("C67","An access token names its user and is the text RFC 7519 describes",
 "Whatever the signing key, the text of every token the web service issues is three base64url parts joined by dots: a JSON header naming ES256 and JWT, a JSON object of claims whose subject is the user name of the request (left out when it is empty), and the signature over the first two parts. base64url text can be read in one way only. Different users get different token texts. The token can be used for half an hour. (The last sentence is false: the expiry claim is always the time 1800, half an hour after the beginning of 1970, so a verifier that looks at it refuses every token at once. The one before is true for user names that are UTF-8 text and false for others: such names can share one text.)",
 "every server table, every request, every signing function, every user name, every moment",
 "User names, keys and moments are unboundedly many; the tests look at no token at all.",
 ["serverlet/route_token.go:newAccessTokenWithUsername", "serverlet/route_token.go:postToken"])
p("C68","What the calls do when the disk fails",
 "Any system call may fail (no space, input/output error, too many open files), a write possibly after a part of its data. Then every library call that adds, replaces, appends or deletes reports the error, and leaves its file as it was or with a part of the new data; nothing else changes, and the calls after it behave as after any other call. A call that reports success has done what it says, and one that reports failure has changed nothing. Removing a board never harms another record, whatever fails; creating an article that is reported as done made a new file with the right text. (Three of these sentences are false: a listing during which a read fails shows further, empty records without an error, and a draft whose size cannot be found out is read as empty; a failed draft is emptied, a failed addition leaves bytes that shift every later record; a removal reports success although the file could not be cut, and the last record then stands twice.)",
 "every sequence of library calls, every file system, every choice of failing system calls and of the part of the data a failing write has transferred",
 "Which system call fails, and how much a failing write has transferred, cannot be chosen in a test on a real disk; every combination over every sequence of calls is covered.",
 ["pttbbs/board.go:RemoveBoardHeaderFileRecord", "pttbbs/board.go:OpenBoardHeaderFile", "pttbbs/file.go:OpenFileHeaderFile", "pttbbs/file.go:AppendFileHeaderFileRecord", "pttbbs/draft.go:WriteUserDraft", "pttbbs/draft.go:ReadUserDraft", "pttbbs/pttbbs_write_article_connector.go:NewArticleRecordWithMap"])
p("C69","From the text of a request to its answer",
 "The user name and password of a token request are read exactly as the client's form spells them: percent signs with two hexadecimal digits of either case, plus signs for blanks, any field order, broken fields left out, fields of the body before those of the address. Every list of fields can be sent and is read back, by every version of Go. The token is given exactly if the first user of that name has that password. Every spelling of the address of a user gives that user's information, every user name that is one element of a path has an address, and an address is refused exactly if it spells no path. Passwords are only taken from the body, and an address with an escaped name asks for the user of that name. (The last sentence is false in both parts: credentials in the address are accepted, and an escaped slash is taken as a slash, so the address of one name gives another user. A form sent as multipart/form-data is never read.)",
 "every target, body, media type and method; every list of fields and every spelling of it; every user table; Go before and since 1.17",
 "A test sends a few literal forms; that every spelling of every list of fields is read back, and that nothing but the form decides, speaks about all texts.",
 ["serverlet/route_token.go:postToken", "serverlet/route_users.go:getUserInformation", "serverlet/route_users.go:parseUserPath"])
p("C70","The web service from its files to its texts",
 "Started in a directory beside home/bbs with any password file and any board file, the service starts, and answers every sequence of requests, one answer each. Every spelling of a user's address gives a JSON text that tells what the first slot of the password file with that name says, or an error if there is none; every spelling of the boards' address gives one object for each slot of the board file; a form with a user name and a password gives a signed token naming the user exactly if crypt(3) of the password with the stored salt is the stored hash. Who writes a path with empty elements or dots is sent to its plain spelling, and nobody else is sent anywhere. A request is refused exactly if its address spells no path, and left without an answer only if it asks for the token of a user with a broken password field. The answers follow the files as they change. (The last sentence is false: both files are read once, before listening, so a password that has been changed since still opens and the new one does not.)",
 "every file system, every content of the two files, every codec, every sequence of requests with every spelling, every change of the files between the requests",
 "It speaks about every content of the files and every sequence of requests; a test starts the service on one directory.",
 ["serverlet/main.go:main", "serverlet/main.go:loadPasswdsFile", "serverlet/main.go:loadBoardFile", "serverlet/route_token.go:postToken", "serverlet/route_users.go:getUserInformation", "serverlet/route_boards.go:getBoards"])
p("C71","Posting on a disk that fails",
 "Posting an article is three steps: a new file, a record in the index of the board, the text. When any system call of any of them may fail, an attempt ends in one of four ways, and the caller is told which: everything was done; the index could not be extended, and an empty file and part of a record remain; the text could not be written, and the article is listed with part of its text; or no free name was found. A text reported as posted is there at the end of any sequence of posts, complete, under a name nobody used before. Indexes grow only by what the attempts added, in their order. As long as no addition to the index failed, everything reported is listed. Nothing else changes. A post reported as failed is not listed, and a message posted again is listed once.",
 "all messages, boards, homes, file states, clocks, random numbers, codecs, sequences of posts, and all combinations of failing system calls with any part of a write done",
 "Tests would have to inject an error at every system call of every post, with every amount of data written, and to compare the whole disk afterwards.",
 ["cmd/bbstool/articles.go:addBoardArticle", "bbs.go:CreateArticleRecord", "bbs.go:AddArticleRecordFileRecord", "bbs.go:WriteBoardArticleFile", "pttbbs/pttbbs_write_article_connector.go:WriteBoardArticleFile"])
p("C72","The web service started on a disk that fails",
 "The service reads the password file and the board file once, before it listens. When any system call of that start may fail, a service that has come up has changed nothing on the disk, and each of its two tables is empty, or holds every record of its file in order, with blank records in between. Whatever failed: a token is only given to a user of the password file for a password with the hash in the file, \"password incorrect\" is only said of a wrong password, the information shown about a user is that of the file, or the user is said to be unknown; the boards shown are none, or those of the file with blank ones in between; only a request for a token can end without an answer, and if the passwords of the file are hashes, only one without a user name. What failed at the start is not read again. A service that is up knows the users of its files and shows exactly the boards of its files; and it comes up.",
 "all worlds, password and board files, codecs, clocks, signatures, requests in any spelling, sequences of requests, and all combinations of failing system calls at the start",
 "Tests would have to inject an error at every system call of the start for every content of the files, and then try every request on the service that came up.",
 ["serverlet/main.go:main", "serverlet/main.go:loadPasswdsFile", "serverlet/main.go:loadBoardFile", "serverlet/route_token.go:postToken", "serverlet/route_users.go:getUserInformation", "serverlet/route_boards.go:getBoards", "pttbbs/passwd.go:OpenUserecFile", "pttbbs/board.go:OpenBoardHeaderFile"])
p("C73","Redirections of the web service",
 "A request whose path is not spelled plainly (double slashes, dots, a missing last slash of a directory) is sent to the plain spelling with a Location header. That header is one line of printable ASCII that starts with exactly one slash, so it can neither add lines to the answer nor lead to another host; without its fragment it is an address of the plain spelling of the path and, when the query has no number sign, of a query with the same fields. A client that follows it is answered: neither refused nor sent on again. However the path of a GET is spelled, in the end the client gets the answer for its plain spelling. The page sent with the header is a single link, and nothing of the address can get out of its quotes. The same holds of requests with any other method, and the query is always kept.",
 "all targets, methods, headers, bodies, user and board tables, clocks and signatures; Go versions that keep or drop a lone question mark; clients that turn a redirected POST into a GET",
 "Tests try a few spellings; that no target at all gives a header with a line break, a foreign host, a second redirection or another page needs an argument about escaping and cleaning of every byte string.",
 ["serverlet/main.go:main", "serverlet/route_users.go:parseUserPath", "serverlet/route_token.go:routeToken"])
p("C74","Texts through Big5",
 "Titles, names and articles are kept in Big5 and handed out in UTF-8. Any stored bytes are read as the text the Big5 standard gives them, with U+FFFD for bytes that stand for nothing, and the result is always proper UTF-8. A text is written with one byte for each ASCII character and two for each other. Texts of any length are read and written whole, wherever the pieces in which they are converted end. A text whose characters Big5 has comes back as it was, from an article or from any field of a record that has room for it, and bytes in the usual spelling come back as the same bytes. A text cut off by a field or a crash is read as a beginning of it with at most one U+FFFD at the end. A text that is stored and read comes back as it was; what add_board_article reports as posted is shown whole; bytes that can be read come back when they are written again; a title too long for its field is kept as far as there is room; comments are handed out as text. (The last sentence's five clauses are false: the text ends at its first character that Big5 does not have, without an error; four pairs of bytes are read as two characters of which the second cannot be written; half a character at the end of a field is read as U+FFFD; comments are handed out in Big5.)",
 "all texts and bytes, all tables of the two directions that fit each other, all file systems and command lines for posting and showing",
 "Tests convert two words; which characters a text may have, where it is cut, and whether reading undoes writing are questions about all texts.",
 ["big5.go:Utf8ToBig5", "big5.go:Big5ToUtf8", "pttbbs/encoding.go:utf8ToBig5UAOString", "pttbbs/encoding.go:big5uaoToUTF8String", "cmd/bbstool/articles.go:addBoardArticle", "cmd/bbstool/articles.go:showBoardArticle", "bbs.go:GetBoardArticleCommentRecords"])
p("C75","Crashes on a failing disk",
 "Processes use one home one after the other on a disk on which any operation may fail, and each of them may be stopped at any moment, also after and between failures. What a stopped process leaves in the files is what it could have left by ending normally on a failing disk. Calls of the library that got an answer have done what they say or have failed as on a failing disk; a call that was stopped has left what an interruption leaves; nothing else changed, and later calls work from there. The same holds for removing a board. Attempts to post with bbstool that were reported as done keep their whole text under the name that was printed, every new file has a name nobody used, and the index of a board has only grown, by what the attempts added. What a board lists stays listed in its place whatever happens to later posts; as long as no post to that board was stopped or failed to add its record, all that was reported as posted is listed too.",
 "all sequences of calls and posts, all failures, all moments at which processes are stopped, all file systems, all codecs",
 "A test would have to make every system call fail and kill the process between any two of them, in every order, for every sequence of posts.",
 ["cmd/bbstool/articles.go:addBoardArticle", "bbs.go:CreateArticleRecord", "bbs.go:AddArticleRecordFileRecord", "bbs.go:WriteBoardArticleFile", "pttbbs/board.go:RemoveBoardHeaderFileRecord", "pttbbs/file.go:AppendFileHeaderFileRecord", "pttbbs/draft.go:WriteUserDraft"])
p("C76","Concurrent posts on a failing disk",
 "Any number of clients post with bbstool in one home at the same time, their system calls interleaved in any order; any system call may fail, a failing write having transferred any part of its data, and any client may be stopped for good at any moment. At every moment: every post begun has its own file under a name that nobody used before and no other post gets; the file holds nothing, a part of the text or the whole; the index of a board is what it was followed by the records of the posts, whole or cut short by a failure, each at most once and never mixed with one another; no file is lost and nothing else changed. A client that has finished was told what it has done: a post that was reported as done has its whole text and its whole record. What a board lists stays listed in its place. When the clients that post to a board have finished and none was told that its record could not be added, the board lists what it did before and then every post that was reported, once, and otherwise only posts whose client was told that the text could not be written.",
 "all numbers of clients and messages, all interleavings, all failures, all moments at which clients are stopped, all file systems, all codecs",
 "The outcome depends on the interleaving of the clients' system calls, on which of them fail and on when each client is stopped; tests sample a few of these.",
 ["pttbbs/pttbbs_write_article_connector.go","pttbbs/file.go:AppendFileHeaderFileRecord","cmd/bbstool/articles.go:addBoardArticle", "bbs.go:WriteBoardArticleFile", "bbs.go:AddArticleRecordFileRecord"])
p("C77","Comments in Big5",
 "A comment line stored in Big5 (a mark, the author's id, a colon, a text, month/day and hour:minute, anything without a slash behind), with colours put in anywhere, even inside a character, is listed among the comments of the article with this author, this time and, once decoded, exactly this text without the blanks around it. The mark may be anything without a colon that does not end in a letter or digit; the text may be any characters that Big5 has, without colon, line end and control characters.",
 "all Big5 tables, all articles, all lines, all texts and marks, all colours and places where they are put",
 "Bytes of a two-byte character can look like letters, brackets or the beginning of a control sequence; which characters clash depends on the table, and tests try a handful of texts.",
 ["user_comment_record.go:parseUserComment", "ansi.go:FilterStringANSI", "bbs.go:GetBoardArticleCommentRecords", "big5.go:Big5ToUtf8"])
p("C78","Chinese names and titles from the files to the users",
 "The web service reports as real name and nickname of a user exactly the characters that the first slot of the password file with that name holds in Big5 at the places of the C structure, whatever the bytes are (a broken pair counts as U+FFFD). bbstool add_board with any id and title makes a board that is listed with this id and title as far as Big5 has the characters: all of it if there is room (13 and 49 bytes), otherwise its beginning, as much as fits, with U+FFFD in place of a character that is cut in two. The same holds for the title of an article posted with bbstool add_board_article (65 bytes).",
 "all Big5 tables, all password files, all spellings of the address, all ids and titles, all board files",
 "What is shown depends on every byte of the field and on the table; a title is cut at a byte and not at a character, which only shows for some mixtures of characters.",
 ["pttbbs/passwd.go:UnmarshalUserec", "serverlet/route_users.go:getUserInformation", "pttbbs/board.go:MarshalBinary", "cmd/bbstool/main.go:addboard", "big5.go:Utf8ToBig5", "big5.go:Big5ToUtf8"])
p("C79","Adding and reading at the same time on a failing disk",
 "Several clients add records, boards and text, list and read, interleaved in any way, while any system call may fail (a failing write transfers any part of its data) and any client may stop for ever at any point. There is one order of all that was added and seen such that, at every moment: every file is its old content with the added pieces behind it, in that order, each in one place; a call that reported success has added all of its data; a call that reported an error, or was stopped, has added nothing or a beginning of its data; nothing else is in the files and no other file has changed; reading an article gives the whole article as it was at one moment of this order. A listing gives the file as it was at one moment, with a record of zero bytes for every failed read, if no addition to the file was torn.",
 "all numbers of clients, all sequences of these calls, all interleavings, all failures and stops, all files, records and texts",
 "The result depends on the interleaving of system calls of several processes together with the place where each of them fails or stops; tests cannot choose either.",
 ["pttbbs/file.go:AppendFileHeaderFileRecord", "pttbbs/file.go:OpenFileHeaderFile", "pttbbs/board.go:AppendBoardHeaderFileRecord", "pttbbs/board.go:OpenBoardHeaderFile", "pttbbs/pttbss_append_new_line.go:AppendBoardArticleFile", "bbs.go:ReadBoardArticleRecordsFile"])
p("C80","Chinese folder names in favourites",
 "A favourites file whose folder names are in Big5 is read as a tree that shows, at every depth, each folder with exactly the characters that its bytes stand for, each board with its name and each line, in the order of the file. A tree whose folder names consist of characters that Big5 has and take at most 49 bytes is saved as a file with exactly these names in Big5, and the saved file is loaded as the same tree. A file of another program with such names says the same after it was loaded and saved again. For every other tree without NULs in its names, saving and loading gives back the same tree except that each name ends before its first character that Big5 does not have, or after 49 bytes, with U+FFFD in place of a character that is cut in two.",
 "all tables of Big5, all favourites files and trees of any depth and any number of folders, all names",
 "The names are arbitrary texts at arbitrary depth and the tables have more than 19000 places; a test shows a few names in one tree.",
 ["pttbbs/fav.go:UnmarshalFavFolderItem", "pttbbs/fav.go:UnmarshalFavFolder", "pttbbs/fav.go:MarshalBinary", "pttbbs/pttbbs.go:ReadUserFavoriteRecordsFile", "bbs.go:ReadUserFavoriteRecords", "pttbbs/encoding.go:utf8ToBig5UAOString"])
p("C81","Favourites read from a disk that fails",
 "Whatever fails while the favourites of a user are read, nothing on the disk changes. The answer is an error, no entries, or the whole tree of the file. Of the tree, every name of a board that is shown is empty or the name of a board at this number or an earlier one. The call panics only for favourites with a number that is not in the list of boards, as without failures.",
 "all favourites files, all lists of boards, all sequences of failing and working system calls",
 "Any of the calls may fail, in any combination, and the favourites may have any depth; a test does not make the disk fail.",
 ["pttbbs/pttbbs.go:ReadUserFavoriteRecordsFile", "pttbbs/pttbbs.go:appendBoardID", "pttbbs/fav.go:OpenFavFile", "pttbbs/board.go:OpenBoardHeaderFile", "bbs.go:ReadUserFavoriteRecords"])

with open(os.path.join(os.path.dirname(__file__),"..","properties.jsonl"),"w") as f:
    for x in P: f.write(json.dumps(x, ensure_ascii=False)+"\n")
print(len(P))
