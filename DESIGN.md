# Formal model of go-bbs in Coq 8.16.1

The Go sources in `/repo` are read as text. Everything here is a hand-written
model of that text plus theorems about the model. Nothing is extracted from or
run against the Go code; where the Go tests contain literal test vectors they
are used as `Example`s to validate the model (not as proofs).

## 1. Shape of the development

All files live in `rocq/theories` (logical path `Verif`). Three kinds of file:

* `M_*.v`  the model. Definitions only; every definition cites file and lines.
* `S_*.v`  small specifications written without the model's helpers.
* `P_*.v`  lemmas and proofs.
* `T_*.v`  property theorems, closed by `exact lemma`, with
  `Print Assumptions` beneath each and a concrete non-vacuity `Example`.

Conventions of the model:

| Go | model |
| --- | --- |
| `byte`, `[]byte`, `string` | `Init.Byte.byte`, `list byte` (a Go string is a byte string) |
| fixed-width integers | `N` / `Z` with every wrap written out (`mod 2^32`, sign conversion) |
| `int` | `Z` |
| `error` return | `Err e` |
| panic | `Panic` outcome, propagated explicitly |
| unbounded `for` | fuel, exhaustion is the outcome `Diverge`, never a result |
| nil pointer / absent map key | `option` |
| `time.Time` | Unix seconds (`Z`); location and sub-second part are not modelled |
| system calls | a free monad `prog` over open/read/write/lseek/ftruncate/close/stat/unlink/now/rand |
| files | inodes with byte contents; directory entries by normalised path; descriptors with offset and append flag |
| goroutines / processes | interleaving of the system calls of several `prog`s |
| crash | stop after any number of system calls; the next write may be cut at any length |

One model serves three semantics: `run` (sequential), `crash` (all cut points)
and `pool` (all interleavings).

## 2. Per property: what is modelled and how it is proved

| id | modelled | method |
| --- | --- | --- |
| C01 | `MarshalToByte`, `NewFileHeaderWithByte`, append, open | slot library: a list of writes into a zeroed buffer, reads at offsets; disjointness by computation; then composed with the file model |
| C02 | same | exact image theorem for read-then-write; `_refuted` witness |
| C03 | Append/Update/OpenFileHeaderFile + paths | refinement to `board -> list record` by induction over histories |
| C04 | OpenFileHeaderFile, NewFileHeaderWithByte | induction over the file; field spec by literal offsets of the C struct |
| C05 | OpenFileHeaderFile etc. with fuel | `Diverge` for every fuel on a directory (`_refuted`), termination bound otherwise |
| C06 | append program, pool semantics | invariant over all schedules |
| C07 | append program, crash semantics | all cut points; `_refuted` for later appends |
| C08 | CreateBoardArticleFilename | loop induction; pool semantics with O_EXCL |
| C09 | same | `Diverge` for every fuel when the directory is missing |
| C10 | WriteBoardArticleFile | exact content; `_refuted` |
| C11 | AppendBoardArticleFile | sequential + pool |
| C12 | UnmarshalBoardHeader, MarshalBinary | slot library |
| C13 | OpenBoardHeaderFile, AppendBoardHeaderFileRecord | as C03, C04 |
| C14 | RemoveBoardHeaderFileRecord, chunk sizes as an oracle | loop invariant on the overlapping copy |
| C15 | same, crash semantics | invariant at each cut |
| C16 | same, pool semantics, one remover and any number of adders (S_Keep) | witness schedule; invariant over every schedule: the file is the copy state `shifted` of all records so far, or, once cut, all records but a run of those added meanwhile |
| C17 | UnmarshalUserec, MarshalBinary | slot library; exact image; `_refuted` for role |
| C18 | UnmarshalUserInfo, MarshalBinary | slot library; exact image; `_refuted` |
| C19, C20 | fav.go decode/encode (M_Fav, S_Fav, P_Fav, T_Fav) | declarative `layout` relation; completeness and soundness of the decoder against it by fuel induction; encoder by induction over trees |
| C21 | ReadUserFavoriteRecords, appendBoardID (T_Fav) | induction over trees + run of the database call; "never panics" refuted |
| C22 | bbscrypt.go, crypt.go, utils.go, const.go (tables copied by script) | per-byte reasoning; exact dependence on key and salt; test vectors as Examples |
| C23 | VerifyPassword | from C22 |
| C24 | fnv.go | fold laws |
| C25 | path.go | normalised path computation; injectivity |
| C26 | draft.go + DB wrappers | refinement to a finite map; crash witness |
| C27 | Register/Open/Connector.Open | state machine over histories |
| C28 | the regular expression of ansi.go (M_Regex, M_Utf8, M_Comment) | backtracking matcher proved equal to a declarative reading `stripped`; `_refuted` for idempotence |
| C29, C30 | user_comment_record.go, GetBoardArticleCommentRecords | same matcher, scanner, date parser; exact answer against a declarative reading of a line |
| C31, C32 | bbs.go scans (M_Scan, S_Scan, P_Scan, T_Scan) | relational specification of the searched boards, articles and lines; the answer is the concatenation; panics and failures refuted |
| C33 | login_recent.go | date parser/printer |
| C34 | bad_logins.go | date parser/printer with week day |
| C35 | cache.go, M_Cache.v | C struct layout as specification; image of the memory as concatenation of tables |
| C36, C37 | route_token.go, permissions.go, route_users.go, main.go: M_Web.v | decision function of each handler over the loaded tables; the text of tokens is C67 |
| C38 | usersettings.go | bit reasoning |
| C39 | parseArgsToMap | induction |
| C40 | descriptor table of the file model | final descriptor table equals the initial one |
| C41 | cstr.go | induction |
| C42 | formosabbs/file.go | as C04 |
| C43 | cache/cache.go NewCache | string reasoning |
| C44 | board.go accessors | bit reasoning, split/join |
| C45 | Connector.Open | string reasoning |
| C46 | textbook DES with its FIPS tables as specification | linearity over GF(2) plus table checks by `vm_compute` |
| C47 | NewArticleRecord + MarshalToByte | computation; `_refuted` |
| C48 | open program in a pool of appenders | invariant over schedules |
| C49 | AddRecommend | arithmetic; `_refuted` |
| C50 | parseUserPath | split lemma |
| C51 | whole BBS as a map of independent files | `C51_histories_refine_map`, `C51_histories_terminate` |
| C52 | pools of clients, each a list of calls, every schedule | simulation invariant with linearisation points for shared files (`P_Pool.v`), weakest preconditions for files with one user (`P_Local.v`); `_refuted` for listings during in-place updates, drafts read while rewritten, new articles read while first written |
| C53 | cmd/bbstool: the showing commands | running the command on the store; a predicate "only reads" closed under the program constructors |
| C54 | cmd/bbstool addboard, NewBoardRecord, MarshalBinary of a new board | slot library; append to the board file |
| C55 | cmd/bbstool addBoardArticle (M_BbsTool `post`) | C08 for the new name, then append and one write; a pool of one client |
| C57 | the same, many clients (S_Post `poster`) | ghost lists: names made, records listed, texts written; one invariant kept by every system call |
| C58 | all writing calls, M_Sys `crash`, `post` | crash of a sequence splits into complete calls and one crash; per-call lemma from the open-write-close shape; every system call keeps `sane` |
| C59 | `cache/mmap*.go`, `cache/systemvshm*.go`, `NewCache` (M_Shm, M_Attach) | simulation of page tables, descriptors and segments by a table of names, areas and handles; induction over the history |
| C60 | encoding/json's MarshalIndent, RFC 3339 times, the values given to it (M_Json) | an independent JSON reader (S_Json) accepts the text and gives back the value, by induction over values; the calendar by one 400-year cycle and shifting |
| C61 | http.ServeMux, path.Clean, the four patterns (M_Mux) | relational walk over the elements (S_Mux); the byte loop of path.Clean by induction |
| C62 | posting, listing and reading clients (S_Visit `visitor`) | the invariant of C57 extended by what each client has been told: the place of an open reader in its file, the records read so far, the texts seen |
| C63 | the same | from C62; `_refuted` by a schedule that stops a post between index and text |
| C64 | the five loops that read record files (M_FileOps `open_records`) | induction over the file; `_refuted` by a directory, on which every read fails |
| C65 | the mux and the handlers (M_Mux, M_Web) | inductive table of answers (S_Routes); cutting the path at its slashes; the table is shown to be a function |
| C56 | cmd/bbstool, all commands | a predicate "does not panic whatever the system answers" closed under the program constructors |
| C66 | main of bbstool with package flag (M_Main) | inductive grammar of command lines (S_Main): what each kind means, and that every line is of one kind |
| C67 | newAccessTokenWithUsername with golang-jwt's SignedString and base64 (M_Jwt) | base64url as a relation on bits, compact tokens, JSON texts (S_Jwt, S_Json): text of every issued token, unambiguity, expiry |
| C68 | every library call of C51, RemoveBoardHeaderFileRecord and the creation of articles, run with failing system calls (M_Fault: `fails`, `frun`) | what a call leaves and answers when it met an error (S_Fault: `call_fails`, `padded_list`, `faulty_history`); removal and creation as in C15 and C08 |
| C69 | the target and the body of a request as text (M_Form: `unescape`, `ParseQuery`, `ParseForm`, `arrive`), then the router and the handlers | spelling of bytes, cutting at separators, name and value of a piece (S_Form: `spells`, `pieces`, `fields_of`, `sends`, `addresses`) |
| C70 | the program from `main` on: start, then any sequence of requests (M_Service: `respond`, `session`) | users and boards by the slots of the files, the meaning of the JSON texts and tokens (S_Service: `users_of`, `boards_of`, `tells_user`, `brings_token`) |
| C71 | any sequence of posts with any system calls failing (`frun` of the posts of S_Post) | four kinds of deeds (S_PostFault: `deed_ok`), the index as the old one and their pieces, the new files by name and text |
| C72 | `start` under `frun` (any system call fails), then the answers of C70 from the tables it made | padding of the tables by blank records (S_ServiceFault: `filled`), lookup through blanks, then C36, C60, C61, C67, C69 |
| C73 | `url.URL.String`, `http.Redirect` with `path.Clean`, `hexEscapeNonASCII` and `htmlReplacer` for the redirections of M_Mux (`M_Redirect.v`) | escaping is spelled back by the grammar of C69 and keeps plain paths plain; then C61 for the request that follows |
| C74 | `Utf8ToBig5`, `Big5ToUtf8` over two variable tables (M_Big5; the buffers of transform.Bytes and transform.String in M_Transform, proved to come to the same), used as the codec of posting, listing and showing | Big5 by the WHATWG standard (S_Big5: `big5_reads`, `in_big5`, `writable_part`), UTF-8 of S_Json |
| C75 | `fstop` (M_Stop: programs stopped anywhere while system calls fail) of the calls, of `RemoveBoardHeaderFileRecord` and of posting | `lives_meet`, `attempts`, `deed_of` (S_Stop), over the meanings of C51, C58, C68, C71 |
| C76 | `fpool` (M_Stop: several programs in any order while system calls fail; a program may never move again) of clients that post | `deeds`, `told_of` (S_PostPool), over the deeds of C71 |
| C77 | the comment lines of C29 and C30 over the tables of C74 | `comment_in_big5`, `without_blanks`, `mark_text` (S_Big5Comment) |
| C78 | the service of C70 and the commands of C54 and C55 with the codec of C74 | `big5_at`, `kept_in` (S_Big5Field) |
| C79 | `fpool` (M_Stop) of clients with the adding and reading calls of C52 | `added_together`, `did`, `slots_read` (S_AddPool) |
| C80 | favourites of C19 to C21 with the codec of C74 | `mark`, `favourites_at`, `same`, `names_fit`, `left_of` (S_Big5Fav): the file and the tree with names as characters; induction over the length of the file |
| C81 | favourites of C20 and C21 on the failing disk of C68 (`frun`) | `filled` (S_ServiceFault): the names of the boards with empty names in between; `seen`, `fav_file` (S_Fav); case analysis on the failing calls |

## 3. Trusted base

* Coq 8.16.1's kernel, including `vm_compute` (used in `Example`s, in `_refuted`
  witnesses and in the table checks of C46). No `native_compute`.
* `Print Assumptions` is written beneath every property theorem. Every one of them
  answers "Closed under the global context": no axiom of the standard library or of
  any other library is used, and none is added here.
* No `Admitted`, no `Axiom`/`Parameter`/section-less `Variable`, no functors or module
  types, no kernel check switched off.
* The reading of the Go text by a person. The model is not extracted from the code;
  each definition cites the lines it stands for.

### 3.1 What the model takes from outside the repository

These are the parts of Go and of the operating system that the model describes on its
own authority. An error here is an error of the model.

* **Files** (`M_Sys.v`): a file system with directories and regular files named by
  lexically normalised absolute paths. No symbolic or hard links, no permissions, no
  full disks in `run`; `crash` cuts a write at any length, and `frun` (`M_Fault.v`, C68)
  lets any open, read, write, seek, truncate, stat or unlink fail, closing never; `fstop`
  (`M_Stop.v`, C75) does both, and `fpool` (C76, C79) lets several programs do so at the same time. A read returns as many bytes
  as are there; a write with `O_APPEND` goes to the end in one step; `ioutil.ReadFile`
  is one read of the whole file; opening a directory for reading succeeds and reading
  it fails with `EISDIR`.
  C40 does not use this model: there every system call may answer anything.
* **Interleaving**: one step of the schedule is one system call of one client.
* **The clock and `rand`** are arbitrary streams in the world.
* **`golang.org/x/text` Big5** is a variable `cd : codec`, two arbitrary functions, in all
  files but those of C74, C77 and C78. The theorems that need "encoding then decoding gives the same
  text" say so for the text at hand. In `M_Big5` the two functions are written out as
  x/text v0.3.8 has them, over two variable tables, and in `M_Transform` with the buffers of
  `transform.Bytes` and `transform.String`; that package is not in the sandbox, so this
  follows its documentation, its published source and the WHATWG standard. Nothing is assumed about which
  characters the tables have, only that they fit each other (`S_Big5: good_tables`).
* **`strconv.Atoi`, `strings.Split/Trim/TrimSpace/HasPrefix/Contains`, `bytes.Trim`,
  `unicode/utf8`** are written out (`M_Text`, `M_Utf8`, `M_Cstr`).
* **`time.Parse`/`Format`** for the three layouts in use (`M_Time`), with Go 1.14's
  rules: years with four digits, range checks, leap years, an optional fraction of a
  second after seconds. Times are in UTC; zones are not modelled.
* **`regexp`** is leftmost-first (`M_Regex`): a backtracking matcher in order of
  preference over the regular-expression syntax the two patterns use, on code points
  with invalid bytes read as U+FFFD of width one.
* **`bufio.Scanner`** splits at newlines, drops one final carriage return and stops at a
  line of 65536 bytes or more.
* **`hash/fnv`** is the FNV-1a fold whose state can be set by its binary form.
* **`net/http` and `net/url`**: the path and the form are computed from the text of the target
  and of the body (`M_Form.v`, targets that start with a slash, for Go before and since 1.17);
  the request line and the headers arrive parsed. The choice of the handler and the redirections of `ServeMux` are written out (`M_Mux.v`), without the
  query, the body of a redirection and "OPTIONS *".
* **`golang-jwt` and `encoding/base64`** (`M_Jwt.v`): the text of a token is written out; the
  64 bytes of the ECDSA signature are a function of the signed text, over which the theorems
  quantify. The private key is assumed to parse. (In C60 the text of a token is a function of
  its claims.)
* **`encoding/json`** (`M_Json.v`): `MarshalIndent` for the values the handlers build:
  strings with all escapes, integers, lists, maps with sorted keys, and structures. Times
  are printed as RFC 3339 with any zone of whole minutes as a parameter.
* **Shared memory** (`M_Shm.v`): mmap, munmap, shmget, shmat, shmdt, shmctl for Linux on
  x86-64, with pages of 4096 bytes and one address space per process. The kernel may put
  a mapping at any free address. Permissions and limits other than the largest segment
  are not modelled; `os.Remove` of a directory is an error. `golang.org/x/sys/unix`
  remembers the slices it mapped and refuses to unmap others. The layouts of
  `ipc64_perm` and `shmid64_ds` are those of the kernel's headers.
* **`flag`** (`M_Main.v`): `FlagSet.Parse` for string flags with `ExitOnError`, as in Go 1.14
  (a refused line, also `-h`, ends the program with status 2).
* **Records in memory**: `time.Time` is its Unix second. `nil` and empty slices are the
  same list.

### 3.2 Parts of the repository

| part | modelled |
| --- | --- |
| `bbs.go` | all `DB` methods with an effect; the optional `UserArticleConnector`/`UserCommentConnector` branches are left out because the only driver does not implement them; log output is left out |
| `ansi.go`, `cstr.go`, `user_comment_record.go`, `user_article_record.go`, `user_draft.go` | all |
| `big5.go` | as the variable codec, and written out over variable tables in `M_Big5.v` |
| `crypt/` | all |
| `cache/cache.go` | all; the memory is a byte string |
| `cache/mmap*.go`, `cache/systemvshm*.go` | all of the Linux build (`M_Shm.v`); the Windows versions only return errors; of the Darwin build the layout of `ShmidDs` is left out; a finalizer is a `Close` at any time |
| `filelock/` | the lock calls do nothing to other opens and are steps without effect |
| `formosabbs/` | all |
| `pttbbs/*.go` | all record codecs, paths, files, flags, logins, cache lookups |
| `pttbbs/internal/fnv` | all |
| `serverlet/` | handlers as decision functions, from the text of the target and the body to the text of the answer, `main` up to listening (`M_Service.v`), and the texts of redirections (`M_Redirect.v`); configuration, logging and TLS are left out, and `getClass`, which nothing calls |
| `cmd/bbstool` | all commands, as programs over the same system calls; the text of printed errors and maps is abstract; package flag as in Go 1.14 (`M_Main.v`) |
| tests, `pttbbs/cmd` | not modelled; literal test vectors are `Example`s |

## 4. Findings: where the code does not do what its callers would expect

Each line names the theorem that exhibits it. None of these is a statement about an
unreachable state.

* C02: writing back a listed record loses its money and mode bits.
* C03/C14: an index of 2^57 or -2^56 wraps round and hits record 0.
* C05: listing a directory never returns.
* C07: after a crash in the middle of an addition, later additions are misaligned.
* C09: creating an article on a board whose directory is missing never returns.
* C10: writing a shorter article leaves the end of the old one.
* C14: removing a record beyond the end grows the file.
* C16: a board added while another is removed can be lost.
* C17, C18: the role and three counters are not saved; the 39th byte of the note is lost.
* C21: a favourite with board number 0 or beyond the list panics the whole request.
* C23, C36: an account without a stored hash makes password checking panic. An empty
  slot of the password file has the empty user name, so an empty name in a token
  request reaches it.
* C25: user and board names with `..` leave the home directory; empty names panic.
* C26: a crash while saving a draft can lose the old draft.
* C27: opening a second database redirects the first one.
* C28: the control-sequence filter removes visible text up to a bell character, and is
  not idempotent; a number of five digits leaves the final `m`.
* C29: comment text with colons is rearranged ("9:30 sharp" becomes "930 sharp:"); text
  that repeats the time stamp is cut; authors with one letter are not recognised.
* C30: comments after a line of 64 KiB are lost without an error.
* C31, C32: a board slot without a name panics the search over all boards; one missing
  article file or impossible date fails the search over all boards.
* C33: a line of 64 KiB in the recent-login file ends the program (`log.Fatal`).
* C34: ids with one character are lost, an empty line panics; the weekday in the text is
  not compared with the date.
* C35: the online-user lookup always panics; the shipped example command panics with
  alignment 0.
* C37: no endpoint checks the token; tokens are issued with expiry 1800 seconds after
  1970 and so are expired from the start.
* C38: the table searched by the user-flag calls is never filled.
* C40: each board or user listing leaks one descriptor.
* C41: an article owner starting with NUL bytes loses them.
* C43: file names with a colon cannot be opened; `file://../../dump.shm`, as in
  `pttbbs/cmd/main.go`, names `//../../dump.shm`.
* C47: every new article is listed with the same modification time in 2042.
* C49: the recommend count wraps at 127.
* C52: a listing during in-place updates can combine records that never existed together;
  a draft read while another client rewrites it can be empty; a new article read while it is
  first written can be empty.
* C53: `show_board_article_list` shows a board whose index cannot be read as empty, without
  an error; a `--bbshome` with a question mark is checked under its full name but read
  under the part before it.
* C54: `add_board` adds a second board with a used id and cuts long ids silently.
* C55: `add_board_article` reports an error and leaves an empty article behind when the index cannot be written.  Without a text it prints a request for one and goes on, to fail with "readfile error".
* C57: the index lists an article before its text is written, so a reader or a crash in between finds an empty article.
* C58: no call is all or nothing; a crash while a draft is overwritten leaves an empty file or a prefix of the new text, and the old text is gone.
* C59: keys that are equal modulo 2^32 are the same memory, and a key that is 0 modulo 2^32
  gives memory that nobody can open; `CreateMmap` on a file in use wipes the memory of all
  who have it open and kills them when it gets shorter, while `CreateKey` on a key in use
  opens what is there; a second `Close` can unmap another handle that the kernel put at the
  same address; `Bytes()` of a handle that was closed, or that the garbage collector has
  closed, kills the process; `OpenKey` gives the kernel a structure of 104 bytes for an
  answer of 112, so 8 bytes after it are overwritten.
* C60: the board list of the web service has no titles and no moderators: these fields of
  the structure are not exported, so the JSON encoder leaves them out.
* C63: an article that a list has shown can be empty when it is read, because `add_board_article`
  writes the index before the text.
* C64: a directory in the place of a record file makes the readers of articles, boards, users
  and Formosa articles loop forever (and use up the memory), since they stop only at the end of the file.
* C66: `bbstool show_board_list --bbshome=X` works on /home/bbs, not on X: settings after the
  command are ignored without a word; `--board=test` after a command is not seen either.
* C67: the expiry claim of every token is 1800, so no verifier that looks at it accepts any
  token; user names that are not UTF-8 can share one token text (\xff and \xfe do).
* C68: an error while a listing is read is ignored and adds an empty record to the result (board.go, file.go,
  passwd.go: only io.EOF ends the loop and a short buffer is decoded all the same); a draft whose stat fails reads as
  empty; the error of Truncate in board.go:267 is ignored, so a removal can report success and leave the last board
  twice; a draft is emptied before its new text is written; a failed header of a new article leaves a file nobody
  knows of.
* C69: POST /v1/token takes user name and password from the address as well (r.FormValue), where proxies log them;
  a form sent as multipart/form-data is not read at all (ParseForm before FormValue) and answered as an unknown user;
  an escaped slash in the address of a user is a separator, so /v1/users/a%2Finformation/information is answered with the
  information of a.
* C70: the serverlet reads .PASSWDS and .BRD once, before it listens (main.go:28-29), so a password changed or a user
  removed afterwards still gets tokens until the service is started again.
* C71: when writing the text of a new article fails, the article stays in the index, empty or cut off, although the command reports an error; trying again lists it a second time. When adding to the index fails halfway, the bytes stay there and every later article of the board is read shifted, though posting it was reported as done. An empty file nobody refers to remains. The code never takes back what it has written.
* C72: if the password file cannot be opened at the moment the web service starts, it prints the error, starts anyway and knows nobody for as long as it runs; one failed read puts a nameless board into /v1/boards and a nameless user into the table, whose login (empty `username`) panics; reads that keep failing make the start run (and take memory) for ever. No token is ever given wrongly because of such an error.
* C73: a POST to `/v1//token` is answered with 301; browsers and Go's client follow it with a GET, which the token route answers with status 200 and an empty body, so the login neither fails nor succeeds. What stands behind a number sign in a query is lost by a redirection.
* C74: `Utf8ToBig5` ignores the error of the encoder, so everything from the first character on that Big5 does not have is dropped in silence: an article "a😀b" is stored as "a" and reported as posted, and the same happens to titles, names and favourites. A title of 33 Chinese characters loses its last one and shows U+FFFD. `Comment()` of a comment record is in Big5 while titles are in UTF-8.
* C77: comments are looked for in the Big5 bytes. A mark that ends in a two-byte character whose second byte is a letter gives the author that letter (`C77_author_refuted`: "新pichu" is found as "spichu"). The filter for control sequences reads the bytes as UTF-8, so a character ending in C2 followed by a character starting with 9B (Hong Kong extension) is taken for the CSI character, and the rest of the sequence is dropped from the text (`C77_text_refuted`).
* C78: a board id or title is cut at a byte; when that is inside a character the board is listed with U+FFFD at the end (`C78_board_nonvacuous`).
* C79: a listing that runs between a torn addition and a later one shows the torn record filled up with zeros and then the later record whole. No listing of the file at one moment shows that: the later record does not begin at the place of a record (`C79_listed_at_one_moment_refuted`).
* C80: a folder name with a character that Big5 cannot write (U+FFFD for unknown bytes, or the second of the two characters that one pair stands for) is cut before it when the favourites are saved (`C80_kept_refuted`).
* C81: when the disk does not say whether there is a favourites file, the user is shown no favourites and no error (`C81_lost_refuted`); a failed read of the list of boards puts an empty board in, so all later numbers show the name of the board before (`C81_wrong_board_refuted`).
* C56: the article commands of bbstool panic without a readable home, with an unknown
  driver, with an empty board, without a user, or when a board has no name.

## 5. Wrong programs

`seeded/mutants.py` lists wrong programs: edits of one definition of the model, each with
the claim it breaks. `tools/mutate.py` applies each in a scratch copy, checks the proofs
again and adds a line to `seeded/LOG.jsonl`. When a wrong program left the theorems
standing though its claim was false, the theorem was tightened; the line says which.

How to read the log:

* `failed_theorems` has the theorems whose own proof failed and those that rest, by the
  references of the unchanged build, on a lemma whose proof failed (`failed_lemmas`).
  The second kind was not checked one by one. A lemma may fail because its proof script
  no longer fits, so such an entry says that the theorem was not proved for the wrong
  program, not that it is false of it.
* When a lemma fails, the files of theorems are as a rule not checked further; the list
  is then what is known, not all that would fail.
* Lines with an id that starts with `auto` are edits made by a script, one operator, number or branch
  at a time. No claim was named beforehand. Their runs stop at the first failure.
  Edits that did not type-check have no line.
* `SURVIVED` and `examples only` are edits that no theorem rejected. Either the theorem
  named in `tightened` was made stronger and a later line with the same id, as a rule
  with a `b` at the end, has the second run, or `breaks` or `note` says why nothing is
  claimed about the edit. There is no line of a second run for
  `auto-Web-getUserFavorites-1`, `auto-Web-routeToken-2` and `auto-File-NewFileHeader-2`.
  That an edit is equivalent or unreachable is a judgement from reading the code, not a
  proof.
