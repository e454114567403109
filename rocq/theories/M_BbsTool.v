(** * cmd/bbstool: the commands

    The flags --driver and --bbshome and the remaining arguments are taken as given
    (package flag is in M_Main).  What a command prints is a list of items; the text
    of an error value and of a printed map is not modelled, they are items of their own.
    Logging by package bbs goes to another stream and is left out, and so is the line
    about a last option without a value (main.go:112). *)
From Verif Require Import M_Base M_Sys M_Text M_Utf8 M_Time M_Cstr M_Path M_File M_Board M_Userec M_FileOps M_DB M_Login M_Comment M_Scan M_Tool.
Open Scope N_scope.

Inductive out :=
| Out (text : bytes)                 (* a line *)
| OutErr (what : bytes) (e : err)    (* a line ending in the text of [e] *)
| OutArgs (m : smap).                (* a line ending in the text of the map *)
Record tool_env := ToolEnv { te_driver : bytes; te_home : bytes; te_args : list bytes }.
(** a command: Panic when the program dies, otherwise what it printed *)
Definition command := prog (outcome (list out)).

Definition say (l : list out) (p : command) : command :=
  bind p (fun o => match o with Ok r => Ret (Ok (l ++ r)) | Err e => Ret (Err e) | Panic => Ret Panic | Diverge => Ret Diverge end).
(** [x, err := p; if err != nil { print; return }] *)
Definition try {A} (what : bytes) (p : prog (outcome A)) (k : A -> command) : command :=
  bind p (fun o => match o with
                   | Ok a => k a
                   | Err e => Ret (Ok [OutErr what e])
                   | Panic => Ret Panic
                   | Diverge => Ret Diverge
                   end).

(** cmd/bbstool/main.go:68-84 chkIsDir; file.Stat() is modelled by the name *)
Definition chkIsDir (dir : bytes) : prog (outcome unit) :=
  Call (Open dir O_RDONLY) (fun r =>
  match r with
  | RErr e => Ret (Err (ESys e))
  | ROk fd =>
      Call (Stat dir) (fun r =>
      Call (Close fd) (fun _ =>
      match r with
      | ROk true => Ret (Ok tt)
      | ROk false => Ret (Err EArgs)
      | RErr e => Ret (Err (ESys e))
      end))
  end).
(** bbs.Open (bbs.go:278-293) for the one driver the tool imports; the home directory *)
Definition tool_open (e : tool_env) : outcome bytes :=
  if beqb (te_driver e) (str "pttbbs") then Ok (Connector_Open (str "file://" ++ te_home e)) else Err ENotFound.
(** cmd/bbstool/main.go:86-99 openDB *)
Definition openDB (e : tool_env) : prog (outcome bytes) :=
  pbind (chkIsDir (te_home e)) (fun _ => lift (tool_open e)).

Definition args_of (e : tool_env) : smap := parseArgsToMap (te_args e).
Definition arg (e : tool_env) (k : bytes) : option bytes := map_get (args_of e) k.

(** cmd/bbstool/main.go:125-147 showboardlist *)
Definition showboardlist (cd : codec) (fuel : nat) (e : tool_env) : command :=
  try (str "showboardlist: error: ") (chkIsDir (te_home e)) (fun _ =>
  try (str "showboardlist: open db: ") (lift (tool_open e)) (fun wd =>
  try (str "showboardlist: ReadBoardRecords: ") (ReadBoardRecords cd fuel wd) (fun records =>
  Ret (Ok (map (fun r => Out (str "title: " ++ bh_title r)) records))))).

(** cmd/bbstool/main.go:149-178 addboard *)
Definition addboard (cd : codec) (e : tool_env) : command :=
  try (str "addboard: error: ") (chkIsDir (te_home e)) (fun _ =>
  try (str "addboard: open db: ") (lift (tool_open e)) (fun wd =>
  say [OutArgs (args_of e)]
  (try (str "addboard: NewBoardRecord: ") (lift (NewBoardRecord (arg e (str "board_id")) (arg e (str "title")))) (fun r =>
   try (str "addboard: AddBoardRecordFileRecord: ") (AddBoardRecord cd wd r) (fun _ => Ret (Ok [])))))).

(** cmd/bbstool/main.go:180-206 showuserlist *)
Definition showuserlist (cd : codec) (fuel : nat) (e : tool_env) : command :=
  try (str "showuserlist: error: ") (chkIsDir (te_home e)) (fun _ =>
  try (str "showuserlist: open db: ") (lift (tool_open e)) (fun wd =>
  try (str "showuserlist: ReadUserRecords: ") (ReadUserRecords cd fuel wd) (fun records =>
  Ret (Ok (flat_map (fun r => match u_userid r with [] => [] | u => [Out (str "user id: " ++ u)] end) records))))).

(** [args[k].(string)]: a panic when the key is missing *)
Definition must_arg (e : tool_env) (k : bytes) : outcome bytes :=
  match arg e k with Some v => Ok v | None => Panic end.

(** cmd/bbstool/main.go:208-236 showuserarticlelist *)
Definition showuserarticlelist (cd : codec) (fuel : nat) (e : tool_env) : command :=
  try (str "showuserarticlelist: error: ") (chkIsDir (te_home e)) (fun _ =>
  try (str "showuserarticlelist: open db: ") (lift (tool_open e)) (fun wd =>
  try [] (lift (must_arg e (str "user_id"))) (fun user =>
  try (str "showuserarticlelist: GetUserArticleRecordFile: ") (GetUserArticleRecordFile cd fuel wd user) (fun records =>
  Ret (Ok (map (fun r => Out (str "titlex: " ++ ua_title r)) records)))))).

(** user_comment_record.go:80-82 String *)
Definition comment_String (c : UserComment) : bytes :=
  str "order: " ++ fmt_d (Z.of_N (uc_order c)) ++ str ", owner: " ++ uc_owner c ++ str ", time: " ++ Format layout_comment (uc_time c).
(** cmd/bbstool/main.go:238-263 showusercommentlist *)
Definition showusercommentlist (cd : codec) (fuel : nat) (e : tool_env) : command :=
  try (str "showusercommentlist: error: ") (chkIsDir (te_home e)) (fun _ =>
  try (str "showusercommentlist: open db: ") (lift (tool_open e)) (fun wd =>
  try [] (lift (must_arg e (str "user_id"))) (fun user =>
  try (str "showusercommentlist: GetUserCommentRecordFile: ") (GetUserCommentRecordFile cd fuel wd user) (fun records =>
  Ret (Ok (map (fun r => Out (str "user comment record: " ++ comment_String r)) records)))))).

(** cmd/bbstool/articles.go:12-15, 37-40, 104-107: an error of openDB is printed, and
    the command goes on with a nil database *)
Definition with_db (e : tool_env) (k : option bytes -> command) : command :=
  bind (openDB e) (fun o =>
  match o with
  | Ok wd => k (Some wd)
  | Err er => say [OutErr (str "openDB: ") er] (k None)
  | Panic => Ret Panic
  | Diverge => Ret Diverge
  end).
(** a method of [db]: a panic when it is nil *)
Definition db_call {A} (db : option bytes) (f : bytes -> prog (outcome A)) : prog (outcome A) :=
  match db with Some wd => f wd | None => lift Panic end.
(** [v, ok := inputArgs[k].(string); if !ok { print; return }] *)
Definition need (e : tool_env) (k : bytes) (k' : bytes -> command) : command :=
  match arg e k with
  | Some v => k' v
  | None => Ret (Ok [Out (str "please provide " ++ k ++ str " argument")])
  end.

(** fmt's "% 12s": spaces on the left up to the width, counted in runes; the space flag
    has no meaning for %s *)
Definition pad_left (w : N) (s : bytes) : bytes := repeat " "%byte (N.to_nat (w - RuneCount s)) ++ s.
(** cmd/bbstool/articles.go:32 *)
Definition article_line (r : FileHeader) : bytes :=
  fh_filename r ++ str " " ++ pad_left 12 (fh_owner r) ++ str " " ++ fh_date r ++ str " " ++ fh_title r.
(** cmd/bbstool/articles.go:28-33 *)
Definition article_lines (l : list FileHeader) : list out :=
  flat_map (fun r => match fh_filename r with [] => [] | _ => [Out (article_line r)] end) l.
(** cmd/bbstool/articles.go:11-34 showBoardArticleList; an error of the listing is
    dropped and the list is then empty *)
Definition showBoardArticleList (cd : codec) (fuel : nat) (e : tool_env) : command :=
  with_db e (fun db =>
  need e (str "board") (fun b =>
  bind (db_call db (fun wd => ReadBoardArticleRecordsFile cd fuel wd b)) (fun o =>
  match o with
  | Ok l => Ret (Ok (article_lines l))
  | Err _ => Ret (Ok [])
  | Panic => Ret Panic
  | Diverge => Ret Diverge
  end))).

(** cmd/bbstool/articles.go:82-98: creating the record, adding it to the index and
    writing the text *)
Definition post (cd : codec) (fuel : nat) (db : option bytes) (b owner date title text : bytes) : command :=
  try (str "show_article_list: NewArticleRecord:  ") (db_call db (fun wd => CreateArticleRecord fuel wd b owner date title)) (fun rec =>
  try (str "AddArticleRecordFileRecord error: ") (db_call db (fun wd => AddArticleRecordFileRecord cd wd b rec)) (fun _ =>
  try (str "WriteBoardArticleFile error:  ")
    (db_call db (fun wd => DB_WriteBoardArticleFile wd b (fh_filename rec) (utf8ToBig5UAOString cd text))) (fun _ =>
  Ret (Ok [Out (str "new filename: " ++ fh_filename rec)])))).
(** cmd/bbstool/articles.go:36-101 addBoardArticle; os.ReadFile is one read of the whole
    file, and an absent content_file is the empty name *)
Definition addBoardArticle (cd : codec) (fuel : nat) (e : tool_env) : command :=
  with_db e (fun db =>
  need e (str "board") (fun b =>
  need e (str "owner") (fun owner =>
  need e (str "date") (fun date =>
  need e (str "title") (fun title =>
  match arg e (str "content"), arg e (str "content_file") with
  | Some text, _ => post cd fuel db b owner date title text
  | None, Some file =>
      try (str "readfile error: ") (read_file file) (fun text => post cd fuel db b owner date title text)
  | None, None =>
      say [Out (str "please provide content or content_file")]
      (try (str "readfile error: ") (read_file []) (fun text => post cd fuel db b owner date title text))
  end))))).

(** cmd/bbstool/articles.go:103-130 showBoardArticle *)
Definition showBoardArticle (cd : codec) (e : tool_env) : command :=
  with_db e (fun db =>
  need e (str "board") (fun b =>
  need e (str "filename") (fun f =>
  try (str "ReadrBoardArticleFile error: %w ") (db_call db (fun wd => DB_ReadBoardArticleFile wd b f)) (fun data =>
  Ret (Ok [Out (str "filecontent: "); Out (big5uaoToUTF8String cd data)]))))).

(** cmd/bbstool/main.go:21-65 main, after flag.Parse; the three lines printed first are
    left out.  flag.Arg(0) is empty without arguments. *)
Definition tool (cd : codec) (fuel : nat) (e : tool_env) : command :=
  let c := nth 0 (te_args e) [] in
  if beqb c (str "show_board_list") then showboardlist cd fuel e
  else if beqb c (str "add_board") then addboard cd e
  else if beqb c (str "show_user_list") then showuserlist cd fuel e
  else if beqb c (str "show_user_article_list") then showuserarticlelist cd fuel e
  else if beqb c (str "show_user_comment_list") then showusercommentlist cd fuel e
  else if beqb c (str "show_board_article_list") then showBoardArticleList cd fuel e
  else if beqb c (str "add_board_article") then addBoardArticle cd fuel e
  else if beqb c (str "show_board_article") then showBoardArticle cd e
  else Ret (Ok [Out (str "unknown subcommand: " ++ c)]).
