(** * bbs.go: the DB methods, composed from the connector of package pttbbs.
    [wd] is the home directory stored in the connector. *)
From Verif Require Import M_Base M_Sys M_Path M_File M_Board M_Userec M_FileOps.
Open Scope N_scope.

(** strings.Contains *)
Fixpoint contains (p s : bytes) : bool :=
  has_prefix p s || match s with [] => false | _ :: s' => contains p s' end.

Definition noent_text : bytes := str "no such file or directory".
(** [strings.Contains(err.Error(), "no such file or directory")]: the text of a
    *PathError is "open " ++ path ++ ": " ++ text of the errno. *)
Definition says_no_such_file (path : bytes) (e : err) : bool :=
  match e with
  | ESys ENOENT => true
  | ESys _ => contains noent_text path
  | _ => false
  end.

(** bbs.go:296-311 ReadUserRecords with pttbbs/pttbbs.go:35-46 *)
Definition ReadUserRecords (cd : codec) (fuel : nat) (wd : bytes) : prog (outcome (list Userec)) :=
  pbind (lift (GetPasswdsPath wd)) (fun path => OpenUserecFile cd fuel path).

(** bbs.go:333-348 ReadBoardRecords with pttbbs/pttbbs.go:100-111 *)
Definition ReadBoardRecords (cd : codec) (fuel : nat) (wd : bytes) : prog (outcome (list BoardHeader)) :=
  pbind (lift (GetBoardPath wd)) (fun path => OpenBoardHeaderFile cd fuel path).

(** bbs.go:350-369 ReadBoardArticleRecordsFile with pttbbs/pttbbs.go:113-129 *)
Definition ReadBoardArticleRecordsFile (cd : codec) (fuel : nat) (wd bid : bytes) : prog (outcome (list FileHeader)) :=
  pbind (lift (GetBoardArticlesDirectoryPath wd bid)) (fun path =>
  bind (OpenFileHeaderFile cd fuel path) (fun o =>
  match o with
  | Err e => if says_no_such_file path e then Ret (Ok []) else Ret (Err e)
  | _ => Ret o
  end)).

(** bbs.go:371-386 ReadBoardTreasureRecordsFile *)
Definition ReadBoardTreasureRecordsFile (cd : codec) (fuel : nat) (wd bid : bytes) (tid : list bytes)
    : prog (outcome (list FileHeader)) :=
  pbind (lift (GetBoardTreasuresDirectoryPath wd bid tid)) (fun path => OpenFileHeaderFile cd fuel path).

(** bbs.go:388-403 DB.ReadBoardArticleFile *)
Definition DB_ReadBoardArticleFile (wd bid filename : bytes) : prog (outcome bytes) :=
  pbind (lift (GetBoardArticleFilePath wd bid filename)) (fun path => ReadBoardArticleFile path).
(** bbs.go:405-420 ReadBoardTreasureFile *)
Definition ReadBoardTreasureFile (wd bid : bytes) (tid : list bytes) (filename : bytes) : prog (outcome bytes) :=
  pbind (lift (GetBoardTreasureFilePath wd bid tid filename)) (fun path => ReadBoardArticleFile path).

(** bbs.go:422-424 NewBoardRecord, pttbbs/pttbbs_write_board_connector.go:9-26 *)
Definition NewBoardRecord (bid title : option bytes) : outcome BoardHeader :=
  match bid, title with
  | Some b, Some t => Ok (BoardHeader_SetTitle (BoardHeader_SetBoardID NewBoardHeader b) t)
  | _, _ => Err EArgs
  end.
(** bbs.go:426-441 AddBoardRecord *)
Definition AddBoardRecord (cd : codec) (wd : bytes) (b : BoardHeader) : prog (outcome unit) :=
  pbind (lift (GetBoardPath wd)) (fun path => AppendBoardHeaderFileRecord cd path b).

(** bbs.go:461-467 CreateArticleRecord *)
Definition CreateArticleRecord (fuel : nat) (wd bid owner date title : bytes) : prog (outcome FileHeader) :=
  pbind (CreateBoardArticleFilename fuel wd bid) (fun filename =>
  Ret (Ok (NewArticleRecord filename owner date title))).

(** bbs.go:470-480 AddArticleRecordFileRecord *)
Definition AddArticleRecordFileRecord (cd : codec) (wd bid : bytes) (f : FileHeader) : prog (outcome unit) :=
  pbind (lift (GetBoardArticlesDirectoryPath wd bid)) (fun path => AppendFileHeaderFileRecord cd path f).

(** Updating a record of a board: there is no DB method; callers combine
    Connector.GetBoardArticleRecordsPath (pttbbs/pttbbs.go:113) with
    Connector.UpdateArticleRecordFileRecord (pttbbs/pttbss_append_new_line.go:26-32). *)
Definition UpdateArticleRecord (cd : codec) (wd bid : bytes) (index : N) (f : FileHeader) : prog (outcome unit) :=
  pbind (lift (GetBoardArticlesDirectoryPath wd bid)) (fun path => UpdateFileHeaderFileRecord cd path index f).

(** bbs.go:483-503 DB.WriteBoardArticleFile *)
Definition DB_WriteBoardArticleFile (wd bid filename content : bytes) : prog (outcome unit) :=
  pbind (lift (GetBoardArticleFilePath wd bid filename)) (fun path => WriteBoardArticleFile path content).
(** bbs.go:505-516 DB.AppendBoardArticleFile *)
Definition DB_AppendBoardArticleFile (wd bid filename content : bytes) : prog (outcome unit) :=
  pbind (lift (GetBoardArticleFilePath wd bid filename)) (fun path => AppendBoardArticleFile path content).

(** bbs.go:700-715 GetUserDrafts (user_draft.go: a draft is its raw bytes) *)
Definition GetUserDrafts (wd uid draft : bytes) : prog (outcome bytes) :=
  pbind (lift (GetUserDraftPath wd uid draft)) (fun path => ReadUserDraft path).
(** bbs.go:717-727 DB.DeleteUserDraft *)
Definition DB_DeleteUserDraft (wd uid draft : bytes) : prog (outcome unit) :=
  pbind (lift (GetUserDraftPath wd uid draft)) (fun path => DeleteUserDraft path).
(** bbs.go:729-738 DB.WriteUserDraft *)
Definition DB_WriteUserDraft (wd uid draft data : bytes) : prog (outcome unit) :=
  pbind (lift (GetUserDraftPath wd uid draft)) (fun path => WriteUserDraft path data).
