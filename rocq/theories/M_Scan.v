(** * bbs.go:519-698: searching all boards for a user's articles and comments

    The pttbbs connector implements neither UserArticleConnector nor
    UserCommentConnector, so the branches at bbs.go:523-541 and 588-606 are never
    taken and are left out; logging is left out. *)
From Verif Require Import M_Base M_Sys M_Path M_File M_Board M_FileOps M_DB M_Utf8 M_Time M_Login M_Comment.
Open Scope N_scope.

(** user_article_record.go:10-23 *)
Record UserArticle := UArticle { ua_board : bytes; ua_title : bytes; ua_owner : bytes; ua_article : bytes }.
(** bbs.go:549-554, 614-619 shouldSkip *)
Definition shouldSkip (bid : bytes) : bool := beqb bid (str "ALLPOST").
(** bbs.go:566-577 *)
Fixpoint articles_by (user bid : bytes) (ars : list FileHeader) : list UserArticle :=
  match ars with
  | [] => []
  | ar :: ars' =>
      if beqb (fh_owner ar) user
      then UArticle bid (fh_title ar) (fh_owner ar) (fh_filename ar) :: articles_by user bid ars'
      else articles_by user bid ars'
  end.
(** bbs.go:556-578 *)
Fixpoint articles_on (cd : codec) (fuel : nat) (wd user : bytes) (bs : list BoardHeader) : prog (outcome (list UserArticle)) :=
  match bs with
  | [] => Ret (Ok [])
  | b :: bs' =>
      if shouldSkip (BoardID b) then articles_on cd fuel wd user bs' else
      pbind (ReadBoardArticleRecordsFile cd fuel wd (BoardID b)) (fun ars =>
      pbind (articles_on cd fuel wd user bs') (fun r => Ret (Ok (articles_by user (BoardID b) ars ++ r))))
  end.
(** bbs.go:519-581 GetUserArticleRecordFile *)
Definition GetUserArticleRecordFile (cd : codec) (fuel : nat) (wd user : bytes) : prog (outcome (list UserArticle)) :=
  pbind (ReadBoardRecords cd fuel wd) (fun bs => articles_on cd fuel wd user bs).

(** bbs.go:668-698 GetBoardArticleCommentRecords; of the article record only the file
    name is used; the scanner's error is ignored *)
Definition GetBoardArticleCommentRecords (wd bid filename : bytes) : prog (outcome (list UserComment)) :=
  pbind (DB_ReadBoardArticleFile wd bid filename) (fun content =>
  Ret (comments (fst (scan_lines content)) 1 bid filename)).
(** bbs.go:656-661 *)
Fixpoint comments_by (user : bytes) (crs : list UserComment) : list UserComment :=
  match crs with
  | [] => []
  | c :: crs' => if beqb user (uc_owner c) then c :: comments_by user crs' else comments_by user crs'
  end.
(** bbs.go:650-662 *)
Fixpoint comments_in (wd user bid : bytes) (ars : list FileHeader) : prog (outcome (list UserComment)) :=
  match ars with
  | [] => Ret (Ok [])
  | ar :: ars' =>
      pbind (GetBoardArticleCommentRecords wd bid (fh_filename ar)) (fun crs =>
      pbind (comments_in wd user bid ars') (fun r => Ret (Ok (comments_by user crs ++ r))))
  end.
(** bbs.go:641-664 GetBoardUserCommentRecord *)
Definition GetBoardUserCommentRecord (cd : codec) (fuel : nat) (wd bid user : bytes) : prog (outcome (list UserComment)) :=
  pbind (ReadBoardArticleRecordsFile cd fuel wd bid) (fun ars => comments_in wd user bid ars).
(** bbs.go:621-632 *)
Fixpoint comments_on (cd : codec) (fuel : nat) (wd user : bytes) (bs : list BoardHeader) : prog (outcome (list UserComment)) :=
  match bs with
  | [] => Ret (Ok [])
  | b :: bs' =>
      if shouldSkip (BoardID b) then comments_on cd fuel wd user bs' else
      pbind (GetBoardUserCommentRecord cd fuel wd (BoardID b) user) (fun ucr =>
      pbind (comments_on cd fuel wd user bs') (fun r => Ret (Ok (ucr ++ r))))
  end.
(** bbs.go:585-637 GetUserCommentRecordFile *)
Definition GetUserCommentRecordFile (cd : codec) (fuel : nat) (wd user : bytes) : prog (outcome (list UserComment)) :=
  pbind (ReadBoardRecords cd fuel wd) (fun bs => comments_on cd fuel wd user bs).
