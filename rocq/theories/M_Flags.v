(** * pttbbs/usersettings.go, pttbbs/board.go:72-115: flags and moderators *)
From Verif Require Import M_Base M_Text M_Board M_Userec M_FileOps.
Open Scope N_scope.

(** pttbbs/const.go:101-126 *)
Definition UfFavNohilight : N := 1.
Definition UfFavAddnew : N := 2.
Definition UfAdbanner : N := 64.
Definition UfAdbannerUsong : N := 128.
Definition UfDbcsAware : N := 512.
Definition UfDbcsNointresc : N := 1024.
Definition UfDbscDropRepeat : N := 2048.
Definition UfNoModmark : N := 4096.
Definition UfColoredModmark : N := 8192.
Definition UfDefbackup : N := 65536.
Definition UfNewAngelPager : N := 131072.
Definition UfRejOuttamail : N := 262144.
Definition UfSecureLogin : N := 524288.
Definition UfMenuLightbar : N := 16777216.
Definition UfCursorASCII : N := 33554432.

(** pttbbs/usersettings.go:30-46 uFlags *)
Record uFlags := UFlags {
  uf_dbanner : bool; uf_dbannerUsong : bool; uf_rejOuttamail : bool; uf_defBackup : bool;
  uf_secureLogin : bool; uf_favAddnew : bool; uf_favNohilight : bool; uf_noModmark : bool;
  uf_coloredModmark : bool; uf_dbcsAware : bool; uf_dbcsDropRepeat : bool; uf_dbcsNointresc : bool;
  uf_cursorASCII : bool; uf_menuLightbar : bool; uf_newAngelPager : bool }.

(** [x & mask != 0] *)
Definition has_flag (x mask : N) : bool := negb (N.land x mask =? 0).
(** pttbbs/usersettings.go:93-158, one getter each *)
Definition getAdbannerByUserrec (u : Userec) : bool := has_flag (u_userflag u) UfAdbanner.
Definition getAdbannerUsongByUserrec (u : Userec) : bool := has_flag (u_userflag u) UfAdbannerUsong.
Definition getRejOuttamailByUserrec (u : Userec) : bool := has_flag (u_userflag u) UfRejOuttamail.
Definition getDefBackupByUserrec (u : Userec) : bool := has_flag (u_userflag u) UfDefbackup.
Definition getSecureLoginByUserrec (u : Userec) : bool := has_flag (u_userflag u) UfSecureLogin.
Definition getFavAddNewByUserrec (u : Userec) : bool := has_flag (u_userflag u) UfFavAddnew.
Definition getFavNoHilightByUserrec (u : Userec) : bool := has_flag (u_userflag u) UfFavNohilight.
Definition getFavNoModMarkByUserrec (u : Userec) : bool := has_flag (u_userflag u) UfNoModmark.
Definition getColoredModMarkByUserrec (u : Userec) : bool := has_flag (u_userflag u) UfColoredModmark.
Definition getDbcsAwareByUserrec (u : Userec) : bool := has_flag (u_userflag u) UfDbcsAware.
Definition getDbcsDropRepeatByUserrec (u : Userec) : bool := has_flag (u_userflag u) UfDbscDropRepeat.
Definition getDbcsNointrescByUserrec (u : Userec) : bool := has_flag (u_userflag u) UfDbcsNointresc.
Definition getCursorASCIIByUserrec (u : Userec) : bool := has_flag (u_userflag u) UfCursorASCII.
Definition getMenuLightBarByUserrec (u : Userec) : bool := has_flag (u_userflag u) UfMenuLightbar.
Definition getNewAngelPagerByUserrec (u : Userec) : bool := has_flag (u_userflag u) UfNewAngelPager.

(** pttbbs/usersettings.go:20-27 and serverlet/route_token.go:69-76
    findUserecByID over the loaded user table [recs] *)
Fixpoint findUserecByID (recs : list Userec) (uid : bytes) : outcome Userec :=
  match recs with
  | [] => Err ENotFound
  | u :: recs' => if beqb uid (u_userid u) then Ok u else findUserecByID recs' uid
  end.
(** pttbbs/usersettings.go:48-91 getUserFlagAllByID *)
Definition getUserFlagAllByID (recs : list Userec) (uid : bytes) : outcome uFlags :=
  match findUserecByID recs uid with
  | Ok u => Ok (UFlags
      (getAdbannerByUserrec u) (getAdbannerUsongByUserrec u) (getRejOuttamailByUserrec u) (getDefBackupByUserrec u)
      (getSecureLoginByUserrec u) (getFavAddNewByUserrec u) (getFavNoHilightByUserrec u) (getFavNoModMarkByUserrec u)
      (getColoredModMarkByUserrec u) (getDbcsAwareByUserrec u) (getDbcsDropRepeatByUserrec u) (getDbcsNointrescByUserrec u)
      (getCursorASCIIByUserrec u) (getMenuLightBarByUserrec u) (getNewAngelPagerByUserrec u))
  | _ => Err ENotFound
  end.

(** pttbbs/board.go:78-103 *)
Definition IsNoCount (b : BoardHeader) : bool := has_flag (bh_brdattr b) 0x2.
Definition IsGroupBoard (b : BoardHeader) : bool := has_flag (bh_brdattr b) 0x8.
Definition IsHide (b : BoardHeader) : bool := has_flag (bh_brdattr b) 0x10.
Definition IsPostMask (b : BoardHeader) : bool := has_flag (bh_brdattr b) 0x20.
Definition IsAnonymous (b : BoardHeader) : bool := has_flag (bh_brdattr b) 0x40.
Definition IsDefaultAnonymous (b : BoardHeader) : bool := has_flag (bh_brdattr b) 0x80.
Definition IsNoCredit (b : BoardHeader) : bool := has_flag (bh_brdattr b) 0x100.
Definition IsVoteBoard (b : BoardHeader) : bool := has_flag (bh_brdattr b) 0x200.
Definition IsWarnEL (b : BoardHeader) : bool := has_flag (bh_brdattr b) 0x400.
Definition IsTop (b : BoardHeader) : bool := has_flag (bh_brdattr b) 0x800.
Definition IsNoRecommend (b : BoardHeader) : bool := has_flag (bh_brdattr b) 0x1000.
Definition IsAngelAnonymous (b : BoardHeader) : bool := has_flag (bh_brdattr b) 0x2000.
Definition IsBMCount (b : BoardHeader) : bool := has_flag (bh_brdattr b) 0x4000.
Definition IsIsSymbolic (b : BoardHeader) : bool := has_flag (bh_brdattr b) 0x8000.
Definition IsNoBoo (b : BoardHeader) : bool := has_flag (bh_brdattr b) 0x10000.
Definition IsRestrictedPost (b : BoardHeader) : bool := has_flag (bh_brdattr b) 0x40000.
Definition IsGuestPost (b : BoardHeader) : bool := has_flag (bh_brdattr b) 0x80000.
Definition IsCooldown (b : BoardHeader) : bool := has_flag (bh_brdattr b) 0x100000.
Definition IsCPLog (b : BoardHeader) : bool := has_flag (bh_brdattr b) 0x200000.
Definition IsNoFastRecommend (b : BoardHeader) : bool := has_flag (bh_brdattr b) 0x400000.
Definition IsIPLogRecommend (b : BoardHeader) : bool := has_flag (bh_brdattr b) 0x800000.
Definition IsOver18 (b : BoardHeader) : bool := has_flag (bh_brdattr b) 0x1000000.
Definition IsNoReply (b : BoardHeader) : bool := has_flag (bh_brdattr b) 0x2000000.
Definition IsAlignedComment (b : BoardHeader) : bool := has_flag (bh_brdattr b) 0x4000000.
Definition IsNoSelfDeletePost (b : BoardHeader) : bool := has_flag (bh_brdattr b) 0x8000000.
Definition IsBMMaskContent (b : BoardHeader) : bool := has_flag (bh_brdattr b) 0x10000000.
(** pttbbs/board.go:75 *)
Definition IsClass (b : BoardHeader) : bool := IsGroupBoard b.
(** pttbbs/board.go:76 *)
Definition ClassID (b : BoardHeader) : bytes := fmt_d (bh_gid b).
(** pttbbs/board.go:109-114 BM *)
Definition BM (b : BoardHeader) : list bytes :=
  match bh_bm b with [] => [] | s => split_on "/" s end.
