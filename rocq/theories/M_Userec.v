(** * pttbbs/passwd.go: the user record *)
From Verif Require Import M_Base M_Cstr M_Const.
Open Scope N_scope.

(** pttbbs/passwd.go:29-87 *)
Definition PosOfPasswdVersion : N := 0.
Definition PosOfPasswdUserID : N := PosOfPasswdVersion + 4.
Definition PosOfPasswdRealName : N := PosOfPasswdUserID + IDLength + 1.
Definition PosOfPasswdNickname : N := PosOfPasswdRealName + RealNameSize.
Definition PosOfPasswdPassword : N := PosOfPasswdNickname + NicknameSize.
Definition PosOfPasswdUserFlag : N := 1 + PosOfPasswdPassword + PasswordLength.
Definition PosOfPasswdUserLevel : N := 4 + PosOfPasswdUserFlag + 4.
Definition PosOfPasswdNumLoginDays : N := PosOfPasswdUserLevel + 4.
Definition PosOfPasswdNumPosts : N := PosOfPasswdNumLoginDays + 4.
Definition PosOfPasswdFirstLogin : N := PosOfPasswdNumPosts + 4.
Definition PosOfPasswdLastLogin : N := PosOfPasswdFirstLogin + 4.
Definition PosOfPasswdLastHost : N := PosOfPasswdLastLogin + 4.
Definition PosOfPasswdMoney : N := PosOfPasswdLastHost + IPV4Length + 1.
Definition PosOfPasswdEmail : N := 4 + PosOfPasswdMoney + 4.
Definition PosOfPasswdAddress : N := PosOfPasswdEmail + EmailSize.
Definition PosOfPasswdJustify : N := PosOfPasswdAddress + AddressSize.
Definition PosOfPasswdOver18 : N := 3 + PosOfPasswdJustify + RegistrationLength + 1.
Definition PosOfPasswdPagerUIType : N := PosOfPasswdOver18 + 1.
Definition PosOfPasswdPager : N := PosOfPasswdPagerUIType + 1.
Definition PosOfPasswdInvisible : N := PosOfPasswdPager + 1.
Definition PosOfPasswdExMailBox : N := 2 + PosOfPasswdInvisible + 1.
Definition PosOfPasswdCareer : N := 4 + PosOfPasswdExMailBox + 4.
Definition PosOfPasswdRole : N := 20 + 4 + 44 + PosOfPasswdCareer + CareerSize.
Definition PosOfPasswdLastSeen : N := PosOfPasswdRole + 4.
Definition PosOfPasswdTimeSetAngel : N := PosOfPasswdLastSeen + 4.
Definition PosOfPasswdTimePlayAngel : N := PosOfPasswdTimeSetAngel + 4.
Definition PosOfPasswdLastSong : N := PosOfPasswdTimePlayAngel + 4.
Definition PosOfPasswdLoginView : N := PosOfPasswdLastSong + 4.
Definition PosOfPasswdLawCounter : N := 1 + 1 + PosOfPasswdLoginView + 4.
Definition PosOfPasswdFiveWin : N := PosOfPasswdLawCounter + 2.
Definition PosOfPasswdFiveLose : N := PosOfPasswdFiveWin + 2.
Definition PosOfPasswdFiveTie : N := PosOfPasswdFiveLose + 2.
Definition PosOfPasswdChcWin : N := PosOfPasswdFiveTie + 2.
Definition PosOfPasswdChcLose : N := PosOfPasswdChcWin + 2.
Definition PosOfPasswdChcTie : N := PosOfPasswdChcLose + 2.
Definition PosOfPasswdConn6Win : N := PosOfPasswdChcTie + 2.
Definition PosOfPasswdConn6Lose : N := PosOfPasswdConn6Win + 2.
Definition PosOfPasswdConn6Tie : N := PosOfPasswdConn6Lose + 2.
Definition PosOfPasswdGoWin : N := 2 + PosOfPasswdConn6Tie + 2.
Definition PosOfPasswdGoLose : N := PosOfPasswdGoWin + 2.
Definition PosOfPasswdGoTie : N := PosOfPasswdGoLose + 2.
Definition PosOfPasswdDarkWin : N := PosOfPasswdGoTie + 2.
Definition PosOfPasswdDarkLose : N := PosOfPasswdDarkWin + 2.
Definition PosOfPasswdUaVersion : N := PosOfPasswdDarkLose + 2.
Definition PosOfPasswdSignature : N := PosOfPasswdUaVersion + 1.
Definition PosOfPasswdBadPost : N := 1 + PosOfPasswdSignature + 1.
Definition PosOfPasswdDarkTie : N := PosOfPasswdBadPost + 1.
Definition PosOfPasswdMyAngel : N := PosOfPasswdDarkTie + 2.
Definition PosOfPasswdChessEloRating : N := 1 + PosOfPasswdMyAngel + IDLength + 1.
Definition PosOfPasswdWithMe : N := PosOfPasswdChessEloRating + 2.
Definition PosOfPasswdTimeRemoveBadPost : N := PosOfPasswdWithMe + 4.
Definition PosOfPasswdTimeViolateLaw : N := PosOfPasswdTimeRemoveBadPost + 4.

(** pttbbs/passwd.go:97-148 Userec; the [GameScore] members (lines 91-95) are
    flattened into three fields each. *)
Record Userec := MkUserec {
  u_version : N;
  u_userid : bytes;
  u_realname : bytes;
  u_nickname : bytes;
  u_password : bytes;
  u_userflag : N;
  u_userlevel : N;
  u_numlogindays : N;
  u_numposts : N;
  u_firstlogin : Z;
  u_lastlogin : Z;
  u_lasthost : bytes;
  u_money : Z;
  u_email : bytes;
  u_address : bytes;
  u_justify : bytes;
  u_over18 : bool;
  u_pageruitype : N;
  u_pager : N;
  u_invisible : bool;
  u_exmailbox : N;
  u_career : bytes;
  u_role : N;
  u_lastseen : Z;
  u_timesetangel : Z;
  u_timeplayangel : Z;
  u_lastsong : Z;
  u_loginview : N;
  u_violatelaw : N;
  u_five_win : N;
  u_five_lose : N;
  u_five_tie : N;
  u_chc_win : N;
  u_chc_lose : N;
  u_chc_tie : N;
  u_conn6_win : N;
  u_conn6_lose : N;
  u_conn6_tie : N;
  u_go_win : N;
  u_go_lose : N;
  u_go_tie : N;
  u_dark_win : N;
  u_dark_lose : N;
  u_uaversion : N;
  u_signature : N;
  u_badpost : N;
  u_dark_tie : N;
  u_myangel : bytes;
  u_chesselo : N;
  u_withme : N;
  u_timeremovebadpost : Z;
  u_timeviolatelaw : Z }.

(** pttbbs/passwd.go:233-303 UnmarshalUserec.  Slicing a shorter input panics;
    the last byte read is PosOfPasswdTimeViolateLaw+3. *)
Definition UnmarshalUserec (cd : codec) (d : bytes) : outcome Userec :=
  if lenN d <? PosOfPasswdTimeViolateLaw + 4 then Panic else
  Ok {|
    u_version := r32 PosOfPasswdVersion d;
    u_userid := newStringFormCString (sub PosOfPasswdUserID (IDLength + 1) d);
    u_realname := newStringFormBig5UAOCString cd (sub PosOfPasswdRealName RealNameSize d);
    u_nickname := newStringFormBig5UAOCString cd (sub PosOfPasswdNickname NicknameSize d);
    u_password := newStringFormCString (sub PosOfPasswdPassword PasswordLength d);
    u_userflag := r32 PosOfPasswdUserFlag d;
    u_userlevel := r32 PosOfPasswdUserLevel d;
    u_numlogindays := r32 PosOfPasswdNumLoginDays d;
    u_numposts := r32 PosOfPasswdNumPosts d;
    u_firstlogin := Z.of_N (r32 PosOfPasswdFirstLogin d);
    u_lastlogin := Z.of_N (r32 PosOfPasswdLastLogin d);
    u_lasthost := newStringFormCString (sub PosOfPasswdLastHost (IPV4Length + 1) d);
    u_money := i32 (Z.of_N (r32 PosOfPasswdMoney d));
    u_email := newStringFormBig5UAOCString cd (sub PosOfPasswdEmail EmailSize d);
    u_address := newStringFormBig5UAOCString cd (sub PosOfPasswdAddress AddressSize d);
    u_justify := newStringFormBig5UAOCString cd (sub PosOfPasswdJustify (RegistrationLength + 1) d);
    u_over18 := negb (r8 PosOfPasswdOver18 d =? 0);
    u_pageruitype := r8 PosOfPasswdPagerUIType d;
    u_pager := r8 PosOfPasswdPager d;
    u_invisible := negb (r8 PosOfPasswdInvisible d =? 0);
    u_exmailbox := r32 PosOfPasswdExMailBox d;
    u_career := newStringFormBig5UAOCString cd (sub PosOfPasswdCareer CareerSize d);
    u_role := r32 PosOfPasswdRole d;
    u_lastseen := Z.of_N (r32 PosOfPasswdLastSeen d);
    u_timesetangel := Z.of_N (r32 PosOfPasswdTimeSetAngel d);
    u_timeplayangel := Z.of_N (r32 PosOfPasswdTimePlayAngel d);
    u_lastsong := Z.of_N (r32 PosOfPasswdLastSong d);
    u_loginview := r32 PosOfPasswdLoginView d;
    u_violatelaw := r16 PosOfPasswdLawCounter d;
    u_five_win := r16 PosOfPasswdFiveWin d;
    u_five_lose := r16 PosOfPasswdFiveLose d;
    u_five_tie := r16 PosOfPasswdFiveTie d;
    u_chc_win := r16 PosOfPasswdChcWin d;
    u_chc_lose := r16 PosOfPasswdChcLose d;
    u_chc_tie := r16 PosOfPasswdChcTie d;
    u_conn6_win := r16 PosOfPasswdConn6Win d;
    u_conn6_lose := r16 PosOfPasswdConn6Lose d;
    u_conn6_tie := r16 PosOfPasswdConn6Tie d;
    u_go_win := r16 PosOfPasswdGoWin d;
    u_go_lose := r16 PosOfPasswdGoLose d;
    u_go_tie := r16 PosOfPasswdGoTie d;
    u_dark_win := r16 PosOfPasswdDarkWin d;
    u_dark_lose := r16 PosOfPasswdDarkLose d;
    u_uaversion := r8 PosOfPasswdUaVersion d;
    u_signature := r8 PosOfPasswdSignature d;
    u_badpost := r8 PosOfPasswdBadPost d;
    u_dark_tie := r16 PosOfPasswdDarkTie d;
    u_myangel := newStringFormCString (sub PosOfPasswdMyAngel (IDLength + 1 + 1) d);
    u_chesselo := r16 PosOfPasswdChessEloRating d;
    u_withme := r32 PosOfPasswdWithMe d;
    u_timeremovebadpost := Z.of_N (r32 PosOfPasswdTimeRemoveBadPost d);
    u_timeviolatelaw := Z.of_N (r32 PosOfPasswdTimeViolateLaw d) |}.

(** pttbbs/passwd.go:305-385 MarshalBinary: the writes in source order.  The
    [Role] field is not written (there is no line for it in the source). *)
Definition userec_writes (cd : codec) (u : Userec) : list wr := [
    w32 PosOfPasswdVersion (u_version u);
    wstr PosOfPasswdUserID (IDLength + 1) (utf8ToBig5UAOString cd (u_userid u));
    wstr PosOfPasswdRealName RealNameSize (utf8ToBig5UAOString cd (u_realname u));
    wstr PosOfPasswdNickname NicknameSize (utf8ToBig5UAOString cd (u_nickname u));
    wstr PosOfPasswdPassword PasswordLength (utf8ToBig5UAOString cd (u_password u));
    w32 PosOfPasswdUserFlag (u_userflag u);
    w32 PosOfPasswdUserLevel (u_userlevel u);
    w32 PosOfPasswdNumLoginDays (u_numlogindays u);
    w32 PosOfPasswdNumPosts (u_numposts u);
    w32 PosOfPasswdFirstLogin (u32 (u_firstlogin u));
    w32 PosOfPasswdLastLogin (u32 (u_lastlogin u));
    wstr PosOfPasswdLastHost (IPV4Length + 1) (utf8ToBig5UAOString cd (u_lasthost u));
    w32 PosOfPasswdMoney (u32 (u_money u));
    wstr PosOfPasswdEmail EmailSize (utf8ToBig5UAOString cd (u_email u));
    wstr PosOfPasswdAddress AddressSize (utf8ToBig5UAOString cd (u_address u));
    wstr PosOfPasswdJustify RegistrationLength (utf8ToBig5UAOString cd (u_justify u));
    w8 PosOfPasswdOver18 (if u_over18 u then 1 else 0);
    w8 PosOfPasswdPagerUIType (u_pageruitype u);
    w8 PosOfPasswdPager (u_pager u);
    w8 PosOfPasswdInvisible (if u_invisible u then 1 else 0);
    w32 PosOfPasswdExMailBox (u_exmailbox u);
    wstr PosOfPasswdCareer CareerSize (utf8ToBig5UAOString cd (u_career u));
    w32 PosOfPasswdLastSeen (u32 (u_lastseen u));
    w32 PosOfPasswdTimeSetAngel (u32 (u_timesetangel u));
    w32 PosOfPasswdTimePlayAngel (u32 (u_timeplayangel u));
    w32 PosOfPasswdLastSong (u32 (u_lastsong u));
    w32 PosOfPasswdLoginView (u_loginview u);
    w16 PosOfPasswdLawCounter (u_violatelaw u);
    w16 PosOfPasswdFiveWin (u_five_win u);
    w16 PosOfPasswdFiveLose (u_five_lose u);
    w16 PosOfPasswdFiveTie (u_five_tie u);
    w16 PosOfPasswdChcWin (u_chc_win u);
    w16 PosOfPasswdChcLose (u_chc_lose u);
    w16 PosOfPasswdChcTie (u_chc_tie u);
    w16 PosOfPasswdConn6Win (u_conn6_win u);
    w16 PosOfPasswdConn6Lose (u_conn6_lose u);
    w16 PosOfPasswdConn6Tie (u_conn6_tie u);
    w16 PosOfPasswdGoWin (u_go_win u);
    w16 PosOfPasswdGoLose (u_go_lose u);
    w16 PosOfPasswdGoTie (u_go_tie u);
    w16 PosOfPasswdDarkWin (u_dark_win u);
    w16 PosOfPasswdDarkLose (u_dark_lose u);
    w8 PosOfPasswdUaVersion (u_uaversion u);
    w8 PosOfPasswdSignature (u_signature u);
    w8 PosOfPasswdBadPost (u_badpost u);
    w16 PosOfPasswdDarkTie (u_dark_tie u);
    wstr PosOfPasswdMyAngel (IDLength + 1 + 1) (utf8ToBig5UAOString cd (u_myangel u));
    w16 PosOfPasswdChessEloRating (u_chesselo u);
    w32 PosOfPasswdWithMe (u_withme u);
    w32 PosOfPasswdTimeRemoveBadPost (u32 (u_timeremovebadpost u));
    w32 PosOfPasswdTimeViolateLaw (u32 (u_timeviolatelaw u)) ].

Definition Userec_MarshalBinary (cd : codec) (u : Userec) : bytes :=
  put_all 512 (userec_writes cd u).
