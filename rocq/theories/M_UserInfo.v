(** * pttbbs/userinfo.go: the online-user cache entry *)
From Verif Require Import M_Base M_Cstr M_Const.
Open Scope N_scope.

(** pttbbs/userinfo.go:11-76 *)
Definition PosOfUserInfoUID : N := 0.
Definition PosOfUserInfoPID : N := PosOfUserInfoUID + 4.
Definition PosOfUserInfoSockAddr : N := PosOfUserInfoPID + 4.
Definition PosOfUserInfoUserLevel : N := PosOfUserInfoSockAddr + 4.
Definition PosOfUserInfoUserID : N := PosOfUserInfoUserLevel + 4.
Definition PosOfUserInfoNickname : N := PosOfUserInfoUserID + IDLength + 1.
Definition PosOfUserInfoFrom : N := PosOfUserInfoNickname + NicknameSize.
Definition PosOfUserInfoFromIP : N := PosOfUserInfoFrom + MachineNameLength.
Definition PosOfUserInfoDarkWin : N := PosOfUserInfoFromIP + 4.
Definition PosOfUserInfoDarkLose : N := PosOfUserInfoDarkWin + 2.
Definition PosOfUserInfoAngelPause : N := PosOfUserInfoDarkLose + 2 + 1.
Definition PosOfUserInfoDarkTie : N := PosOfUserInfoAngelPause + 1.
Definition PosOfUserInfoFriendTotal : N := PosOfUserInfoDarkTie + 2.
Definition PosOfUserInfoNumFriends : N := PosOfUserInfoFriendTotal + 4.
Definition PosOfUserInfoMyFriend : N := PosOfUserInfoNumFriends + 2 + 2.
Definition PosOfUserInfoFriendOnline : N := PosOfUserInfoMyFriend + MaxFriend * 4 + 4.
Definition PosOfUserInfoReject : N := PosOfUserInfoFriendOnline + MaxFriend * 4 + 4.
Definition PosOfUserInfoMsgCount : N := PosOfUserInfoReject + MaxReject * 4 + 4.
Definition PosOfUserInfoMsgs : N := PosOfUserInfoMsgCount + 1 + 3.
Definition PosOfUserInfoBirth : N := PosOfUserInfoMsgs + MaxMsgs * 100 + 100.
Definition PosOfUserInfoActive : N := PosOfUserInfoBirth + 1.
Definition PosOfUserInfoInvisible : N := PosOfUserInfoActive + 1.
Definition PosOfUserInfoMode : N := PosOfUserInfoInvisible + 1.
Definition PosOfUserInfoPager : N := PosOfUserInfoMode + 1.
Definition PosOfUserInfoConn6Win : N := PosOfUserInfoPager + 1 + 1.
Definition PosOfUserInfoLastAct : N := PosOfUserInfoConn6Win + 2.
Definition PosOfUserInfoAlerts : N := PosOfUserInfoLastAct + 4.
Definition PosOfUserInfoConn6Lose : N := PosOfUserInfoAlerts + 1 + 1.
Definition PosOfUserInfoSig : N := PosOfUserInfoConn6Lose + 2 + 1.
Definition PosOfUserInfoConn6Tie : N := PosOfUserInfoSig + 1.
Definition PosOfUserInfoDestUID : N := PosOfUserInfoConn6Tie + 2.
Definition PosOfUserInfoDestUIP : N := PosOfUserInfoDestUID + 4.
Definition PosOfUserInfoSockActive : N := PosOfUserInfoDestUIP + 4.
Definition PosOfUserInfoInChat : N := PosOfUserInfoSockActive + 1.
Definition PosOfUserInfoChatID : N := PosOfUserInfoInChat + 1.
Definition PosOfUserInfoLockMode : N := PosOfUserInfoChatID + ChatIDLength.
Definition PosOfUserInfoTurn : N := PosOfUserInfoLockMode + 1.
Definition PosOfUserInfoMateID : N := PosOfUserInfoTurn + 1.
Definition PosOfUserInfoColor : N := PosOfUserInfoMateID + IDLength + 1.
Definition PosOfUserInfoFiveWin : N := PosOfUserInfoColor + 1.
Definition PosOfUserInfoFiveLose : N := PosOfUserInfoFiveWin + 2.
Definition PosOfUserInfoFiveTie : N := PosOfUserInfoFiveLose + 2.
Definition PosOfUserInfoChcWin : N := PosOfUserInfoFiveTie + 2.
Definition PosOfUserInfoChcLose : N := PosOfUserInfoChcWin + 2.
Definition PosOfUserInfoChcTie : N := PosOfUserInfoFiveLose + 2.
Definition PosOfUserInfoChessEloRating : N := PosOfUserInfoChcTie + 2.
Definition PosOfUserInfoGoWin : N := PosOfUserInfoChessEloRating + 2.
Definition PosOfUserInfoGoLose : N := PosOfUserInfoGoWin + 2.
Definition PosOfUserInfoGoTie : N := PosOfUserInfoGoLose + 2.
Definition PosOfUserInfoWithMe : N := PosOfUserInfoGoTie + 2.
Definition PosOfUserInfoBrcID : N := PosOfUserInfoWithMe + 4.
Definition PosOfUserInfoWBTime : N := PosOfUserInfoBrcID + 4.

(** pttbbs/userinfo.go:79-137 UserInfoCache; [GameScore] members flattened.
    The Go arrays [MyFriend], [FriendOnline], [Reject], [Msgs] are lists of the
    array's length. *)
Record UserInfoCache := MkUserInfo {
  ui_uid : Z;
  ui_pid : Z;
  ui_sockaddr : Z;
  ui_userlevel : N;
  ui_userid : bytes;
  ui_nickname : bytes;
  ui_from : bytes;
  ui_fromip : N;
  ui_dark_win : N;
  ui_dark_lose : N;
  ui_angelpause : N;
  ui_dark_tie : N;
  ui_friendtotal : Z;
  ui_numfriends : Z;
  ui_myfriend : list Z;
  ui_friendonline : list N;
  ui_reject : list Z;
  ui_msgcount : N;
  ui_msgs : list bytes;
  ui_birth : bool;
  ui_active : bool;
  ui_invisible : bool;
  ui_mode : N;
  ui_pager : bool;
  ui_conn6_win : N;
  ui_lastact : Z;
  ui_alerts : N;
  ui_conn6_lose : N;
  ui_signature : N;
  ui_conn6_tie : N;
  ui_destuid : Z;
  ui_destuip : Z;
  ui_sockactive : N;
  ui_inchat : N;
  ui_chatid : bytes;
  ui_lockmode : N;
  ui_turn : bool;
  ui_mateid : bytes;
  ui_color : N;
  ui_five_win : N;
  ui_five_lose : N;
  ui_five_tie : N;
  ui_chc_win : N;
  ui_chc_lose : N;
  ui_chc_tie : N;
  ui_chesselo : N;
  ui_go_win : N;
  ui_go_lose : N;
  ui_go_tie : N;
  ui_withme : N;
  ui_brcid : N;
  ui_wbtime : Z }.

(** The loops of pttbbs/userinfo.go:188-198 and 202-205: [cnt] cells of 4
    (resp. 100) bytes from [off] on. *)
Fixpoint r_arr32 (off : N) (cnt : nat) (d : bytes) : list N :=
  match cnt with O => [] | S c => r32 off d :: r_arr32 (off + 4) c d end.
Fixpoint r_arr100 (off : N) (cnt : nat) (d : bytes) : list bytes :=
  match cnt with O => [] | S c => sub off 100 d :: r_arr100 (off + 100) c d end.
(** The loops of pttbbs/userinfo.go:279-289 and 293-296. *)
Fixpoint w_arr32 (off : N) (l : list N) : list wr :=
  match l with [] => [] | x :: l' => w32 off x :: w_arr32 (off + 4) l' end.
Fixpoint w_arr100 (off : N) (l : list bytes) : list wr :=
  match l with [] => [] | x :: l' => wstr off 100 x :: w_arr100 (off + 100) l' end.

(** pttbbs/userinfo.go:168-253 UnmarshalUserInfo, for a slice whose capacity is
    its length: a shorter input panics. *)
Definition UnmarshalUserInfo (cd : codec) (d : bytes) : outcome UserInfoCache :=
  if lenN d <? PosOfUserInfoWBTime + 4 then Panic else
  Ok {|
    ui_uid := i32 (Z.of_N (r32 PosOfUserInfoUID d));
    ui_pid := i32 (Z.of_N (r32 PosOfUserInfoPID d));
    ui_sockaddr := i32 (Z.of_N (r32 PosOfUserInfoSockAddr d));
    ui_userlevel := r32 PosOfUserInfoUserLevel d;
    ui_userid := newStringFormCString (sub PosOfUserInfoUserID (IDLength + 1) d);
    ui_nickname := newStringFormBig5UAOCString cd (sub PosOfUserInfoNickname NicknameSize d);
    ui_from := newStringFormCString (sub PosOfUserInfoFrom MachineNameLength d);
    ui_fromip := r32 PosOfUserInfoFromIP d;
    ui_dark_win := r16 PosOfUserInfoDarkWin d;
    ui_dark_lose := r16 PosOfUserInfoDarkLose d;
    ui_angelpause := r8 PosOfUserInfoAngelPause d;
    ui_dark_tie := r16 PosOfUserInfoDarkTie d;
    ui_friendtotal := i32 (Z.of_N (r32 PosOfUserInfoFriendTotal d));
    ui_numfriends := i16 (Z.of_N (r16 PosOfUserInfoNumFriends d));
    ui_myfriend := map (fun n => i32 (Z.of_N n)) (r_arr32 PosOfUserInfoMyFriend (N.to_nat MaxFriend) d);
    ui_friendonline := r_arr32 PosOfUserInfoFriendOnline (N.to_nat MaxFriend) d;
    ui_reject := map (fun n => i32 (Z.of_N n)) (r_arr32 PosOfUserInfoReject (N.to_nat MaxReject) d);
    ui_msgcount := r8 PosOfUserInfoMsgCount d;
    ui_msgs := r_arr100 PosOfUserInfoMsgs (N.to_nat MaxMsgs) d;
    ui_birth := negb (r8 PosOfUserInfoBirth d =? 0);
    ui_active := negb (r8 PosOfUserInfoActive d =? 0);
    ui_invisible := negb (r8 PosOfUserInfoInvisible d =? 0);
    ui_mode := r8 PosOfUserInfoMode d;
    ui_pager := negb (r8 PosOfUserInfoPager d =? 0);
    ui_conn6_win := r16 PosOfUserInfoConn6Win d;
    ui_lastact := Z.of_N (r32 PosOfUserInfoLastAct d);
    ui_alerts := r8 PosOfUserInfoAlerts d;
    ui_conn6_lose := r16 PosOfUserInfoConn6Lose d;
    ui_signature := r8 PosOfUserInfoSig d;
    ui_conn6_tie := r16 PosOfUserInfoConn6Tie d;
    ui_destuid := i32 (Z.of_N (r32 PosOfUserInfoDestUID d));
    ui_destuip := i32 (Z.of_N (r32 PosOfUserInfoDestUIP d));
    ui_sockactive := r8 PosOfUserInfoSockActive d;
    ui_inchat := r8 PosOfUserInfoInChat d;
    ui_chatid := newStringFormCString (sub PosOfUserInfoChatID ChatIDLength d);
    ui_lockmode := r8 PosOfUserInfoLockMode d;
    ui_turn := negb (r8 PosOfUserInfoTurn d =? 0);
    ui_mateid := newStringFormBig5UAOCString cd (sub PosOfUserInfoMateID (IDLength + 1) d);
    ui_color := r8 PosOfUserInfoColor d;
    ui_five_win := r16 PosOfUserInfoFiveWin d;
    ui_five_lose := r16 PosOfUserInfoFiveLose d;
    ui_five_tie := r16 PosOfUserInfoFiveTie d;
    ui_chc_win := r16 PosOfUserInfoChcWin d;
    ui_chc_lose := r16 PosOfUserInfoChcLose d;
    ui_chc_tie := r16 PosOfUserInfoChcTie d;
    ui_chesselo := r16 PosOfUserInfoChessEloRating d;
    ui_go_win := r16 PosOfUserInfoGoWin d;
    ui_go_lose := r16 PosOfUserInfoGoLose d;
    ui_go_tie := r16 PosOfUserInfoGoTie d;
    ui_withme := r32 PosOfUserInfoWithMe d;
    ui_brcid := r32 PosOfUserInfoBrcID d;
    ui_wbtime := Z.of_N (r32 PosOfUserInfoWBTime d) |}.

(** pttbbs/userinfo.go:255-370 MarshalBinary: the writes in source order. *)
Definition userinfo_writes (cd : codec) (u : UserInfoCache) : list wr :=
  [w32 PosOfUserInfoUID (u32 (ui_uid u))] ++
  [w32 PosOfUserInfoPID (u32 (ui_pid u))] ++
  [w32 PosOfUserInfoSockAddr (u32 (ui_sockaddr u))] ++
  [w32 PosOfUserInfoUserLevel (ui_userlevel u)] ++
  [wstr PosOfUserInfoUserID (IDLength + 1) (utf8ToBig5UAOString cd (ui_userid u))] ++
  [wstr PosOfUserInfoNickname NicknameSize (utf8ToBig5UAOString cd (ui_nickname u))] ++
  [wstr PosOfUserInfoFrom MachineNameLength (utf8ToBig5UAOString cd (ui_from u))] ++
  [w32 PosOfUserInfoFromIP (ui_fromip u)] ++
  [w16 PosOfUserInfoDarkWin (ui_dark_win u)] ++
  [w16 PosOfUserInfoDarkLose (ui_dark_lose u)] ++
  [w8 PosOfUserInfoAngelPause (ui_angelpause u)] ++
  [w16 PosOfUserInfoDarkTie (ui_dark_tie u)] ++
  [w32 PosOfUserInfoFriendTotal (u32 (ui_friendtotal u))] ++
  [w16 PosOfUserInfoNumFriends (u16 (ui_numfriends u))] ++
  w_arr32 PosOfUserInfoMyFriend (map u32 (ui_myfriend u)) ++
  w_arr32 PosOfUserInfoFriendOnline (ui_friendonline u) ++
  w_arr32 PosOfUserInfoReject (map u32 (ui_reject u)) ++
  [w8 PosOfUserInfoMsgCount (ui_msgcount u)] ++
  w_arr100 PosOfUserInfoMsgs (ui_msgs u) ++
  [w8 PosOfUserInfoBirth (if ui_birth u then 1 else 0)] ++
  [w8 PosOfUserInfoActive (if ui_active u then 1 else 0)] ++
  [w8 PosOfUserInfoInvisible (if ui_invisible u then 1 else 0)] ++
  [w8 PosOfUserInfoMode (ui_mode u)] ++
  [w8 PosOfUserInfoPager (if ui_pager u then 1 else 0)] ++
  [w16 PosOfUserInfoConn6Win (ui_conn6_win u)] ++
  [w32 PosOfUserInfoLastAct (u32 (ui_lastact u))] ++
  [w8 PosOfUserInfoAlerts (ui_alerts u)] ++
  [w16 PosOfUserInfoConn6Lose (ui_conn6_lose u)] ++
  [w8 PosOfUserInfoSig (ui_signature u)] ++
  [w16 PosOfUserInfoConn6Tie (ui_conn6_tie u)] ++
  [w32 PosOfUserInfoDestUID (u32 (ui_destuid u))] ++
  [w32 PosOfUserInfoDestUIP (u32 (ui_destuip u))] ++
  [w8 PosOfUserInfoSockActive (ui_sockactive u)] ++
  [w8 PosOfUserInfoInChat (ui_inchat u)] ++
  [wstr PosOfUserInfoChatID ChatIDLength (utf8ToBig5UAOString cd (ui_chatid u))] ++
  [w8 PosOfUserInfoLockMode (ui_lockmode u)] ++
  [w8 PosOfUserInfoTurn (if ui_turn u then 1 else 0)] ++
  [wstr PosOfUserInfoMateID (IDLength + 1) (utf8ToBig5UAOString cd (ui_mateid u))] ++
  [w8 PosOfUserInfoColor (ui_color u)] ++
  [w16 PosOfUserInfoFiveWin (ui_five_win u)] ++
  [w16 PosOfUserInfoFiveLose (ui_five_lose u)] ++
  [w16 PosOfUserInfoFiveTie (ui_five_tie u)] ++
  [w16 PosOfUserInfoChcWin (ui_chc_win u)] ++
  [w16 PosOfUserInfoChcLose (ui_chc_lose u)] ++
  [w16 PosOfUserInfoChcTie (ui_chc_tie u)] ++
  [w16 PosOfUserInfoChessEloRating (ui_chesselo u)] ++
  [w16 PosOfUserInfoGoWin (ui_go_win u)] ++
  [w16 PosOfUserInfoGoLose (ui_go_lose u)] ++
  [w16 PosOfUserInfoGoTie (ui_go_tie u)] ++
  [w32 PosOfUserInfoWithMe (ui_withme u)] ++
  [w32 PosOfUserInfoBrcID (ui_brcid u)] ++
  [w32 PosOfUserInfoWBTime (u32 (ui_wbtime u))].

Definition UserInfo_MarshalBinary (cd : codec) (u : UserInfoCache) : bytes :=
  put_all 3484 (userinfo_writes cd u).
