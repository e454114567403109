(** * The writes of the online-user entry with each array merged into one
    write and with the three overwritten counters left out. *)
From Verif Require Import M_Base M_Cstr M_Const M_UserInfo P_UserInfo.
Open Scope N_scope.

Definition userinfo_merged (cd : codec) (u : UserInfoCache) : list wr := [
  w32 PosOfUserInfoUID (u32 (ui_uid u));
  w32 PosOfUserInfoPID (u32 (ui_pid u));
  w32 PosOfUserInfoSockAddr (u32 (ui_sockaddr u));
  w32 PosOfUserInfoUserLevel (ui_userlevel u);
  wstr PosOfUserInfoUserID (IDLength + 1) (utf8ToBig5UAOString cd (ui_userid u));
  wstr PosOfUserInfoNickname NicknameSize (utf8ToBig5UAOString cd (ui_nickname u));
  wstr PosOfUserInfoFrom MachineNameLength (utf8ToBig5UAOString cd (ui_from u));
  w32 PosOfUserInfoFromIP (ui_fromip u);
  w16 PosOfUserInfoDarkWin (ui_dark_win u);
  w16 PosOfUserInfoDarkLose (ui_dark_lose u);
  w8 PosOfUserInfoAngelPause (ui_angelpause u);
  w16 PosOfUserInfoDarkTie (ui_dark_tie u);
  w32 PosOfUserInfoFriendTotal (u32 (ui_friendtotal u));
  w16 PosOfUserInfoNumFriends (u16 (ui_numfriends u));
  W PosOfUserInfoMyFriend (4 * MaxFriend) (cells32 (map u32 (ui_myfriend u)));
  W PosOfUserInfoFriendOnline (4 * MaxFriend) (cells32 (ui_friendonline u));
  W PosOfUserInfoReject (4 * MaxReject) (cells32 (map u32 (ui_reject u)));
  w8 PosOfUserInfoMsgCount (ui_msgcount u);
  W PosOfUserInfoMsgs (100 * MaxMsgs) (concat (ui_msgs u));
  w8 PosOfUserInfoBirth (if ui_birth u then 1 else 0);
  w8 PosOfUserInfoActive (if ui_active u then 1 else 0);
  w8 PosOfUserInfoInvisible (if ui_invisible u then 1 else 0);
  w8 PosOfUserInfoMode (ui_mode u);
  w8 PosOfUserInfoPager (if ui_pager u then 1 else 0);
  w16 PosOfUserInfoConn6Win (ui_conn6_win u);
  w32 PosOfUserInfoLastAct (u32 (ui_lastact u));
  w8 PosOfUserInfoAlerts (ui_alerts u);
  w16 PosOfUserInfoConn6Lose (ui_conn6_lose u);
  w8 PosOfUserInfoSig (ui_signature u);
  w16 PosOfUserInfoConn6Tie (ui_conn6_tie u);
  w32 PosOfUserInfoDestUID (u32 (ui_destuid u));
  w32 PosOfUserInfoDestUIP (u32 (ui_destuip u));
  w8 PosOfUserInfoSockActive (ui_sockactive u);
  w8 PosOfUserInfoInChat (ui_inchat u);
  wstr PosOfUserInfoChatID ChatIDLength (utf8ToBig5UAOString cd (ui_chatid u));
  w8 PosOfUserInfoLockMode (ui_lockmode u);
  w8 PosOfUserInfoTurn (if ui_turn u then 1 else 0);
  wstr PosOfUserInfoMateID (IDLength + 1) (utf8ToBig5UAOString cd (ui_mateid u));
  w8 PosOfUserInfoColor (ui_color u);
  w16 PosOfUserInfoFiveWin (ui_five_win u);
  w16 PosOfUserInfoFiveLose (ui_five_lose u);
  w16 PosOfUserInfoFiveTie (ui_five_tie u);
  w16 PosOfUserInfoChcWin (ui_chc_win u);
  w16 PosOfUserInfoChcLose (ui_chc_lose u);
  w16 PosOfUserInfoChcTie (ui_chc_tie u);
  w16 PosOfUserInfoChessEloRating (ui_chesselo u);
  w16 PosOfUserInfoGoWin (ui_go_win u);
  w16 PosOfUserInfoGoLose (ui_go_lose u);
  w16 PosOfUserInfoGoTie (ui_go_tie u);
  w32 PosOfUserInfoWithMe (ui_withme u);
  w32 PosOfUserInfoBrcID (ui_brcid u);
  w32 PosOfUserInfoWBTime (u32 (ui_wbtime u)) ].

Definition userinfo_live (cd : codec) (u : UserInfoCache) : list wr := [
  w32 PosOfUserInfoUID (u32 (ui_uid u));
  w32 PosOfUserInfoPID (u32 (ui_pid u));
  w32 PosOfUserInfoSockAddr (u32 (ui_sockaddr u));
  w32 PosOfUserInfoUserLevel (ui_userlevel u);
  wstr PosOfUserInfoUserID (IDLength + 1) (utf8ToBig5UAOString cd (ui_userid u));
  wstr PosOfUserInfoNickname NicknameSize (utf8ToBig5UAOString cd (ui_nickname u));
  wstr PosOfUserInfoFrom MachineNameLength (utf8ToBig5UAOString cd (ui_from u));
  w32 PosOfUserInfoFromIP (ui_fromip u);
  w16 PosOfUserInfoDarkWin (ui_dark_win u);
  w16 PosOfUserInfoDarkLose (ui_dark_lose u);
  w8 PosOfUserInfoAngelPause (ui_angelpause u);
  w16 PosOfUserInfoDarkTie (ui_dark_tie u);
  w32 PosOfUserInfoFriendTotal (u32 (ui_friendtotal u));
  w16 PosOfUserInfoNumFriends (u16 (ui_numfriends u));
  W PosOfUserInfoMyFriend (4 * MaxFriend) (cells32 (map u32 (ui_myfriend u)));
  W PosOfUserInfoFriendOnline (4 * MaxFriend) (cells32 (ui_friendonline u));
  W PosOfUserInfoReject (4 * MaxReject) (cells32 (map u32 (ui_reject u)));
  w8 PosOfUserInfoMsgCount (ui_msgcount u);
  W PosOfUserInfoMsgs (100 * MaxMsgs) (concat (ui_msgs u));
  w8 PosOfUserInfoBirth (if ui_birth u then 1 else 0);
  w8 PosOfUserInfoActive (if ui_active u then 1 else 0);
  w8 PosOfUserInfoInvisible (if ui_invisible u then 1 else 0);
  w8 PosOfUserInfoMode (ui_mode u);
  w8 PosOfUserInfoPager (if ui_pager u then 1 else 0);
  w16 PosOfUserInfoConn6Win (ui_conn6_win u);
  w32 PosOfUserInfoLastAct (u32 (ui_lastact u));
  w8 PosOfUserInfoAlerts (ui_alerts u);
  w16 PosOfUserInfoConn6Lose (ui_conn6_lose u);
  w8 PosOfUserInfoSig (ui_signature u);
  w16 PosOfUserInfoConn6Tie (ui_conn6_tie u);
  w32 PosOfUserInfoDestUID (u32 (ui_destuid u));
  w32 PosOfUserInfoDestUIP (u32 (ui_destuip u));
  w8 PosOfUserInfoSockActive (ui_sockactive u);
  w8 PosOfUserInfoInChat (ui_inchat u);
  wstr PosOfUserInfoChatID ChatIDLength (utf8ToBig5UAOString cd (ui_chatid u));
  w8 PosOfUserInfoLockMode (ui_lockmode u);
  w8 PosOfUserInfoTurn (if ui_turn u then 1 else 0);
  wstr PosOfUserInfoMateID (IDLength + 1) (utf8ToBig5UAOString cd (ui_mateid u));
  w8 PosOfUserInfoColor (ui_color u);
  w16 PosOfUserInfoFiveWin (ui_five_win u);
  w16 PosOfUserInfoFiveLose (ui_five_lose u);
  w16 PosOfUserInfoChcTie (ui_chc_tie u);
  w16 PosOfUserInfoChessEloRating (ui_chesselo u);
  w16 PosOfUserInfoGoWin (ui_go_win u);
  w16 PosOfUserInfoGoLose (ui_go_lose u);
  w16 PosOfUserInfoGoTie (ui_go_tie u);
  w32 PosOfUserInfoWithMe (ui_withme u);
  w32 PosOfUserInfoBrcID (ui_brcid u);
  w32 PosOfUserInfoWBTime (u32 (ui_wbtime u)) ].
