(** * Records are equal when their fields are. *)
From Verif Require Import M_Base M_File M_Board M_Userec M_UserInfo.

Lemma FileHeader_ext (a b : FileHeader) :
  fh_filename a = fh_filename b ->
  fh_modified a = fh_modified b ->
  fh_recommend a = fh_recommend b ->
  fh_owner a = fh_owner b ->
  fh_date a = fh_date b ->
  fh_title a = fh_title b ->
  fh_money a = fh_money b ->
  fh_annouid a = fh_annouid b ->
  fh_vposts a = fh_vposts b ->
  fh_vlogins a = fh_vlogins b ->
  fh_vregtime a = fh_vregtime b ->
  fh_vbadpost a = fh_vbadpost b ->
  fh_filemode a = fh_filemode b ->
  a = b.
Proof. destruct a, b; cbn; intros; subst; reflexivity. Qed.
Ltac FileHeader_proj := cbn [fh_filename fh_modified fh_recommend fh_owner fh_date fh_title fh_money fh_annouid fh_vposts fh_vlogins fh_vregtime fh_vbadpost fh_filemode].

Lemma BoardHeader_ext (a b : BoardHeader) :
  bh_name a = bh_name b ->
  bh_title a = bh_title b ->
  bh_bm a = bh_bm b ->
  bh_brdattr a = bh_brdattr b ->
  bh_votelimitposts a = bh_votelimitposts b ->
  bh_votelimitlogins a = bh_votelimitlogins b ->
  bh_chesscountry a = bh_chesscountry b ->
  bh_bupdate a = bh_bupdate b ->
  bh_postlimitposts a = bh_postlimitposts b ->
  bh_postlimitlogins a = bh_postlimitlogins b ->
  bh_bvote a = bh_bvote b ->
  bh_vtime a = bh_vtime b ->
  bh_level a = bh_level b ->
  bh_permreload a = bh_permreload b ->
  bh_gid a = bh_gid b ->
  bh_next a = bh_next b ->
  bh_firstchild a = bh_firstchild b ->
  bh_parent a = bh_parent b ->
  bh_childcount a = bh_childcount b ->
  bh_nuser a = bh_nuser b ->
  bh_postexpire a = bh_postexpire b ->
  bh_endgamble a = bh_endgamble b ->
  bh_posttype a = bh_posttype b ->
  bh_posttypef a = bh_posttypef b ->
  bh_fastrecommendpause a = bh_fastrecommendpause b ->
  bh_votelimitbadpost a = bh_votelimitbadpost b ->
  bh_postlimitbadpost a = bh_postlimitbadpost b ->
  bh_srexpire a = bh_srexpire b ->
  a = b.
Proof. destruct a, b; cbn; intros; subst; reflexivity. Qed.
Ltac BoardHeader_proj := cbn [bh_name bh_title bh_bm bh_brdattr bh_votelimitposts bh_votelimitlogins bh_chesscountry bh_bupdate bh_postlimitposts bh_postlimitlogins bh_bvote bh_vtime bh_level bh_permreload bh_gid bh_next bh_firstchild bh_parent bh_childcount bh_nuser bh_postexpire bh_endgamble bh_posttype bh_posttypef bh_fastrecommendpause bh_votelimitbadpost bh_postlimitbadpost bh_srexpire].

Lemma Userec_ext (a b : Userec) :
  u_version a = u_version b ->
  u_userid a = u_userid b ->
  u_realname a = u_realname b ->
  u_nickname a = u_nickname b ->
  u_password a = u_password b ->
  u_userflag a = u_userflag b ->
  u_userlevel a = u_userlevel b ->
  u_numlogindays a = u_numlogindays b ->
  u_numposts a = u_numposts b ->
  u_firstlogin a = u_firstlogin b ->
  u_lastlogin a = u_lastlogin b ->
  u_lasthost a = u_lasthost b ->
  u_money a = u_money b ->
  u_email a = u_email b ->
  u_address a = u_address b ->
  u_justify a = u_justify b ->
  u_over18 a = u_over18 b ->
  u_pageruitype a = u_pageruitype b ->
  u_pager a = u_pager b ->
  u_invisible a = u_invisible b ->
  u_exmailbox a = u_exmailbox b ->
  u_career a = u_career b ->
  u_role a = u_role b ->
  u_lastseen a = u_lastseen b ->
  u_timesetangel a = u_timesetangel b ->
  u_timeplayangel a = u_timeplayangel b ->
  u_lastsong a = u_lastsong b ->
  u_loginview a = u_loginview b ->
  u_violatelaw a = u_violatelaw b ->
  u_five_win a = u_five_win b ->
  u_five_lose a = u_five_lose b ->
  u_five_tie a = u_five_tie b ->
  u_chc_win a = u_chc_win b ->
  u_chc_lose a = u_chc_lose b ->
  u_chc_tie a = u_chc_tie b ->
  u_conn6_win a = u_conn6_win b ->
  u_conn6_lose a = u_conn6_lose b ->
  u_conn6_tie a = u_conn6_tie b ->
  u_go_win a = u_go_win b ->
  u_go_lose a = u_go_lose b ->
  u_go_tie a = u_go_tie b ->
  u_dark_win a = u_dark_win b ->
  u_dark_lose a = u_dark_lose b ->
  u_uaversion a = u_uaversion b ->
  u_signature a = u_signature b ->
  u_badpost a = u_badpost b ->
  u_dark_tie a = u_dark_tie b ->
  u_myangel a = u_myangel b ->
  u_chesselo a = u_chesselo b ->
  u_withme a = u_withme b ->
  u_timeremovebadpost a = u_timeremovebadpost b ->
  u_timeviolatelaw a = u_timeviolatelaw b ->
  a = b.
Proof. destruct a, b; cbn; intros; subst; reflexivity. Qed.
Ltac Userec_proj := cbn [u_version u_userid u_realname u_nickname u_password u_userflag u_userlevel u_numlogindays u_numposts u_firstlogin u_lastlogin u_lasthost u_money u_email u_address u_justify u_over18 u_pageruitype u_pager u_invisible u_exmailbox u_career u_role u_lastseen u_timesetangel u_timeplayangel u_lastsong u_loginview u_violatelaw u_five_win u_five_lose u_five_tie u_chc_win u_chc_lose u_chc_tie u_conn6_win u_conn6_lose u_conn6_tie u_go_win u_go_lose u_go_tie u_dark_win u_dark_lose u_uaversion u_signature u_badpost u_dark_tie u_myangel u_chesselo u_withme u_timeremovebadpost u_timeviolatelaw].

Lemma UserInfoCache_ext (a b : UserInfoCache) :
  ui_uid a = ui_uid b ->
  ui_pid a = ui_pid b ->
  ui_sockaddr a = ui_sockaddr b ->
  ui_userlevel a = ui_userlevel b ->
  ui_userid a = ui_userid b ->
  ui_nickname a = ui_nickname b ->
  ui_from a = ui_from b ->
  ui_fromip a = ui_fromip b ->
  ui_dark_win a = ui_dark_win b ->
  ui_dark_lose a = ui_dark_lose b ->
  ui_angelpause a = ui_angelpause b ->
  ui_dark_tie a = ui_dark_tie b ->
  ui_friendtotal a = ui_friendtotal b ->
  ui_numfriends a = ui_numfriends b ->
  ui_myfriend a = ui_myfriend b ->
  ui_friendonline a = ui_friendonline b ->
  ui_reject a = ui_reject b ->
  ui_msgcount a = ui_msgcount b ->
  ui_msgs a = ui_msgs b ->
  ui_birth a = ui_birth b ->
  ui_active a = ui_active b ->
  ui_invisible a = ui_invisible b ->
  ui_mode a = ui_mode b ->
  ui_pager a = ui_pager b ->
  ui_conn6_win a = ui_conn6_win b ->
  ui_lastact a = ui_lastact b ->
  ui_alerts a = ui_alerts b ->
  ui_conn6_lose a = ui_conn6_lose b ->
  ui_signature a = ui_signature b ->
  ui_conn6_tie a = ui_conn6_tie b ->
  ui_destuid a = ui_destuid b ->
  ui_destuip a = ui_destuip b ->
  ui_sockactive a = ui_sockactive b ->
  ui_inchat a = ui_inchat b ->
  ui_chatid a = ui_chatid b ->
  ui_lockmode a = ui_lockmode b ->
  ui_turn a = ui_turn b ->
  ui_mateid a = ui_mateid b ->
  ui_color a = ui_color b ->
  ui_five_win a = ui_five_win b ->
  ui_five_lose a = ui_five_lose b ->
  ui_five_tie a = ui_five_tie b ->
  ui_chc_win a = ui_chc_win b ->
  ui_chc_lose a = ui_chc_lose b ->
  ui_chc_tie a = ui_chc_tie b ->
  ui_chesselo a = ui_chesselo b ->
  ui_go_win a = ui_go_win b ->
  ui_go_lose a = ui_go_lose b ->
  ui_go_tie a = ui_go_tie b ->
  ui_withme a = ui_withme b ->
  ui_brcid a = ui_brcid b ->
  ui_wbtime a = ui_wbtime b ->
  a = b.
Proof. destruct a, b; cbn; intros; subst; reflexivity. Qed.
Ltac UserInfoCache_proj := cbn [ui_uid ui_pid ui_sockaddr ui_userlevel ui_userid ui_nickname ui_from ui_fromip ui_dark_win ui_dark_lose ui_angelpause ui_dark_tie ui_friendtotal ui_numfriends ui_myfriend ui_friendonline ui_reject ui_msgcount ui_msgs ui_birth ui_active ui_invisible ui_mode ui_pager ui_conn6_win ui_lastact ui_alerts ui_conn6_lose ui_signature ui_conn6_tie ui_destuid ui_destuip ui_sockactive ui_inchat ui_chatid ui_lockmode ui_turn ui_mateid ui_color ui_five_win ui_five_lose ui_five_tie ui_chc_win ui_chc_lose ui_chc_tie ui_chesselo ui_go_win ui_go_lose ui_go_tie ui_withme ui_brcid ui_wbtime].

