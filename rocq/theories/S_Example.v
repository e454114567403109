(** * Concrete data for the non-vacuity examples. *)
From Verif Require Import M_Base M_File M_Board M_Userec M_UserInfo.
Open Scope N_scope.

(** A codec that leaves bytes alone (ASCII texts are their own Big5 encoding). *)
Definition id_codec : codec := Codec (fun s => s) (fun s => s).

Definition sample_file : FileHeader :=
  MkFileHeader (str "M.1599059246.A.CF6") 1599059246 (-3) (str "pichu") (str " 9/02") (str "[Test] hello")
    0 0 0 0 0 0 0.

Definition sample_board : BoardHeader := {|
    bh_name := str "SYSOP"; bh_title := str "- system board"; bh_bm := str "pichu/lex";
    bh_brdattr := 4; bh_votelimitposts := 1; bh_votelimitlogins := 2; bh_chesscountry := [];
    bh_bupdate := 1600000000; bh_postlimitposts := 3; bh_postlimitlogins := 4; bh_bvote := 0;
    bh_vtime := 0; bh_level := 0xffffffff; bh_permreload := 5; bh_gid := 2;
    bh_next := [0; -1]%Z; bh_firstchild := [7; 0]%Z; bh_parent := (-2147483648)%Z; bh_childcount := 0%Z;
    bh_nuser := 12%Z; bh_postexpire := 0%Z; bh_endgamble := 0%Z; bh_posttype := str "ask"; bh_posttypef := [];
    bh_fastrecommendpause := 255; bh_votelimitbadpost := 0; bh_postlimitbadpost := 0; bh_srexpire := 4294967295 |}.

Definition sample_user : Userec := {|
    u_version := 1;
    u_userid := str "t1";
    u_realname := str "t2";
    u_nickname := str "t3";
    u_password := str "t4";
    u_userflag := 6;
    u_userlevel := 7;
    u_numlogindays := 8;
    u_numposts := 9;
    u_firstlogin := 1600000009%Z;
    u_lastlogin := 1600000010%Z;
    u_lasthost := str "t11";
    u_money := (-13)%Z;
    u_email := str "t13";
    u_address := str "t14";
    u_justify := str "t15";
    u_over18 := false;
    u_pageruitype := 18;
    u_pager := 19;
    u_invisible := true;
    u_exmailbox := 21;
    u_career := str "t21";
    u_role := 23;
    u_lastseen := 1600000023%Z;
    u_timesetangel := 1600000024%Z;
    u_timeplayangel := 1600000025%Z;
    u_lastsong := 1600000026%Z;
    u_loginview := 28;
    u_violatelaw := 29;
    u_five_win := 30;
    u_five_lose := 31;
    u_five_tie := 32;
    u_chc_win := 33;
    u_chc_lose := 34;
    u_chc_tie := 35;
    u_conn6_win := 36;
    u_conn6_lose := 37;
    u_conn6_tie := 38;
    u_go_win := 39;
    u_go_lose := 40;
    u_go_tie := 41;
    u_dark_win := 42;
    u_dark_lose := 43;
    u_uaversion := 44;
    u_signature := 45;
    u_badpost := 46;
    u_dark_tie := 47;
    u_myangel := str "t47";
    u_chesselo := 49;
    u_withme := 50;
    u_timeremovebadpost := 1600000050%Z;
    u_timeviolatelaw := 1600000051%Z |}.

Definition sample_info : UserInfoCache := {|
    ui_uid := (-1)%Z;
    ui_pid := (-2)%Z;
    ui_sockaddr := (-3)%Z;
    ui_userlevel := 4;
    ui_userid := str "t4";
    ui_nickname := str "t5";
    ui_from := str "t6";
    ui_fromip := 8;
    ui_dark_win := 9;
    ui_dark_lose := 10;
    ui_angelpause := 11;
    ui_dark_tie := 12;
    ui_friendtotal := (-13)%Z;
    ui_numfriends := (-14)%Z;
    ui_myfriend := repeat (-5)%Z 256;
    ui_friendonline := repeat 77 256;
    ui_reject := repeat (-5)%Z 32;
    ui_msgcount := 18;
    ui_msgs := repeat (repeat x41 100) 10;
    ui_birth := true;
    ui_active := false;
    ui_invisible := true;
    ui_mode := 23;
    ui_pager := true;
    ui_conn6_win := 25;
    ui_lastact := 1600000025%Z;
    ui_alerts := 27;
    ui_conn6_lose := 28;
    ui_signature := 29;
    ui_conn6_tie := 30;
    ui_destuid := (-31)%Z;
    ui_destuip := (-32)%Z;
    ui_sockactive := 33;
    ui_inchat := 34;
    ui_chatid := str "t34";
    ui_lockmode := 36;
    ui_turn := false;
    ui_mateid := str "t37";
    ui_color := 39;
    ui_five_win := 40;
    ui_five_lose := 41;
    ui_five_tie := 42;
    ui_chc_win := 43;
    ui_chc_lose := 44;
    ui_chc_tie := 45;
    ui_chesselo := 46;
    ui_go_win := 47;
    ui_go_lose := 48;
    ui_go_tie := 49;
    ui_withme := 50;
    ui_brcid := 51;
    ui_wbtime := 1600000051%Z |}.
