(** * Specification of the online-user entry: byte ranges by literal offset. *)
From Verif Require Import M_Base M_UserInfo S_Layout.
Open Scope N_scope.

(** [u] is what the code reads from the structure [d].  Note that three pairs
    of counters share their bytes (3453, 3455, 3457). *)
Definition userinfo_decoded (cd : codec) (d : bytes) (u : UserInfoCache) : Prop :=
  f_int d 0 4 (ui_uid u) /\
  f_int d 4 4 (ui_pid u) /\
  f_int d 8 4 (ui_sockaddr u) /\
  f_num d 12 4 (ui_userlevel u) /\
  f_cstr d 16 13 (ui_userid u) /\
  f_cstr_big5 cd d 29 24 (ui_nickname u) /\
  f_cstr d 53 27 (ui_from u) /\
  f_num d 80 4 (ui_fromip u) /\
  f_num d 84 2 (ui_dark_win u) /\
  f_num d 86 2 (ui_dark_lose u) /\
  f_num d 89 1 (ui_angelpause u) /\
  f_num d 90 2 (ui_dark_tie u) /\
  f_int d 92 4 (ui_friendtotal u) /\
  f_int d 96 2 (ui_numfriends u) /\
  f_ints d 100 4 256 (ui_myfriend u) /\
  f_nums d 1128 4 256 (ui_friendonline u) /\
  f_ints d 2156 4 32 (ui_reject u) /\
  f_num d 2288 1 (ui_msgcount u) /\
  f_raws d 2292 100 10 (ui_msgs u) /\
  f_flag d 3392 (ui_birth u) /\
  f_flag d 3393 (ui_active u) /\
  f_flag d 3394 (ui_invisible u) /\
  f_num d 3395 1 (ui_mode u) /\
  f_flag d 3396 (ui_pager u) /\
  f_num d 3398 2 (ui_conn6_win u) /\
  f_time d 3400 (ui_lastact u) /\
  f_num d 3404 1 (ui_alerts u) /\
  f_num d 3406 2 (ui_conn6_lose u) /\
  f_num d 3409 1 (ui_signature u) /\
  f_num d 3410 2 (ui_conn6_tie u) /\
  f_int d 3412 4 (ui_destuid u) /\
  f_int d 3416 4 (ui_destuip u) /\
  f_num d 3420 1 (ui_sockactive u) /\
  f_num d 3421 1 (ui_inchat u) /\
  f_cstr d 3422 11 (ui_chatid u) /\
  f_num d 3433 1 (ui_lockmode u) /\
  f_flag d 3434 (ui_turn u) /\
  f_cstr_big5 cd d 3435 13 (ui_mateid u) /\
  f_num d 3448 1 (ui_color u) /\
  f_num d 3449 2 (ui_five_win u) /\
  f_num d 3451 2 (ui_five_lose u) /\
  f_num d 3453 2 (ui_five_tie u) /\
  f_num d 3455 2 (ui_chc_win u) /\
  f_num d 3457 2 (ui_chc_lose u) /\
  f_num d 3453 2 (ui_chc_tie u) /\
  f_num d 3455 2 (ui_chesselo u) /\
  f_num d 3457 2 (ui_go_win u) /\
  f_num d 3459 2 (ui_go_lose u) /\
  f_num d 3461 2 (ui_go_tie u) /\
  f_num d 3463 4 (ui_withme u) /\
  f_num d 3467 4 (ui_brcid u) /\
  f_time d 3471 (ui_wbtime u).

(** Every field is representable. *)
Definition userinfo_fits (cd : codec) (u : UserInfoCache) : Prop :=
  int_fits 4 (ui_uid u) /\
  int_fits 4 (ui_pid u) /\
  int_fits 4 (ui_sockaddr u) /\
  num_fits 4 (ui_userlevel u) /\
  plain_cstr_fits cd 13 (ui_userid u) /\
  big5_cstr_fits cd 24 (ui_nickname u) /\
  plain_cstr_fits cd 27 (ui_from u) /\
  num_fits 4 (ui_fromip u) /\
  num_fits 2 (ui_dark_win u) /\
  num_fits 2 (ui_dark_lose u) /\
  num_fits 1 (ui_angelpause u) /\
  num_fits 2 (ui_dark_tie u) /\
  int_fits 4 (ui_friendtotal u) /\
  int_fits 2 (ui_numfriends u) /\
  (N.of_nat (length (ui_myfriend u)) = 256 /\ Forall (int_fits 4) (ui_myfriend u)) /\
  (N.of_nat (length (ui_friendonline u)) = 256 /\ Forall (num_fits 4) (ui_friendonline u)) /\
  (N.of_nat (length (ui_reject u)) = 32 /\ Forall (int_fits 4) (ui_reject u)) /\
  num_fits 1 (ui_msgcount u) /\
  (N.of_nat (length (ui_msgs u)) = 10 /\ Forall (fun m => N.of_nat (length m) = 100) (ui_msgs u)) /\
  num_fits 1 (ui_mode u) /\
  num_fits 2 (ui_conn6_win u) /\
  time_fits (ui_lastact u) /\
  num_fits 1 (ui_alerts u) /\
  num_fits 2 (ui_conn6_lose u) /\
  num_fits 1 (ui_signature u) /\
  num_fits 2 (ui_conn6_tie u) /\
  int_fits 4 (ui_destuid u) /\
  int_fits 4 (ui_destuip u) /\
  num_fits 1 (ui_sockactive u) /\
  num_fits 1 (ui_inchat u) /\
  plain_cstr_fits cd 11 (ui_chatid u) /\
  num_fits 1 (ui_lockmode u) /\
  big5_cstr_fits cd 13 (ui_mateid u) /\
  num_fits 1 (ui_color u) /\
  num_fits 2 (ui_five_win u) /\
  num_fits 2 (ui_five_lose u) /\
  num_fits 2 (ui_five_tie u) /\
  num_fits 2 (ui_chc_win u) /\
  num_fits 2 (ui_chc_lose u) /\
  num_fits 2 (ui_chc_tie u) /\
  num_fits 2 (ui_chesselo u) /\
  num_fits 2 (ui_go_win u) /\
  num_fits 2 (ui_go_lose u) /\
  num_fits 2 (ui_go_tie u) /\
  num_fits 4 (ui_withme u) /\
  num_fits 4 (ui_brcid u) /\
  time_fits (ui_wbtime u).

(** What is left of an entry after encoding and decoding: the gomoku ties become
    the Chinese-chess ties, the Chinese-chess wins become the chess rating and
    the Chinese-chess losses become the go wins. *)
Definition userinfo_image (u : UserInfoCache) : UserInfoCache := {|
    ui_uid := ui_uid u;
    ui_pid := ui_pid u;
    ui_sockaddr := ui_sockaddr u;
    ui_userlevel := ui_userlevel u;
    ui_userid := ui_userid u;
    ui_nickname := ui_nickname u;
    ui_from := ui_from u;
    ui_fromip := ui_fromip u;
    ui_dark_win := ui_dark_win u;
    ui_dark_lose := ui_dark_lose u;
    ui_angelpause := ui_angelpause u;
    ui_dark_tie := ui_dark_tie u;
    ui_friendtotal := ui_friendtotal u;
    ui_numfriends := ui_numfriends u;
    ui_myfriend := ui_myfriend u;
    ui_friendonline := ui_friendonline u;
    ui_reject := ui_reject u;
    ui_msgcount := ui_msgcount u;
    ui_msgs := ui_msgs u;
    ui_birth := ui_birth u;
    ui_active := ui_active u;
    ui_invisible := ui_invisible u;
    ui_mode := ui_mode u;
    ui_pager := ui_pager u;
    ui_conn6_win := ui_conn6_win u;
    ui_lastact := ui_lastact u;
    ui_alerts := ui_alerts u;
    ui_conn6_lose := ui_conn6_lose u;
    ui_signature := ui_signature u;
    ui_conn6_tie := ui_conn6_tie u;
    ui_destuid := ui_destuid u;
    ui_destuip := ui_destuip u;
    ui_sockactive := ui_sockactive u;
    ui_inchat := ui_inchat u;
    ui_chatid := ui_chatid u;
    ui_lockmode := ui_lockmode u;
    ui_turn := ui_turn u;
    ui_mateid := ui_mateid u;
    ui_color := ui_color u;
    ui_five_win := ui_five_win u;
    ui_five_lose := ui_five_lose u;
    ui_five_tie := ui_chc_tie u;
    ui_chc_win := ui_chesselo u;
    ui_chc_lose := ui_go_win u;
    ui_chc_tie := ui_chc_tie u;
    ui_chesselo := ui_chesselo u;
    ui_go_win := ui_go_win u;
    ui_go_lose := ui_go_lose u;
    ui_go_tie := ui_go_tie u;
    ui_withme := ui_withme u;
    ui_brcid := ui_brcid u;
    ui_wbtime := ui_wbtime u |}.
