(** * Specification of the user record: the C userec_t (pttstruct.h), 512
    bytes, every field at its literal offset. *)
From Verif Require Import M_Base M_Userec S_Layout.
Open Scope N_scope.

(** [u] is what a reader of the C structure [d] sees. *)
Definition userec_decoded (cd : codec) (d : bytes) (u : Userec) : Prop :=
  f_num d 0 4 (u_version u) /\
  f_cstr d 4 13 (u_userid u) /\
  f_cstr_big5 cd d 17 20 (u_realname u) /\
  f_cstr_big5 cd d 37 24 (u_nickname u) /\
  f_cstr d 61 14 (u_password u) /\
  f_num d 76 4 (u_userflag u) /\
  f_num d 84 4 (u_userlevel u) /\
  f_num d 88 4 (u_numlogindays u) /\
  f_num d 92 4 (u_numposts u) /\
  f_time d 96 (u_firstlogin u) /\
  f_time d 100 (u_lastlogin u) /\
  f_cstr d 104 16 (u_lasthost u) /\
  f_int d 120 4 (u_money u) /\
  f_cstr_big5 cd d 128 50 (u_email u) /\
  f_cstr_big5 cd d 178 50 (u_address u) /\
  f_cstr_big5 cd d 228 39 (u_justify u) /\
  f_flag d 270 (u_over18 u) /\
  f_num d 271 1 (u_pageruitype u) /\
  f_num d 272 1 (u_pager u) /\
  f_flag d 273 (u_invisible u) /\
  f_num d 276 4 (u_exmailbox u) /\
  f_cstr_big5 cd d 284 40 (u_career u) /\
  f_num d 392 4 (u_role u) /\
  f_time d 396 (u_lastseen u) /\
  f_time d 400 (u_timesetangel u) /\
  f_time d 404 (u_timeplayangel u) /\
  f_time d 408 (u_lastsong u) /\
  f_num d 412 4 (u_loginview u) /\
  f_num d 418 2 (u_violatelaw u) /\
  f_num d 420 2 (u_five_win u) /\
  f_num d 422 2 (u_five_lose u) /\
  f_num d 424 2 (u_five_tie u) /\
  f_num d 426 2 (u_chc_win u) /\
  f_num d 428 2 (u_chc_lose u) /\
  f_num d 430 2 (u_chc_tie u) /\
  f_num d 432 2 (u_conn6_win u) /\
  f_num d 434 2 (u_conn6_lose u) /\
  f_num d 436 2 (u_conn6_tie u) /\
  f_num d 440 2 (u_go_win u) /\
  f_num d 442 2 (u_go_lose u) /\
  f_num d 444 2 (u_go_tie u) /\
  f_num d 446 2 (u_dark_win u) /\
  f_num d 448 2 (u_dark_lose u) /\
  f_num d 450 1 (u_uaversion u) /\
  f_num d 451 1 (u_signature u) /\
  f_num d 453 1 (u_badpost u) /\
  f_num d 454 2 (u_dark_tie u) /\
  f_cstr d 456 14 (u_myangel u) /\
  f_num d 470 2 (u_chesselo u) /\
  f_num d 472 4 (u_withme u) /\
  f_time d 476 (u_timeremovebadpost u) /\
  f_time d 480 (u_timeviolatelaw u).

(** [d] is the C structure holding [u]; the role slot is left zero and the
    registration note is cut to 38 bytes. *)
Definition userec_encoded (cd : codec) (u : Userec) (d : bytes) : Prop :=
  N.of_nat (length d) = 512 /\
  e_num d 0 4 (u_version u) /\
  e_text d 4 13 (enc cd (u_userid u)) /\
  e_text d 17 20 (enc cd (u_realname u)) /\
  e_text d 37 24 (enc cd (u_nickname u)) /\
  e_text d 61 14 (enc cd (u_password u)) /\
  e_num d 76 4 (u_userflag u) /\
  e_num d 84 4 (u_userlevel u) /\
  e_num d 88 4 (u_numlogindays u) /\
  e_num d 92 4 (u_numposts u) /\
  e_int d 96 4 (u_firstlogin u) /\
  e_int d 100 4 (u_lastlogin u) /\
  e_text d 104 16 (enc cd (u_lasthost u)) /\
  e_int d 120 4 (u_money u) /\
  e_text d 128 50 (enc cd (u_email u)) /\
  e_text d 178 50 (enc cd (u_address u)) /\
  e_text d 228 38 (enc cd (u_justify u)) /\
  e_flag d 270 (u_over18 u) /\
  e_num d 271 1 (u_pageruitype u) /\
  e_num d 272 1 (u_pager u) /\
  e_flag d 273 (u_invisible u) /\
  e_num d 276 4 (u_exmailbox u) /\
  e_text d 284 40 (enc cd (u_career u)) /\
  e_zero d 392 4 /\
  e_int d 396 4 (u_lastseen u) /\
  e_int d 400 4 (u_timesetangel u) /\
  e_int d 404 4 (u_timeplayangel u) /\
  e_int d 408 4 (u_lastsong u) /\
  e_num d 412 4 (u_loginview u) /\
  e_num d 418 2 (u_violatelaw u) /\
  e_num d 420 2 (u_five_win u) /\
  e_num d 422 2 (u_five_lose u) /\
  e_num d 424 2 (u_five_tie u) /\
  e_num d 426 2 (u_chc_win u) /\
  e_num d 428 2 (u_chc_lose u) /\
  e_num d 430 2 (u_chc_tie u) /\
  e_num d 432 2 (u_conn6_win u) /\
  e_num d 434 2 (u_conn6_lose u) /\
  e_num d 436 2 (u_conn6_tie u) /\
  e_num d 440 2 (u_go_win u) /\
  e_num d 442 2 (u_go_lose u) /\
  e_num d 444 2 (u_go_tie u) /\
  e_num d 446 2 (u_dark_win u) /\
  e_num d 448 2 (u_dark_lose u) /\
  e_num d 450 1 (u_uaversion u) /\
  e_num d 451 1 (u_signature u) /\
  e_num d 453 1 (u_badpost u) /\
  e_num d 454 2 (u_dark_tie u) /\
  e_text d 456 14 (enc cd (u_myangel u)) /\
  e_num d 470 2 (u_chesselo u) /\
  e_num d 472 4 (u_withme u) /\
  e_int d 476 4 (u_timeremovebadpost u) /\
  e_int d 480 4 (u_timeviolatelaw u).

(** Every field is representable. *)
Definition userec_fits (cd : codec) (u : Userec) : Prop :=
  num_fits 4 (u_version u) /\
  plain_cstr_fits cd 13 (u_userid u) /\
  big5_cstr_fits cd 20 (u_realname u) /\
  big5_cstr_fits cd 24 (u_nickname u) /\
  plain_cstr_fits cd 14 (u_password u) /\
  num_fits 4 (u_userflag u) /\
  num_fits 4 (u_userlevel u) /\
  num_fits 4 (u_numlogindays u) /\
  num_fits 4 (u_numposts u) /\
  time_fits (u_firstlogin u) /\
  time_fits (u_lastlogin u) /\
  plain_cstr_fits cd 16 (u_lasthost u) /\
  int_fits 4 (u_money u) /\
  big5_cstr_fits cd 50 (u_email u) /\
  big5_cstr_fits cd 50 (u_address u) /\
  big5_cstr_fits cd 38 (u_justify u) /\
  num_fits 1 (u_pageruitype u) /\
  num_fits 1 (u_pager u) /\
  num_fits 4 (u_exmailbox u) /\
  big5_cstr_fits cd 40 (u_career u) /\
  num_fits 4 (u_role u) /\
  time_fits (u_lastseen u) /\
  time_fits (u_timesetangel u) /\
  time_fits (u_timeplayangel u) /\
  time_fits (u_lastsong u) /\
  num_fits 4 (u_loginview u) /\
  num_fits 2 (u_violatelaw u) /\
  num_fits 2 (u_five_win u) /\
  num_fits 2 (u_five_lose u) /\
  num_fits 2 (u_five_tie u) /\
  num_fits 2 (u_chc_win u) /\
  num_fits 2 (u_chc_lose u) /\
  num_fits 2 (u_chc_tie u) /\
  num_fits 2 (u_conn6_win u) /\
  num_fits 2 (u_conn6_lose u) /\
  num_fits 2 (u_conn6_tie u) /\
  num_fits 2 (u_go_win u) /\
  num_fits 2 (u_go_lose u) /\
  num_fits 2 (u_go_tie u) /\
  num_fits 2 (u_dark_win u) /\
  num_fits 2 (u_dark_lose u) /\
  num_fits 1 (u_uaversion u) /\
  num_fits 1 (u_signature u) /\
  num_fits 1 (u_badpost u) /\
  num_fits 2 (u_dark_tie u) /\
  plain_cstr_fits cd 14 (u_myangel u) /\
  num_fits 2 (u_chesselo u) /\
  num_fits 4 (u_withme u) /\
  time_fits (u_timeremovebadpost u) /\
  time_fits (u_timeviolatelaw u).

(** The record with its role erased. *)
Definition without_role (u : Userec) : Userec := {|
    u_version := u_version u;
    u_userid := u_userid u;
    u_realname := u_realname u;
    u_nickname := u_nickname u;
    u_password := u_password u;
    u_userflag := u_userflag u;
    u_userlevel := u_userlevel u;
    u_numlogindays := u_numlogindays u;
    u_numposts := u_numposts u;
    u_firstlogin := u_firstlogin u;
    u_lastlogin := u_lastlogin u;
    u_lasthost := u_lasthost u;
    u_money := u_money u;
    u_email := u_email u;
    u_address := u_address u;
    u_justify := u_justify u;
    u_over18 := u_over18 u;
    u_pageruitype := u_pageruitype u;
    u_pager := u_pager u;
    u_invisible := u_invisible u;
    u_exmailbox := u_exmailbox u;
    u_career := u_career u;
    u_role := 0;
    u_lastseen := u_lastseen u;
    u_timesetangel := u_timesetangel u;
    u_timeplayangel := u_timeplayangel u;
    u_lastsong := u_lastsong u;
    u_loginview := u_loginview u;
    u_violatelaw := u_violatelaw u;
    u_five_win := u_five_win u;
    u_five_lose := u_five_lose u;
    u_five_tie := u_five_tie u;
    u_chc_win := u_chc_win u;
    u_chc_lose := u_chc_lose u;
    u_chc_tie := u_chc_tie u;
    u_conn6_win := u_conn6_win u;
    u_conn6_lose := u_conn6_lose u;
    u_conn6_tie := u_conn6_tie u;
    u_go_win := u_go_win u;
    u_go_lose := u_go_lose u;
    u_go_tie := u_go_tie u;
    u_dark_win := u_dark_win u;
    u_dark_lose := u_dark_lose u;
    u_uaversion := u_uaversion u;
    u_signature := u_signature u;
    u_badpost := u_badpost u;
    u_dark_tie := u_dark_tie u;
    u_myangel := u_myangel u;
    u_chesselo := u_chesselo u;
    u_withme := u_withme u;
    u_timeremovebadpost := u_timeremovebadpost u;
    u_timeviolatelaw := u_timeviolatelaw u |}.
