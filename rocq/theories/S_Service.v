(** * Specification of the web service from its files to its texts *)
From Verif Require Import M_Base M_Sys M_Userec M_Board S_World S_Path S_Text S_Layout S_File S_Userec S_Board S_Store S_Json S_Jwt.
Open Scope N_scope.

(** The directory it serves, seen from the directory it is started in. *)
Definition service_home : bytes := str "../home/bbs".

(** The text that tells about a user. *)
Definition tells_user (u : Userec) (body : bytes) : Prop :=
  shows body (is_object [("data", is_object [
    ("chess_status", is_object []);
    ("last_login_ip", is_text (u_lasthost u));
    ("last_login_ipv4", is_text (u_lasthost u));
    ("last_login_time", is_time (u_lastlogin u));
    ("money", is_digits (u_money u));
    ("nickname", is_text (u_nickname u));
    ("number_of_login_days", is_digits (Z.of_N (u_numlogindays u)));
    ("number_of_posts", is_digits (Z.of_N (u_numposts u)));
    ("plan", is_object []);
    ("realname", is_text (u_realname u));
    ("user_id", is_text (u_userid u))])]%string).
(** The text that carries a token for a user. *)
Definition brings_token (user : bytes) (body : bytes) : Prop :=
  exists token header payload signature,
    shows body (is_object [("access_token", is_text token); ("token_type", is_text (str "bearer"))]%string) /\
    compact token header payload signature /\
    exists name, reads_as user name /\
      json_text payload (JObj ((text "exp", JNum 1800) :: match user with [] => [] | _ => [(text "sub", JStr name)] end)).
Definition tells_error (name description : bytes) (body : bytes) : Prop :=
  shows body (is_object [("error", is_text name); ("error_description", is_text description)]%string).

(** The users and boards of a home directory: one for each slot of the two files; a file
    that is missing has none. *)
Definition users_of (cd : codec) (w : world) (wd : bytes) (us : list Userec) : Prop :=
  exists rp od ss, holds_file w wd Passwds rp od /\ slots 512 (old_or_empty od) ss /\ Forall2 (userec_decoded cd) ss us.
Definition boards_of (cd : codec) (w : world) (wd : bytes) (bs : list BoardHeader) : Prop :=
  exists rp od ss, holds_file w wd Boards rp od /\ slots 256 (old_or_empty od) ss /\ Forall2 (board_decoded cd) ss bs.
