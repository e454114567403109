(** * Specification of the commands of bbstool *)
From Verif Require Import M_Base M_Sys M_File M_Board M_Userec M_Time M_Comment M_Scan M_BbsTool.
From Verif Require Import S_World S_Path S_File S_Board S_Userec S_Store S_Scan S_Tool.
Open Scope N_scope.

(** The command line is [cmd] followed by these options and words. *)
Definition typed (e : tool_env) (cmd : string) (l : list arg) : Prop :=
  te_args e = str cmd :: concat (map words_of l) /\ Forall plain l.
Definition option_is (l : list arg) (k : string) (v : bytes) : Prop := last_value l (str k) = Some v.
Definition option_missing (l : list arg) (k : string) : Prop := last_value l (str k) = None.
(** The driver is the one the tool knows, and the home is a directory whose name has no
    question mark. *)
Definition home_ok (w : world) (e : tool_env) : Prop :=
  te_driver e = str "pttbbs" /\ ~ In "?"%byte (te_home e) /\
  exists rp, names w (te_home e) rp /\ look w rp = Some EDir.

(** The command ends, prints [l] and changes no file. *)
Definition prints (cd : codec) (e : tool_env) (w : world) (l : list out) : Prop :=
  exists n, forall fuel, (n <= fuel)%nat -> exists w',
    run (tool cd fuel e) w = (w', Ok l) /\ sane w' /\ same_files w w'.
Definition dies (cd : codec) (e : tool_env) (w : world) : Prop :=
  exists n, forall fuel, (n <= fuel)%nat -> snd (run (tool cd fuel e) w) = Panic.

(** The users in the order of the password file. *)
Definition users_are (cd : codec) (w : world) (wd : bytes) (us : list Userec) : Prop :=
  exists d ss, content_of w wd Passwds (Some d) /\ slots 512 d ss /\ Forall2 (userec_decoded cd) ss us.
Definition blanks (k : nat) : bytes := repeat " "%byte k.
Definition ascii_text (s : bytes) : Prop := Forall (fun b => Byte.to_N b < 128) s.
(** name, author (right-justified to 12), date and title *)
Definition article_shown (a : FileHeader) (o : out) : Prop :=
  exists k, o = Out (fh_filename a ++ str " " ++ blanks k ++ fh_owner a ++ str " " ++ fh_date a ++ str " " ++ fh_title a) /\
    (ascii_text (fh_owner a) -> k = (12 - length (fh_owner a))%nat).

(** The board that add_board adds, as it is listed afterwards: all fields are zero but
    the name, the title and the times (the Go zero time modulo 2^32 is in 2042). *)
Definition strange_time : Z := 2288912640.
Definition new_board (name title : bytes) : BoardHeader := {|
    bh_name := name; bh_title := title; bh_bm := []; bh_brdattr := 0; bh_votelimitposts := 0; bh_votelimitlogins := 0;
    bh_chesscountry := []; bh_bupdate := strange_time; bh_postlimitposts := 0; bh_postlimitlogins := 0; bh_bvote := 0;
    bh_vtime := strange_time; bh_level := 0; bh_permreload := strange_time; bh_gid := 0%Z; bh_next := [0%Z; 0%Z];
    bh_firstchild := [0%Z; 0%Z]; bh_parent := 0%Z; bh_childcount := 0%Z; bh_nuser := 0%Z; bh_postexpire := 0%Z;
    bh_endgamble := strange_time; bh_posttype := []; bh_posttypef := []; bh_fastrecommendpause := 0;
    bh_votelimitbadpost := 0; bh_postlimitbadpost := 0; bh_srexpire := strange_time |}.

(** The commands that only show something. *)
Definition shows (cmd : bytes) : Prop := cmd <> str "add_board" /\ cmd <> str "add_board_article".
