(** * Property theorems: C60 (the texts of the web service's replies) *)
From Coq Require Import Lia ZifyBool ZifyNat ZifyN.
From Verif Require Import M_Base M_Text M_Sys M_Board M_Userec M_Flags M_Verify M_FileOps M_DB M_Time M_Web M_Json.
From Verif Require Import S_Text S_Digits S_Layout S_Userec S_Board S_Time S_Json S_World S_Path S_Store S_Web S_Example S_ExWorld.
From Verif Require Import P_Base P_Digits P_Text P_Records P_Time P_Json P_Rfc T_BoardList T_Store T_Crypt T_Web.
Open Scope N_scope.

(** ** Text *)
(** Every sequence of bytes is read as exactly one text, and text in UTF-8 as itself. *)
Theorem C60_bytes_as_text : forall s,
  (exists t, reads_as s t /\ forall t', reads_as s t' -> t' = t) /\ (forall t, in_utf8 t s -> reads_as s t).
Proof.
  intros s. split.
  - exists (runes s). split; [apply reads_as_runes|]. apply reads_as_unique.
  - intros t [P ->]. induction P as [|c t C P IH]; [constructor|]. cbn [map concat]. now constructor.
Qed.
Print Assumptions C60_bytes_as_text.
(** A text of the times that the service writes names one instant. *)
Theorem C60_one_instant : forall v z z', names_instant v z -> names_instant v z' -> z = z'.
Proof. exact names_instant_fun. Qed.
Print Assumptions C60_one_instant.

Lemma text_runes k : Forall (fun b => b2n b < 128) (str k) -> runes (str k) = text k.
Proof. apply runes_ascii. Qed.
Lemma member_key k : Forall (fun b => b2n b < 128) (str k) -> forall v (P : json -> Prop), P v -> (fun f kv => fst kv = text (fst f) /\ snd f (snd kv)) (k, P) (runes (str k), v).
Proof. intros A v P H. split; [now apply text_runes|exact H]. Qed.
Lemma shows_text s : is_text s (meaning (VStr s)).
Proof. exists (runes s). split; [apply reads_as_runes|reflexivity]. Qed.
Lemma shows_digits z : is_digits z (meaning (VStr (fmt_d z))).
Proof.
  exists (fmt_d z). split; [apply fmt_d_decimal|]. cbn [meaning]. f_equal. apply runes_ascii. refine (Forall_impl _ _ (fmt_d_chars z)). tauto.
Qed.
Lemma width_ascii k s n : width k s n -> Forall (fun b => b2n b < 128) s.
Proof.
  intros [H _]. induction H as [b j B J|s n b j _ IH B J]; [repeat constructor; lia|]. apply Forall_app. split; [exact IH|]. repeat constructor. lia.
Qed.
Lemma instant_ascii v z : names_instant v z -> Forall (fun b => b2n b < 128) v.
Proof.
  intros (yy & mo & dd & hh & mi & ss & zz & t & k & off & -> & Wy & Wm & Wd & Wh & Wi & Ws & O & _).
  apply width_ascii in Wy, Wm, Wd, Wh, Wi, Ws.
  assert (Z : Forall (fun b => b2n b < 128) zz).
  { destruct O as [|h1 m1 h m W1 W2|h1 m1 h m W1 W2]; [repeat constructor| |]; apply width_ascii in W1, W2; (constructor; [reflexivity|]; apply Forall_app; split; [exact W1|]; constructor; [reflexivity|exact W2]). }
  apply Forall_app; split; [exact Wy|]. constructor; [reflexivity|]. apply Forall_app; split; [exact Wm|]. constructor; [reflexivity|]. apply Forall_app; split; [exact Wd|].
  constructor; [reflexivity|]. apply Forall_app; split; [exact Wh|]. constructor; [reflexivity|]. apply Forall_app; split; [exact Wi|]. constructor; [reflexivity|]. now apply Forall_app.
Qed.
Lemma shows_time zone z : good_zone zone -> stored_time z -> is_time z (meaning (VStr (rfc3339 zone z))).
Proof.
  intros G S. pose proof (rfc3339_names zone z G S) as H. exists (rfc3339 zone z). split; [exact H|]. cbn [meaning]. f_equal. apply runes_ascii. exact (instant_ascii _ _ H).
Qed.
Lemma shows_value v (P : json -> Prop) : P (meaning v) -> shows (MarshalIndent v) P.
Proof. intros H. exists (meaning v). split; [apply marshal_indent_ok|exact H]. Qed.
Ltac member := constructor; [apply member_key; [repeat constructor|]|].
Ltac object := eexists; split; [cbn [meaning map sort_keys fold_right insert_key less fst snd]; reflexivity|].

(** ** Every reply *)
Lemma plain_404 s r rep : serve s r = Ok rep ->
  (forall p, content rep <> PlainBody p) \/ (status rep = 404 /\ content rep = PlainBody (str "404 page not found" ++ [x0a])).
Proof.
  intros H. unfold serve in H.
  destruct (beqb (r_path r) (str "/v1/token")).
  { left. unfold routeToken in H. destruct (beqb (r_method r) (str "POST")); [|apply Ok_inj in H; subst rep; discriminate]. unfold postToken in H. cbv zeta in H.
    destruct (findUserecByID _ _) as [u|e| |]; try discriminate H; [|apply Ok_inj in H; subst rep; discriminate].
    destruct (VerifyPassword _ _) as [[]|e| |]; try discriminate H; apply Ok_inj in H; subst rep; discriminate. }
  destruct (beqb (r_path r) (str "/v1/boards")).
  { left. unfold routeBoards, getBoards in H. destruct (beqb (r_method r) (str "GET")); apply Ok_inj in H; subst rep; discriminate. }
  destruct (HasPrefix (r_path r) (str "/v1/classes/")).
  { left. unfold routeClasses in H. destruct (beqb (r_method r) (str "GET")); apply Ok_inj in H; subst rep; discriminate. }
  destruct (HasPrefix (r_path r) (str "/v1/users/")); [left|right; apply Ok_inj in H; subst rep; now split].
  unfold routeUsers in H. destruct (beqb (r_method r) (str "GET")); [|apply Ok_inj in H; subst rep; discriminate].
  unfold getUsers in H. destruct (parseUserPath (r_path r)) as [[u it]|e| |]; try discriminate H.
  destruct (beqb it (str "information")).
  { unfold getUserInformation, checkTokenPermission in H. destruct (findUserecByID _ _); try discriminate H; apply Ok_inj in H; subst rep; discriminate. }
  destruct (beqb it (str "favorites")); apply Ok_inj in H; subst rep; discriminate.
Qed.
(** Whatever the request and the tables hold, a reply has no body or is a JSON text,
    except the notice that there is no such page; and no reply contains a character
    with a meaning in HTML. *)
Theorem C60_every_reply : forall zone jwt s r rep, serve s r = Ok rep ->
  (content rep = NoBody /\ body_text zone jwt (content rep) = []) \/
  (status rep = 404 /\ body_text zone jwt (content rep) = str "404 page not found" ++ [x0a]) \/
  (exists v, json_text (body_text zone jwt (content rep)) v) /\ Forall (fun b => b <> "<"%byte /\ b <> ">"%byte /\ b <> "&"%byte) (body_text zone jwt (content rep)).
Proof.
  intros zone jwt s r rep H. destruct (plain_404 s r rep H) as [N|[E1 E2]]; [|right; left; rewrite E2; now split].
  unfold body_text. destruct (body_value zone jwt (content rep)) as [v|] eqn:E.
  - right. right. destruct (marshal_indent_ok v) as [J S]. split; [now exists (meaning v)|exact S].
  - left. destruct (content rep) as [| | | | |p]; try discriminate E; [now split|]. now contradiction (N p).
Qed.
Print Assumptions C60_every_reply.

Lemma le_num_bound v : le_num v < 256 ^ lenN v.
Proof.
  induction v as [|b v IH]; [reflexivity|]. cbn [le_num]. unfold lenN in *. cbn [length]. rewrite Nat2N.inj_succ, N.pow_succ_r'. pose proof (b2n_lt b) as B. unfold b2n in B. lia.
Qed.
Lemma time_stored d off t : f_time d off t -> stored_time t.
Proof. intros (n & (v & (a & b & _ & _ & L) & ->) & ->). pose proof (le_num_bound v) as B. unfold lenN in B. rewrite L in B. change (256 ^ 4) with 4294967296 in B. unfold stored_time. lia. Qed.

(** ** The information of a user *)
Theorem C60_information : forall zone jwt s r uid u, good_zone zone ->
  r_method r = str "GET" -> ~ In "/"%byte uid ->
  (r_path r = str "/v1/users/" ++ uid ++ str "/information" \/ exists rest, r_path r = str "/v1/users/" ++ uid ++ str "/information/" ++ rest) ->
  first_user (s_users s) uid u -> (exists cd d, userec_decoded cd d u) ->
  exists rep, serve s r = Ok rep /\ status rep = 200 /\
  shows (body_text zone jwt (content rep)) (is_object [("data", is_object [
    ("chess_status", is_object []);
    ("last_login_ip", is_text (u_lasthost u));
    ("last_login_ipv4", is_text (u_lasthost u));
    ("last_login_time", is_time (u_lastlogin u));
    ("money", is_digits (u_money u));
    ("nickname", is_text (u_nickname u));
    ("number_of_login_days", is_digits (Z.of_N (u_numlogindays u)));
    ("number_of_posts", is_digits (Z.of_N (u_numposts u)));
    ("plan", is_object []);
    ("realname", is_text (u_realname u));
    ("user_id", is_text uid)])]%string).
Proof.
  intros zone jwt s r uid u G M U P F (cd & d & D). destruct (C37_information_exact_partial s r uid M U P) as [(u' & F' & E)|[N _]].
  2: { exfalso. apply first_user_find in F. apply no_user_find in N. congruence. }
  assert (X : u' = u) by (apply first_user_find in F, F'; congruence). subst u'. eexists. split; [exact E|]. split; [reflexivity|]. cbn [content].
  assert (T : stored_time (u_lastlogin u)). { destruct D as (_ & _ & _ & _ & _ & _ & _ & _ & _ & _ & T & _). exact (time_stored _ _ _ T). }
  unfold body_text. cbn [body_value]. apply shows_value. unfold information_value. cbn [i_user_id i_nickname i_realname i_login_days i_posts i_money i_last_login i_last_ipv4 i_last_ip].
  object. member; [|constructor]. object.
  member; [object; constructor|]. member; [apply shows_text|]. member; [apply shows_text|]. member; [now apply shows_time|]. member; [apply shows_digits|]. member; [apply shows_text|].
  member; [apply shows_digits|]. member; [apply shows_digits|]. member; [object; constructor|]. member; [apply shows_text|]. member; [apply shows_text|]. constructor.
Qed.
Print Assumptions C60_information.
(** A missing user is named in the error as it was in the request. *)
Theorem C60_user_missing : forall zone jwt s r uid,
  r_method r = str "GET" -> ~ In "/"%byte uid ->
  (r_path r = str "/v1/users/" ++ uid ++ str "/information" \/ exists rest, r_path r = str "/v1/users/" ++ uid ++ str "/information/" ++ rest) ->
  no_user (s_users s) uid ->
  exists rep, serve s r = Ok rep /\ status rep = 500 /\
  shows (body_text zone jwt (content rep)) (is_object [
    ("error", is_text (str "find_userrec_error"));
    ("error_description", is_text (str "get userrec for " ++ uid ++ str " failed"))]%string).
Proof.
  intros zone jwt s r uid M U P N. destruct (C37_information_exact_partial s r uid M U P) as [(u & F & _)|[_ E]].
  { exfalso. apply first_user_find in F. apply no_user_find in N. congruence. }
  eexists. split; [exact E|]. split; [reflexivity|]. cbn [content]. unfold body_text. cbn [body_value]. apply shows_value.
  object. member; [apply shows_text|]. member; [apply shows_text|]. constructor.
Qed.
Print Assumptions C60_user_missing.

(** ** Tokens *)
Theorem C60_token : forall zone jwt s r user password,
  r_path r = str "/v1/token" -> r_method r = str "POST" ->
  form_value (r_form r) (str "username") user -> form_value (r_form r) (str "password") password ->
  serve s r = Panic \/
  exists rep, serve s r = Ok rep /\ status rep = 200 /\
    ((exists u t, first_user (s_users s) user u /\ VerifyPassword u password = Ok tt /\ t_subject t = user /\
        shows (body_text zone jwt (content rep)) (is_object [("access_token", is_text (jwt t)); ("token_type", is_text (str "bearer"))]%string)) \/
     (exists why, (no_user (s_users s) user /\ why = str "user record not found" \/
                   exists u, first_user (s_users s) user u /\ VerifyPassword u password = Err EPassword /\ why = str "password incorrect") /\
        shows (body_text zone jwt (content rep)) (is_object [("error", is_text (str "grant_error")); ("error_description", is_text why)]%string))).
Proof.
  intros zone jwt s r user password P M U W. destruct (C36_answers_exactly s r user password P M U W) as [[N E]|(u & F & [(V & t & E & T)|[[V E]|[_ E]]])].
  - right. eexists. split; [exact E|]. split; [reflexivity|]. right. exists (str "user record not found"). split; [left; now split|]. cbn [content]. unfold body_text. cbn [body_value]. apply shows_value.
    object. member; [apply shows_text|]. member; [apply shows_text|]. constructor.
  - right. eexists. split; [exact E|]. split; [reflexivity|]. left. exists u, t. split; [exact F|]. split; [exact V|]. split; [exact T|]. cbn [content]. unfold body_text. cbn [body_value]. apply shows_value.
    object. member; [apply shows_text|]. member; [apply shows_text|]. constructor.
  - right. eexists. split; [exact E|]. split; [reflexivity|]. right. exists (str "password incorrect"). split; [right; exists u; now repeat split|]. cbn [content]. unfold body_text. cbn [body_value]. apply shows_value.
    object. member; [apply shows_text|]. member; [apply shows_text|]. constructor.
  - now left.
Qed.
Print Assumptions C60_token.

(** ** The boards *)
Lemma shows_numbers l : is_numbers l (meaning (VSlice (map VInt l))).
Proof. unfold is_numbers. cbn [meaning]. now rewrite map_map. Qed.
Lemma shows_board zone b : good_zone zone -> (exists cd d, board_decoded cd d b) -> is_board b (meaning (board_value zone b)).
Proof.
  intros G (cd & d & D). unfold board_decoded in D. repeat match type of D with _ /\ _ => let H := fresh "D" in destruct D as [H D] end.
  repeat match goal with H : f_time _ _ _ |- _ => apply time_stored in H end.
  unfold board_value, is_board. eexists. split; [cbn [meaning map fst snd]; reflexivity|].
  repeat (member; [first [apply shows_text|reflexivity|now apply shows_time|apply shows_numbers]|]). constructor.
Qed.
(** One object for each board of the table, in order, with everything but the title
    and the moderators. *)
Theorem C60_boards : forall zone jwt s r, good_zone zone ->
  r_path r = str "/v1/boards" -> r_method r = str "GET" -> Forall (fun b => exists cd d, board_decoded cd d b) (s_boards s) ->
  exists rep, serve s r = Ok rep /\ status rep = 200 /\
  shows (body_text zone jwt (content rep)) (is_object [("data", is_array is_board (s_boards s))]%string).
Proof.
  intros zone jwt s r G P M D. assert (E : serve s r = Ok (Reply 200 (BoardsBody (s_boards s)))) by (unfold serve, routeBoards, getBoards; rewrite P, M; reflexivity).
  eexists. split; [exact E|]. split; [reflexivity|]. cbn [content]. unfold body_text. cbn [body_value]. apply shows_value.
  object. member; [|constructor]. exists (map meaning (map (board_value zone) (s_boards s))). split; [reflexivity|].
  clear E. induction D as [|b l B D IH]; [constructor|]. cbn [map]. constructor; [now apply shows_board|exact IH].
Qed.
Print Assumptions C60_boards.
(** ... from the files of a home directory: one object for each slot of the board file. *)
Theorem C60_boards_of_home : forall zone jwt cd w wd rp od rb ob fuel, good_zone zone ->
  sane w -> holds_file w wd Passwds rp od -> holds_file w wd Boards rb ob ->
  (length (old_or_empty od) < fuel)%nat -> (length (old_or_empty ob) < fuel)%nat ->
  exists w' s ss bs, run (start cd fuel wd) w = (w', Ok s) /\ slots 256 (old_or_empty ob) ss /\ Forall2 (board_decoded cd) ss bs /\
  forall r, r_path r = str "/v1/boards" -> r_method r = str "GET" ->
  exists rep, serve s r = Ok rep /\ status rep = 200 /\
  shows (body_text zone jwt (content rep)) (is_object [("data", is_array is_board bs)]%string).
Proof.
  intros zone jwt cd w wd rp od rb ob fuel G S HU HB LU LB. destruct (C36_tables_loaded cd w wd rp od rb ob fuel S HU HB LU LB) as (w' & s & us & ss & R & _ & _ & _ & C & D).
  exists w', s, ss, (s_boards s). split; [exact R|]. split; [exact C|]. split; [exact D|]. intros r P M. apply C60_boards; try assumption.
  clear - D. induction D as [|x b ss l H D IH]; constructor; [now exists cd, x|exact IH].
Qed.
Print Assumptions C60_boards_of_home.
(** The full statement, that the reply tells the titles of the boards, is false:
    whatever the titles and the moderators, the text is the same. *)
Definition renamed (b : BoardHeader) (title bm : bytes) : BoardHeader :=
  MkBoardHeader (bh_name b) title bm (bh_brdattr b) (bh_votelimitposts b) (bh_votelimitlogins b) (bh_chesscountry b) (bh_bupdate b) (bh_postlimitposts b) (bh_postlimitlogins b)
    (bh_bvote b) (bh_vtime b) (bh_level b) (bh_permreload b) (bh_gid b) (bh_next b) (bh_firstchild b) (bh_parent b) (bh_childcount b) (bh_nuser b) (bh_postexpire b)
    (bh_endgamble b) (bh_posttype b) (bh_posttypef b) (bh_fastrecommendpause b) (bh_votelimitbadpost b) (bh_postlimitbadpost b) (bh_srexpire b).
Theorem C60_titles_do_not_matter : forall zone jwt f g l,
  body_text zone jwt (BoardsBody (map (fun b => renamed b (f b) (g b)) l)) = body_text zone jwt (BoardsBody l).
Proof. intros zone jwt f g l. unfold body_text. cbn [body_value]. do 5 f_equal. rewrite map_map. reflexivity. Qed.
Print Assumptions C60_titles_do_not_matter.
Definition C60_titles_statement : Prop := forall zone jwt s s' r rep rep',
  r_path r = str "/v1/boards" -> r_method r = str "GET" -> serve s r = Ok rep -> serve s' r = Ok rep' ->
  body_text zone jwt (content rep) = body_text zone jwt (content rep') -> map bh_title (s_boards s) = map bh_title (s_boards s').

Theorem C60_titles_shown_refuted : ~ C60_titles_statement.
Proof.
  intros H. set (r := Request (str "GET") (str "/v1/boards") [] []). set (b := renamed sample_board (str "other") []).
  specialize (H (fun _ => 0%Z) t_subject (Server [] [sample_board]) (Server [] [b]) r (Reply 200 (BoardsBody [sample_board])) (Reply 200 (BoardsBody [b])) eq_refl eq_refl eq_refl eq_refl).
  specialize (H (eq_sym (C60_titles_do_not_matter (fun _ => 0%Z) t_subject (fun _ => str "other") (fun _ => []) [sample_board]))). discriminate H.
Qed.
Print Assumptions C60_titles_shown_refuted.

(** ** Concrete cases: a hostile name, bytes that are no UTF-8, a clock eight hours
    ahead; the board file of the sample world *)
Definition taipei (z : Z) : Z := 28800.
Lemma taipei_good : good_zone taipei.
Proof. intros z. unfold taipei. split; [now exists 480%Z|lia]. Qed.
Definition hostile_slot : bytes :=
  put_all 512 [W 4 13 (str "eve"); W 17 20 (str "Eve"); W 37 24 (str """,""user_id"":""<" ++ [n2b 0xE4; x0a]); w32 88 3; w32 100 1600000000; W 104 16 (str "127.0.0.1"); w32 120 0xffffffff].
Example C60_nonvacuous :
  exists u, UnmarshalUserec id_codec hostile_slot = Ok u /\ userec_decoded id_codec hostile_slot u /\
  first_user (s_users (Server [u] [])) (str "eve") u /\ ~ In "/"%byte (str "eve") /\ good_zone taipei /\
  serve (Server [u] []) (Request (str "GET") (str "/v1/users/eve/information") [] []) = Ok (Reply 200 (InformationBody (information_of u))) /\
  body_text taipei t_subject (InformationBody (information_of u)) = str
"{
  ""data"": {
    ""chess_status"": {},
    ""last_login_ip"": ""127.0.0.1"",
    ""last_login_ipv4"": ""127.0.0.1"",
    ""last_login_time"": ""2020-09-13T20:26:40+08:00"",
    ""money"": ""-1"",
    ""nickname"": ""\"",\""user_id\"":\""\u003c\ufffd\n"",
    ""number_of_login_days"": ""3"",
    ""number_of_posts"": ""0"",
    ""plan"": {},
    ""realname"": ""Eve"",
    ""user_id"": ""eve""
  }
}".
Proof.
  destruct (userec_decode id_codec hostile_slot) as (u & E & D); [vm_compute; discriminate|]. exists u. split; [exact E|]. split; [exact D|].
  assert (U : exists i, information_of u = i /\ i = Information (str "eve") (str """,""user_id"":""<" ++ [n2b 0xE4; x0a]) (str "Eve") 3 0 (-1) 1600000000 (str "127.0.0.1") (str "127.0.0.1")).
  { eexists. split; [reflexivity|]. apply Ok_inj. rewrite <- (f_equal (omap information_of) E : _ = Ok (information_of u)). vm_compute. reflexivity. }
  destruct U as (i & I1 & I2). assert (I3 : u_userid u = str "eve") by (change (u_userid u) with (i_user_id (information_of u)); rewrite I1, I2; reflexivity). clear E D.
  split; [exists [], []; split; [reflexivity|]; split; [exact I3|constructor]|]. split; [no_nul|]. split; [exact taipei_good|]. split.
  - change (serve (Server [u] []) (Request (str "GET") (str "/v1/users/eve/information") [] [])) with (getUserInformation (Server [u] []) (Request (str "GET") (str "/v1/users/eve/information") [] []) (str "eve")).
    unfold getUserInformation, checkTokenPermission. cbn [s_users findUserecByID]. rewrite I3, beqb_refl. reflexivity.
  - rewrite I1, I2. vm_compute. reflexivity.
Qed.
Example C60_nonvacuous_boards : exists d,
  sane sample_world /\ holds_file sample_world sample_wd Passwds (rp ["bbs"; ".PASSWDS"]%string) None /\
  holds_file sample_world sample_wd Boards (rp ["bbs"; ".BRD"]%string) (Some d) /\ lenN d = 512.
Proof.
  exists (concat [BoardHeader_MarshalBinary id_codec sample_board; BoardHeader_MarshalBinary id_codec sample_board]). split; [exact sample_sane|]. split; [|split].
  - eexists. split; [reflexivity|]. split; [split; [split; [discriminate|no_nul]|vm_compute; reflexivity]|]. split; [vm_compute; reflexivity|]. vm_compute. reflexivity.
  - eexists. split; [reflexivity|]. split; [split; [split; [discriminate|no_nul]|vm_compute; reflexivity]|].
    split; [vm_compute; reflexivity|]. vm_compute. reflexivity.
  - vm_compute. reflexivity.
Qed.
