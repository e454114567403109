(** * Property theorems: C70 (the web service from its files to its texts) *)
From Coq Require Import Lia ZifyBool ZifyNat ZifyN.
From Verif Require Import M_Base M_Sys M_Path M_Userec M_Board M_Verify M_FileOps M_Web M_Mux M_Json M_Jwt M_Form M_Service.
From Verif Require Import S_World S_Path S_Text S_Layout S_Crypt S_Userec S_Board S_Store S_Web S_Mux S_Json S_Jwt S_Form S_Service S_Example S_ExWorld.
From Verif Require Import P_Base P_Form P_Read P_Records P_Pool P_Json P_Scan P_BbsTool T_Crypt T_Store T_Web T_Mux T_Json T_Jwt T_Form.
Open Scope N_scope.

(** The service, started on a home directory with these users and boards, has answered
    these requests. *)
Definition served (old : bool) (zone : Z -> Z) (sign : bytes -> bytes) (cd : codec) (w : world) (us : list Userec) (bs : list BoardHeader)
    (requests : list (world * raw)) (answers : list response) : Prop :=
  sane w /\ users_of cd w service_home us /\ boards_of cd w service_home bs /\ good_zone zone /\
  exists n, forall fuel, (n <= fuel)%nat -> session old zone sign cd fuel w requests = Ok answers.

Lemma holds_one w wd o rp od rp' od' : holds_file w wd o rp od -> holds_file w wd o rp' od' -> od = od'.
Proof.
  intros (p & E & [_ N] & _ & L) (p' & E' & [_ N'] & _ & L'). rewrite E in E'. apply Ok_inj in E'. subst p'. rewrite N in N'. subst rp'. rewrite L in L'.
  destruct od, od'; cbn in L'; congruence.
Qed.
Lemma users_one cd w wd us us' : users_of cd w wd us -> users_of cd w wd us' -> us = us'.
Proof.
  intros (rp & od & ss & H & S & F) (rp' & od' & ss' & H' & S' & F'). pose proof (holds_one _ _ _ _ _ _ _ H H'). subst od'.
  assert (ss' = ss) by (apply (slots_unique 512 (old_or_empty od)); [lia|exact S'|exact S]). subst ss'.
  exact (Forall2_fun (userec_decoded cd) (userec_decoded_fun cd) ss _ _ F F').
Qed.
Lemma boards_one cd w wd us us' : boards_of cd w wd us -> boards_of cd w wd us' -> us = us'.
Proof.
  intros (rp & od & ss & H & S & F) (rp' & od' & ss' & H' & S' & F'). pose proof (holds_one _ _ _ _ _ _ _ H H'). subst od'.
  assert (ss' = ss) by (apply (slots_unique 256 (old_or_empty od)); [lia|exact S'|exact S]). subst ss'.
  exact (Forall2_fun (board_decoded cd) (board_decoded_fun cd) ss _ _ F F').
Qed.
Lemma session_is old zone sign cd w us bs : sane w -> users_of cd w service_home us -> boards_of cd w service_home bs ->
  exists n, forall fuel requests, (n <= fuel)%nat -> session old zone sign cd fuel w requests = Ok (map (fun r => respond old zone sign (Server us bs) (snd r)) requests).
Proof.
  intros S U B. pose proof U as (rp & od & ss & H & _). pose proof B as (rb & ob & sb & K & _).
  exists (Datatypes.S (length (old_or_empty od) + length (old_or_empty ob))). intros fuel requests L.
  destruct (C36_tables_loaded cd w service_home rp od rb ob fuel S H K ltac:(lia) ltac:(lia)) as (w' & s & us' & bs' & R & _ & S1 & F1 & S2 & F2).
  unfold session. change serverlet_home with service_home. rewrite R. cbn [snd]. destruct s as [su sb']. cbn [s_users s_boards] in F1, F2.
  assert (su = us) by (eapply users_one; [exists rp, od, us'; split; [exact H|]; split; [exact S1|exact F1]|exact U]).
  assert (sb' = bs) by (eapply boards_one; [exists rb, ob, bs'; split; [exact K|]; split; [exact S2|exact F2]|exact B]). now subst.
Qed.
Lemma served_is old zone sign cd w us bs requests answers : served old zone sign cd w us bs requests answers ->
  answers = map (fun r => respond old zone sign (Server us bs) (snd r)) requests.
Proof.
  intros (S & U & B & _ & n & H). destruct (session_is old zone sign cd w us bs S U B) as [m K].
  specialize (H (n + m)%nat ltac:(lia)). rewrite K in H by lia. now apply Ok_inj in H.
Qed.
Lemma served_nth old zone sign cd w us bs requests answers i w' r : served old zone sign cd w us bs requests answers -> nth_error requests i = Some (w', r) ->
  nth_error answers i = Some (respond old zone sign (Server us bs) r).
Proof. intros H E. apply served_is in H. subst answers. rewrite nth_error_map, E. reflexivity. Qed.

(** The service starts on every home directory and answers every request once. *)
Theorem C70_always_answers : forall old zone sign cd w, sane w -> good_zone zone ->
  (exists rp od, holds_file w service_home Passwds rp od) -> (exists rp od, holds_file w service_home Boards rp od) ->
  exists us bs, forall requests, exists answers, served old zone sign cd w us bs requests answers /\ length answers = length requests.
Proof.
  intros old zone sign cd w S Z (rp & od & H) (rb & ob & K).
  destruct (C36_tables_loaded cd w service_home rp od rb ob (Datatypes.S (length (old_or_empty od) + length (old_or_empty ob))) S H K ltac:(lia) ltac:(lia)) as (w' & s & ss & sb & _ & _ & S1 & F1 & S2 & F2).
  assert (U : users_of cd w service_home (s_users s)) by (exists rp, od, ss; split; [exact H|]; split; [exact S1|exact F1]).
  assert (B : boards_of cd w service_home (s_boards s)) by (exists rb, ob, sb; split; [exact K|]; split; [exact S2|exact F2]).
  exists (s_users s), (s_boards s). intros requests. destruct (session_is old zone sign cd w _ _ S U B) as [n N]. eexists. split; [|apply map_length].
  split; [exact S|]. split; [exact U|]. split; [exact B|]. split; [exact Z|]. exists n. intros fuel L. now apply N.
Qed.
Print Assumptions C70_always_answers.

(** The record of a user. *)
Lemma user_decoded cd w wd us uid u : users_of cd w wd us -> first_user us uid u -> exists cd' d, userec_decoded cd' d u.
Proof.
  intros (rp & od & ss & _ & _ & F) (b & a & -> & _). apply Forall2_app_inv_r in F. destruct F as (l1 & l2 & _ & F & _). inversion F as [|x y l l' D]. subst. now exists cd, x.
Qed.

(** Every spelling of a user's address is answered with the text that tells about the first
    slot of the password file with that user name. *)
Theorem C70_information : forall old zone sign cd w us bs requests answers i w' r uid query,
  served old zone sign cd w us bs requests answers -> nth_error requests i = Some (w', r) ->
  w_method r = str "GET" -> element uid -> addresses (w_target r) (str "/v1/users/" ++ uid ++ str "/information") query ->
  (exists u body, first_user us uid u /\ nth_error answers i = Some (Response 200 body) /\ tells_user u body) \/
  (no_user us uid /\ exists body, nth_error answers i = Some (Response 500 body) /\ tells_error (str "find_userrec_error") (str "get userrec for " ++ uid ++ str " failed") body).
Proof.
  intros old zone sign cd w us bs requests answers i w' r uid query H E M U A. rewrite (served_nth _ _ _ _ _ _ _ _ _ _ _ _ H E). destruct H as (S & HU & _ & Z & _).
  pose proof U as (_ & _ & _ & NS).
  set (path := str "/v1/users/" ++ uid ++ str "/information") in *. set (bf := if takes_body (w_method r) then parsePostForm old r else []).
  set (q := Request (w_method r) path (w_authorization r) (bf ++ ParseQuery old query)).
  assert (AR : arrive old r = Some q).
  { apply C69_arrives_exactly. exists path, query, bf, (ParseQuery old query). split; [exact A|]. split; [now apply body_fields_iff|]. split; [now apply parse_exact|reflexivity]. }
  assert (HD : handle (Server us bs) q = omap Answer (serve (Server us bs) q)) by exact (C61_information_reachable (Server us bs) q uid M U eq_refl).
  unfold respond. rewrite AR, HD.
  destruct (find_spec us uid) as [(u & _ & F)|[_ N]]; [left|right].
  - destruct (C60_information zone (SignedString sign) (Server us bs) q uid u Z M NS (or_introl eq_refl) F (user_decoded _ _ _ _ _ _ HU F)) as (rep & R & ST & SH).
    exists u, (body_text zone (SignedString sign) (content rep)). rewrite R. cbn [omap obind]. rewrite ST. split; [exact F|]. split; [reflexivity|].
    unfold tells_user. destruct F as (_ & _ & _ & -> & _). exact SH.
  - split; [exact N|]. destruct (C60_user_missing zone (SignedString sign) (Server us bs) q uid M NS (or_introl eq_refl) N) as (rep & R & ST & SH).
    exists (body_text zone (SignedString sign) (content rep)). rewrite R. cbn [omap obind]. rewrite ST. split; [reflexivity|exact SH].
Qed.
Print Assumptions C70_information.

Lemma letter_ascii v : b2n (letter v) < 128.
Proof.
  unfold letter. destruct (nth_in_or_default (N.to_nat v) S_Crypt.alphabet x00) as [I| ->]; [|reflexivity].
  assert (A : forallb (fun c => b2n c <? 128) S_Crypt.alphabet = true) by (vm_compute; reflexivity). rewrite forallb_forall in A. apply A in I. lia.
Qed.
(** A request for a token with the right form is answered with a token for the user exactly
    if the password has the hash in the file. *)
Theorem C70_token : forall old zone sign cd w us bs requests answers i w' r query fs user password,
  served old zone sign cd w us bs requests answers -> nth_error requests i = Some (w', r) ->
  w_method r = str "POST" -> addresses (w_target r) (str "/v1/token") query -> as_form r -> sends (w_body r) fs ->
  In (str "username") (map fst fs) -> In (str "password") (map fst fs) ->
  form_value fs (str "username") user -> form_value fs (str "password") password ->
  (forall u, first_user us user u -> exists v w rest, v < 64 /\ w < 64 /\ u_password u = letter v :: letter w :: rest) ->
  exists body, nth_error answers i = Some (Response 200 body) /\
  ((exists u v w rest, first_user us user u /\ v < 64 /\ w < 64 /\ u_password u = letter v :: letter w :: rest /\ crypt3 password v w = u_password u /\ brings_token user body) \/
   (exists u v w rest, first_user us user u /\ v < 64 /\ w < 64 /\ u_password u = letter v :: letter w :: rest /\ crypt3 password v w <> u_password u /\ tells_error (str "grant_error") (str "password incorrect") body) \/
   (no_user us user /\ tells_error (str "grant_error") (str "user record not found") body)).
Proof.
  intros old zone sign cd w us bs requests answers i w' r query fs user password H E M A F S IU IP VU VP PW. rewrite (served_nth _ _ _ _ _ _ _ _ _ _ _ _ H E).
  set (q := Request (w_method r) (str "/v1/token") (w_authorization r) (fs ++ ParseQuery old query)).
  assert (AR : arrive old r = Some q).
  { apply C69_arrives_exactly. exists (str "/v1/token"), query, fs, (ParseQuery old query). split; [exact A|]. split.
    - split; [intros _; now apply sends_fields|intros N; contradiction].
    - split; [now apply parse_exact|reflexivity]. }
  assert (QU : form_value (r_form q) (str "username") user) by exact (form_value_app _ _ _ _ VU IU).
  assert (QP : form_value (r_form q) (str "password") password) by exact (form_value_app _ _ _ _ VP IP).
  assert (HD : handle (Server us bs) q = omap Answer (serve (Server us bs) q)) by exact (token_direct (Server us bs) q eq_refl M).
  unfold respond. rewrite AR, HD.
  assert (ER : forall d, shows (body_text zone (SignedString sign) (ErrorBody (str "grant_error") d)) (is_object [("error", is_text (str "grant_error")); ("error_description", is_text d)]%string)).
  { intros d. unfold body_text. cbn [body_value]. apply shows_value. object. member; [apply shows_text|]. member; [apply shows_text|]. constructor. }
  destruct (C36_answers_exactly (Server us bs) q user password eq_refl M QU QP) as [[N R]|(u & FU & R)]; cbn [s_users] in *.
  - rewrite R. eexists. split; [reflexivity|]. right. right. split; [exact N|apply ER].
  - destruct (PW u FU) as (v & x & rest & V & X & L). destruct (C23_accepts_crypt3 u password v x rest V X L) as [CA CB].
    assert (OK : VerifyPassword u password = Ok tt -> crypt3 password v x = u_password u) by (intros Q; symmetry; now apply CA).
    assert (KO : VerifyPassword u password = Err EPassword -> crypt3 password v x <> u_password u) by (intros Q Y; apply CB in Q; now symmetry in Y).
    assert (SOME : VerifyPassword u password = Ok tt \/ VerifyPassword u password = Err EPassword) by (clear - CA CB; destruct (list_eq_dec Byte.byte_eq_dec (u_password u) (crypt3 password v x)) as [Y|Y]; [left; now apply CA|right; now apply CB]).
    clear CA CB. destruct R as [(Q & t & R & T)|[(Q & R)|(Q & R)]].
    + pose proof (C67_tokens_name_their_user sign (Server us bs) q _ t user R eq_refl QU) as (hd & pl & sg & nm & CP & _ & _ & _ & RA & PT).
      rewrite R. eexists. split; [reflexivity|]. left. exists u, v, x, rest. split; [exact FU|]. split; [exact V|]. split; [exact X|]. split; [exact L|]. split; [now apply OK|].
      exists (SignedString sign t), hd, pl, (sign sg). split; [|split; [exact CP|exists nm; now split]].
      unfold body_text. cbn [content body_value]. apply shows_value. object. member; [apply shows_text|]. member; [apply shows_text|]. constructor.
    + rewrite R. eexists. split; [reflexivity|]. right. left. exists u, v, x, rest. split; [exact FU|]. split; [exact V|]. split; [exact X|]. split; [exact L|]. split; [now apply KO|]. apply ER.
    + exfalso. apply Q. rewrite L. exists (letter v), (letter x), rest. split; [reflexivity|]. clear - V X. split; apply letter_ascii.
Qed.
Print Assumptions C70_token.

(** Every spelling of the address of the boards gives one object for each slot of the board file. *)
Theorem C70_boards : forall old zone sign cd w us bs requests answers i w' r query,
  served old zone sign cd w us bs requests answers -> nth_error requests i = Some (w', r) ->
  w_method r = str "GET" -> addresses (w_target r) (str "/v1/boards") query ->
  exists body, nth_error answers i = Some (Response 200 body) /\ shows body (is_object [("data", is_array is_board bs)]%string).
Proof.
  intros old zone sign cd w us bs requests answers i w' r query H E M A. rewrite (served_nth _ _ _ _ _ _ _ _ _ _ _ _ H E). destruct H as (S & _ & HB & Z & _).
  set (bf := if takes_body (w_method r) then parsePostForm old r else []). set (q := Request (w_method r) (str "/v1/boards") (w_authorization r) (bf ++ ParseQuery old query)).
  assert (AR : arrive old r = Some q).
  { apply C69_arrives_exactly. exists (str "/v1/boards"), query, bf, (ParseQuery old query). split; [exact A|]. split; [now apply body_fields_iff|]. split; [now apply parse_exact|reflexivity]. }
  assert (HD : handle (Server us bs) q = omap Answer (serve (Server us bs) q)).
  { apply (C61_plain_paths_answered (Server us bs) q (str "/v1/boards")); [change (r_method q) with (w_method r); rewrite M; discriminate|exact (spelled (str "/v1/boards"))|reflexivity]. }
  assert (D : Forall (fun b => exists cd d, board_decoded cd d b) bs).
  { destruct HB as (rp & od & ss & _ & _ & F). clear - F. induction F as [|x b ss l H F IH]; constructor; [now exists cd, x|exact IH]. }
  destruct (C60_boards zone (SignedString sign) (Server us bs) q Z eq_refl M D) as (rep & R & ST & SH).
  exists (body_text zone (SignedString sign) (content rep)). unfold respond. rewrite AR, HD, R. cbn [omap obind]. rewrite ST. split; [reflexivity|exact SH].
Qed.
Print Assumptions C70_boards.

(** A request is refused exactly if its address spells no path; the connection is closed
    without an answer only for a token of a user with a broken password field. *)
Theorem C70_unanswered : forall old zone sign cd w us bs requests answers i w' r,
  served old zone sign cd w us bs requests answers -> nth_error requests i = Some (w', r) ->
  (nth_error answers i = Some BadRequest <-> forall path query, ~ addresses (w_target r) path query) /\
  (nth_error answers i = Some Closed -> w_method r = str "POST" /\ (exists query, addresses (w_target r) (str "/v1/token") query) /\
     exists user u, first_user us user u /\ ~ good_salt (u_password u)).
Proof.
  intros old zone sign cd w us bs requests answers i w' r H E. rewrite (served_nth _ _ _ _ _ _ _ _ _ _ _ _ H E). rewrite <- (C69_refused_exactly old r).
  unfold respond. destruct (arrive old r) as [q|] eqn:AR.
  - split; [split; [|discriminate]; destruct (handle _ q) as [[|]| | |]; discriminate|].
    intros C. apply C69_arrives_exactly in AR. destruct AR as (path & query & bf & qf & A & _ & _ & ->). set (q := Request _ _ _ _) in *.
    destruct (C61_panics_only_for_tokens (Server us bs) q) as [[a X]|(X & M & P)]; [rewrite X in C; destruct a; discriminate C|].
    split; [exact M|]. split; [exists query; change path with (r_path q) in A; now rewrite P in A|].
    assert (Y : serve (Server us bs) q = Panic). { rewrite (token_direct _ q P M) in X. destruct (serve (Server us bs) q); [discriminate X|discriminate X|reflexivity|discriminate X]. }
    destruct (C36_answers_exactly (Server us bs) q _ _ P M (form_value_of _ _) (form_value_of _ _)) as [[_ R]|(u & F & [(_ & t & R & _)|[[_ R]|[G _]]])]; try (rewrite R in Y; discriminate Y).
    exists (FormValue (r_form q) (str "username")), u. split; [exact F|exact G].
  - split; [split; reflexivity|discriminate].
Qed.
Print Assumptions C70_unanswered.

(** Who writes a path in another way than the plain one is sent to the plain one, and nobody
    else is sent anywhere. *)
Theorem C70_redirected : forall old zone sign cd w us bs requests answers i w' r path query p,
  served old zone sign cd w us bs requests answers -> nth_error requests i = Some (w', r) -> w_method r <> str "CONNECT" ->
  addresses (w_target r) path query -> spelling path p ->
  (path <> p -> nth_error answers i = Some (Redirect p)) /\
  (path = p -> forall p', nth_error answers i <> Some (Redirect p')).
Proof.
  intros old zone sign cd w us bs requests answers i w' r path query p H E M A S. rewrite (served_nth _ _ _ _ _ _ _ _ _ _ _ _ H E).
  set (bf := if takes_body (w_method r) then parsePostForm old r else []). set (q := Request (w_method r) path (w_authorization r) (bf ++ ParseQuery old query)).
  assert (AR : arrive old r = Some q).
  { apply C69_arrives_exactly. exists path, query, bf, (ParseQuery old query). split; [exact A|]. split; [now apply body_fields_iff|]. split; [now apply parse_exact|reflexivity]. }
  destruct (C61_plain_paths_answered (Server us bs) q p M S) as [K1 K2]. cbn [r_path q] in K1, K2. unfold respond. rewrite AR. split; intros P.
  - now rewrite (K2 P).
  - intros p'. rewrite (K1 P). destruct (serve (Server us bs) q); discriminate.
Qed.
Print Assumptions C70_redirected.

(** What was stored after the start is not looked at. *)
Theorem C70_later_changes_unseen : forall old zone sign cd w us bs requests requests' answers,
  map snd requests' = map snd requests -> served old zone sign cd w us bs requests answers -> served old zone sign cd w us bs requests' answers.
Proof.
  intros old zone sign cd w us bs requests requests' answers E (S & U & B & Z & n & H). split; [exact S|]. split; [exact U|]. split; [exact B|]. split; [exact Z|].
  exists n. intros fuel L. rewrite <- (H fuel L). unfold session. destruct (snd (run (start cd fuel serverlet_home) w)); try reflexivity.
  f_equal. rewrite <- !(map_map snd (respond old zone sign _)). now rewrite E.
Qed.
Print Assumptions C70_later_changes_unseen.

(** So the service does not answer from the password file as it is: a password that was
    changed after the start is still the one that opens. *)
Definition C70_statement : Prop := forall old zone sign cd w us bs requests answers i w' r query fs user password body us',
  served old zone sign cd w us bs requests answers -> nth_error requests i = Some (w', r) -> users_of cd w' service_home us' ->
  w_method r = str "POST" -> addresses (w_target r) (str "/v1/token") query -> as_form r -> sends (w_body r) fs ->
  form_value fs (str "username") user -> form_value fs (str "password") password ->
  nth_error answers i = Some (Response 200 body) -> brings_token user body ->
  exists u, first_user us' user u /\ VerifyPassword u password = Ok tt.

Definition service_tree : list (rpath * node) :=
  dirs_of [["home"]; ["home"; "bbs"]]%string ++ [(rp ["home"; "bbs"; ".PASSWDS"]%string, NFile 0); (rp ["home"; "bbs"; ".BRD"]%string, NFile 1)].
Definition slot_with (hash : bytes) : bytes := put_all 512 [W 4 13 (str "SYSOP"); W 61 14 hash; w32 100 1600000000].
Definition service_world (hash : bytes) : world := world_of service_tree [slot_with hash; []].
Definition hash_before : bytes := str "bhwvOJtfT1TAI".
Definition hash_after : bytes := str "bhAAAAAAAAAAA".
Lemma service_sane hash : sane (service_world hash).
Proof. apply saneb_sane. vm_compute. reflexivity. Qed.
Lemma service_passwds hash : holds_file (service_world hash) service_home Passwds (rp ["home"; "bbs"; ".PASSWDS"]%string) (Some (slot_with hash)).
Proof.
  eexists. split; [reflexivity|]. split; [split; [split; [discriminate|no_nul]|vm_compute; reflexivity]|]. split; [vm_compute; reflexivity|]. reflexivity.
Qed.
Lemma service_boards hash : holds_file (service_world hash) service_home Boards (rp ["home"; "bbs"; ".BRD"]%string) (Some []).
Proof.
  eexists. split; [reflexivity|]. split; [split; [split; [discriminate|no_nul]|vm_compute; reflexivity]|]. split; [vm_compute; reflexivity|]. reflexivity.
Qed.
Lemma service_user hash : hash = hash_before \/ hash = hash_after -> exists u, users_of id_codec (service_world hash) service_home [u] /\ UnmarshalUserec id_codec (slot_with hash) = Ok u /\ u_userid u = str "SYSOP" /\ u_password u = hash.
Proof.
  intros H. assert (L : lenN (slot_with hash) = 512) by (destruct H as [-> | ->]; vm_compute; reflexivity).
  destruct (userec_decode id_codec (slot_with hash)) as (u & E & D); [rewrite L; discriminate|]. exists u. split; [|split; [exact E|]].
  - exists (rp ["home"; "bbs"; ".PASSWDS"]%string), (Some (slot_with hash)), [slot_with hash]. split; [apply service_passwds|].
    split; [|constructor; [exact D|constructor]]. cbn [old_or_empty]. rewrite <- (app_nil_r (slot_with hash)) at 1. change (slot_with hash ++ []) with (concat [slot_with hash]).
    apply slots_concat; [lia|]. constructor; [exact L|constructor].
  - assert (X : omap (fun u => (u_userid u, u_password u)) (UnmarshalUserec id_codec (slot_with hash)) = Ok (str "SYSOP", hash)) by (destruct H as [-> | ->]; vm_compute; reflexivity).
    rewrite E in X. cbn [omap obind] in X. apply Ok_inj in X. apply pair_equal_spec in X. exact X.
Qed.

Definition login_request : raw := Raw (str "POST") (str "/v1/token") [] form_media (str "username=SYSOP&password=123123").
Definition login_fields : list (bytes * bytes) := [(str "username", str "SYSOP"); (str "password", str "123123")].
Lemma login_sends : sends (w_body login_request) login_fields.
Proof.
  exists [str "username=SYSOP"; str "password=123123"]. split; [|reflexivity].
  assert (A : forall k v, (forall c, In c (str k ++ str v) -> In c (str "usernameSYSOPpassword123123")) -> unescape true (str k) = Some (str k) -> unescape true (str v) = Some (str v) -> sends_field (str k ++ "="%byte :: str v) (str k, str v)).
  { intros k v I K V. exists (str k), (str v). split; [reflexivity|]. split; [now apply unescape_iff|]. split; [now apply unescape_iff|].
    assert (J : forall c, In c (str k ++ str v) -> c <> "="%byte /\ c <> "&"%byte /\ c <> ";"%byte).
    { intros c C. apply I in C. clear - C. cbn in C. repeat destruct C as [<-|C]; try (repeat split; discriminate). destruct C. }
    split; [intros C; destruct (J "="%byte); [apply in_app_iff; now left|congruence]|]. intros c C. apply J in C. tauto. }
  constructor; [|constructor; [|constructor]].
  - apply (A "username" "SYSOP")%string; [|reflexivity|reflexivity]. intros c C. cbn in C |- *. tauto.
  - apply (A "password" "123123")%string; [|reflexivity|reflexivity]. intros c C. cbn in C |- *. tauto.
Qed.
Lemma login_values : form_value login_fields (str "username") (str "SYSOP") /\ form_value login_fields (str "password") (str "123123").
Proof.
  split; left; [exists [], [(str "password", str "123123")]|exists [(str "username", str "SYSOP")], []]; (split; [reflexivity|]); repeat constructor. discriminate.
Qed.
Lemma login_form : as_form login_request.
Proof. split; [now left|]. split; [reflexivity|vm_compute; discriminate]. Qed.
Lemma login_address : addresses (w_target login_request) (str "/v1/token") [].
Proof. apply addresses_iff. split; [reflexivity|]. eexists. eexists. repeat split. Qed.

(** The service started before the password was changed, asked after it. *)
Lemma login_served sign : exists u, served true taipei sign id_codec (service_world hash_before) [u] [] [(service_world hash_after, login_request)] [respond true taipei sign (Server [u] []) login_request] /\
  UnmarshalUserec id_codec (slot_with hash_before) = Ok u /\ u_userid u = str "SYSOP" /\ u_password u = hash_before.
Proof.
  destruct (service_user hash_before (or_introl eq_refl)) as (u & U & E & I & P). exists u. split; [|now split].
  assert (B : boards_of id_codec (service_world hash_before) service_home []).
  { exists (rp ["home"; "bbs"; ".BRD"]%string), (Some []), []. split; [apply service_boards|]. split; [|constructor]. apply (slots_concat 256 []); [lia|constructor]. }
  split; [apply service_sane|]. split; [exact U|]. split; [exact B|]. split; [exact taipei_good|].
  destruct (session_is true taipei sign id_codec _ _ _ (service_sane hash_before) U B) as [n N]. exists n. intros fuel L. now apply N.
Qed.
Lemma login_first u : u_userid u = str "SYSOP" -> first_user [u] (str "SYSOP") u.
Proof. intros I. exists [], []. split; [reflexivity|]. split; [exact I|constructor]. Qed.
Theorem C70_changed_password_refuted : ~ C70_statement.
Proof.
  intros H. set (sign := fun x : bytes => x). destruct (login_served sign) as (u & S & _ & I & P).
  destruct (service_user hash_after (or_intror eq_refl)) as (u' & U' & _ & I' & P').
  destruct login_values as [VU VP].
  destruct (C70_token _ _ _ _ _ _ _ _ _ 0%nat _ _ _ _ _ _ S eq_refl eq_refl login_address login_form login_sends (or_introl eq_refl) (or_intror (or_introl eq_refl)) VU VP) as (body & N & T).
  { intros x (b & a & E & _). exists 39, 45, (skipn 2 hash_before). split; [reflexivity|]. split; [reflexivity|]. destruct b as [|y b]; [injection E as <- _; rewrite P; reflexivity|]. destruct b; discriminate E. }
  assert (TT : brings_token (str "SYSOP") body).
  { destruct T as [(x & v & y & rest & _ & _ & _ & _ & _ & T)|[(x & v & y & rest & F & V & Y & L & NE & _)|[NU _]]]; [exact T| |].
    - exfalso. apply NE. assert (x = u). { destruct F as (b & a & E & _). destruct b as [|z b]; [now injection E as <- _|]. destruct b; discriminate E. } subst x. clear - P L V Y. rewrite P in L |- *.
      assert (LI : forall a b, a < 64 -> b < 64 -> letter a = letter b -> a = b). { intros a b A B E. destruct (P_Crypt.con_salt_letter a A) as [Ca _], (P_Crypt.con_salt_letter b B) as [Cb _]. congruence. }
      assert (L1 : letter v = letter 39) by (injection L as L _ _; now rewrite <- L). assert (L2 : letter y = letter 45) by (injection L as _ L _; now rewrite <- L).
      apply LI in L1, L2; try assumption; try reflexivity. subst v y. vm_compute. reflexivity.
    - exfalso. inversion NU. contradiction. }
  destruct (H _ _ _ _ _ _ _ _ _ 0%nat _ _ _ _ _ _ _ _ S eq_refl U' eq_refl login_address login_form login_sends VU VP N TT) as (x & F & V).
  assert (x = u'). { destruct F as (b & a & E & _). destruct b as [|z b]; [now injection E as <- _|]. destruct b; discriminate E. } subst x.
  assert (W : VerifyPassword (M_Userec.MkUserec 0 [] [] [] hash_after 0 0 0 0 0 0 [] 0 [] [] [] false 0 0 false 0 [] 0 0 0 0 0 0 0 0 0 0 0 0 0 0 0 0 0 0 0 0 0 0 0 0 0 [] 0 0 0 0) (str "123123") = Err EPassword) by (vm_compute; reflexivity).
  unfold VerifyPassword in V, W. rewrite P' in V. cbn [u_password] in W. rewrite W in V. discriminate V.
Qed.
Print Assumptions C70_changed_password_refuted.

Example C70_nonvacuous : exists u body,
  served true taipei (fun _ => str "sig") id_codec (service_world hash_before) [u] []
    [(service_world hash_after, login_request)] [Response 200 body] /\
  first_user [u] (str "SYSOP") u /\ element (str "SYSOP") /\ u_password u = letter 39 :: letter 45 :: skipn 2 hash_before /\
  body = str
"{
  ""access_token"": ""eyJhbGciOiJFUzI1NiIsInR5cCI6IkpXVCJ9.eyJleHAiOjE4MDAsInN1YiI6IlNZU09QIn0.c2ln"",
  ""token_type"": ""bearer""
}".
Proof.
  destruct (login_served (fun _ => str "sig")) as (u & S & E & I & P). exists u.
  assert (R : exists body, respond true taipei (fun _ => str "sig") (Server [u] []) login_request = Response 200 body /\ body = str
"{
  ""access_token"": ""eyJhbGciOiJFUzI1NiIsInR5cCI6IkpXVCJ9.eyJleHAiOjE4MDAsInN1YiI6IlNZU09QIn0.c2ln"",
  ""token_type"": ""bearer""
}").
  { assert (X : omap (fun u => respond true taipei (fun _ => str "sig") (Server [u] []) login_request) (UnmarshalUserec id_codec (slot_with hash_before)) = Ok (Response 200 (str
"{
  ""access_token"": ""eyJhbGciOiJFUzI1NiIsInR5cCI6IkpXVCJ9.eyJleHAiOjE4MDAsInN1YiI6IlNZU09QIn0.c2ln"",
  ""token_type"": ""bearer""
}"))) by (vm_compute; reflexivity).
    rewrite E in X. cbn [omap obind] in X. apply Ok_inj in X. rewrite X. eexists. split; reflexivity. }
  destruct R as (body & R & B). rewrite R in S. exists body. split; [exact S|]. split; [now apply login_first|]. split; [repeat split; try discriminate; no_nul|]. split; [rewrite P; reflexivity|exact B].
Qed.
