(** * Property theorems: C36 (tokens), C37 (authorization), C50 (user paths) *)
From Coq Require Import Lia ZifyBool ZifyNat ZifyN.
From Verif Require Import M_Base M_Text M_Sys M_Path M_Board M_Userec M_Flags M_Crypt M_Verify M_FileOps M_DB M_Web.
From Verif Require Import S_Text S_Crypt S_Layout S_Userec S_Board S_World S_Path S_Store S_Web S_Example S_ExWorld.
From Verif Require Import P_Base P_Text P_Records P_Sys P_Read P_BoardList P_Store T_BoardList T_Store T_Crypt.
Open Scope N_scope.
#[local] Opaque crypt_block.

Lemma find_spec us uid :
  (exists u, findUserecByID us uid = Ok u /\ first_user us uid u) \/
  (findUserecByID us uid = Err ENotFound /\ no_user us uid).
Proof.
  induction us as [|v us IH]; cbn [findUserecByID]; [right; split; [reflexivity|constructor]|].
  destruct (beqb uid (u_userid v)) eqn:E.
  - apply beqb_eq in E. left. exists v. split; [reflexivity|]. exists [], us. split; [reflexivity|]. split; [easy|constructor].
  - apply beqb_neq in E. destruct IH as [(u & F & b & a & -> & I & N)|[F N]].
    + left. exists u. split; [exact F|]. exists (v :: b), a. split; [reflexivity|]. split; [exact I|]. constructor; [congruence|exact N].
    + right. split; [exact F|]. constructor; [congruence|exact N].
Qed.
Lemma first_user_find us uid u : first_user us uid u -> findUserecByID us uid = Ok u.
Proof.
  intros (b & a & -> & I & N). induction N as [|v b V N IH]; cbn [findUserecByID app].
  - subst. now rewrite beqb_refl.
  - rewrite (proj2 (beqb_neq _ _)) by congruence. exact IH.
Qed.
Lemma no_user_find us uid : no_user us uid -> findUserecByID us uid = Err ENotFound.
Proof.
  induction 1 as [|v b V N IH]; cbn [findUserecByID]; [reflexivity|]. rewrite (proj2 (beqb_neq _ _)) by congruence. exact IH.
Qed.
Lemma form_value_is f k v : form_value f k v -> FormValue f k = v.
Proof.
  intros [(b & a & -> & N)|[-> N]].
  - induction N as [|[k' v'] b V N IH]; cbn [FormValue app]; [now rewrite beqb_refl|]. cbn in V. rewrite (proj2 (beqb_neq _ _)) by congruence. exact IH.
  - induction N as [|[k' v'] b V N IH]; cbn [FormValue]; [reflexivity|]. cbn in V. rewrite (proj2 (beqb_neq _ _)) by congruence. exact IH.
Qed.

(** ** C50 *)
(** The user and the item are the two elements after "/v1/users/"; anything after
    the item is ignored. *)
Theorem C50_user_and_item : forall u i rest, ~ In "/"%byte u -> ~ In "/"%byte i ->
  parseUserPath (str "/v1/users/" ++ u) = Ok (u, []) /\
  parseUserPath (str "/v1/users/" ++ u ++ "/"%byte :: i) = Ok (u, i) /\
  parseUserPath (str "/v1/users/" ++ u ++ "/"%byte :: i ++ "/"%byte :: rest) = Ok (u, i).
Proof.
  intros u i rest U I'.
  assert (P : forall x, split_on "/" (str "/v1/users/" ++ x) = [] :: str "v1" :: str "users" :: split_on "/" x) by (intros x; cbn; reflexivity || (cbn; destruct (split_on "/" x); reflexivity)).
  unfold parseUserPath. rewrite !P, !split_app, !split_no by assumption. repeat split.
Qed.
Print Assumptions C50_user_and_item.
(** Every path below the endpoint has one of these forms, so no path makes it panic. *)
Theorem C50_every_path_below : forall p, (exists r, p = str "/v1/users/" ++ r) ->
  exists u i, parseUserPath p = Ok (u, i) /\ ~ In "/"%byte u /\ ~ In "/"%byte i /\
  ((p = str "/v1/users/" ++ u /\ i = []) \/ p = str "/v1/users/" ++ u ++ "/"%byte :: i \/
   exists rest, p = str "/v1/users/" ++ u ++ "/"%byte :: i ++ "/"%byte :: rest).
Proof.
  intros p [r ->]. destruct (split_cuts "/" r) as (N & E & F). destruct (split_on "/" r) as [|u [|i ps]] eqn:S; [contradiction| |].
  - apply Forall_cons_iff in F as [U _]. cbn [join] in E. subst r. exists u, []. destruct (C50_user_and_item u [] [] U) as (H & _); [intros []|].
    split; [exact H|]. split; [exact U|]. split; [intros []|]. now left.
  - apply Forall_cons_iff in F as [U F]. apply Forall_cons_iff in F as [I' F]. exists u, i. cbn [join] in E.
    destruct ps as [|q ps].
    + subst r. destruct (C50_user_and_item u i [] U I') as (_ & H & _). split; [exact H|]. split; [exact U|]. split; [exact I'|]. right. now left.
    + rewrite E. destruct (C50_user_and_item u i (join "/" (q :: ps)) U I') as (_ & _ & H). split; [exact H|]. split; [exact U|]. split; [exact I'|].
      right. right. now exists (join "/" (q :: ps)).
Qed.
Print Assumptions C50_every_path_below.
Lemma split_count c s : length (split_on c s) = S (count c s).
Proof.
  unfold count. induction s as [|b s IH]; [reflexivity|]. cbn [split_on filter].
  replace (Byte.eqb c b) with (Byte.eqb b c) by (destruct (Byte.eqb b c) eqn:E; symmetry; [apply byte_eqb_eq in E; now apply byte_eqb_eq|apply byte_eqb_neq in E; apply byte_eqb_neq; congruence]).
  destruct (Byte.eqb b c); cbn [length]; [now rewrite IH|]. destruct (split_on c s); cbn [length] in *; [discriminate|exact IH].
Qed.
(** In general it panics exactly on paths with fewer than three slashes. *)
Theorem C50_panics_exactly : forall p, parseUserPath p = Panic <-> (count "/" p < 3)%nat.
Proof.
  intros p. pose proof (split_count "/" p) as L. unfold parseUserPath.
  destruct (split_on "/" p) as [|a [|b [|c [|d [|e l]]]]]; cbn [length] in L; split; intros H; try reflexivity; try discriminate; lia.
Qed.
Print Assumptions C50_panics_exactly.
Example C50_nonvacuous :
  parseUserPath (str "/v1/users/SYSOP/information") = Ok (str "SYSOP", str "information") /\
  parseUserPath (str "/v1/users/SYSOP") = Ok (str "SYSOP", []) /\
  parseUserPath (str "/v1/users/") = Ok ([], []) /\
  parseUserPath (str "/v1/users") = Panic.
Proof. vm_compute. repeat split. Qed.

(** ** C36 *)
Definition post_token (user password : bytes) : request :=
  Request (str "POST") (str "/v1/token") [] [(str "username", user); (str "password", password)].

(** Whatever the request, a reply carries a token only if it was posted to the token
    endpoint and the first record with the submitted user name accepts the submitted
    password; the token then names that user. *)
Theorem C36_token_only_with_password : forall s r rep t, serve s r = Ok rep -> content rep = TokenBody t ->
  r_path r = str "/v1/token" /\ r_method r = str "POST" /\
  forall user password, form_value (r_form r) (str "username") user -> form_value (r_form r) (str "password") password ->
  t_subject t = user /\ exists u, first_user (s_users s) user u /\ VerifyPassword u password = Ok tt.
Proof.
  intros s r rep t H C. unfold serve in H. destruct (beqb (r_path r) (str "/v1/token")) eqn:P.
  - apply beqb_eq in P. split; [exact P|]. unfold routeToken in H. destruct (beqb (r_method r) (str "POST")) eqn:M.
    2: { injection H as <-. discriminate. }
    apply beqb_eq in M. split; [exact M|]. intros user password U W. apply form_value_is in U, W.
    unfold postToken in H. cbv zeta in H. rewrite U, W in H. destruct (find_spec (s_users s) user) as [(u & F & FU)|[F _]]; rewrite F in H.
    2: { injection H as <-. discriminate. }
    destruct (VerifyPassword u password) as [[]|e| |] eqn:V; try discriminate.
    + injection H as <-. cbn [content] in C. injection C as <-. split; [reflexivity|]. now exists u.
    + injection H as <-. discriminate.
  - exfalso. destruct (beqb (r_path r) (str "/v1/boards")).
    { unfold routeBoards, getBoards in H. destruct (beqb (r_method r) (str "GET")); injection H as <-; discriminate. }
    destruct (HasPrefix (r_path r) (str "/v1/classes/")).
    { unfold routeClasses in H. destruct (beqb (r_method r) (str "GET")); injection H as <-; discriminate. }
    destruct (HasPrefix (r_path r) (str "/v1/users/")); [|injection H as <-; discriminate].
    unfold routeUsers in H. destruct (beqb (r_method r) (str "GET")); [|injection H as <-; discriminate].
    unfold getUsers in H. destruct (parseUserPath (r_path r)) as [[u i]|e| |]; try discriminate.
    destruct (beqb i (str "information")).
    { unfold getUserInformation, checkTokenPermission in H. destruct (findUserecByID (s_users s) u); try discriminate; injection H as <-; discriminate. }
    destruct (beqb i (str "favorites")); injection H as <-; discriminate.
Qed.
Print Assumptions C36_token_only_with_password.

(** What a posted request is answered, in every case. *)
Theorem C36_answers_exactly : forall s r user password,
  r_path r = str "/v1/token" -> r_method r = str "POST" ->
  form_value (r_form r) (str "username") user -> form_value (r_form r) (str "password") password ->
  (no_user (s_users s) user /\ serve s r = Ok (Reply 200 (ErrorBody (str "grant_error") (str "user record not found")))) \/
  exists u, first_user (s_users s) user u /\
    ((VerifyPassword u password = Ok tt /\ exists t, serve s r = Ok (Reply 200 (TokenBody t)) /\ t_subject t = user) \/
     (VerifyPassword u password = Err EPassword /\ serve s r = Ok (Reply 200 (ErrorBody (str "grant_error") (str "password incorrect")))) \/
     (~ good_salt (u_password u) /\ serve s r = Panic)).
Proof.
  intros s r user password P M U W. apply form_value_is in U, W. unfold serve, routeToken, postToken. rewrite P, M, !beqb_refl, U, W. cbv zeta.
  destruct (find_spec (s_users s) user) as [(u & F & FU)|[F N]]; rewrite F; [right|left; now split].
  exists u. split; [exact FU|]. destruct (VerifyPassword u password) as [[]|e| |] eqn:V.
  - left. split; [reflexivity|]. eexists. split; reflexivity.
  - right. left. enough (E : e = EPassword) by (rewrite E; split; reflexivity). unfold VerifyPassword in V. destruct (u_password u) as [|a [|b l]] eqn:Q; try discriminate.
    destruct (Fcrypt password [a; b]) as [x|e'| |] eqn:Fc; try discriminate.
    + destruct (beqb (trim_nul x) (a :: b :: l)); [discriminate|]. congruence.
    + exfalso. destruct (C22_answers_exactly password [a; b]) as [G1 G2].
      assert (D : good_salt [a; b] \/ ~ good_salt [a; b]).
      { destruct (b2n a <? 128) eqn:A; [destruct (b2n b <? 128) eqn:B|].
        - left. exists a, b, []. split; [reflexivity|]. split; lia.
        - right. intros (x & y & l' & [= <- <- _] & X & Y). lia.
        - right. intros (x & y & l' & [= <- <- _] & X & Y). lia. }
      destruct D as [D|D]; [destruct (G1 D) as [x X]|pose proof (G2 D) as X]; congruence.
  - right. right. split; [|reflexivity]. now apply C23_panics_exactly in V.
  - exfalso. unfold VerifyPassword in V. destruct (u_password u) as [|a [|b l]] eqn:Q; try discriminate.
    destruct (Fcrypt password [a; b]) as [x|e'| |] eqn:Fc; try discriminate.
    + destruct (beqb (trim_nul x) (a :: b :: l)); discriminate.
    + destruct (C22_answers_exactly password [a; b]) as [G1 G2].
      assert (D : good_salt [a; b] \/ ~ good_salt [a; b]).
      { destruct (b2n a <? 128) eqn:A; [destruct (b2n b <? 128) eqn:B|].
        - left. exists a, b, []. split; [reflexivity|]. split; lia.
        - right. intros (x & y & l' & [= <- <- _] & X & Y). lia.
        - right. intros (x & y & l' & [= <- <- _] & X & Y). lia. }
      destruct D as [D|D]; [destruct (G1 D) as [x X]|pose proof (G2 D) as X]; congruence.
Qed.
Print Assumptions C36_answers_exactly.

(** For a stored crypt(3) hash the condition is the equation of crypt(3). *)
Theorem C36_token_iff_crypt3 : forall s user password u v w rest, first_user (s_users s) user u ->
  v < 64 -> w < 64 -> u_password u = letter v :: letter w :: rest ->
  ((exists t, serve s (post_token user password) = Ok (Reply 200 (TokenBody t))) <-> crypt3 password v w = u_password u).
Proof.
  intros s user password u v w rest F V W Q. destruct (C23_accepts_crypt3 u password v w rest V W Q) as [CA _].
  assert (CA' : crypt3 password v w = u_password u <-> VerifyPassword u password = Ok tt) by (split; [intros H; apply CA; now symmetry|intros H; apply CA in H; now symmetry]).
  clear CA. generalize dependent (crypt3 password v w). intros h CA. rewrite CA. clear CA.
  assert (E : serve s (post_token user password) = postToken s (post_token user password)) by reflexivity.
  rewrite E. unfold postToken. change (FormValue (r_form (post_token user password)) (str "username")) with user.
  change (FormValue (r_form (post_token user password)) (str "password")) with password. cbv zeta.
  rewrite (first_user_find _ _ _ F). destruct (VerifyPassword u password) as [[]|e| |]; split; intros H; try discriminate; try (destruct H; discriminate); eauto.
Qed.
Print Assumptions C36_token_iff_crypt3.

(** The full statement is false: an unused slot of the user table has the empty user
    id and no password, and asking for a token with an empty user name panics. *)
Definition C36_statement : Prop := forall s r,
  r_path r = str "/v1/token" -> r_method r = str "POST" -> exists rep, serve s r = Ok rep.
Theorem C36_always_answers_refuted : ~ C36_statement.
Proof.
  intros H. destruct C23_never_panics_refuted as (u & E & V).
  destruct (H (Server [u] []) (post_token [] [])) as [rep R]; [reflexivity|reflexivity|].
  assert (X : u_userid u = []). { vm_compute in E. apply Ok_inj in E. now rewrite <- E. }
  change (serve (Server [u] []) (post_token [] [])) with (postToken (Server [u] []) (post_token [] [])) in R. unfold postToken in R. cbv zeta in R.
  change (FormValue (r_form (post_token [] [])) (str "username")) with (@nil byte) in R. cbn [s_users findUserecByID] in R.
  rewrite X, beqb_refl, V in R. discriminate.
Qed.
Print Assumptions C36_always_answers_refuted.

(** Started on a home directory, the service knows exactly the slots of the user
    and board files, in order; a missing file counts as an empty one. *)
Lemma load_users cd w wd rp od fuel : sane w -> holds_file w wd Passwds rp od -> (length (old_or_empty od) < fuel)%nat ->
  exists w' o l ss, run (ReadUserRecords cd fuel wd) w = (w', o) /\ table_of o = Ok l /\ sane w' /\ same_files w w' /\
    slots 512 (old_or_empty od) ss /\ Forall2 (userec_decoded cd) ss l.
Proof.
  intros S (p & E & N & D & L) Hf. unfold ReadUserRecords. rewrite run_pbind. unfold lift. cbn [object_path] in E. rewrite E. cbn [run].
  unfold OpenUserecFile. destruct od as [d|]; cbn [option_map old_or_empty] in *.
  - destruct (open_records_file 512 (UnmarshalUserec cd) false false fuel w p rp d) as (w' & l & R & G & S' & SF & FD); auto; [reflexivity| |].
    { intros b Lb. destruct (userec_decode cd b) as (x & E' & _); [lia|eauto]. }
    exists w', (Ok l), l, (cut 512 d). split; [exact R|]. split; [reflexivity|]. split; [exact S'|]. split; [exact SF|].
    split; [exact (cut_slots 512 d eq_refl)|]. apply (decode_slots _ (UnmarshalUserec cd)); [reflexivity| |exact G]. intros s Ls. apply userec_decode. unfold lenN. lia.
  - exists w, (Err (ESys (missing w rp))), [], []. rewrite (open_records_missing _ _ _ _ _ w p rp N L). split; [reflexivity|]. split; [reflexivity|].
    split; [exact S|]. split; [split; auto|]. split; [split; [constructor|exists 0%nat; split; [reflexivity|lia]]|constructor].
Qed.
Lemma load_boards cd w wd rp od fuel : sane w -> holds_file w wd Boards rp od -> (length (old_or_empty od) < fuel)%nat ->
  exists w' o l ss, run (ReadBoardRecords cd fuel wd) w = (w', o) /\ table_of o = Ok l /\ sane w' /\ same_files w w' /\
    slots 256 (old_or_empty od) ss /\ Forall2 (board_decoded cd) ss l.
Proof.
  intros S (p & E & N & D & L) Hf. unfold ReadBoardRecords. rewrite run_pbind. unfold lift. cbn [object_path] in E. rewrite E. cbn [run].
  unfold OpenBoardHeaderFile. change BoardHeaderRecordLength with 256. destruct od as [d|]; cbn [option_map old_or_empty] in *.
  - destruct (open_records_file 256 (UnmarshalBoardHeader cd) false false fuel w p rp d) as (w' & l & R & G & S' & SF & FD); auto; [reflexivity| |].
    { intros b Lb. destruct (board_decode cd b) as (x & E' & _); [lia|eauto]. }
    exists w', (Ok l), l, (cut 256 d). split; [exact R|]. split; [reflexivity|]. split; [exact S'|]. split; [exact SF|].
    split; [exact (cut_slots 256 d eq_refl)|]. apply (decode_slots _ (UnmarshalBoardHeader cd)); [reflexivity| |exact G]. intros s Ls. apply board_decode. unfold lenN. lia.
  - exists w, (Err (ESys (missing w rp))), [], []. rewrite (open_records_missing _ _ _ _ _ w p rp N L). split; [reflexivity|]. split; [reflexivity|].
    split; [exact S|]. split; [split; auto|]. split; [split; [constructor|exists 0%nat; split; [reflexivity|lia]]|constructor].
Qed.
Theorem C36_tables_loaded : forall cd w wd rp od rb ob fuel,
  sane w -> holds_file w wd Passwds rp od -> holds_file w wd Boards rb ob ->
  (length (old_or_empty od) < fuel)%nat -> (length (old_or_empty ob) < fuel)%nat ->
  exists w' s us bs, run (start cd fuel wd) w = (w', Ok s) /\ same_files w w' /\
    slots 512 (old_or_empty od) us /\ Forall2 (userec_decoded cd) us (s_users s) /\
    slots 256 (old_or_empty ob) bs /\ Forall2 (board_decoded cd) bs (s_boards s).
Proof.
  intros cd w wd rp od rb ob fuel S HU HB LU LB. destruct (load_users cd w wd rp od fuel S HU LU) as (w1 & o1 & l1 & s1 & R1 & T1 & S1 & F1 & C1 & D1).
  assert (HB' : holds_file w1 wd Boards rb ob).
  { destruct HB as (p & E & [P N] & D & L), F1 as [F0 F1]. exists p. split; [exact E|]. split; [split; [exact P|now rewrite F0]|]. unfold has_dir in *. now rewrite !F1. }
  destruct (load_boards cd w1 wd rb ob fuel S1 HB' LB) as (w2 & o2 & l2 & s2 & R2 & T2 & S2 & F2 & C2 & D2).
  exists w2, (Server l1 l2), s1, s2. split; [|split; [|split; [|split; [|split]]]]; try assumption.
  - unfold start. rewrite run_bind, R1, T1. rewrite run_bind, R2, T2. reflexivity.
  - destruct F1 as [A1 B1], F2 as [A2 B2]. split; [congruence|]. intros q. now rewrite B2, B1.
Qed.
Print Assumptions C36_tables_loaded.

Definition web_user : Userec :=
  MkUserec 1 (str "SYSOP") (str "real") (str "nick") (str "bhwvOJtfT1TAI") 0 0 3 4 0 1600000000 (str "127.0.0.1") 5
    [] [] [] false 0 0 false 0 [] 0 0 0 0 0 0 0 0 0 0 0 0 0 0 0 0 0 0 0 0 0 0 0 0 0 [] 0 0 0 0.
Definition web_server : server := Server [sample_user; web_user; web_user] [].
Example C36_nonvacuous :
  first_user (s_users web_server) (str "SYSOP") web_user /\
  u_password web_user = letter 39 :: letter 45 :: skipn 2 (u_password web_user) /\
  serve web_server (post_token (str "SYSOP") (str "123123")) = Ok (Reply 200 (TokenBody (Token 1800 (str "SYSOP")))) /\
  serve web_server (post_token (str "SYSOP") (str "123124")) = Ok (Reply 200 (ErrorBody (str "grant_error") (str "password incorrect"))) /\
  serve web_server (post_token (str "nobody") (str "123123")) = Ok (Reply 200 (ErrorBody (str "grant_error") (str "user record not found"))).
Proof.
  split; [|vm_compute; repeat split]. exists [sample_user], [web_user]. split; [reflexivity|]. split; [reflexivity|]. constructor; [discriminate|constructor].
Qed.

(** ** C37 *)
(** The full statement, for any way [parse] of reading tokens that reads none from
    the empty string: information is given only to a bearer of a valid token. *)
Definition C37_statement (parse : bytes -> option token) : Prop := forall s r now i,
  serve s r = Ok (Reply 200 (InformationBody i)) ->
  exists t, parse (getTokenFromRequest r) = Some t /\ valid t (i_user_id i) now.
Theorem C37_token_required_refuted : forall parse, parse [] = None -> ~ C37_statement parse.
Proof.
  intros parse P H.
  specialize (H web_server (Request (str "GET") (str "/v1/users/SYSOP/information") [] []) 0%Z (information_of web_user)).
  destruct H as (t & Q & _); [vm_compute; reflexivity|]. change (getTokenFromRequest _) with (@nil byte) in Q. congruence.
Qed.
Print Assumptions C37_token_required_refuted.
(** No endpoint looks at the Authorization header. *)
Theorem C37_authorization_ignored : forall s r a, serve s (with_authorization r a) = serve s r.
Proof. reflexivity. Qed.
Print Assumptions C37_authorization_ignored.
(** Every token issued expired half an hour after the epoch. *)
Theorem C37_tokens_expired_refuted : forall s r t uid now, serve s r = Ok (Reply 200 (TokenBody t)) -> (1800 < now)%Z -> ~ valid t uid now.
Proof.
  intros s r t uid now H L [_ V].
  assert (X : t_expires t = 1800%Z).
  { destruct (C36_token_only_with_password s r _ t H eq_refl) as (P & M & _). unfold serve, routeToken, postToken in H. rewrite P, M, !beqb_refl in H. cbv zeta in H.
    destruct (findUserecByID (s_users s) (FormValue (r_form r) (str "username"))) as [u|e| |]; try discriminate.
    destruct (VerifyPassword u (FormValue (r_form r) (str "password"))) as [[]|e| |]; try discriminate. injection H as <-. reflexivity. }
  lia.
Qed.
Print Assumptions C37_tokens_expired_refuted.
(** What does hold: the information given is that of the first record with the user
    id in the path, a missing user gets an error, and nothing else is disclosed. *)
Theorem C37_information_exact_partial : (* missing: any check of the token *)
  forall s r uid, r_method r = str "GET" -> ~ In "/"%byte uid ->
  (r_path r = str "/v1/users/" ++ uid ++ str "/information" \/ exists rest, r_path r = str "/v1/users/" ++ uid ++ str "/information/" ++ rest) ->
  (exists u, first_user (s_users s) uid u /\ serve s r = Ok (Reply 200 (InformationBody
     (Information uid (u_nickname u) (u_realname u) (Z.of_N (u_numlogindays u)) (Z.of_N (u_numposts u)) (u_money u) (u_lastlogin u) (u_lasthost u) (u_lasthost u))))) \/
  (no_user (s_users s) uid /\ serve s r = Ok (Reply 500 (ErrorBody (str "find_userrec_error") (str "get userrec for " ++ uid ++ str " failed")))).
Proof.
  intros s r uid M U P.
  assert (E : parseUserPath (r_path r) = Ok (uid, str "information")).
  { assert (I' : ~ In "/"%byte (str "information")) by no_nul.
    destruct P as [->|[rest ->]]; [exact (proj1 (proj2 (C50_user_and_item uid (str "information") [] U I')))|exact (proj2 (proj2 (C50_user_and_item uid (str "information") rest U I')))]. }
  assert (Q : exists q, r_path r = str "/v1/users/" ++ q) by (destruct P as [->|[rest ->]]; eauto).
  assert (V : serve s r = getUserInformation s r uid).
  { destruct Q as [q Q]. unfold serve. rewrite Q.
    rewrite !(proj2 (beqb_neq _ _)) by discriminate. change (HasPrefix (str "/v1/users/" ++ q) (str "/v1/classes/")) with false.
    rewrite (proj2 (has_prefix_spec _ (str "/v1/users/")) (ex_intro _ q eq_refl)). cbv iota. unfold routeUsers. rewrite M, beqb_refl.
    unfold getUsers. rewrite E, beqb_refl. reflexivity. }
  rewrite V. unfold getUserInformation, checkTokenPermission. destruct (find_spec (s_users s) uid) as [(u & F & FU)|[F N]]; rewrite F; [left|right; now split].
  exists u. split; [exact FU|]. unfold information_of. destruct FU as (_ & _ & _ & -> & _). reflexivity.
Qed.
Print Assumptions C37_information_exact_partial.
Example C37_nonvacuous :
  serve web_server (Request (str "GET") (str "/v1/users/SYSOP/information") (str "bearer x") []) =
    Ok (Reply 200 (InformationBody (Information (str "SYSOP") (str "nick") (str "real") 3 4 5 1600000000 (str "127.0.0.1") (str "127.0.0.1")))) /\
  serve web_server (Request (str "GET") (str "/v1/users/nobody/information") [] []) = Ok (Reply 500 (ErrorBody (str "find_userrec_error") (str "get userrec for nobody failed"))).
Proof. vm_compute. split; reflexivity. Qed.
(** The favourites endpoint discloses nothing; and no request other than those above
    is answered with information. *)
Theorem C37_information_only_by_path : forall s r rep i, serve s r = Ok rep -> content rep = InformationBody i ->
  r_method r = str "GET" /\ exists uid u, parseUserPath (r_path r) = Ok (uid, str "information") /\ first_user (s_users s) uid u /\ i_user_id i = uid.
Proof.
  intros s r rep i H C. unfold serve in H. destruct (beqb (r_path r) (str "/v1/token")).
  { exfalso. unfold routeToken in H. destruct (beqb (r_method r) (str "POST")); [|injection H as <-; discriminate]. unfold postToken in H. cbv zeta in H.
    destruct (findUserecByID _ _) as [u|e| |]; try discriminate; [|injection H as <-; discriminate].
    destruct (VerifyPassword _ _) as [[]|e| |]; try discriminate; injection H as <-; discriminate. }
  destruct (beqb (r_path r) (str "/v1/boards")).
  { exfalso. unfold routeBoards, getBoards in H. destruct (beqb (r_method r) (str "GET")); injection H as <-; discriminate. }
  destruct (HasPrefix (r_path r) (str "/v1/classes/")).
  { exfalso. unfold routeClasses in H. destruct (beqb (r_method r) (str "GET")); injection H as <-; discriminate. }
  destruct (HasPrefix (r_path r) (str "/v1/users/")); [|injection H as <-; discriminate].
  unfold routeUsers in H. destruct (beqb (r_method r) (str "GET")) eqn:M; [|injection H as <-; discriminate]. apply beqb_eq in M. split; [exact M|].
  unfold getUsers in H. destruct (parseUserPath (r_path r)) as [[u it]|e| |]; try discriminate.
  destruct (beqb it (str "information")) eqn:I'.
  2: { destruct (beqb it (str "favorites")); injection H as <-; discriminate. }
  apply beqb_eq in I'. subst it. unfold getUserInformation, checkTokenPermission in H.
  destruct (find_spec (s_users s) u) as [(v & F & FU)|[F N]]; rewrite F in H; injection H as <-; [|discriminate].
  exists u, v. split; [reflexivity|]. split; [exact FU|]. cbn [content] in C. injection C as <-. destruct FU as (_ & _ & _ & <- & _). reflexivity.
Qed.
Print Assumptions C37_information_only_by_path.
