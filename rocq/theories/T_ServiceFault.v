(** * Property theorems: C72 (the web service started on a disk that fails) *)
From Coq Require Import Lia ZifyBool ZifyNat ZifyN.
From Verif Require Import M_Base M_Sys M_Path M_Userec M_Board M_Verify M_FileOps M_DB M_Web M_Mux M_Json M_Jwt M_Form M_Service M_Fault.
From Verif Require Import S_World S_Path S_Text S_Layout S_Crypt S_Userec S_Board S_Store S_Fault S_Web S_Mux S_Json S_Jwt S_Form S_Service S_ServiceFault S_Example S_ExWorld.
From Verif Require Import P_Base P_Form P_Read P_Records P_Crash P_CrashCalls P_Pool P_Json P_Scan P_BbsTool P_Fault T_Crypt T_Store T_Web T_Mux T_Json T_Jwt T_Form T_Service T_Fault.
Open Scope N_scope.

(** The records read from zero bytes. *)
Definition blank_user (cd : codec) : Userec -> Prop := userec_decoded cd (repeat x00 512).
Definition blank_board (cd : codec) : BoardHeader -> Prop := board_decoded cd (repeat x00 256).

(** The service, started on a disk that fails now and then with a home directory with
    these users and boards, has answered these requests. *)
Definition served_badly (old : bool) (zone : Z -> Z) (sign : bytes -> bytes) (cd : codec) (w : world) (us : list Userec) (bs : list BoardHeader)
    (requests : list (world * raw)) (answers : list response) : Prop :=
  sane w /\ users_of cd w service_home us /\ boards_of cd w service_home bs /\ good_zone zone /\
  exists fuel w' s, frun (start cd fuel service_home) w w' (Ok s) /\ answers = map (fun r => respond old zone sign s (snd r)) requests.

Lemma filled_of {A} (D : bytes -> A -> Prop) (DF : forall d a a', D d a -> D d a' -> a' = a) z ss ss' : padded z ss ss' -> forall l l', Forall2 D ss l -> Forall2 D ss' l' -> filled (D z) l l'.
Proof.
  induction 1 as [|s ss ss' P IH|ss ss' P IH]; intros l l' F F'.
  - inversion F. inversion F'. constructor.
  - inversion F as [|? a ? ? Da Fa]. inversion F' as [|? a' ? ? Da' Fa']. subst. rewrite (DF _ _ _ Da Da'). constructor. now apply IH.
  - inversion F' as [|? a' ? ? Da' Fa']. subst. constructor 3; [exact Da'|]. now apply IH.
Qed.

Lemma same_holds w w1 wd o rp od : same_files w w1 -> holds_file w wd o rp od -> holds_file w1 wd o rp od.
Proof.
  intros [F0 F1] (p & E & [P N] & D & L). exists p. split; [exact E|]. split; [split; [exact P|now rewrite F0]|]. unfold has_dir in *. now rewrite !F1.
Qed.
Lemma load_users_badly cd w wd us fuel w' o : sane w -> users_of cd w wd us -> frun (ReadUserRecords cd fuel wd) w w' o -> o <> Diverge ->
  same_files w w' /\ exists l, table_of o = Ok l /\ table_read (blank_user cd) us l.
Proof.
  intros S (rp & od & ss & (p & E & N & HD & L) & Sl & F) H ND. unfold ReadUserRecords in H. cbn [object_path] in E. rewrite E in H. change (frun (OpenUserecFile cd fuel p) w w' o) in H.
  split; [refine (frun_reader _ _ _ _ _ H); apply reader_open_records|].
  assert (DD : forall s, N.of_nat (length s) = 512 -> exists a, UnmarshalUserec cd s = Ok a /\ userec_decoded cd s a) by (intros s Ls; apply userec_decode; unfold lenN; lia).
  destruct (lookup_listing (userec_decoded cd) _ UserList 512 false fuel p w w' o rp od eq_refl DD S N L HD H ND) as [[-> ->]|[->|(d & l & -> & (s1 & s2 & S1 & P & F2) & ->)]].
  - exists []. split; [reflexivity|now left].
  - exists []. split; [reflexivity|now left].
  - exists l. split; [reflexivity|]. right. cbn [old_or_empty] in Sl. assert (s1 = ss) by (apply (slots_unique 512 d); [lia|exact S1|exact Sl]). subst s1.
    apply (filled_of (userec_decoded cd)) with (ss := ss) (ss' := s2); [|exact P|exact F|exact F2]. intros x a a' A A'. exact (userec_decoded_fun cd x a' a A' A).
Qed.
Lemma load_boards_badly cd w wd bs fuel w' o : sane w -> boards_of cd w wd bs -> frun (ReadBoardRecords cd fuel wd) w w' o -> o <> Diverge ->
  same_files w w' /\ exists l, table_of o = Ok l /\ table_read (blank_board cd) bs l.
Proof.
  intros S (rp & od & ss & (p & E & N & HD & L) & Sl & F) H ND. unfold ReadBoardRecords in H. cbn [object_path] in E. rewrite E in H. change (frun (OpenBoardHeaderFile cd fuel p) w w' o) in H.
  split; [refine (frun_reader _ _ _ _ _ H); apply reader_open_records|].
  assert (DD : forall s, N.of_nat (length s) = 256 -> exists a, UnmarshalBoardHeader cd s = Ok a /\ board_decoded cd s a) by (intros s Ls; apply board_decode; unfold lenN; lia).
  destruct (lookup_listing (board_decoded cd) _ BoardList 256 false fuel p w w' o rp od eq_refl DD S N L HD H ND) as [[-> ->]|[->|(d & l & -> & (s1 & s2 & S1 & P & F2) & ->)]].
  - exists []. split; [reflexivity|now left].
  - exists []. split; [reflexivity|now left].
  - exists l. split; [reflexivity|]. right. cbn [old_or_empty] in Sl. assert (s1 = ss) by (apply (slots_unique 256 d); [lia|exact S1|exact Sl]). subst s1.
    apply (filled_of (board_decoded cd)) with (ss := ss) (ss' := s2); [|exact P|exact F|exact F2]. intros x a a' A A'. exact (board_decoded_fun cd x a' a A' A).
Qed.

(** Whatever fails, the service that is done with reading starts; it has changed nothing,
    and each of its two tables is empty, or complete with blank entries in between. *)
Theorem C72_starts : forall cd w us bs fuel w' o,
  sane w -> users_of cd w service_home us -> boards_of cd w service_home bs ->
  frun (start cd fuel service_home) w w' o -> o <> Diverge ->
  exists us' bs', o = Ok (Server us' bs') /\ same_files w w' /\ table_read (blank_user cd) us us' /\ table_read (blank_board cd) bs bs'.
Proof.
  intros cd w us bs fuel w' o S U B H ND. unfold start in H. apply frun_bind in H. destruct H as (w1 & o1 & H1 & H).
  assert (N1 : o1 <> Diverge) by (intros ->; cbn [table_of frun] in H; destruct H as [_ ->]; now apply ND).
  destruct (load_users_badly cd w _ us fuel w1 o1 S U H1 N1) as (F1 & l1 & T1 & R1). rewrite T1 in H.
  apply frun_bind in H. destruct H as (w2 & o2 & H2 & H).
  assert (N2 : o2 <> Diverge) by (intros ->; cbn [table_of frun] in H; destruct H as [_ ->]; now apply ND).
  assert (B1 : boards_of cd w1 service_home bs) by (destruct B as (rp & od & ss & B & X); exists rp, od, ss; split; [now apply (same_holds w)|exact X]).
  destruct (load_boards_badly cd w1 _ bs fuel w2 o2 (frun_sane _ _ _ _ S H1) B1 H2 N2) as (F2 & l2 & T2 & R2). rewrite T2 in H. cbn [frun] in H. destruct H as [-> ->].
  exists l1, l2. split; [reflexivity|]. split; [now apply (same_files_trans _ w1)|]. now split.
Qed.
Print Assumptions C72_starts.

(** Looking for a user in such a table. *)
Lemma blank_names cd u : blank_user cd u -> u_userid u = [] /\ u_password u = [].
Proof.
  assert (Z : forall off len s, f_cstr (repeat x00 512) off len s -> s = []).
  { intros off len s (v & (a & b & E & _) & N & C). destruct s as [|c s]; [reflexivity|]. exfalso. apply N. left.
    apply (repeat_spec 512). rewrite E. apply in_app_iff. right. apply in_app_iff. left. destruct C as [->|(t & ->)]; now left. }
  intros (_ & I & _ & _ & P & _). split; [exact (Z _ _ _ I)|exact (Z _ _ _ P)].
Qed.
Lemma filled_first cd us us' : filled (blank_user cd) us us' -> forall user u, first_user us' user u ->
  first_user us user u \/ (user = [] /\ u_password u = []).
Proof.
  induction 1 as [|a l l' F IH|a l l' Ba F IH]; intros user u (b & t & E & U & N).
  - destruct b; discriminate E.
  - destruct b as [|x b]; injection E as -> E.
    + left. exists [], l. split; [reflexivity|]. now split.
    + inversion N as [|? ? Nx Nb]. subst. destruct (IH (u_userid u) u) as [(b' & t' & -> & _ & N')|X]; [exists b, t; now split| |now right].
      left. exists (x :: b'), t'. split; [reflexivity|]. split; [reflexivity|]. now constructor.
  - destruct b as [|x b]; injection E as -> E.
    + destruct (blank_names cd u Ba) as [X Y]. right. rewrite X in U. now split.
    + inversion N as [|? ? Nx Nb]. subst. apply IH. exists b, t. now split.
Qed.
Lemma read_first cd us us' user u : table_read (blank_user cd) us us' -> first_user us' user u -> first_user us user u \/ (user = [] /\ u_password u = []).
Proof. intros [->|F] H; [destruct H as (b & t & E & _); destruct b; discriminate E|exact (filled_first cd us us' F user u H)]. Qed.

Lemma badly_nth old zone sign cd w us bs requests answers i w' r : served_badly old zone sign cd w us bs requests answers -> nth_error requests i = Some (w', r) ->
  exists us' bs', nth_error answers i = Some (respond old zone sign (Server us' bs') r) /\ table_read (blank_user cd) us us' /\ table_read (blank_board cd) bs bs'.
Proof.
  intros (S & U & B & _ & fuel & w2 & s & H & ->) E. destruct (C72_starts cd w us bs fuel w2 (Ok s) S U B H ltac:(discriminate)) as (us' & bs' & Q & _ & RU & RB).
  apply Ok_inj in Q. subst s. exists us', bs'. split; [|now split]. rewrite nth_error_map, E. reflexivity.
Qed.

(** What a user is told is what the file says, or that there is no such user. *)
Theorem C72_information : forall old zone sign cd w us bs requests answers i w' r uid query,
  served_badly old zone sign cd w us bs requests answers -> nth_error requests i = Some (w', r) ->
  w_method r = str "GET" -> element uid -> addresses (w_target r) (str "/v1/users/" ++ uid ++ str "/information") query ->
  (exists u body, first_user us uid u /\ nth_error answers i = Some (Response 200 body) /\ tells_user u body) \/
  (exists body, nth_error answers i = Some (Response 500 body) /\ tells_error (str "find_userrec_error") (str "get userrec for " ++ uid ++ str " failed") body).
Proof.
  intros old zone sign cd w us bs requests answers i w' r uid query H E M U A. destruct (badly_nth _ _ _ _ _ _ _ _ _ _ _ _ H E) as (us' & bs' & -> & RU & _). destruct H as (S & HU & _ & Z & _).
  pose proof U as (NE & _ & _ & NS).
  set (path := str "/v1/users/" ++ uid ++ str "/information") in *. set (bf := if takes_body (w_method r) then parsePostForm old r else []).
  set (q := Request (w_method r) path (w_authorization r) (bf ++ ParseQuery old query)).
  assert (AR : arrive old r = Some q).
  { apply C69_arrives_exactly. exists path, query, bf, (ParseQuery old query). split; [exact A|]. split; [now apply body_fields_iff|]. split; [now apply parse_exact|reflexivity]. }
  assert (HD : handle (Server us' bs') q = omap Answer (serve (Server us' bs') q)) by exact (C61_information_reachable (Server us' bs') q uid M U eq_refl).
  unfold respond. rewrite AR, HD.
  destruct (find_spec us' uid) as [(u & _ & F)|[_ N]]; [left|right].
  - destruct (read_first cd us us' uid u RU F) as [FU|[X _]]; [|contradiction].
    destruct (C60_information zone (SignedString sign) (Server us' bs') q uid u Z M NS (or_introl eq_refl) F (user_decoded _ _ _ _ _ _ HU FU)) as (rep & R & ST & SH).
    exists u, (body_text zone (SignedString sign) (content rep)). rewrite R. cbn [omap obind]. rewrite ST. split; [exact FU|]. split; [reflexivity|].
    unfold tells_user. destruct FU as (_ & _ & _ & -> & _). exact SH.
  - destruct (C60_user_missing zone (SignedString sign) (Server us' bs') q uid M NS (or_introl eq_refl) N) as (rep & R & ST & SH).
    exists (body_text zone (SignedString sign) (content rep)). rewrite R. cbn [omap obind]. rewrite ST. split; [reflexivity|exact SH].
Qed.
Print Assumptions C72_information.

(** A token goes only to a user of the file, for a password with the hash in the file;
    "password incorrect" is only said of a password that is not. *)
Theorem C72_token : forall old zone sign cd w us bs requests answers i w' r query fs user password,
  served_badly old zone sign cd w us bs requests answers -> nth_error requests i = Some (w', r) ->
  w_method r = str "POST" -> addresses (w_target r) (str "/v1/token") query -> as_form r -> sends (w_body r) fs ->
  In (str "username") (map fst fs) -> In (str "password") (map fst fs) ->
  form_value fs (str "username") user -> form_value fs (str "password") password ->
  (forall u, first_user us user u -> exists v w rest, v < 64 /\ w < 64 /\ u_password u = letter v :: letter w :: rest) ->
  (user = [] /\ nth_error answers i = Some Closed) \/
  exists body, nth_error answers i = Some (Response 200 body) /\
  ((exists u v w rest, first_user us user u /\ v < 64 /\ w < 64 /\ u_password u = letter v :: letter w :: rest /\ crypt3 password v w = u_password u /\ brings_token user body) \/
   (exists u v w rest, first_user us user u /\ v < 64 /\ w < 64 /\ u_password u = letter v :: letter w :: rest /\ crypt3 password v w <> u_password u /\ tells_error (str "grant_error") (str "password incorrect") body) \/
   tells_error (str "grant_error") (str "user record not found") body).
Proof.
  intros old zone sign cd w us bs requests answers i w' r query fs user password H E M A F S IU IP VU VP PW. destruct (badly_nth _ _ _ _ _ _ _ _ _ _ _ _ H E) as (us' & bs' & -> & RU & _).
  set (q := Request (w_method r) (str "/v1/token") (w_authorization r) (fs ++ ParseQuery old query)).
  assert (AR : arrive old r = Some q).
  { apply C69_arrives_exactly. exists (str "/v1/token"), query, fs, (ParseQuery old query). split; [exact A|]. split.
    - split; [intros _; now apply sends_fields|intros N; contradiction].
    - split; [now apply parse_exact|reflexivity]. }
  assert (QU : form_value (r_form q) (str "username") user) by exact (form_value_app _ _ _ _ VU IU).
  assert (QP : form_value (r_form q) (str "password") password) by exact (form_value_app _ _ _ _ VP IP).
  assert (HD : handle (Server us' bs') q = omap Answer (serve (Server us' bs') q)) by exact (token_direct (Server us' bs') q eq_refl M).
  unfold respond. rewrite AR, HD.
  assert (ER : forall d, shows (body_text zone (SignedString sign) (ErrorBody (str "grant_error") d)) (is_object [("error", is_text (str "grant_error")); ("error_description", is_text d)]%string)).
  { intros d. unfold body_text. cbn [body_value]. apply shows_value. object. member; [apply shows_text|]. member; [apply shows_text|]. constructor. }
  destruct (C36_answers_exactly (Server us' bs') q user password eq_refl M QU QP) as [[N R]|(u & FU' & R)]; cbn [s_users] in *.
  - rewrite R. right. eexists. split; [reflexivity|]. right. right. apply ER.
  - destruct (read_first cd us us' user u RU FU') as [FU|[X Y]].
    2: { left. split; [exact X|]. assert (V : VerifyPassword u password = Panic) by (unfold VerifyPassword; now rewrite Y).
         destruct R as [(Q & _)|[(Q & _)|(_ & R)]]; [rewrite V in Q; discriminate Q|rewrite V in Q; discriminate Q|]. now rewrite R. }
    right. destruct (PW u FU) as (v & x & rest & V & X & L). destruct (C23_accepts_crypt3 u password v x rest V X L) as [CA CB].
    assert (OK : VerifyPassword u password = Ok tt -> crypt3 password v x = u_password u) by (intros Q; symmetry; now apply CA).
    assert (KO : VerifyPassword u password = Err EPassword -> crypt3 password v x <> u_password u) by (intros Q Y; apply CB in Q; now symmetry in Y).
    clear CA CB. destruct R as [(Q & t & R & T)|[(Q & R)|(Q & R)]].
    + pose proof (C67_tokens_name_their_user sign (Server us' bs') q _ t user R eq_refl QU) as (hd & pl & sg & nm & CP & _ & _ & _ & RA & PT).
      rewrite R. eexists. split; [reflexivity|]. left. exists u, v, x, rest. split; [exact FU|]. split; [exact V|]. split; [exact X|]. split; [exact L|]. split; [now apply OK|].
      exists (SignedString sign t), hd, pl, (sign sg). split; [|split; [exact CP|exists nm; now split]].
      unfold body_text. cbn [content body_value]. apply shows_value. object. member; [apply shows_text|]. member; [apply shows_text|]. constructor.
    + rewrite R. eexists. split; [reflexivity|]. right. left. exists u, v, x, rest. split; [exact FU|]. split; [exact V|]. split; [exact X|]. split; [exact L|]. split; [now apply KO|]. apply ER.
    + exfalso. apply Q. rewrite L. exists (letter v), (letter x), rest. split; [reflexivity|]. clear - V X. split; apply letter_ascii.
Qed.
Print Assumptions C72_token.

(** The boards shown are none, or those of the file with blank ones in between. *)
Theorem C72_boards : forall old zone sign cd w us bs requests answers i w' r query,
  served_badly old zone sign cd w us bs requests answers -> nth_error requests i = Some (w', r) ->
  w_method r = str "GET" -> addresses (w_target r) (str "/v1/boards") query ->
  exists bs' body, table_read (blank_board cd) bs bs' /\ nth_error answers i = Some (Response 200 body) /\ shows body (is_object [("data", is_array is_board bs')]%string).
Proof.
  intros old zone sign cd w us bs requests answers i w' r query H E M A. destruct (badly_nth _ _ _ _ _ _ _ _ _ _ _ _ H E) as (us' & bs' & -> & _ & RB). destruct H as (S & _ & HB & Z & _).
  set (bf := if takes_body (w_method r) then parsePostForm old r else []). set (q := Request (w_method r) (str "/v1/boards") (w_authorization r) (bf ++ ParseQuery old query)).
  assert (AR : arrive old r = Some q).
  { apply C69_arrives_exactly. exists (str "/v1/boards"), query, bf, (ParseQuery old query). split; [exact A|]. split; [now apply body_fields_iff|]. split; [now apply parse_exact|reflexivity]. }
  assert (HD : handle (Server us' bs') q = omap Answer (serve (Server us' bs') q)).
  { apply (C61_plain_paths_answered (Server us' bs') q (str "/v1/boards")); [change (r_method q) with (w_method r); rewrite M; discriminate|exact (spelled (str "/v1/boards"))|reflexivity]. }
  assert (D : Forall (fun b => exists cd d, board_decoded cd d b) bs).
  { destruct HB as (rp & od & ss & _ & _ & F). clear - F. induction F as [|x b ss l H F IH]; constructor; [now exists cd, x|exact IH]. }
  assert (D' : Forall (fun b => exists cd d, board_decoded cd d b) bs').
  { destruct RB as [->|F]; [constructor|]. clear - D F. induction F as [|a l l' F IH|a l l' Ba F IH]; [constructor| |].
    - inversion D. subst. constructor; [assumption|now apply IH].
    - constructor; [now exists cd, (repeat x00 256)|now apply IH]. }
  destruct (C60_boards zone (SignedString sign) (Server us' bs') q Z eq_refl M D') as (rep & R & ST & SH).
  exists bs', (body_text zone (SignedString sign) (content rep)). unfold respond. rewrite AR, HD, R. cbn [omap obind]. rewrite ST. split; [exact RB|]. split; [reflexivity|exact SH].
Qed.
Print Assumptions C72_boards.

(** A request is refused exactly if its address spells no path, and only a request for a
    token can end without an answer. *)
Theorem C72_unanswered : forall old zone sign cd w us bs requests answers i w' r,
  served_badly old zone sign cd w us bs requests answers -> nth_error requests i = Some (w', r) ->
  (nth_error answers i = Some BadRequest <-> forall path query, ~ addresses (w_target r) path query) /\
  (nth_error answers i = Some Closed -> w_method r = str "POST" /\ exists query, addresses (w_target r) (str "/v1/token") query).
Proof.
  intros old zone sign cd w us bs requests answers i w' r H E. destruct (badly_nth _ _ _ _ _ _ _ _ _ _ _ _ H E) as (us' & bs' & -> & _). rewrite <- (C69_refused_exactly old r).
  unfold respond. destruct (arrive old r) as [q|] eqn:AR.
  - split; [split; [|discriminate]; destruct (handle _ q) as [[|]| | |]; discriminate|].
    intros C. apply C69_arrives_exactly in AR. destruct AR as (path & query & bf & qf & A & _ & _ & ->). set (q := Request _ _ _ _) in *.
    destruct (C61_panics_only_for_tokens (Server us' bs') q) as [[a X]|(X & M & P)]; [rewrite X in C; destruct a; discriminate C|].
    split; [exact M|]. exists query. change path with (r_path q) in A. now rewrite P in A.
  - split; [split; reflexivity|discriminate].
Qed.
Print Assumptions C72_unanswered.

(** What failed at the start is not tried again. *)
Theorem C72_never_read_again : forall old zone sign cd w us bs requests requests' answers,
  map snd requests' = map snd requests -> served_badly old zone sign cd w us bs requests answers -> served_badly old zone sign cd w us bs requests' answers.
Proof.
  intros old zone sign cd w us bs requests requests' answers E (S & U & B & Z & fuel & w' & s & H & ->). split; [exact S|]. split; [exact U|]. split; [exact B|]. split; [exact Z|].
  exists fuel, w', s. split; [exact H|]. rewrite <- !(map_map snd (respond old zone sign _)). now rewrite E.
Qed.
Print Assumptions C72_never_read_again.

(** False: "the service serves the users that were in its files when it was started".  The
    password file could not be opened at that moment; the program prints the error, goes on,
    and knows nobody for as long as it runs. *)
Definition C72_statement : Prop := forall old zone sign cd w us bs requests answers i w' r uid query u,
  served_badly old zone sign cd w us bs requests answers -> nth_error requests i = Some (w', r) ->
  w_method r = str "GET" -> element uid -> addresses (w_target r) (str "/v1/users/" ++ uid ++ str "/information") query -> first_user us uid u ->
  exists body, nth_error answers i = Some (Response 200 body) /\ tells_user u body.

Lemma service_no_boards hash : boards_of id_codec (service_world hash) service_home [].
Proof. exists (rp ["home"; "bbs"; ".BRD"]%string), (Some []), []. split; [apply service_boards|]. split; [|constructor]. apply (slots_concat 256 []); [lia|constructor]. Qed.
Definition ask (target : string) : raw := Raw (str "GET") (str target) [] [] [].
Lemma badly_with plan s sign u requests : users_of id_codec (service_world hash_before) service_home [u] ->
  snd (fault_at plan (start id_codec 10 service_home) (service_world hash_before)) = Ok s ->
  served_badly true taipei sign id_codec (service_world hash_before) [u] [] requests (map (fun r => respond true taipei sign s (snd r)) requests).
Proof.
  intros U E. split; [apply service_sane|]. split; [exact U|]. split; [apply service_no_boards|]. split; [exact taipei_good|].
  eexists _, _, s. split; [|reflexivity]. exact (fault_frun plan _ _ _ E).
Qed.
Theorem C72_forgotten_users_refuted : ~ C72_statement.
Proof.
  intros H. destruct (service_user hash_before (or_introl eq_refl)) as (u & U & _ & I & _).
  assert (E : snd (fault_at [Some 0%nat] (start id_codec 10 service_home) (service_world hash_before)) = Ok (Server [] [])) by (vm_compute; reflexivity).
  pose proof (badly_with _ _ (fun x => x) u [(service_world hash_before, ask "/v1/users/SYSOP/information")] U E) as B.
  assert (A : addresses (w_target (ask "/v1/users/SYSOP/information")) (str "/v1/users/" ++ str "SYSOP" ++ str "/information") []).
  { apply addresses_iff. split; [reflexivity|]. eexists. eexists. repeat split. }
  destruct (H _ _ _ _ _ _ _ _ _ 0%nat _ _ (str "SYSOP") _ u B eq_refl eq_refl ltac:(repeat split; try discriminate; no_nul) A (login_first u I)) as (body & N & _).
  cbn [map nth_error snd] in N. apply (f_equal (fun o => match o with Some (Response st _) => st | _ => 0 end)) in N. vm_compute in N. discriminate N.
Qed.
Print Assumptions C72_forgotten_users_refuted.

(** False: "the boards shown are those of the file": one read failed, and a board without a
    name is shown from then on. *)
Definition C72_boards_statement : Prop := forall old zone sign cd w us bs requests answers i w' r query body,
  served_badly old zone sign cd w us bs requests answers -> nth_error requests i = Some (w', r) ->
  w_method r = str "GET" -> addresses (w_target r) (str "/v1/boards") query -> nth_error answers i = Some (Response 200 body) ->
  shows body (is_object [("data", is_array is_board [])]%string) \/ shows body (is_object [("data", is_array is_board bs)]%string).
Definition shown (o : outcome server) : nat :=
  match omap (fun s => respond true taipei (fun x => x) s (ask "/v1/boards")) o with
  | Ok (Response 200 body) => match json_of (runes body) with Some (JObj [(_, JArr l)]) => length l | _ => 77 end
  | _ => 99
  end%nat.
Theorem C72_blank_board_refuted : ~ C72_boards_statement.
Proof.
  intros H. destruct (service_user hash_before (or_introl eq_refl)) as (u & U & _).
  set (o := snd (fault_at [None; None; None; None; Some 0%nat] (start id_codec 10 service_home) (service_world hash_before))).
  assert (X : shown o = 1%nat) by (vm_compute; reflexivity).
  destruct o as [s| | |] eqn:E; try discriminate X. subst o. unfold shown in X. cbn [omap obind] in X.
  destruct (respond true taipei (fun x => x) s (ask "/v1/boards")) as [|p|st body|] eqn:R; try discriminate X.
  destruct (N.eq_dec st 200) as [->|Ns]; [|exfalso; destruct st as [|p]; [discriminate X|]; repeat (destruct p as [p|p|]; try discriminate X); apply Ns; reflexivity].
  pose proof (badly_with _ _ (fun x => x) u [(service_world hash_before, ask "/v1/boards")] U E) as B. cbn [map snd] in B. rewrite R in B.
  assert (A : addresses (w_target (ask "/v1/boards")) (str "/v1/boards") []) by (apply addresses_iff; split; [reflexivity|]; eexists; eexists; repeat split).
  assert (Q : shows body (is_object [("data", is_array is_board [])]%string)) by (destruct (H _ _ _ _ _ _ _ _ _ 0%nat _ _ _ body B eq_refl eq_refl A eq_refl) as [Y|Y]; exact Y).
  destruct Q as (v & (t & T & J) & m & -> & F). apply in_utf8_runes in T. subst t. rewrite J in X.
  inversion F as [|? [k v] ? ? [K V] F']. subst. inversion F'. subst. destruct V as (l & V & F2). cbn [snd] in V. subst v. inversion F2. subst. discriminate X.
Qed.
Print Assumptions C72_blank_board_refuted.

(** False: "the service comes to listen": while reads fail, it goes on reading. *)
Definition C72_listens_statement : Prop := forall cd w us bs,
  sane w -> users_of cd w service_home us -> boards_of cd w service_home bs ->
  exists fuel, forall w' o, frun (start cd fuel service_home) w w' o -> o <> Diverge.
Lemma reads_forever {A} size (decode : bytes -> outcome A) a closes fd w fuel : decode (fill size []) = Ok a -> forall acc, frun (read_loop size decode false closes fuel fd acc) w w Diverge.
Proof.
  intros D. induction fuel as [|fuel IH]; intros acc; cbn [read_loop frun]; [now split|]. exists w, (RErr EIO). split; [right; cbn [fails]; now split|]. cbv zeta. rewrite D. apply IH.
Qed.
Theorem C72_listens_refuted : ~ C72_listens_statement.
Proof.
  intros H. destruct (service_user hash_before (or_introl eq_refl)) as (u & U & _).
  destruct (H id_codec _ _ _ (service_sane hash_before) U (service_no_boards hash_before)) as (fuel & N).
  destruct (userec_decode id_codec (fill 512 [])) as (b & D & _); [vm_compute; discriminate|].
  apply (N (fst (exec (Open (service_home ++ str "/.PASSWDS") O_RDONLY) (service_world hash_before))) Diverge); [|reflexivity].
  unfold start. refine (bind_frun _ _ _ _ _ Diverge _ _ _); [|cbn [table_of frun]; split; reflexivity]. unfold ReadUserRecords, GetPasswdsPath. cbn [pbind lift bind]. unfold OpenUserecFile, open_records. cbn [frun].
  destruct (exec (Open (service_home ++ str "/.PASSWDS") O_RDONLY) (service_world hash_before)) as [w1 x] eqn:E.
  assert (X : match x with ROk _ => true | RErr _ => false end = true) by (change x with (snd (w1, x)); rewrite <- E; vm_compute; reflexivity).
  exists w1, x. split; [now left|]. destruct x as [fd|e]; [|discriminate X]. cbn [fst]. now apply reads_forever with (a := b).
Qed.
Print Assumptions C72_listens_refuted.

(** A start with a failed read in each file: the user of the file still gets a token, and a
    login without a name meets the blank user and loses the connection. *)
Definition nameless_login : raw := Raw (str "POST") (str "/v1/token") [] form_media (str "username=&password=123123").
Example C72_nonvacuous : exists u body,
  served_badly true taipei (fun _ => str "sig") id_codec (service_world hash_before) [u] []
    [(service_world hash_before, login_request); (service_world hash_before, nameless_login)] [Response 200 body; Closed] /\
  first_user [u] (str "SYSOP") u /\ u_password u = letter 39 :: letter 45 :: skipn 2 hash_before /\
  body = str
"{
  ""access_token"": ""eyJhbGciOiJFUzI1NiIsInR5cCI6IkpXVCJ9.eyJleHAiOjE4MDAsInN1YiI6IlNZU09QIn0.c2ln"",
  ""token_type"": ""bearer""
}".
Proof.
  destruct (service_user hash_before (or_introl eq_refl)) as (u & U & _ & I & P).
  set (o := snd (fault_at [None; Some 0%nat; None; None; None; Some 0%nat] (start id_codec 10 service_home) (service_world hash_before))).
  assert (X : omap (fun s => map (fun r => respond true taipei (fun _ => str "sig") s r) [login_request; nameless_login]) o = Ok [Response 200 (str
"{
  ""access_token"": ""eyJhbGciOiJFUzI1NiIsInR5cCI6IkpXVCJ9.eyJleHAiOjE4MDAsInN1YiI6IlNZU09QIn0.c2ln"",
  ""token_type"": ""bearer""
}"); Closed]) by (vm_compute; reflexivity).
  destruct o as [s| | |] eqn:E; try discriminate X. subst o. cbn [omap obind] in X. apply Ok_inj in X.
  pose proof (badly_with _ _ (fun _ => str "sig") u [(service_world hash_before, login_request); (service_world hash_before, nameless_login)] U E) as B.
  exists u. eexists. split; [|split; [exact (login_first u I)|split; [rewrite P; reflexivity|reflexivity]]].
  rewrite <- X. exact B.
Qed.
