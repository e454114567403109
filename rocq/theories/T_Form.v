(** * Property theorems: C69 (from the text of a request to its answer) *)
From Coq Require Import Lia ZifyBool ZifyNat ZifyN.
From Verif Require Import M_Base M_Userec M_Verify M_Web M_Mux M_Form S_Text S_Crypt T_Crypt S_Web S_Mux S_Form P_Base P_Form T_Web T_Mux.
Open Scope N_scope.

(** ** The fields of a text *)
Theorem C69_fields_exact : forall old text fs, ParseQuery old text = fs <-> fields_of old text fs.
Proof. exact parse_exact. Qed.
Print Assumptions C69_fields_exact.

(** Whatever a careful client sends is read as it was sent, by every version of Go. *)
Theorem C69_fields_as_sent : forall text fs, sends text fs -> forall old fs', fields_of old text fs' <-> fs' = fs.
Proof.
  intros text fs S old fs'. pose proof (sends_fields old text fs S) as F. apply parse_exact in F. rewrite <- parse_exact, F. intuition.
Qed.
Print Assumptions C69_fields_as_sent.

(** Every list of fields can be sent, with printable characters only. *)
Theorem C69_everything_can_be_sent : forall fs, exists text, sends text fs /\ Forall printable text.
Proof.
  intros fs. set (P := fun f : bytes * bytes => concat (map percent (fst f)) ++ "="%byte :: concat (map percent (snd f))).
  assert (X : forall s c, In c (concat (map percent s)) -> c <> "="%byte /\ c <> "&"%byte /\ c <> ";"%byte /\ printable c).
  { intros s c I. apply percent_chars in I. cbn in I. repeat destruct I as [<-|I]; try (repeat split; discriminate). destruct I. }
  exists (join "&" (map P fs)). split.
  - exists (map P fs). split; [|reflexivity]. induction fs as [|f fs IH]; [constructor|]. cbn [map]. constructor; [|exact IH].
    exists (concat (map percent (fst f))), (concat (map percent (snd f))). split; [reflexivity|]. split; [apply percent_spells|]. split; [apply percent_spells|].
    split; [intros I; now apply X in I|]. intros c I. apply in_app_iff in I. destruct I as [I|I]; apply X in I; tauto.
  - assert (Y : forall f, Forall printable (P f)).
    { intros f. apply Forall_app. split; [|constructor; [split; discriminate|]]; apply Forall_forall; intros c I; now apply X in I. }
    induction fs as [|f [|g fs] IH]; [constructor|apply Y|]. cbn [map join]. apply Forall_app. split; [apply Y|]. constructor; [split; discriminate|exact IH].
Qed.
Print Assumptions C69_everything_can_be_sent.

(** ** The request the handlers see *)
Lemma ctl_printable t : existsb is_ctl t = false <-> Forall printable t.
Proof.
  induction t as [|c t IH]; [split; [constructor|reflexivity]|]. cbn [existsb]. rewrite orb_false_iff, IH, Forall_cons_iff. unfold is_ctl, printable.
  assert (E : (b2n c <? 32) || (b2n c =? 127) = false <-> 32 <= b2n c /\ b2n c <> 127) by lia. now rewrite E.
Qed.
Lemma as_form_iff old r : if takes_body (w_method r) then as_form r /\ parsePostForm old r = ParseQuery old (w_body r) \/ ~ as_form r /\ parsePostForm old r = [] else ~ as_form r.
Proof.
  unfold as_form, takes_body, parsePostForm. fold form_media. change maxFormSize with 10485760.
  destruct (beqb (w_method r) (str "POST") || beqb (w_method r) (str "PUT") || beqb (w_method r) (str "PATCH")) eqn:M.
  - assert (I : In (w_method r) [str "POST"; str "PUT"; str "PATCH"]).
    { apply orb_true_iff in M. destruct M as [M|M]; [apply orb_true_iff in M; destruct M as [M|M]|]; apply beqb_eq in M; rewrite M; cbn [In]; auto. }
    destruct (beqb (w_media r) form_media) eqn:E.
    + apply beqb_eq in E. destruct (10485760 <? lenN (w_body r)) eqn:L; [right|left]; split; try reflexivity; [intros (_ & _ & X); lia|]. split; [exact I|]. split; [exact E|lia].
    + apply beqb_neq in E. right. split; [|reflexivity]. intros (_ & X & _). contradiction.
  - intros (I & _). apply orb_false_iff in M. destruct M as [M M3]. apply orb_false_iff in M. destruct M as [M1 M2]. apply beqb_neq in M1, M2, M3.
    cbn [In] in I. intuition congruence.
Qed.
Lemma body_fields_iff old r fs : body_fields old r fs <-> (if takes_body (w_method r) then parsePostForm old r else []) = fs.
Proof.
  unfold body_fields. pose proof (as_form_iff old r) as H. destruct (takes_body (w_method r)).
  - destruct H as [[A E]|[A E]]; rewrite E; [rewrite parse_exact; intuition|intuition].
  - intuition.
Qed.
Lemma addresses_iff t path query : addresses t path query <->
  existsb is_ctl t = false /\ exists p q, cut_at (Byte.eqb "?") t = (p, q) /\ unescape false p = Some path /\ query = match q with Some q => q | None => [] end.
Proof.
  unfold addresses. rewrite ctl_printable. split; intros [F H]; split; try exact F.
  - destruct H as (p & S & N & D). assert (A : forall x, In x p -> Byte.eqb "?" x = false) by (intros x X; apply byte_eqb_neq; intros Q; subst x; contradiction).
    apply unescape_iff in S. destruct D as [[-> ->]| ->].
    + exists p, None. now rewrite cut_at_none.
    + exists p, (Some query). now rewrite cut_at_found.
  - destruct H as (p & q & C & U & E). apply unescape_iff in U. pose proof (cut_at_spec (Byte.eqb "?") t) as X. rewrite C in X. exists p. split; [exact U|]. destruct q as [q|].
    + destruct X as (c & -> & Q & A). apply byte_eqb_spec in Q. subst c query. split; [intros I; apply A in I; discriminate I|now right].
    + destruct X as (-> & A). split; [intros I; apply A in I; discriminate I|left; now split].
Qed.

Theorem C69_arrives_exactly : forall old r q, arrive old r = Some q <->
  exists path query bf qf, addresses (w_target r) path query /\ body_fields old r bf /\ fields_of old query qf /\
    q = Request (w_method r) path (w_authorization r) (bf ++ qf).
Proof.
  intros old r q. unfold arrive, ParseForm. split.
  - intros H. destruct (existsb is_ctl (w_target r)) eqn:K; [discriminate H|]. destruct (cut_at (Byte.eqb "?") (w_target r)) as [p o] eqn:C.
    destruct (unescape false p) as [path|] eqn:U; [|discriminate H]. injection H as <-.
    exists path, (match o with Some x => x | None => [] end), (if takes_body (w_method r) then parsePostForm old r else []), (ParseQuery old (match o with Some x => x | None => [] end)).
    split; [apply addresses_iff; split; [exact K|]; now exists p, o|]. split; [now apply body_fields_iff|]. split; [now apply parse_exact|reflexivity].
  - intros (path & query & bf & qf & A & B & F & ->). apply addresses_iff in A. destruct A as (K & p & o & C & U & E). rewrite K, C, U, <- E.
    apply body_fields_iff in B. apply parse_exact in F. now rewrite B, F.
Qed.
Print Assumptions C69_arrives_exactly.

(** Refused are the addresses that spell no path, and no others. *)
Theorem C69_refused_exactly : forall old r, arrive old r = None <-> forall path query, ~ addresses (w_target r) path query.
Proof.
  intros old r. unfold arrive. split.
  - intros H path query A. apply addresses_iff in A. destruct A as (K & p & o & C & U & E). rewrite K, C, U in H. discriminate H.
  - intros H. destruct (existsb is_ctl (w_target r)) eqn:K; [reflexivity|]. destruct (cut_at (Byte.eqb "?") (w_target r)) as [p o] eqn:C.
    destruct (unescape false p) as [path|] eqn:U; [|reflexivity]. exfalso. apply (H path (match o with Some x => x | None => [] end)). apply addresses_iff. split; [exact K|]. now exists p, o.
Qed.
Print Assumptions C69_refused_exactly.

Lemma addresses_fun t p q p' q' : addresses t p q -> addresses t p' q' -> p = p' /\ q = q'.
Proof.
  intros A B. apply addresses_iff in A, B. destruct A as (_ & x & o & C & U & ->), B as (_ & x' & o' & C' & U' & ->). rewrite C in C'. injection C' as <- <-. split; congruence.
Qed.

(** ** Asking for a token *)
Lemma form_value_app f g k v : form_value f k v -> In k (map fst f) -> form_value (f ++ g) k v.
Proof.
  intros [(b & a & -> & N)|[-> N]] I.
  - left. exists b, (a ++ g). split; [now rewrite <- app_assoc|exact N].
  - exfalso. apply in_map_iff in I. destruct I as (x & E & I). rewrite Forall_forall in N. now apply (N x I).
Qed.
Lemma token_direct s r : r_path r = str "/v1/token" -> r_method r = str "POST" -> handle s r = omap Answer (serve s r).
Proof.
  intros P M. apply (C61_plain_paths_answered s r (str "/v1/token")); [rewrite M; discriminate|rewrite P; exact (spelled (str "/v1/token"))|exact P].
Qed.

(** A user name and a password sent as a form, however spelled and whatever else is sent, are
    the ones that are checked. *)
Theorem C69_token : forall old s r query fs user password,
  w_method r = str "POST" -> addresses (w_target r) (str "/v1/token") query -> as_form r ->
  sends (w_body r) fs -> In (str "username") (map fst fs) -> In (str "password") (map fst fs) ->
  form_value fs (str "username") user -> form_value fs (str "password") password ->
  exists q, arrive old r = Some q /\
  ((no_user (s_users s) user /\ handle s q = Ok (Answer (Reply 200 (ErrorBody (str "grant_error") (str "user record not found"))))) \/
   exists u, first_user (s_users s) user u /\
    ((VerifyPassword u password = Ok tt /\ exists t, handle s q = Ok (Answer (Reply 200 (TokenBody t))) /\ t_subject t = user) \/
     (VerifyPassword u password = Err EPassword /\ handle s q = Ok (Answer (Reply 200 (ErrorBody (str "grant_error") (str "password incorrect"))))) \/
     (~ good_salt (u_password u) /\ handle s q = Panic))).
Proof.
  intros old s r query fs user password M A F S IU IP U W.
  exists (Request (w_method r) (str "/v1/token") (w_authorization r) (fs ++ ParseQuery old query)).
  split.
  - apply C69_arrives_exactly. exists (str "/v1/token"), query, fs, (ParseQuery old query). split; [exact A|]. split.
    + split; [intros _; now apply sends_fields|intros N; contradiction].
    + split; [now apply parse_exact|reflexivity].
  - set (q := Request _ _ _ _). rewrite (token_direct s q eq_refl M).
    pose proof (C36_answers_exactly s q user password eq_refl M (form_value_app _ _ _ _ U IU) (form_value_app _ _ _ _ W IP)) as H.
    clearbody q. destruct H as [[N H]|(u & FU & [(V & t & H & T)|[(V & H)|(V & H)]])]; [left|right|right|right].
    + split; [exact N|]. rewrite H. reflexivity.
    + exists u. split; [exact FU|]. left. split; [exact V|]. exists t. rewrite H. split; [reflexivity|exact T].
    + exists u. split; [exact FU|]. right. left. split; [exact V|]. rewrite H. reflexivity.
    + exists u. split; [exact FU|]. right. right. split; [exact V|]. rewrite H. reflexivity.
Qed.
Print Assumptions C69_token.

(** A body sent in any other way changes nothing: in particular the second encoding that
    HTML has for forms, multipart/form-data, cannot be used to ask for a token. *)
Definition with_body (r : raw) (media body : bytes) : raw := Raw (w_method r) (w_target r) (w_authorization r) media body.
Theorem C69_other_bodies_ignored : forall old r media body, ~ as_form r -> ~ as_form (with_body r media body) ->
  arrive old (with_body r media body) = arrive old r.
Proof.
  assert (H : forall old r m b, ~ as_form r -> ~ as_form (with_body r m b) -> forall q, arrive old r = Some q -> arrive old (with_body r m b) = Some q).
  { intros old r m b N N' q Q. apply C69_arrives_exactly in Q. destruct Q as (path & query & bf & qf & A & B & F & ->). apply C69_arrives_exactly.
    exists path, query, bf, qf. split; [exact A|]. split; [|split; [exact F|reflexivity]]. split; [intros X; contradiction|intros _; now apply B]. }
  intros old r m b N N'. assert (B : with_body (with_body r m b) (w_media r) (w_body r) = r) by (destruct r; reflexivity).
  destruct (arrive old r) as [q|] eqn:E; [now apply H|].
  destruct (arrive old (with_body r m b)) as [q|] eqn:E'; [|reflexivity].
  apply (H old (with_body r m b) (w_media r) (w_body r)) in E'; [|exact N'|rewrite B; exact N]. rewrite B in E'. congruence.
Qed.
Print Assumptions C69_other_bodies_ignored.

(** Credentials are not only taken from the body: a token is given for an address that holds
    the password, which servers and proxies write into their logs. *)
Definition C69_statement : Prop := forall old s r q t, arrive old r = Some q -> handle s q = Ok (Answer (Reply 200 (TokenBody t))) ->
  w_body r <> [].
Definition by_address : raw := Raw (str "POST") (str "/v1/token?username=SYSOP&password=123123") [] [] [].
Theorem C69_password_in_body_refuted : ~ C69_statement.
Proof.
  intros H. assert (E : exists t, match arrive true by_address with Some q => handle web_server q | None => Panic end = Ok (Answer (Reply 200 (TokenBody t)))).
  { eexists. vm_compute. reflexivity. }
  destruct E as [t E]. destruct (arrive true by_address) as [q|] eqn:A; [|discriminate E]. exact (H true web_server by_address q t A E eq_refl).
Qed.
Print Assumptions C69_password_in_body_refuted.

(** ** Asking for a user *)
(** Every spelling of the address of a user that is one element of a path gives that user. *)
Theorem C69_information : forall old s r uid query, w_method r = str "GET" -> element uid ->
  addresses (w_target r) (str "/v1/users/" ++ uid ++ str "/information") query ->
  exists q, arrive old r = Some q /\
  ((exists u, first_user (s_users s) uid u /\ handle s q = Ok (Answer (Reply 200 (InformationBody
     (Information uid (u_nickname u) (u_realname u) (Z.of_N (u_numlogindays u)) (Z.of_N (u_numposts u)) (u_money u) (u_lastlogin u) (u_lasthost u) (u_lasthost u)))))) \/
   (no_user (s_users s) uid /\ handle s q = Ok (Answer (Reply 500 (ErrorBody (str "find_userrec_error") (str "get userrec for " ++ uid ++ str " failed")))))).
Proof.
  intros old s r uid query M U A. set (path := str "/v1/users/" ++ uid ++ str "/information") in *.
  set (bf := if takes_body (w_method r) then parsePostForm old r else []).
  exists (Request (w_method r) path (w_authorization r) (bf ++ ParseQuery old query)). split.
  - apply C69_arrives_exactly. exists path, query, bf, (ParseQuery old query). split; [exact A|]. split; [now apply body_fields_iff|]. split; [now apply parse_exact|reflexivity].
  - set (q := Request _ _ _ _). rewrite (C61_information_reachable s q uid M U eq_refl).
    destruct (C37_information_exact_partial s q uid M (proj2 (proj2 (proj2 U))) (or_introl eq_refl)) as [(u & F & H)|[N H]]; [left|right].
    + exists u. split; [exact F|]. rewrite H. reflexivity.
    + split; [exact N|]. rewrite H. reflexivity.
Qed.
Print Assumptions C69_information.
(** Every such user has an address. *)
Theorem C69_every_path_has_an_address : forall path, exists t, addresses t path [].
Proof.
  intros path. exists (concat (map percent path)). split.
  - apply Forall_forall. intros c I. apply percent_chars in I. cbn in I. repeat destruct I as [<-|I]; try (split; discriminate). destruct I.
  - exists (concat (map percent path)). split; [apply percent_spells|]. split; [|left; now split]. intros I. apply percent_chars in I. cbn in I. intuition discriminate.
Qed.
Print Assumptions C69_every_path_has_an_address.

(** An escaped slash is a slash: the address of a user whose name holds one gives another user. *)
Definition C69_named_statement : Prop := forall old s r uid t q i, w_method r = str "GET" -> spells false t uid -> ~ In "/"%byte t ->
  w_target r = str "/v1/users/" ++ t ++ str "/information" -> arrive old r = Some q -> handle s q = Ok (Answer (Reply 200 (InformationBody i))) -> i_user_id i = uid.
Definition slashed : raw := Raw (str "GET") (str "/v1/users/SYSOP%2finformation/information") [] [] [].
Theorem C69_escaped_slash_refuted : ~ C69_named_statement.
Proof.
  intros H. assert (E : exists i, match arrive true slashed with Some q => handle web_server q | None => Panic end = Ok (Answer (Reply 200 (InformationBody i))) /\ i_user_id i = str "SYSOP").
  { eexists. split; vm_compute; reflexivity. }
  destruct E as (i & E & I). destruct (arrive true slashed) as [q|] eqn:A; [|discriminate E].
  assert (X : i_user_id i = str "SYSOP/information").
  { apply (H true web_server slashed (str "SYSOP/information") (str "SYSOP%2finformation") q i); try assumption; try reflexivity.
    - apply unescape_iff. reflexivity.
    - cbn. intuition discriminate. }
  rewrite I in X. discriminate X.
Qed.
Print Assumptions C69_escaped_slash_refuted.

(** ** Cases *)
Definition form_post : raw :=
  Raw (str "POST") (str "/v1/%74oken?username=guest") [] form_media (str "user%6Eame=SYS%4fP&x=%zz&&note&password=123123&password=1;2").
Example C69_nonvacuous :
  fields_of true (w_body form_post) [(str "username", str "SYSOP"); (str "note", []); (str "password", str "123123"); (str "password", str "1"); (str "2", [])] /\
  fields_of false (w_body form_post) [(str "username", str "SYSOP"); (str "note", []); (str "password", str "123123")] /\
  addresses (w_target form_post) (str "/v1/token") (str "username=guest") /\ as_form form_post /\
  (exists t, match arrive false form_post with Some q => handle web_server q | None => Panic end = Ok (Answer (Reply 200 (TokenBody t)))) /\
  sends (str "password=a%26b%3B+%2b=%25") [(str "password", str "a&b; +=%")] /\
  arrive true (Raw (str "GET") (str "/v1/%7") [] [] []) = None /\
  arrive true (Raw (str "GET") [x2f; x01] [] [] []) = None.
Proof.
  split; [apply C69_fields_exact; vm_compute; reflexivity|]. split; [apply C69_fields_exact; vm_compute; reflexivity|].
  split; [apply addresses_iff; split; [reflexivity|]; eexists; eexists; repeat split|]. split; [split; [now left|]; split; [reflexivity|vm_compute; discriminate]|].
  split; [eexists; vm_compute; reflexivity|]. split.
  - exists [str "password=a%26b%3B+%2b=%25"]. split; [|reflexivity]. constructor; [|constructor]. exists (str "password"), (str "a%26b%3B+%2b=%25").
    split; [reflexivity|]. split; [now apply unescape_iff|]. split; [now apply unescape_iff|]. split; [cbn; intuition discriminate|].
    intros c I. cbn in I. repeat destruct I as [<-|I]; try (split; discriminate). destruct I.
  - split; vm_compute; reflexivity.
Qed.
