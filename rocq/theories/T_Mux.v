(** * Property theorems: C61 (paths of the web service) *)
From Coq Require Import Lia ZifyBool ZifyNat ZifyN.
From Verif Require Import M_Base M_Text M_Board M_Userec M_Verify M_Web M_Mux S_Text S_Web S_Mux P_Base P_Text P_Mux T_Web.
Open Scope N_scope.

Lemma form_value_of f k : form_value f k (FormValue f k).
Proof.
  induction f as [|[k' v] f IH]; cbn [FormValue]; [right; split; [reflexivity|constructor]|]. destruct (beqb k k') eqn:E.
  - apply beqb_eq in E. subst k'. left. exists [], f. split; [reflexivity|constructor].
  - apply beqb_neq in E. destruct IH as [(b & a & H & N)|[H N]].
    + left. exists ((k', v) :: b), a. split; [cbn [app]; f_equal; exact H|]. constructor; [cbn; congruence|exact N].
    + right. split; [exact H|]. constructor; [cbn; congruence|exact N].
Qed.
Lemma ends_plain es : Forall element es -> ends_in_slash (plain es) -> es = [].
Proof.
  intros F [q H]. destruct es as [|e es _] using rev_ind; [reflexivity|]. exfalso. apply Forall_app in F as [_ F]. apply Forall_cons_iff in F as [(N & _ & _ & S) _].
  rewrite plain_snoc in H. destruct e as [|c e _] using rev_ind; [now apply N|]. rewrite !app_assoc in H. apply app_inj_tail in H as [_ H]. apply S. subst c. apply in_or_app. right. now left.
Qed.
Lemma plain_inj es es' : Forall element es -> Forall element es' -> plain es = plain es' -> es = es'.
Proof.
  intros F F' H. assert (X : forall l, Forall element l -> Forall (fun p => ~ In "/"%byte p) l) by (intros l; apply Forall_impl; now intros a (_ & _ & _ & A)).
  destruct es as [|e es]; [symmetry; apply plain_root; [exact F'|now rewrite <- H]|]. destruct es' as [|e' es']; [apply plain_root; assumption|].
  assert (J : join "/" (e :: es) = join "/" (e' :: es')) by exact (f_equal (@tl byte) H).
  rewrite <- (split_join "/" (e :: es) ltac:(discriminate) (X _ F)). rewrite <- (split_join "/" (e' :: es') ltac:(discriminate) (X _ F')). now rewrite J.
Qed.
Lemma ends_directory es : es <> [] -> ends_in_slash (directory es).
Proof. intros N. rewrite directory_plain by exact N. now eexists. Qed.
Lemma directory_inj es es' : Forall element es -> Forall element es' -> es <> [] -> es' <> [] -> directory es = directory es' -> es = es'.
Proof. intros F F' N N' H. rewrite !directory_plain in H by assumption. apply app_inv_tail in H. now apply plain_inj. Qed.

Lemma redirect_iff p : redirectToPathSlash p = true <-> p = str "/v1/users" \/ p = str "/v1/classes".
Proof.
  split; [|intros [->| ->]; reflexivity]. unfold redirectToPathSlash. rewrite !andb_true_iff. intros [[_ H] _]. apply existsb_exists in H as (x & I & E). apply beqb_eq in E. subst x.
  destruct I as [I|[I|[I|[I|[]]]]].
  - change (str "/v1/token") with (str "/v1/toke" ++ ["n"%byte]) in I. apply app_inj_tail in I as [_ I]. discriminate I.
  - change (str "/v1/boards") with (str "/v1/board" ++ ["s"%byte]) in I. apply app_inj_tail in I as [_ I]. discriminate I.
  - change (str "/v1/classes/") with (str "/v1/classes" ++ ["/"%byte]) in I. apply app_inj_tail in I as [I _]. right. now symmetry.
  - change (str "/v1/users/") with (str "/v1/users" ++ ["/"%byte]) in I. apply app_inj_tail in I as [I _]. left. now symmetry.
Qed.
Definition home (es : list bytes) : Prop := es = [str "v1"; str "users"] \/ es = [str "v1"; str "classes"].
Lemma home_elements es : home es -> Forall element es.
Proof. intros [->| ->]; repeat (apply Forall_cons; [repeat split; try discriminate; cbn; intuition discriminate|]); constructor. Qed.
Lemma redirect_plain es : Forall element es -> redirectToPathSlash (plain es) = true <-> home es.
Proof.
  intros F. rewrite redirect_iff. split.
  - intros [H|H]; [left|right]; (apply plain_inj; [exact F|apply home_elements; (now left) || now right|exact H]).
  - intros [->| ->]; [now left|now right].
Qed.
Lemma redirect_directory es : redirectToPathSlash (directory es) = false.
Proof.
  destruct (redirectToPathSlash (directory es)) eqn:E; [|reflexivity]. exfalso. apply redirect_iff in E.
  assert (S : ends_in_slash (directory es)) by (unfold directory; rewrite plain_snoc, app_nil_r; destruct es; [now exists []|now eexists]). apply last_slash in S.
  destruct E as [E|E]; rewrite E in S; discriminate S.
Qed.

(** ** One plain spelling for each place *)
Lemma spelled p : let q := if redirectToPathSlash (cleanPath p) then cleanPath p ++ str "/" else cleanPath p in spelling p q.
Proof.
  cbv zeta. exists (place p). split; [apply leads|]. pose proof (place_elements p) as F. split; [exact F|]. rewrite cleanPath_ok.
  destruct (Byte.eqb (last p x00) "/") eqn:L.
  - apply last_slash in L. destruct (beqb (plain (place p)) (str "/")) eqn:R; cbn [andb negb].
    + apply beqb_eq in R. apply plain_root in R; [|exact F]. rewrite R. right. split; [reflexivity|now left].
    + rewrite redirect_directory. left. split; [reflexivity|]. split; [intros H; rewrite H in R; discriminate R|now left].
  - cbn [andb]. destruct (redirectToPathSlash (plain (place p))) eqn:R.
    + apply redirect_plain in R; [|exact F]. assert (N : place p <> []) by (intros H; rewrite H in R; now destruct R). left. rewrite directory_plain by exact N. split; [reflexivity|]. split; [exact N|now right].
    + right. split; [reflexivity|]. right. split; [intros H; apply last_slash in H; congruence|]. split; intros H; (assert (X : home (place p)) by ((now left) || now right)); apply redirect_plain in X; congruence.
Qed.
Lemma spelling_fun p q q' : spelling p q -> spelling p q' -> q = q'.
Proof.
  intros (es & L & F & H) (es' & L' & _ & H'). apply leads_place in L, L'. subst es es'.
  destruct H as [(-> & N & S)|[-> S]], H' as [(-> & N' & S')|[-> S']]; try reflexivity; exfalso.
  - destruct S' as [S'|(S1 & S2 & S3)]; [contradiction|]. tauto.
  - destruct S as [S|(S1 & S2 & S3)]; [contradiction|]. tauto.
Qed.
Lemma place_plain es : Forall element es -> place (plain es) = es.
Proof.
  intros F. symmetry. unfold plain. rewrite place_root. destruct es as [|e es]; [reflexivity|]. unfold place.
  rewrite split_join; [|discriminate|revert F; apply Forall_impl; now intros a (_ & _ & _ & A)].
  assert (X : forall l acc, Forall element l -> fold_left visit l acc = acc ++ l).
  { clear. induction l as [|a l IH]; intros acc F; [now rewrite app_nil_r|]. apply Forall_cons_iff in F as [(A & B & C & D) F]. cbn [fold_left]. rewrite IH by exact F.
    unfold visit. rewrite !(proj2 (beqb_neq _ _)) by assumption. cbn [orb]. now rewrite <- app_assoc. }
  symmetry. exact (X _ [] F).
Qed.
Lemma place_directory es : Forall element es -> place (directory es) = es.
Proof.
  intros F. destruct es as [|e es]; [reflexivity|]. unfold directory, plain. rewrite place_root. unfold place.
  rewrite split_join; [|now destruct es|apply Forall_app; split; [revert F; apply Forall_impl; now intros a (_ & _ & _ & A)|constructor; [easy|constructor]]].
  rewrite fold_left_app. cbn [fold_left].
  pose proof (place_plain (e :: es) F) as P. unfold plain in P. rewrite place_root in P. unfold place in P. rewrite split_join in P; [|discriminate|revert F; apply Forall_impl; now intros a (_ & _ & _ & A)].
  change (visit (fold_left visit (e :: es) []) [] = e :: es). rewrite P. reflexivity.
Qed.
Lemma spelling_again p q : spelling p q -> spelling q q.
Proof.
  intros (es & _ & F & H). exists es. destruct H as [(-> & N & S)|[-> S]].
  - split; [rewrite <- (place_directory es F) at 2; apply leads|]. split; [exact F|]. left. split; [reflexivity|]. split; [exact N|]. left. now apply ends_directory.
  - split; [rewrite <- (place_plain es F) at 2; apply leads|]. split; [exact F|]. right. split; [reflexivity|]. destruct S as [S|(_ & S2 & S3)]; [now left|]. destruct es as [|e es]; [now left|]. right.
    split; [|now split]. intros E. apply ends_plain in E; [discriminate E|exact F].
Qed.
(** Every path has one plain spelling, and a plain spelling is its own. *)
Theorem C61_one_spelling : forall p, exists q, spelling p q /\ spelling q q /\ forall q', spelling p q' -> q' = q.
Proof. intros p. pose proof (spelled p) as H. cbv zeta in H. eexists. split; [exact H|]. split; [exact (spelling_again _ _ H)|]. intros q' H'. exact (spelling_fun _ _ _ H' H). Qed.
Print Assumptions C61_one_spelling.

(** ** Redirections *)
(** A request whose path is spelled plainly is answered, any other is sent to the plain
    spelling. *)
Theorem C61_plain_paths_answered : forall s r q, r_method r <> str "CONNECT" -> spelling (r_path r) q ->
  (r_path r = q -> handle s r = omap Answer (serve s r)) /\ (r_path r <> q -> handle s r = Ok (Moved q)).
Proof.
  intros s r q M Q. pose proof (spelling_fun _ _ _ Q (spelled (r_path r))) as E. cbv zeta in E. unfold handle. rewrite (proj2 (beqb_neq _ _) M).
  destruct (redirectToPathSlash (cleanPath (r_path r))) eqn:R.
  - subst q. split; [|easy]. intros H. exfalso. pose proof (spelled (r_path r)) as S. cbv zeta in S. rewrite R in S.
    assert (X : cleanPath (r_path r) = str "/v1/users" \/ cleanPath (r_path r) = str "/v1/classes") by now apply redirect_iff.
    assert (Y : cleanPath (r_path r) = r_path r); [|rewrite Y in H; apply (f_equal (@length _)) in H; rewrite app_length in H; cbn in H; lia].
    rewrite H. destruct X as [X|X]; rewrite X; rewrite X in H; rewrite H in X; vm_compute in X; discriminate X.
  - subst q. destruct (beqb (cleanPath (r_path r)) (r_path r)) eqn:B; cbn [negb]; [apply beqb_eq in B|apply beqb_neq in B]; split; congruence.
Qed.
Print Assumptions C61_plain_paths_answered.
(** Following a redirection gives an answer at once. *)
Theorem C61_redirected_once : forall s s' r q, handle s r = Ok (Moved q) ->
  handle s' (with_path r q) = omap Answer (serve s' (with_path r q)).
Proof.
  intros s s' r q H. destruct (beqb (r_method r) (str "CONNECT")) eqn:M.
  - unfold handle in *. cbn [with_path r_method r_path]. rewrite M in *. destruct (redirectToPathSlash (r_path r)) eqn:R; [|destruct (serve s r); discriminate H].
    injection H as <-. assert (X : redirectToPathSlash (r_path r ++ str "/") = false) by (apply redirect_iff in R as [-> | ->]; reflexivity). now rewrite X.
  - apply beqb_neq in M. destruct (C61_one_spelling (r_path r)) as (q' & Q & A & _). destruct (C61_plain_paths_answered s r q' M Q) as [H1 H2].
    destruct (beqb (r_path r) q') eqn:E; [apply beqb_eq in E; rewrite (H1 E) in H; destruct (serve s r); discriminate H|]. apply beqb_neq in E. rewrite (H2 E) in H. injection H as <-.
    destruct (C61_plain_paths_answered s' (with_path r q') q' M A) as [X _]. now apply X.
Qed.
Print Assumptions C61_redirected_once.
(** A redirection stays on the host: the new path starts with one slash, not with two. *)
Theorem C61_stays_on_host : forall s r q, handle s r = Ok (Moved q) -> exists q', q = "/"%byte :: q' /\ forall x, q' <> "/"%byte :: x.
Proof.
  intros s r q H. destruct (beqb (r_method r) (str "CONNECT")) eqn:M.
  - unfold handle in H. rewrite M in H. destruct (redirectToPathSlash (r_path r)) eqn:R; [|destruct (serve s r); discriminate H]. injection H as <-.
    apply redirect_iff in R as [-> | ->]; (eexists; split; [reflexivity|]; intros x X; discriminate X).
  - apply beqb_neq in M. destruct (C61_one_spelling (r_path r)) as (q' & Q & _). destruct (C61_plain_paths_answered s r q' M Q) as [H1 H2].
    destruct (beqb (r_path r) q') eqn:E; [apply beqb_eq in E; rewrite (H1 E) in H; destruct (serve s r); discriminate H|]. apply beqb_neq in E. rewrite (H2 E) in H. injection H as <-.
    destruct Q as (es & _ & F & K). assert (X : forall l, Forall element es -> (l = [] \/ l = [[]]) -> (es = [] -> l = []) -> forall x, join "/" (es ++ l) <> "/"%byte :: x).
    { clear. intros l F L N x H. destruct es as [|e es]; [rewrite N in H by reflexivity; discriminate H|]. apply Forall_cons_iff in F as [(A & _ & _ & B) _]. destruct e as [|c e]; [contradiction|].
      assert (c = "/"%byte) by (destruct L as [->| ->]; destruct es; cbn in H; congruence). subst c. apply B. now left. }
    destruct K as [(-> & N & _)|[-> _]]; (eexists; split; [reflexivity|]).
    + apply X; [exact F|now right|contradiction].
    + intros x. pose proof (X [] F (or_introl eq_refl) (fun _ => eq_refl) x) as Y. now rewrite app_nil_r in Y.
Qed.
Print Assumptions C61_stays_on_host.

(** ** What requests can reach *)
(** Nothing is told to CONNECT. *)
Theorem C61_connect_gets_nothing : forall s r, r_method r = str "CONNECT" ->
  (exists q, handle s r = Ok (Moved q)) \/ handle s r = Ok (Answer (Reply 200 NoBody)) \/ exists t, handle s r = Ok (Answer (Reply 404 (PlainBody t))).
Proof.
  intros s r M. unfold handle. rewrite M. change (beqb (str "CONNECT") (str "CONNECT")) with true. cbv iota. destruct (redirectToPathSlash (r_path r)); [left; now eexists|right].
  unfold serve, routeToken, routeBoards, routeClasses, routeUsers. rewrite M. change (beqb (str "CONNECT") (str "POST")) with false. change (beqb (str "CONNECT") (str "GET")) with false. cbv iota.
  destruct (beqb (r_path r) (str "/v1/token")); [now left|]. destruct (beqb (r_path r) (str "/v1/boards")); [now left|]. destruct (HasPrefix (r_path r) (str "/v1/classes/")); [now left|]. destruct (HasPrefix (r_path r) (str "/v1/users/")); [now left|].
  right. now eexists.
Qed.
Print Assumptions C61_connect_gets_nothing.
(** Only a request for a token can make a handler panic; nothing else goes wrong. *)
Theorem C61_panics_only_for_tokens : forall s r, (exists a, handle s r = Ok a) \/
  (handle s r = Panic /\ r_method r = str "POST" /\ r_path r = str "/v1/token").
Proof.
  intros s r. assert (X : (exists rep, serve s r = Ok rep) \/ (serve s r = Panic /\ r_method r = str "POST" /\ r_path r = str "/v1/token")).
  { destruct (beqb (r_path r) (str "/v1/token")) eqn:E1.
    { destruct (beqb (r_method r) (str "POST")) eqn:E2; [|left; unfold serve, routeToken; rewrite E1, E2; now eexists]. apply beqb_eq in E1, E2.
      pose proof (C36_answers_exactly s r _ _ E1 E2 (form_value_of (r_form r) _) (form_value_of (r_form r) _)) as [[N E]|(u & F & [(V & t & E & T)|[[V E]|[_ E]]])]; rewrite E; try (left; now eexists). right. now split. }
    unfold serve. rewrite E1.
    left. unfold routeBoards, routeClasses, routeUsers, getBoards. destruct (beqb (r_path r) (str "/v1/boards")); [destruct (beqb (r_method r) (str "GET")); now eexists|].
    destruct (HasPrefix (r_path r) (str "/v1/classes/")); [destruct (beqb (r_method r) (str "GET")); now eexists|].
    destruct (HasPrefix (r_path r) (str "/v1/users/")) eqn:P; [|now eexists]. apply has_prefix_spec in P. destruct (beqb (r_method r) (str "GET")); [|now eexists].
    unfold getUsers. destruct (C50_every_path_below _ P) as (u & i & -> & _). destruct (beqb i (str "information")).
    - unfold getUserInformation, checkTokenPermission. destruct (find_spec (s_users s) u) as [(v & -> & _)|[-> _]]; now eexists.
    - destruct (beqb i (str "favorites")); now eexists. }
  assert (Y : (exists a, omap Answer (serve s r) = Ok a) \/ (omap Answer (serve s r) = Panic /\ r_method r = str "POST" /\ r_path r = str "/v1/token")).
  { destruct X as [[rep ->]|[-> X]]; [left; now eexists|right; now split]. }
  unfold handle. destruct (beqb (r_method r) (str "CONNECT")).
  - destruct (redirectToPathSlash (r_path r)); [left; now eexists|exact Y].
  - cbv zeta. destruct (redirectToPathSlash _); [left; now eexists|]. destruct (negb _); [left; now eexists|exact Y].
Qed.
Print Assumptions C61_panics_only_for_tokens.
(** The records without a name, and those named "." or "..", cannot be fetched. *)
Theorem C61_information_only_of_named : forall s r rep i, handle s r = Ok (Answer rep) -> content rep = InformationBody i -> element (i_user_id i).
Proof.
  intros s r rep i H C. destruct (beqb (r_method r) (str "CONNECT")) eqn:M.
  { apply beqb_eq in M. destruct (C61_connect_gets_nothing s r M) as [[q E]|[E|[t E]]]; rewrite E in H; [discriminate H| |]; injection H as <-; discriminate C. }
  apply beqb_neq in M. destruct (C61_one_spelling (r_path r)) as (q & Q & _). destruct (C61_plain_paths_answered s r q M Q) as [H1 H2].
  destruct (beqb (r_path r) q) eqn:E; [apply beqb_eq in E|apply beqb_neq in E; rewrite (H2 E) in H; discriminate H]. rewrite (H1 E) in H. clear H1 H2.
  destruct (serve s r) as [rep'|e| |] eqn:S; try discriminate H. injection H as ->. destruct (C37_information_only_by_path s r rep i S C) as (_ & uid & u & P & _ & ->).
  destruct Q as (es & _ & F & K). assert (X : forall l, Forall (fun p => ~ In "/"%byte p) l -> l <> [] -> split_on "/" ("/"%byte :: join "/" l) = [] :: l).
  { intros l FL N. change ("/"%byte :: join "/" l) with ([] ++ "/"%byte :: join "/" l). rewrite split_app, split_join by easy. reflexivity. }
  assert (F' : Forall (fun p => ~ In "/"%byte p) es) by (revert F; apply Forall_impl; now intros a (_ & _ & _ & A)).
  rewrite E in P. clear E S. unfold parseUserPath in P. destruct K as [(-> & N & _)|[-> K]].
  - unfold directory, plain in P. rewrite X in P; [|apply Forall_app; split; [exact F'|constructor; [easy|constructor]]|now destruct es].
    destruct es as [|a [|b [|c [|d es]]]]; cbn [app] in P; try discriminate P. injection P as <- _. inversion F as [|? ? _ F1]. inversion F1 as [|? ? _ F2]. now inversion F2.
  - unfold plain in P. destruct es as [|a es]; [discriminate P|]. rewrite X in P; [|exact F'|discriminate].
    destruct es as [|b [|c [|d es]]]; cbn [app] in P; try discriminate P. injection P as <- _. inversion F as [|? ? _ F1]. inversion F1 as [|? ? _ F2]. now inversion F2.
Qed.
Print Assumptions C61_information_only_of_named.
(** ... and all others can, without a redirection. *)
Theorem C61_information_reachable : forall s r uid, r_method r = str "GET" -> element uid -> r_path r = str "/v1/users/" ++ uid ++ str "/information" ->
  handle s r = omap Answer (serve s r).
Proof.
  intros s r uid M U P. set (es := [str "v1"; str "users"; uid; str "information"]).
  assert (E : r_path r = plain es) by (rewrite P; reflexivity). assert (F : Forall element es).
  { repeat (apply Forall_cons; [try exact U; repeat split; try discriminate; cbn; intuition discriminate|]); constructor. }
  assert (S : spelling (r_path r) (plain es)).
  { exists es. split; [rewrite E; rewrite <- (place_plain es F) at 2; apply leads|]. split; [exact F|]. right. split; [reflexivity|]. right.
    split; [|split; discriminate]. rewrite E. intros X. apply ends_plain in X; [discriminate X|exact F]. }
  apply (C61_plain_paths_answered s r (plain es)); [rewrite M; discriminate|exact S|exact E].
Qed.
Print Assumptions C61_information_reachable.

Example C61_nonvacuous :
  let get p := Request (str "GET") p [] [] in
  handle web_server (get (str "/v1/users")) = Ok (Moved (str "/v1/users/")) /\
  handle web_server (get (str "//evil.example/../..//v1/./users/x/../SYSOP/information/")) = Ok (Moved (str "/v1/users/SYSOP/information/")) /\
  handle web_server (get (str "/v1/users//information")) = Ok (Moved (str "/v1/users/information")) /\
  handle web_server (get (str "/v1/...")) = Ok (Answer (Reply 404 (PlainBody (str "404 page not found" ++ [x0a])))) /\
  spelling (str "/v1//x/../users") (str "/v1/users/") /\ element (str "SYSOP").
Proof.
  cbv zeta. split; [vm_compute; reflexivity|]. split; [vm_compute; reflexivity|]. split; [vm_compute; reflexivity|]. split; [vm_compute; reflexivity|]. split.
  - exact (spelled (str "/v1//x/../users")).
  - repeat split; try discriminate. cbn. intuition discriminate.
Qed.
