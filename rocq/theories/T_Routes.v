(** * Property theorems: C65 (the answers of the web service) *)
From Coq Require Import Lia ZifyBool ZifyNat ZifyN.
From Verif Require Import M_Base M_Text M_Board M_Userec M_Verify M_Flags M_Web M_Mux S_Text S_Web S_Mux S_Routes P_Base P_Text P_Mux T_Web T_Mux.
Open Scope N_scope.

Definition pieces (es : list bytes) (slash : bool) : list bytes := es ++ (if slash then [[]] else []).
Lemma path_pieces es slash : path_to es slash = "/"%byte :: join "/" (pieces es slash).
Proof. destruct slash; [reflexivity|]. unfold path_to, pieces, plain. now rewrite app_nil_r. Qed.
Definition flat (l : list bytes) : Prop := Forall (fun p => ~ In "/"%byte p) l.
Lemma pieces_flat es slash : Forall element es -> flat (pieces es slash).
Proof.
  intros F. apply Forall_app. split; [revert F; apply Forall_impl; now intros a (_ & _ & _ & A)|]. destruct slash; [constructor; [easy|constructor]|constructor].
Qed.
Lemma split_path l : flat l -> l <> [] -> split_on "/" ("/"%byte :: join "/" l) = [] :: l.
Proof. intros F N. change ("/"%byte :: join "/" l) with ([] ++ "/"%byte :: join "/" l). rewrite split_app, split_join by easy. reflexivity. Qed.
Lemma path_eq l l' : flat l -> l <> [] -> flat l' -> l' <> [] -> beqb ("/"%byte :: join "/" l) ("/"%byte :: join "/" l') = true <-> l = l'.
Proof.
  intros F N F' N'. rewrite beqb_eq. split; [|now intros ->]. intros E. apply (f_equal (split_on "/")) in E. rewrite !split_path in E by assumption. congruence.
Qed.
Lemma path_below l a b : flat l -> l <> [] -> ~ In "/"%byte a -> ~ In "/"%byte b ->
  HasPrefix ("/"%byte :: join "/" l) ("/"%byte :: a ++ "/"%byte :: b ++ ["/"%byte]) = true <-> exists x rest, l = a :: b :: x :: rest.
Proof.
  intros F N A B. rewrite has_prefix_spec. split.
  - intros [r E]. apply (f_equal (split_on "/")) in E. rewrite split_path in E by assumption.
    change (("/"%byte :: a ++ "/"%byte :: b ++ ["/"%byte]) ++ r) with ([] ++ "/"%byte :: (a ++ "/"%byte :: b ++ ["/"%byte]) ++ r) in E.
    rewrite split_app in E by easy. rewrite <- app_assoc in E. cbn [app] in E. rewrite split_app in E by exact A. rewrite <- app_assoc in E. cbn [app] in E.
    rewrite split_app in E by exact B. destruct (split_on "/" r) as [|x rest] eqn:Q; [now apply split_nonempty in Q|]. exists x, rest. congruence.
  - intros (x & rest & ->). exists (join "/" (x :: rest)).
    change (join "/" (a :: b :: x :: rest)) with (a ++ "/"%byte :: b ++ "/"%byte :: join "/" (x :: rest)). cbn [app]. rewrite <- app_assoc. cbn [app]. now rewrite <- app_assoc.
Qed.
Lemma nil_flat a : flat [a] -> ~ In "/"%byte a.
Proof. intros F. now inversion F. Qed.

Lemma last_piece (es : list bytes) slash a b : Forall element es -> element b -> pieces es slash = [a; b] -> es = [a; b] /\ slash = false.
Proof.
  intros F (N & _) E. destruct slash; [|unfold pieces in E; rewrite app_nil_r in E; now split]. exfalso. unfold pieces in E.
  change [a; b] with ([a] ++ [b]) in E. apply app_inj_tail in E as [_ E]. now apply N.
Qed.
Lemma below_pieces es slash a b : plainly es slash -> (exists x rest, pieces es slash = a :: b :: x :: rest) -> exists rest, es = a :: b :: rest.
Proof.
  intros [F P] (x & rest & E). destruct es as [|a' [|b' es]]; unfold pieces in E; cbn [app] in E.
  - destruct slash; [congruence|discriminate E].
  - destruct slash; discriminate E.
  - injection E as -> -> _. eauto.
Qed.
Lemma pieces_below es slash a b rest : es = a :: b :: rest -> (slash = false -> rest <> []) -> exists x more, pieces es slash = a :: b :: x :: more.
Proof.
  intros -> P. unfold pieces. cbn [app]. destruct rest as [|x rest]; cbn [app]; [|eauto]. destruct slash; [eauto|]. now specialize (P eq_refl).
Qed.
Lemma known_spec es slash : plainly es slash -> forall r, r_path r = path_to es slash ->
  (beqb (r_path r) (str "/v1/token") = true <-> es = [str "v1"; str "token"] /\ slash = false) /\
  (beqb (r_path r) (str "/v1/boards") = true <-> es = [str "v1"; str "boards"] /\ slash = false) /\
  (HasPrefix (r_path r) (str "/v1/classes/") = true <-> exists rest, es = str "v1" :: str "classes" :: rest) /\
  (HasPrefix (r_path r) (str "/v1/users/") = true <-> exists rest, es = str "v1" :: str "users" :: rest).
Proof.
  intros P r E. rewrite E, path_pieces. pose proof (pieces_flat es slash (proj1 P)) as F.
  assert (V : element (str "token") /\ element (str "boards") /\ flat [str "v1"; str "token"] /\ flat [str "v1"; str "boards"] /\ ~ In "/"%byte (str "v1") /\ ~ In "/"%byte (str "classes") /\ ~ In "/"%byte (str "users")).
  { repeat split; try discriminate; try (cbn; intuition discriminate); repeat (constructor; [cbn; intuition discriminate|]); constructor. }
  destruct V as (V1 & V2 & V3 & V4 & V5 & V6 & V7).
  destruct (pieces es slash) as [|y l] eqn:Q.
  { unfold pieces in Q. apply app_eq_nil in Q as [-> Q]. destruct slash; [discriminate Q|]. 
    split; [split; [intros H; vm_compute in H; discriminate H|intros [H _]; discriminate H]|]. split; [split; [intros H; vm_compute in H; discriminate H|intros [H _]; discriminate H]|].
    split; (split; [intros H; vm_compute in H; discriminate H|intros [x H]; discriminate H]). }
  assert (N : y :: l <> []) by discriminate. rewrite <- Q in *. clear y l Q.
  change (str "/v1/token") with ("/"%byte :: join "/" [str "v1"; str "token"]). change (str "/v1/boards") with ("/"%byte :: join "/" [str "v1"; str "boards"]).
  change (str "/v1/classes/") with ("/"%byte :: str "v1" ++ "/"%byte :: str "classes" ++ ["/"%byte]). change (str "/v1/users/") with ("/"%byte :: str "v1" ++ "/"%byte :: str "users" ++ ["/"%byte]).
  rewrite !path_eq, !path_below by (assumption || discriminate).
  split; [|split; [|split]].
  - split; [now apply last_piece; [apply P|]|]. intros [-> ->]. reflexivity.
  - split; [now apply last_piece; [apply P|]|]. intros [-> ->]. reflexivity.
  - split; [now apply below_pieces|]. intros [rest R]. apply (pieces_below es slash _ _ rest R). intros -> ->. apply (proj2 (proj2 P)). exact R.
  - split; [now apply below_pieces|]. intros [rest R]. apply (pieces_below es slash _ _ rest R). intros -> ->. apply (proj1 (proj2 P)). exact R.
Qed.

(** ** C65 *)

(** Every request for a plainly spelled place, with any method but CONNECT, other
    than one for a token (see C36), gets the one answer of the table. *)
Lemma get_information s r uid : r_method r = str "GET" -> getUserInformation s r uid = 
  match findUserecByID (s_users s) uid with
  | Ok u => Ok (Reply 200 (InformationBody (information_of u)))
  | Err _ => Ok (Reply 500 (ErrorBody (str "find_userrec_error") (str "get userrec for " ++ uid ++ str " failed")))
  | Panic => Panic | Diverge => Diverge end.
Proof. reflexivity. Qed.
Lemma first_user_fun us uid u v : first_user us uid u -> first_user us uid v -> u = v.
Proof.
  intros (b & a & -> & U & F) (b' & a' & E & V & F'). revert b' E F'. induction b as [|x b IH]; intros [|x' b'] E F'; cbn in E; injection E as -> E.
  - reflexivity.
  - inversion F'. contradiction.
  - inversion F. contradiction.
  - inversion F. inversion F'. now apply (IH H2 b').
Qed.
Lemma first_or_none us uid u : first_user us uid u -> no_user us uid -> False.
Proof. intros (b & a & -> & U & _) N. apply Forall_app in N as [_ N]. inversion N. contradiction. Qed.
Lemma answer_fun s m es slash a b : place_answer s m es slash a -> place_answer s m es slash b -> a = b.
Proof.
  intros A B. destruct A as [es slash K|es slash k K N|G|rest slash G|uid more slash u G U|uid more slash G U|uid more slash G|rest slash G X].
  - inversion B; subst; try reflexivity; exfalso; eapply K; try eassumption; constructor.
  - destruct K; inversion B; subst; try reflexivity; try congruence; exfalso; match goal with H : forall m, ~ known _ _ m |- _ => eapply H; constructor end.
  - inversion B as [? ? K|? ? k K N| | | | | |]; subst; try reflexivity; exfalso; [eapply K; constructor|inversion K; subst; congruence].
  - inversion B as [? ? K|? ? k K N| | | | | |]; subst; try reflexivity; exfalso; [eapply K; constructor|inversion K; subst; congruence].
  - inversion B as [? ? K|? ? k K N| | |? ? ? v ? V|? ? ? ? V| |? ? ? X]; subst.
    + exfalso. eapply K; constructor.
    + inversion K; subst; congruence.
    + now rewrite (first_user_fun _ _ _ _ U V).
    + exfalso. eapply first_or_none; eauto.
    + exfalso. now apply (proj1 (X uid more)).
  - inversion B as [? ? K|? ? k K N| | |? ? ? v ? V|? ? ? ? V| |? ? ? X]; subst.
    + exfalso. eapply K; constructor.
    + inversion K; subst; congruence.
    + exfalso. eapply first_or_none; eauto.
    + reflexivity.
    + exfalso. now apply (proj1 (X uid more)).
  - inversion B as [? ? K|? ? k K N| | |? ? ? v ? V|? ? ? ? V| |? ? ? X]; subst.
    + exfalso. eapply K; constructor.
    + inversion K; subst; congruence.
    + reflexivity.
    + exfalso. now apply (proj2 (X uid more)).
  - inversion B as [? ? K|? ? k K N| | |? ? ? v ? V|? ? ? ? V| |? ? ? Y]; subst; try reflexivity.
    + exfalso. eapply K; constructor.
    + inversion K; subst; congruence.
    + exfalso. now apply (proj1 (X uid more)).
    + exfalso. now apply (proj1 (X uid more)).
    + exfalso. now apply (proj2 (X uid more)).
Qed.
Lemma users_answer s r rest slash : r_method r = str "GET" -> plainly (str "v1" :: str "users" :: rest) slash ->
  r_path r = path_to (str "v1" :: str "users" :: rest) slash ->
  exists rep, getUsers s r = Ok rep /\ place_answer s (r_method r) (str "v1" :: str "users" :: rest) slash rep.
Proof.
  intros M P E. rewrite M. assert (N : pieces (str "v1" :: str "users" :: rest) slash <> []) by discriminate.
  unfold getUsers, parseUserPath. rewrite E, path_pieces, split_path by (try apply pieces_flat; apply P || exact N).
  unfold pieces. cbn [app]. destruct rest as [|uid [|item more]]; cbn [app].
  - destruct slash; [|exfalso; now apply (proj1 (proj2 P))]. change (beqb [] (str "information")) with false. change (beqb [] (str "favorites")) with false.
    eexists. split; [reflexivity|]. apply ANoItem; [reflexivity|]. split; discriminate.
  - assert (X : match (if slash then [[]] else []) with [] => Ok (uid, []) | i :: _ => Ok (uid, i) end = @Ok (bytes * bytes) (uid, [])) by now destruct slash.
    destruct slash; change (beqb [] (str "information")) with false; change (beqb [] (str "favorites")) with false; cbv iota;
      (eexists; split; [reflexivity|]; apply ANoItem; [reflexivity|]; split; discriminate).
  - destruct (beqb item (str "information")) eqn:I1; [|destruct (beqb item (str "favorites")) eqn:I2].
    + apply beqb_eq in I1. subst item. rewrite get_information by exact M. destruct (find_spec (s_users s) uid) as [(u & -> & U)|[-> U]].
      * eexists. split; [reflexivity|]. unfold information_of. pose proof U as (_ & _ & _ & -> & _). now apply AInformation.
      * eexists. split; [reflexivity|]. now apply AUnknownUser.
    + apply beqb_eq in I2. subst item. eexists. split; [reflexivity|]. now apply AFavorites.
    + apply beqb_neq in I1, I2. eexists. split; [reflexivity|]. apply ANoItem; [reflexivity|]. split; congruence.
Qed.
Theorem C65_answers : forall s r es slash, r_method r <> str "CONNECT" -> plainly es slash -> r_path r = path_to es slash ->
  ~ (r_method r = str "POST" /\ r_path r = str "/v1/token") ->
  forall a, handle s r = Ok a <-> exists rep, a = Answer rep /\ place_answer s (r_method r) es slash rep.
Proof.
  intros s r es slash M P E T.
  assert (H : handle s r = omap Answer (serve s r)).
  { apply (C61_plain_paths_answered s r (path_to es slash) M); [|exact E]. rewrite E. destruct P as [F P]. exists es. destruct slash; cbn [path_to].
    - split; [rewrite <- (place_directory es F) at 2; apply leads|]. split; [exact F|]. left. split; [reflexivity|]. split; [exact P|]. left. now apply ends_directory.
    - split; [rewrite <- (place_plain es F) at 2; apply leads|]. split; [exact F|]. right. split; [reflexivity|]. destruct es as [|e es]; [now left|right].
      split; [|exact P]. intros X. apply ends_plain in X; [discriminate X|exact F]. }
  assert (X : exists rep, serve s r = Ok rep /\ place_answer s (r_method r) es slash rep).
  { destruct (known_spec es slash P r E) as (K1 & K2 & K3 & K4). unfold serve.
    destruct (beqb (r_path r) (str "/v1/token")) eqn:B1.
    { destruct (proj1 K1 eq_refl) as [-> ->]. unfold routeToken. destruct (beqb (r_method r) (str "POST")) eqn:MP; [exfalso; apply T; split; now apply beqb_eq|].
      apply beqb_neq in MP. eexists. split; [reflexivity|]. apply AOtherMethod with (str "POST"); [constructor|exact MP]. }
    destruct (beqb (r_path r) (str "/v1/boards")) eqn:B2.
    { destruct (proj1 K2 eq_refl) as [-> ->]. unfold routeBoards, getBoards. destruct (beqb (r_method r) (str "GET")) eqn:MG; [apply beqb_eq in MG|apply beqb_neq in MG]; (eexists; split; [reflexivity|]).
      - now constructor.
      - apply AOtherMethod with (str "GET"); [constructor|exact MG]. }
    destruct (HasPrefix (r_path r) (str "/v1/classes/")) eqn:B3.
    { destruct (proj1 K3 eq_refl) as [rest ->]. unfold routeClasses. destruct (beqb (r_method r) (str "GET")) eqn:MG; [apply beqb_eq in MG|apply beqb_neq in MG]; (eexists; split; [reflexivity|]).
      - now constructor.
      - apply AOtherMethod with (str "GET"); [constructor|exact MG]. }
    destruct (HasPrefix (r_path r) (str "/v1/users/")) eqn:B4.
    { destruct (proj1 K4 eq_refl) as [rest ->]. unfold routeUsers. destruct (beqb (r_method r) (str "GET")) eqn:MG; [apply beqb_eq in MG; now apply users_answer|apply beqb_neq in MG]. 
      eexists. split; [reflexivity|]. apply AOtherMethod with (str "GET"); [constructor|exact MG]. }
    eexists. split; [reflexivity|]. apply ANowhere. intros m K. destruct K.
    - assert (false = true) by now apply K1. discriminate.
    - assert (false = true) by now apply K2. discriminate.
    - assert (false = true) by (apply K3; eauto). discriminate.
    - assert (false = true) by (apply K4; eauto). discriminate. }
  destruct X as (rep & Er & A). rewrite Er in H. intros a. rewrite H. cbn [omap]. split.
  - intros [= <-]. exists rep. now split.
  - intros (rep' & -> & A'). now rewrite (answer_fun _ _ _ _ _ _ A' A).
Qed.
Print Assumptions C65_answers.

Example C65_nonvacuous :
  let get p := Request (str "GET") p [] [] in
  plainly [str "v1"; str "users"; str "SYSOP"; str "favorites"] true /\
  path_to [str "v1"; str "users"; str "SYSOP"; str "favorites"] true = str "/v1/users/SYSOP/favorites/" /\
  handle web_server (get (str "/v1/users/SYSOP/favorites/")) = Ok (Answer (Reply 501 NoBody)) /\
  handle web_server (get (str "/v1/users/SYSOP")) = Ok (Answer (Reply 404 NoBody)) /\
  handle web_server (get (str "/v1/classes/")) = Ok (Answer (Reply 501 NoBody)) /\
  handle web_server (Request (str "PUT") (str "/v1/boards") [] []) = Ok (Answer (Reply 200 NoBody)) /\
  handle web_server (get (str "/v1/boards/")) = Ok (Answer (Reply 404 (PlainBody (str "404 page not found" ++ [x0a])))).
Proof.
  cbv zeta. split; [|vm_compute; repeat split; reflexivity]. split; [|discriminate].
  repeat (apply Forall_cons; [repeat split; try discriminate; cbn; intuition discriminate|]); constructor.
Qed.
