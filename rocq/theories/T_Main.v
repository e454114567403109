(** * Property theorems: C66 (the command line of bbstool) *)
From Coq Require Import Lia ZifyBool ZifyNat ZifyN.
From Verif Require Import M_Base M_Text M_Sys M_Board M_Tool M_BbsTool M_Main S_World S_Example S_Tool S_BbsTool S_Main S_ExWorld P_Base P_Sys.
Open Scope N_scope.

(** ** C66 *)
Lemma cut_rest_none rest before : ~ In "="%byte rest -> cut_rest rest before = (rev before ++ rest, None).
Proof.
  revert before. induction rest as [|c rest IH]; intros before N; cbn [cut_rest]; [now rewrite app_nil_r|].
  destruct (Byte.eqb c "=") eqn:E; [apply Byte.byte_dec_bl in E; exfalso; apply N; now left|]. rewrite IH by (intros H; apply N; now right). cbn [rev]. now rewrite <- app_assoc.
Qed.
Lemma cut_rest_some rest value before : ~ In "="%byte rest -> cut_rest (rest ++ "="%byte :: value) before = (rev before ++ rest, Some value).
Proof.
  revert before. induction rest as [|c rest IH]; intros before N; cbn [cut_rest app]; [now rewrite app_nil_r|].
  destruct (Byte.eqb c "=") eqn:E; [apply Byte.byte_dec_bl in E; exfalso; apply N; now left|]. rewrite IH by (intros H; apply N; now right). cbn [rev]. now rewrite <- app_assoc.
Qed.
Definition setting_of (x : setting) (v : bytes) (e : tool_env) : tool_env :=
  match x with Driver => ToolEnv v (te_home e) (te_args e) | Home => ToolEnv (te_driver e) v (te_args e) end.
Lemma parse_written x value ws rest e : spelling x value ws -> parse_flags (ws ++ rest) e = parse_flags rest (setting_of x value e).
Proof. intros [dash [->| ->]|dash [->| ->]]; destruct x; reflexivity. Qed.
Lemma parse_settings l ws : settings l ws -> forall rest e, te_args e = [] ->
  parse_flags (ws ++ rest) e = parse_flags rest (ToolEnv (last_setting Driver (te_driver e) l) (last_setting Home (te_home e) l) []).
Proof.
  induction 1 as [|x value l first more W Hs IH]; intros rest [d h a] A; cbn [te_args] in A; subst a; [reflexivity|].
  rewrite <- app_assoc, (parse_written x value _ _ _ W). destruct x; cbn [setting_of te_driver te_home te_args last_setting]; now rewrite IH.
Qed.
Lemma not_dashed w : ~ dashed w -> w = [] \/ w = ["-"%byte] \/ exists c r, w = c :: r /\ c <> "-"%byte.
Proof.
  intros N. destruct w as [|c r]; [now left|]. destruct (Byte.byte_eq_dec c "-") as [->|D]; [|right; right; eauto].
  destruct r as [|c' r]; [right; now left|]. exfalso. apply N. exists c', r. reflexivity.
Qed.
Lemma parse_stop w ws e : ~ dashed w -> parse_flags (w :: ws) e = Parsed (ToolEnv (te_driver e) (te_home e) (w :: ws)).
Proof. intros N. destruct (not_dashed w N) as [->|[->|(c & r & -> & D)]]; try reflexivity. cbn [parse_flags]. destruct c; try reflexivity. contradiction. Qed.

(** The settings come first; of each the last one counts; what follows is for the command. *)
Theorem C66_settings_come_first : forall cd fuel l first rest line, settings l first -> remainder rest line ->
  main cd fuel (first ++ line) =
  bind (tool cd fuel (ToolEnv (last_setting Driver (str "pttbbs") l) (last_setting Home (str "/home/bbs") l) rest)) (fun o => Ret (Some o)).
Proof.
  intros cd fuel l first rest line Hs R. unfold main. rewrite (parse_settings l first Hs line no_flags eq_refl). cbn [no_flags te_driver te_home].
  destruct R as [|w ws N|ws]; [reflexivity|now rewrite parse_stop by exact N|reflexivity].
Qed.
Print Assumptions C66_settings_come_first.

(** A line with a word that begins with a dash and is no setting, or with a setting
    without a value, is refused: nothing is done. *)
Lemma parse_unknown dash name value rest e : dash = str "-" \/ dash = str "--" -> ~ In "="%byte name -> (forall r, name <> "-"%byte :: r) -> name <> [] ->
  name <> spelled Driver -> name <> spelled Home -> value = [] \/ (exists v, value = "="%byte :: v) -> parse_flags ((dash ++ name ++ value) :: rest) e = Exit2.
Proof.
  intros D E M N X1 X2 V. destruct name as [|c name]; [contradiction|].
  assert (C1 : Byte.eqb c "-" = false) by (destruct (Byte.eqb c "-") eqn:Q; [apply Byte.byte_dec_bl in Q; subst; exfalso; now apply (M name)|reflexivity]).
  assert (C2 : Byte.eqb c "=" = false) by (destruct (Byte.eqb c "=") eqn:Q; [apply Byte.byte_dec_bl in Q; subst; exfalso; apply E; now left|reflexivity]).
  assert (S : forall e v, set_flag e (c :: name) v = None).
  { intros e' v. unfold set_flag. now rewrite !(proj2 (beqb_neq _ _)) by assumption. }
  assert (E' : ~ In "="%byte name) by (intros H; apply E; now right).
  assert (Cut : exists v, cut_value ((c :: name) ++ value) = (c :: name, v)).
  { cbn [app cut_value]. destruct V as [->|[v ->]]; [rewrite app_nil_r, cut_rest_none by exact E'|rewrite cut_rest_some by exact E']; cbn [rev app]; eauto. }
  destruct Cut as [v Cut]. destruct D as [->| ->].
  - change (str "-" ++ (c :: name) ++ value) with ("-"%byte :: c :: (name ++ value)). cbn [parse_flags]. rewrite (proj2 (beqb_neq _ _)), C1.
    2: { intros Q. injection Q as -> _. discriminate C1. }
    cbn [skipn]. rewrite C1, C2. cbn [orb]. change (c :: name ++ value) with ((c :: name) ++ value). rewrite Cut. destruct v; now rewrite S.
  - change (str "--" ++ (c :: name) ++ value) with ("-"%byte :: "-"%byte :: c :: (name ++ value)). cbn [parse_flags]. rewrite (proj2 (beqb_neq _ _)) by discriminate.
    change (Byte.eqb "-" "-") with true. cbv iota. cbn [skipn]. rewrite C1, C2. cbn [orb]. change (c :: name ++ value) with ((c :: name) ++ value). rewrite Cut. destruct v; now rewrite S.
Qed.
Lemma parse_refused line e : refused line -> parse_flags line e = Exit2.
Proof.
  intros [dash name value rest D E M N X1 X2 V|dash name rest [->| ->] (r & [->|[Q ->]])|dash x [->| ->]]; try reflexivity; try discriminate Q; try (destruct x; reflexivity).
  now apply parse_unknown.
Qed.
Theorem C66_other_lines_are_refused : forall cd fuel l first line w, settings l first -> refused line ->
  run (main cd fuel (first ++ line)) w = (w, None).
Proof. intros cd fuel l first line w Hs R. unfold main. rewrite (parse_settings l first Hs line no_flags eq_refl), (parse_refused _ _ R). reflexivity. Qed.
Print Assumptions C66_other_lines_are_refused.

(** Every line is of one of the two kinds. *)
Lemma find_equals (n : bytes) : exists name value, n = name ++ value /\ ~ In "="%byte name /\ (value = [] \/ exists v, value = "="%byte :: v).
Proof.
  induction n as [|c n (name & value & -> & N & V)]; [exists [], []; auto|].
  destruct (Byte.byte_eq_dec c "=") as [->|D]; [exists [], ("="%byte :: name ++ value); split; [reflexivity|]; split; [intros []|right; eauto]|].
  exists (c :: name), value. split; [reflexivity|]. split; [|exact V]. intros [H|H]; [congruence|now apply N].
Qed.
Theorem C66_every_line : forall argv, exists l first line, argv = first ++ line /\ settings l first /\ ((exists rest, remainder rest line) \/ refused line).
Proof.
  intros argv. remember (length argv) as n eqn:Hn. assert (L : (length argv <= n)%nat) by lia. clear Hn. revert argv L.
  induction n as [|n IH]; intros argv L.
  { destruct argv; [|cbn in L; lia]. exists [], [], []. split; [reflexivity|]. split; [constructor|]. left. eexists. constructor. }
  destruct argv as [|w argv]; [exists [], [], []; split; [reflexivity|]; split; [constructor|]; left; eexists; constructor|]. cbn [length] in L.
  assert (Base : ((exists rest, remainder rest (w :: argv)) \/ refused (w :: argv)) -> exists l first line, w :: argv = first ++ line /\ settings l first /\ ((exists rest, remainder rest line) \/ refused line)).
  { intros H. exists [], [], (w :: argv). split; [reflexivity|]. split; [constructor|exact H]. }
  assert (Go : forall x v f more, w :: argv = f ++ more -> spelling x v f -> (length more <= n)%nat ->
    exists l first line, w :: argv = first ++ line /\ settings l first /\ ((exists rest, remainder rest line) \/ refused line)).
  { intros x v f more E Sp Lm. destruct (IH more Lm) as (l & first & line & -> & Hs & H). exists ((x, v) :: l), (f ++ first), line. split; [now rewrite <- app_assoc|]. split; [now constructor|exact H]. }
  destruct (list_eq_dec Byte.byte_eq_dec w (str "--")) as [->|ND]; [apply Base; left; eexists; apply RDashes|].
  assert (Dash : ~ dashed w \/ exists dash n', (dash = str "-" \/ dash = str "--") /\ w = dash ++ n' /\ n' <> [] /\ (dash = str "-" -> forall r, n' <> "-"%byte :: r)).
  { destruct w as [|c0 [|c1 w]]; [left; intros (a & r & H); discriminate H|left; intros (a & r & H); discriminate H|].
    destruct (Byte.byte_eq_dec c0 "-") as [->|D0]; [|left; intros (a & r & H); congruence]. right.
    destruct (Byte.byte_eq_dec c1 "-") as [->|D1].
    - exists (str "--"), w. split; [now right|]. split; [reflexivity|]. split; [intros ->; now apply ND|discriminate].
    - exists (str "-"), (c1 :: w). split; [now left|]. split; [reflexivity|]. split; [discriminate|]. intros _ r H. congruence. }
  destruct Dash as [N|(dash & n' & D & -> & Nn & Nd)]; [apply Base; left; eexists; now apply RWord|].
  destruct (find_equals n') as (name & value & -> & NE & V).
  assert (Syn : (exists r, name ++ value = "="%byte :: r \/ (dash = str "--" /\ name ++ value = "-"%byte :: r)) -> refused ((dash ++ name ++ value) :: argv)) by (intros H; now apply XSyntax).
  destruct name as [|c name].
  { destruct V as [->|[v ->]]; [contradiction|]. apply Base. right. apply Syn. exists v. now left. }
  destruct (Byte.byte_eq_dec c "-") as [->|Dc].
  { apply Base. right. apply Syn. exists (name ++ value). right. split; [|reflexivity]. destruct D as [->| ->]; [|reflexivity]. exfalso. now apply (Nd eq_refl (name ++ value)). }
  assert (K : (exists x, c :: name = spelled x) \/ (c :: name <> spelled Driver /\ c :: name <> spelled Home)).
  { destruct (list_eq_dec Byte.byte_eq_dec (c :: name) (spelled Driver)) as [E|E]; [left; now exists Driver|].
    destruct (list_eq_dec Byte.byte_eq_dec (c :: name) (spelled Home)) as [E'|E']; [left; now exists Home|right; now split]. }
  destruct K as [[x K]|[K1 K2]].
  - rewrite K in *. destruct V as [->|[v ->]].
    + rewrite app_nil_r in *. destruct argv as [|v argv]; [apply Base; right; now constructor|]. cbn [length] in L. apply (Go x v [dash ++ spelled x; v] argv); [reflexivity|now constructor|lia].
    + apply (Go x v [dash ++ spelled x ++ str "=" ++ v] argv); [reflexivity|now constructor|lia].
  - apply Base. right. apply XUnknown; try assumption; try discriminate. intros r H. congruence.
Qed.
Print Assumptions C66_every_line.

(** A setting after the command is not a setting: the command runs on the default home. *)
Definition C66_statement : Prop := forall cd fuel command l ws, ~ dashed command -> settings l ws -> main cd fuel (command :: ws) = main cd fuel (ws ++ [command]).
Theorem C66_settings_anywhere_refuted : ~ C66_statement.
Proof.
  intros H. specialize (H id_codec 20%nat (str "show_board_list") [(Home, sample_wd)] [str "--bbshome=" ++ sample_wd]).
  assert (E : snd (run (main id_codec 20 [str "show_board_list"; str "--bbshome=" ++ sample_wd]) sample_world) = snd (run (main id_codec 20 [str "--bbshome=" ++ sample_wd; str "show_board_list"]) sample_world)).
  { f_equal. f_equal. apply H; [intros (c & r & Q); discriminate Q|]. change [str "--bbshome=" ++ sample_wd] with ([str "--" ++ spelled Home ++ str "=" ++ sample_wd] ++ []).
    constructor; [constructor; now right|constructor]. }
  vm_compute in E. discriminate E.
Qed.
Print Assumptions C66_settings_anywhere_refuted.
(** An option of a command that is joined to its value by an equals sign is not seen. *)
Definition C66_options_statement : Prop := forall cd fuel first name value, ~ In "="%byte name ->
  main cd fuel (first ++ [str "--" ++ name ++ str "=" ++ value]) = main cd fuel (first ++ [str "--" ++ name; value]).
Theorem C66_joined_options_refuted : ~ C66_options_statement.
Proof.
  intros H. specialize (H id_codec 20%nat [str "-bbshome"; sample_wd; str "show_board_article_list"] (str "board") (str "test")).
  assert (E : snd (run (main id_codec 20 ([str "-bbshome"; sample_wd; str "show_board_article_list"] ++ [str "--" ++ str "board" ++ str "=" ++ str "test"])) sample_world) =
    snd (run (main id_codec 20 ([str "-bbshome"; sample_wd; str "show_board_article_list"] ++ [str "--" ++ str "board"; str "test"])) sample_world)).
  { f_equal. f_equal. apply H. vm_compute. intuition discriminate. }
  vm_compute in E. discriminate E.
Qed.
Print Assumptions C66_joined_options_refuted.

Example C66_nonvacuous :
  settings [(Home, str "/a"); (Driver, str "pttbbs"); (Home, sample_wd)] [str "--bbshome"; str "/a"; str "-driver=pttbbs"; str "-bbshome=/bbs"] /\
  remainder [str "show_board_list"] [str "--"; str "show_board_list"] /\
  snd (run (main id_codec 20 [str "--bbshome"; str "/a"; str "-driver=pttbbs"; str "-bbshome=/bbs"; str "--"; str "show_board_list"]) sample_world) =
    snd (run (main id_codec 20 [str "-bbshome=/bbs"; str "show_board_list"]) sample_world) /\
  refused [str "--help"; str "show_board_list"] /\ snd (run (main id_codec 20 [str "--help"; str "show_board_list"]) sample_world) = None.
Proof.
  split; [|split; [apply RDashes|split; [vm_compute; reflexivity|split; [|vm_compute; reflexivity]]]].
  - apply (SMore Home (str "/a") _ [str "--bbshome"; str "/a"]); [apply (Apart Home _ (str "--")); now right|].
    apply (SMore Driver (str "pttbbs") _ [str "-driver=pttbbs"]); [apply (Joined Driver (str "pttbbs") (str "-")); now left|].
    apply (SMore Home (str "/bbs") _ [str "-bbshome=/bbs"]); [apply (Joined Home (str "/bbs") (str "-")); now left|]. constructor.
  - apply (XUnknown (str "--") (str "help") []); try discriminate; try (now right); try (now left); vm_compute; intuition discriminate.
Qed.
