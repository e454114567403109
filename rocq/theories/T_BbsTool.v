(** * Property theorems about bbstool: C53, C54, C56 *)
From Coq Require Import Lia ZifyBool ZifyNat ZifyN.
From Verif Require Import M_Base M_Sys M_Text M_Utf8 M_Path M_File M_Board M_Userec M_Time M_FileOps M_DB M_Login M_Comment M_Scan M_Tool M_BbsTool.
From Verif Require Import S_World S_Path S_Layout S_File S_Board S_Userec S_BoardList S_Store S_Scan S_Tool S_BbsTool S_Example S_ExWorld.
From Verif Require Import P_Base P_Layout P_Records P_Sys P_Read P_Path P_FileOps P_BoardList P_Store P_Pool P_PoolList P_Utf8 P_Scan P_BbsTool T_Records T_Path T_Misc T_Store T_Scan.
Open Scope N_scope.

(** ** C53: what the showing commands print *)
Lemma boards_same cd w w' wd bs : same_files w w' -> boards_are cd w wd bs -> boards_are cd w' wd bs.
Proof. intros S (d & ss & C & R). exists d, ss. split; [now apply (content_same w)|exact R]. Qed.
Lemma remarks_same w w' wd user b l r : same_files w w' -> remarks w wd user b l r -> remarks w' wd user b l r.
Proof.
  intros S (css & rs & H & R). exists css, rs. split; [|exact R]. clear R. induction H as [|a cs l' css' Ha _ IH]; constructor; [|exact IH]. now apply (comments_same w).
Qed.
Lemma Forall2_mono {A B} (R R' : A -> B -> Prop) : (forall a b, R a b -> R' a b) -> forall l l', Forall2 R l l' -> Forall2 R' l l'.
Proof. intros H l l' F. induction F; constructor; auto. Qed.


(** The titles of all boards in the order of the board file. *)
Theorem C53_show_board_list cd w e l bs :
  sane w -> home_ok w e -> typed e "show_board_list" l -> boards_are cd w (te_home e) bs ->
  prints cd e w (map (fun h => Out (str "title: " ++ bh_title h)) bs).
Proof.
  intros S H T B. destruct (run_home S H) as (w1 & S1 & SF & R). apply (boards_same _ _ _ _ _ SF) in B.
  destruct (read_boards cd w1 _ bs S1 B) as (n & Rb). exists n. intros fuel Hf. rewrite (tool_cmd cd fuel e _ l T).
  change (if beqb (str "show_board_list") (str "show_board_list") then showboardlist cd fuel e else _) with (showboardlist cd fuel e).
  destruct (Rb fuel Hf) as (w2 & E & S2 & SF2). exists w2. split; [|split; [exact S2|now apply (same_files_trans _ w1)]].
  unfold showboardlist. rewrite R, (run_try _ _ _ _ _ _ E). reflexivity.
Qed.
Print Assumptions C53_show_board_list.
(** The ids of all users that have one. *)
Theorem C53_show_user_list cd w e l us named :
  sane w -> home_ok w e -> typed e "show_user_list" l -> users_are cd w (te_home e) us ->
  selected (fun u => u_userid u <> []) us named ->
  prints cd e w (map (fun u => Out (str "user id: " ++ u_userid u)) named).
Proof.
  intros S H T B Sel. destruct (run_home S H) as (w1 & S1 & SF & R).
  destruct (read_users cd w _ us S B) as (n & Rb). exists n. intros fuel Hf. rewrite (tool_cmd cd fuel e _ l T).
  change (if beqb (str "show_user_list") (str "show_board_list") then showboardlist cd fuel e else _) with (showuserlist cd fuel e).
  destruct (Rb fuel Hf w1 S1 SF) as (w2 & E & S2 & SF2). exists w2. split; [|split; [exact S2|exact SF2]].
  unfold showuserlist. rewrite R, (run_try _ _ _ _ _ _ E). cbn [run]. do 2 f_equal. clear -Sel. induction Sel as [|u us r P _ IH|u us r P _ IH]; [reflexivity| |]; cbn [flat_map map].
  - destruct (u_userid u); [contradiction|]. cbn [app]. now rewrite IH.
  - destruct (u_userid u) eqn:E; [exact IH|]. exfalso. apply P. discriminate.
Qed.
Print Assumptions C53_show_user_list.
(** The articles of a board that have a name, one line each, in index order. *)
Theorem C53_show_board_article_list cd w e l b recs named :
  sane w -> home_ok w e -> typed e "show_board_article_list" l -> option_is l "board" b ->
  articles_are cd w (te_home e) b recs -> selected (fun a => fh_filename a <> []) recs named ->
  exists lines, Forall2 article_shown named lines /\ prints cd e w lines.
Proof.
  intros S H T O B Sel. destruct (run_db S H) as (w1 & S1 & SF & R).
  destruct (read_index cd w _ b recs S B) as (n & Rb). exists (map (fun a => Out (article_line a)) named). split.
  - clear. induction named as [|a l IH]; cbn [map]; constructor; [|exact IH]. exists (N.to_nat (12 - RuneCount (fh_owner a))).
    split; [unfold article_line, pad_left, blanks; now rewrite <- app_assoc|]. intros A. rewrite RuneCount_ascii by exact A. unfold lenN. lia.
  - exists n. intros fuel Hf. rewrite (tool_cmd cd fuel e _ l T).
    change (if beqb (str "show_board_article_list") (str "show_board_list") then showboardlist cd fuel e else _) with (showBoardArticleList cd fuel e).
    destruct (Rb fuel Hf w1 S1 SF) as (w2 & E & S2 & SF2). exists w2. split; [|split; [exact S2|exact SF2]].
    unfold showBoardArticleList. rewrite R, (run_need e _ l _ _ b T O), run_bind. cbn [db_call]. rewrite E. cbn [run]. do 2 f_equal.
    clear -Sel. unfold article_lines. induction Sel as [|u us r P _ IH|u us r P _ IH]; [reflexivity| |]; cbn [flat_map map].
    + destruct (fh_filename u) eqn:F; [contradiction|]. cbn [app]. now rewrite IH.
    + destruct (fh_filename u) eqn:F; [exact IH|]. exfalso. apply P. discriminate.
Qed.
Print Assumptions C53_show_board_article_list.
(** The text of an article. *)
Theorem C53_show_board_article cd w e l b f d :
  sane w -> home_ok w e -> typed e "show_board_article" l -> option_is l "board" b -> option_is l "filename" f ->
  content_of w (te_home e) (Article b f) (Some d) ->
  prints cd e w [Out (str "filecontent: "); Out (dec cd d)].
Proof.
  intros S H T O1 O2 C. destruct (run_db S H) as (w1 & S1 & SF & R). apply (content_same _ _ _ _ _ SF) in C. destruct C as (p & rp & E & N & L & _). cbn [object_path option_map] in *.
  destruct (open_read_all_file p w1 rp d S1 N L) as (w2 & R2 & S2 & SF2 & _). exists 0%nat. intros fuel _. rewrite (tool_cmd cd fuel e _ l T).
  change (if beqb (str "show_board_article") (str "show_board_list") then showboardlist cd fuel e else _) with (showBoardArticle cd e).
  exists w2. split; [|split; [exact S2|now apply (same_files_trans _ w1)]].
  unfold showBoardArticle. rewrite R, (run_need e _ l _ _ b T O1), (run_need e _ l _ _ f T O2). cbn [db_call].
  assert (Q : run (DB_ReadBoardArticleFile (te_home e) b f) w1 = (w2, Ok d)).
  { unfold DB_ReadBoardArticleFile. rewrite run_pbind. unfold lift. rewrite E. cbn [run]. now rewrite read_article_shape, R2. }
  now rewrite (run_try _ _ _ _ _ _ Q).
Qed.
Print Assumptions C53_show_board_article.
Theorem C53_missing_article_is_reported cd w e l b f :
  sane w -> home_ok w e -> typed e "show_board_article" l -> option_is l "board" b -> option_is l "filename" f ->
  content_of w (te_home e) (Article b f) None ->
  exists what, prints cd e w [OutErr what (ESys ENOENT)].
Proof.
  intros S H T O1 O2 C. destruct (run_db S H) as (w1 & S1 & SF & R). apply (content_same _ _ _ _ _ SF) in C. destruct C as (p & rp & E & N & L & M). cbn [object_path option_map] in *.
  eexists. exists 0%nat. intros fuel _. rewrite (tool_cmd cd fuel e _ l T).
  change (if beqb (str "show_board_article") (str "show_board_list") then showboardlist cd fuel e else _) with (showBoardArticle cd e).
  exists w1. split; [|split; [exact S1|exact SF]].
  unfold showBoardArticle. rewrite R, (run_need e _ l _ _ b T O1), (run_need e _ l _ _ f T O2). cbn [db_call].
  assert (Q : run (DB_ReadBoardArticleFile (te_home e) b f) w1 = (w1, Err (ESys ENOENT))).
  { unfold DB_ReadBoardArticleFile. rewrite run_pbind. unfold lift. rewrite E. cbn [run]. rewrite read_article_shape, (open_read_all_missing p w1 rp N L). now rewrite (missing_enoent' w1 rp (M eq_refl)). }
  rewrite (run_try_err _ _ _ _ _ _ Q). reflexivity.
Qed.
Print Assumptions C53_missing_article_is_reported.
(** The articles and the comments of a user on all boards. *)
Theorem C53_show_user_article_list cd w e l user bs ls rs :
  sane w -> home_ok w e -> typed e "show_user_article_list" l -> option_is l "user_id" user ->
  boards_are cd w (te_home e) bs -> Forall2 (searched cd w (te_home e)) bs ls ->
  Forall2 (fun hl r => posts user (fst hl) (snd hl) r) (combine bs ls) rs ->
  prints cd e w (map (fun a => Out (str "titlex: " ++ ua_title a)) (concat rs)).
Proof.
  intros S H T O B Q P. destruct (run_home S H) as (w1 & S1 & SF & R). apply (boards_same _ _ _ _ _ SF) in B.
  apply (Forall2_mono _ _ (fun h x => searched_same cd w w1 (te_home e) h x SF)) in Q.
  destruct (C31_user_articles_exact cd w1 (te_home e) user bs ls rs S1 B Q P) as (n & Rb). exists n. intros fuel Hf. rewrite (tool_cmd cd fuel e _ l T).
  change (if beqb (str "show_user_article_list") (str "show_board_list") then showboardlist cd fuel e else _) with (showuserarticlelist cd fuel e).
  destruct (Rb fuel Hf) as (w2 & E & S2 & SF2). exists w2. split; [|split; [exact S2|now apply (same_files_trans _ w1)]].
  unfold showuserarticlelist. rewrite R. unfold must_arg. rewrite (typed_arg e _ l _ T), O. rewrite (run_try _ (lift (Ok user)) _ w1 w1 user eq_refl), (run_try _ _ _ _ _ _ E). reflexivity.
Qed.
Print Assumptions C53_show_user_article_list.
Theorem C53_show_user_comment_list cd w e l user bs ls rs :
  sane w -> home_ok w e -> typed e "show_user_comment_list" l -> option_is l "user_id" user ->
  boards_are cd w (te_home e) bs -> Forall2 (searched cd w (te_home e)) bs ls ->
  Forall2 (fun hl r => remarks w (te_home e) user (bh_name (fst hl)) (snd hl) r) (combine bs ls) rs ->
  prints cd e w (map (fun c => Out (str "user comment record: order: " ++ fmt_d (Z.of_N (uc_order c)) ++ str ", owner: " ++ uc_owner c ++
    str ", time: " ++ Format layout_comment (uc_time c))) (concat rs)).
Proof.
  intros S H T O B Q P. destruct (run_home S H) as (w1 & S1 & SF & R). apply (boards_same _ _ _ _ _ SF) in B.
  apply (Forall2_mono _ _ (fun h x => searched_same cd w w1 (te_home e) h x SF)) in Q.
  apply (Forall2_mono _ _ (fun hl r => remarks_same w w1 (te_home e) user (bh_name (fst hl)) (snd hl) r SF)) in P.
  destruct (C32_user_comments_exact cd w1 (te_home e) user bs ls rs S1 B Q P) as (n & Rb). exists n. intros fuel Hf. rewrite (tool_cmd cd fuel e _ l T).
  change (if beqb (str "show_user_comment_list") (str "show_board_list") then showboardlist cd fuel e else _) with (showusercommentlist cd fuel e).
  destruct (Rb fuel Hf) as (w2 & E & S2 & SF2). exists w2. split; [|split; [exact S2|now apply (same_files_trans _ w1)]].
  unfold showusercommentlist. rewrite R. unfold must_arg. rewrite (typed_arg e _ l _ T), O. rewrite (run_try _ (lift (Ok user)) _ w1 w1 user eq_refl), (run_try _ _ _ _ _ _ E). reflexivity.
Qed.
Print Assumptions C53_show_user_comment_list.
(** No command but the two that add something changes a file: whatever is typed,
    whatever the file system, at every moment. *)
Theorem C53_showing_changes_nothing cd fuel e w :
  shows (nth 0 (te_args e) []) ->
  same_files w (fst (run (tool cd fuel e) w)) /\ forall w', crash (tool cd fuel e) w w' -> same_files w w'.
Proof. intros H. split; [now apply reader_run, reader_tool|now apply reader_crash, reader_tool]. Qed.
Print Assumptions C53_showing_changes_nothing.
Theorem C53_unknown_command cd fuel e w :
  ~ In (nth 0 (te_args e) []) (map str ["show_board_list"; "add_board"; "show_user_list"; "show_user_article_list"; "show_user_comment_list";
     "show_board_article_list"; "add_board_article"; "show_board_article"]%string) ->
  run (tool cd fuel e) w = (w, Ok [Out (str "unknown subcommand: " ++ nth 0 (te_args e) [])]).
Proof.
  intros H. unfold tool. cbv zeta. revert H. generalize (nth 0 (te_args e) []). intros c H.
  assert (Q : forall x, In x (map str ["show_board_list"; "add_board"; "show_user_list"; "show_user_article_list"; "show_user_comment_list";
     "show_board_article_list"; "add_board_article"; "show_board_article"]%string) -> beqb c x = false)
    by (intros x I; destruct (beqb_spec c x) as [->|]; [contradiction|reflexivity]).
  rewrite !Q by (cbn [map In]; tauto). reflexivity.
Qed.
Print Assumptions C53_unknown_command.

(** ** Examples for C53 *)
Definition tool_cmdline (args : list string) : tool_env := ToolEnv (str "pttbbs") sample_wd (map str args).
Lemma scan_home second bs c1 c2 args : home_ok (scan_world second bs c1 c2) (tool_cmdline args).
Proof.
  split; [reflexivity|]. split; [cbn; intros H; repeat (destruct H as [H|H]; [discriminate|]); contradiction|]. exists (rp ["bbs"]%string).
  split; [split; [split; [discriminate|no_nul]|vm_compute; reflexivity]|]. destruct second; reflexivity.
Qed.
Ltac plain_args := repeat (constructor; [cbn; repeat split; try discriminate; auto|]); constructor.
Definition two_users : list bytes := [Userec_MarshalBinary id_codec sample_user; zeros 512; Userec_MarshalBinary id_codec sample_user].
Definition users_world : world := world_of [(rp ["bbs"]%string, NDir); (rp ["bbs"; ".PASSWDS"]%string, NFile 0)] [concat two_users].
Lemma users_content : content_of users_world sample_wd Passwds (Some (concat two_users)).
Proof.
  exists (str "/bbs/.PASSWDS"), (rp ["bbs"; ".PASSWDS"]%string). split; [reflexivity|]. split; [split; [split; [discriminate|no_nul]|vm_compute; reflexivity]|]. split; [reflexivity|discriminate].
Qed.
Example C53_nonvacuous :
  let w := scan_world true scan_boards article1 article2 in
  typed (tool_cmdline ["show_board_article"; "--board"; "SYSOP"; "--filename"; "M.1"]%string) "show_board_article" [Option_ (str "board") (str "SYSOP"); Option_ (str "filename") (str "M.1")] /\
  sane w /\ home_ok w (tool_cmdline ["show_board_list"]%string) /\ boards_are id_codec w sample_wd scan_boards /\
  snd (run (tool id_codec 900 (tool_cmdline ["show_board_list"]%string)) w) = Ok (map (fun h => Out (str "title: " ++ bh_title h)) scan_boards) /\
  snd (run (tool id_codec 900 (tool_cmdline ["show_board_article"; "--board"; "SYSOP"; "--filename"; "M.1"]%string)) w) = Ok [Out (str "filecontent: "); Out article1] /\
  snd (run (tool id_codec 900 (tool_cmdline ["show_board_article_list"; "--board"; "SYSOP"]%string)) w) =
    Ok [Out (str "M.1        pichu  9/02 [Test] hello"); Out (str "M.2          lex  9/02 [Test] hello")] /\
  snd (run (tool id_codec 900 (tool_cmdline ["show_user_article_list"; "--user_id"; "lex"]%string)) w) = Ok [Out (str "titlex: [Test] hello")] /\
  snd (run (tool id_codec 900 (tool_cmdline ["show_user_comment_list"; "--user_id"; "lex"]%string)) w) = Ok [Out (str "user comment record: order: 2, owner: lex, time: 05/15 01:06")] /\
  (exists us named, users_are id_codec users_world sample_wd us /\ selected (fun u => u_userid u <> []) us named /\ length us = 3%nat /\ length named = 2%nat) /\
  snd (run (tool id_codec 900 (tool_cmdline ["show_user_list"]%string)) users_world) = Ok [Out (str "user id: " ++ u_userid sample_user); Out (str "user id: " ++ u_userid sample_user)].
Proof.
  split; [split; [vm_compute; reflexivity|plain_args]|]. split; [apply scan_sane|]. split; [apply scan_home|]. split; [apply scan_boards_are; vm_compute; reflexivity|].
  do 5 (split; [vm_compute; reflexivity|]). split; [|vm_compute; reflexivity].
  assert (D : forall s, lenN s = 512 -> exists u, UnmarshalUserec id_codec s = Ok u /\ userec_decoded id_codec s u) by (intros s L; apply userec_decode; lia).
  destruct (D (Userec_MarshalBinary id_codec sample_user) (userec_length _ _)) as (u & E & Du). destruct (D (zeros 512) eq_refl) as (z & Ez & Dz).
  exists [u; z; u], [u; u]. split; [|split; [|split; reflexivity]].
  - exists (concat two_users), two_users. split; [|split].
    + exact users_content.
    + apply slots_concat; [lia|]. repeat (constructor; [vm_compute; reflexivity|]). constructor.
    + repeat (constructor; [assumption|]). constructor.
  - assert (Eu : u_userid u <> []) by (intros Q; vm_compute in E; injection E as <-; discriminate Q).
    assert (Ezz : u_userid z = []) by (vm_compute in Ez; injection Ez as <-; reflexivity).
    constructor 2; [exact Eu|]. constructor 3; [intros Q; exact (Q Ezz)|]. constructor 2; [exact Eu|]. constructor.
Qed.
(** The listing of a board whose index cannot be read prints nothing, no error. *)
Definition blocked_world : world := world_of
  (dirs_of [["bbs"]; ["bbs"; "boards"]; ["bbs"; "boards"; "S"]]%string ++ [(rp ["bbs"; "boards"; "S"; "SYSOP"]%string, NFile 0)]) [str "not a directory"].
Theorem C53_errors_reported_refuted : exists cd w e l b, sane w /\ home_ok w e /\ typed e "show_board_article_list" l /\ option_is l "board" b /\
  snd (run (ReadBoardArticleRecordsFile cd 1 (te_home e) b) w) = Err (ESys ENOTDIR) /\ snd (run (tool cd 1 e) w) = Ok [].
Proof.
  exists id_codec, blocked_world, (tool_cmdline ["show_board_article_list"; "--board"; "SYSOP"]%string), [Option_ (str "board") (str "SYSOP")], (str "SYSOP").
  split; [apply saneb_sane; vm_compute; reflexivity|]. split.
  { split; [reflexivity|]. split; [cbn; intros H; repeat (destruct H as [H|H]; [discriminate|]); contradiction|]. exists (rp ["bbs"]%string). split; [split; [split; [discriminate|no_nul]|vm_compute; reflexivity]|reflexivity]. }
  split; [split; [vm_compute; reflexivity|plain_args]|]. split; [vm_compute; reflexivity|]. split; vm_compute; reflexivity.
Qed.
Print Assumptions C53_errors_reported_refuted.

(** ** C54: add_board *)
(** The command appends one record of 256 bytes, with the id and the title (cut to
    their fields) at their places, and touches nothing else. *)
Theorem C54_one_record_is_appended cd w e l id t rp old fuel :
  sane w -> home_ok w e -> typed e "add_board" l -> option_is l "board_id" id -> option_is l "title" t ->
  holds_file w (te_home e) Boards rp old ->
  exists w' m s, run (tool cd fuel e) w = (w', Ok [OutArgs m]) /\ (forall k, map_get m k = last_value l k) /\ sane w' /\
    (forall q, q <> rp -> look w' q = look w q) /\ look w' rp = Some (EFile (old_or_empty old ++ s)) /\
    length s = 256%nat /\ e_text s 0 13 (enc cd id) /\ e_text s 13 49 (enc cd t).
Proof.
  intros S H T O1 O2 F. destruct (run_addboard cd w e l id t rp old fuel S H T O1 O2 F) as (w' & R & S' & _ & B & L).
  exists w', (args_of e), (BoardHeader_MarshalBinary cd (raw_board id t)). split; [exact R|]. split; [intros k; exact (typed_arg e _ l k T)|].
  split; [exact S'|]. split; [exact B|]. split; [exact L|]. destruct (board_encode cd (raw_board id t)) as (Ln & E1 & E2 & _).
  split; [lia|]. split; [exact E1|exact E2].
Qed.
Print Assumptions C54_one_record_is_appended.
Lemma listed_after cd w w' wd id t rp old ss bs : w_cwd w' = w_cwd w -> holds_file w wd Boards rp old ->
  look w' rp = Some (EFile (old_or_empty old ++ BoardHeader_MarshalBinary cd (raw_board id t))) ->
  enc cd [] = [] -> dec cd [] = [] -> big5_cstr_fits cd 13 id -> big5_cstr_fits cd 49 t ->
  old_or_empty old = concat ss -> Forall (fun s => length s = 256%nat) ss -> Forall2 (board_decoded cd) ss bs ->
  boards_are cd w' wd (bs ++ [new_board id t]).
Proof.
  intros C F L E0 D0 F1 F2 Eo Fs Fd. pose proof (new_board_roundtrip cd id t E0 D0 F1 F2) as Rt. pose proof (board_length cd (raw_board id t)) as Ln.
  generalize dependent (BoardHeader_MarshalBinary cd (raw_board id t)). intros D L Rt Ln.
  exists (old_or_empty old ++ D), (ss ++ [D]). split; [|split].
  - destruct F as (p & Ep & [P N] & _). exists p, rp. split; [exact Ep|]. split; [split; [exact P|]; rewrite C; exact N|]. split; [exact L|discriminate].
  - split; [apply Forall_app; split; [exact Fs|constructor; [|constructor]]; unfold lenN in Ln; lia|].
    exists 0%nat. split; [|lia]. rewrite concat_app, Eo. cbn [concat repeat]. rewrite !app_nil_r. reflexivity.
  - apply Forall2_app; [exact Fd|]. constructor; [|constructor].
    destruct (board_decode cd D) as (b' & E' & Dc); [lia|]. rewrite Rt in E'. injection E' as <-. exact Dc.
Qed.
(** Afterwards the boards are the old ones and the new one, when the board file held
    whole records and the id and the title fit. *)
Theorem C54_added_board_is_listed cd w e l id t rp old ss bs fuel :
  sane w -> home_ok w e -> typed e "add_board" l -> option_is l "board_id" id -> option_is l "title" t ->
  enc cd [] = [] -> dec cd [] = [] -> big5_cstr_fits cd 13 id -> big5_cstr_fits cd 49 t ->
  holds_file w (te_home e) Boards rp old -> old_or_empty old = concat ss -> Forall (fun s => length s = 256%nat) ss -> Forall2 (board_decoded cd) ss bs ->
  let w' := fst (run (tool cd fuel e) w) in
  boards_are cd w' (te_home e) (bs ++ [new_board id t]) /\
  forall e' l', te_driver e' = te_driver e -> te_home e' = te_home e -> typed e' "show_board_list" l' ->
    prints cd e' w' (map (fun h => Out (str "title: " ++ bh_title h)) bs ++ [Out (str "title: " ++ t)]).
Proof.
  intros S H T O1 O2 E0 D0 F1 F2 F Eo Fs Fd w'. subst w'. destruct (run_addboard cd w e l id t rp old fuel S H T O1 O2 F) as (w' & R & S' & C & B & L). rewrite R. cbn [fst].
  pose proof (listed_after cd w w' (te_home e) id t rp old ss bs C F L E0 D0 F1 F2 Eo Fs Fd) as Bd.
  split; [exact Bd|]. intros e' l' Ed Eh T'.
  change [Out (str "title: " ++ t)] with (map (fun h => Out (str "title: " ++ bh_title h)) [new_board id t]). rewrite <- map_app.
  apply (C53_show_board_list cd w' e' l'); [exact S'| |exact T'|now rewrite Eh].
  destruct H as (Hd & Hq & rh & [P N] & Lh). split; [congruence|]. split; [now rewrite Eh|]. exists rh. rewrite Eh. split; [split; [exact P|now rewrite C]|].
  rewrite B; [exact Lh|]. intros ->. destruct F as (p & _ & _ & _ & Lo). rewrite Lh in Lo. destruct old; discriminate Lo.
Qed.
Print Assumptions C54_added_board_is_listed.
(** Without the id or the title an error is printed and nothing changes. *)
Theorem C54_missing_options cd w e l :
  sane w -> home_ok w e -> typed e "add_board" l -> option_missing l "board_id" \/ option_missing l "title" ->
  exists m what, prints cd e w [OutArgs m; OutErr what EArgs].
Proof.
  intros S H T O. destruct (run_home S H) as (w1 & S1 & SF & R). exists (args_of e), (str "addboard: NewBoardRecord: "). exists 0%nat. intros fuel _. exists w1. split; [|split; [exact S1|exact SF]].
  rewrite (tool_cmd cd fuel e _ l T).
  change (if beqb (str "add_board") (str "show_board_list") then showboardlist cd fuel e else _) with (addboard cd e).
  unfold addboard. rewrite R, !(typed_arg e _ l _ T). unfold say. rewrite run_bind.
  assert (Q : NewBoardRecord (last_value l (str "board_id")) (last_value l (str "title")) = Err EArgs)
    by (destruct O as [O|O]; unfold option_missing in O; rewrite O; [reflexivity|]; destruct (last_value l (str "board_id")); reflexivity).
  rewrite Q. rewrite (run_try_err _ (lift (Err EArgs)) _ w1 w1 EArgs eq_refl). reflexivity.
Qed.
Print Assumptions C54_missing_options.
Lemma scan_holds second bs c1 c2 : holds_file (scan_world second bs c1 c2) sample_wd Boards (rp ["bbs"; ".BRD"]%string) (Some (concat (map (BoardHeader_MarshalBinary id_codec) bs))).
Proof.
  exists (str "/bbs/.BRD"). split; [vm_compute; reflexivity|]. split; [split; [split; [discriminate|no_nul]|vm_compute; reflexivity]|]. split; [unfold has_dir; destruct second; reflexivity|reflexivity].
Qed.
Lemma scan_records bs : map (fun b => UnmarshalBoardHeader id_codec (BoardHeader_MarshalBinary id_codec b)) bs = map Ok bs ->
  Forall (fun s => length s = 256%nat) (map (BoardHeader_MarshalBinary id_codec) bs) /\ Forall2 (board_decoded id_codec) (map (BoardHeader_MarshalBinary id_codec) bs) bs.
Proof.
  intros H. split.
  - apply Forall_forall. intros s I. apply in_map_iff in I as (b & <- & _). pose proof (board_length id_codec b). unfold lenN in *. lia.
  - induction bs as [|b bs IH]; [constructor|]. cbn [map] in *. injection H as E H. constructor; [|now apply IH].
    destruct (board_decode id_codec (BoardHeader_MarshalBinary id_codec b)) as (b' & E' & D); [rewrite board_length; lia|]. rewrite E in E'. now injection E' as <-.
Qed.
(** The tool adds a second board with an id that is already used. *)
Theorem C54_ids_stay_unique_refuted : exists cd w e l id bs h fuel, sane w /\ home_ok w e /\ typed e "add_board" l /\ option_is l "board_id" id /\
  boards_are cd w (te_home e) bs /\ NoDup (map bh_name bs) /\ In h bs /\ bh_name h = id /\
  boards_are cd (fst (run (tool cd fuel e) w)) (te_home e) (bs ++ [new_board id (str "Again")]).
Proof.
  set (l := [Option_ (str "board_id") (str "SYSOP"); Option_ (str "title") (str "Again")]).
  set (e := tool_cmdline ["add_board"; "--board_id"; "SYSOP"; "--title"; "Again"]%string).
  set (w := scan_world true scan_boards [] []).
  exists id_codec, w, e, l, (str "SYSOP"), scan_boards, (named_board (str "SYSOP")), 0%nat.
  assert (T : typed e "add_board" l) by (split; [vm_compute; reflexivity|plain_args]).
  assert (B : boards_are id_codec w (te_home e) scan_boards) by (apply scan_boards_are; vm_compute; reflexivity).
  split; [apply scan_sane|]. split; [apply scan_home|]. split; [exact T|]. split; [reflexivity|]. split; [exact B|].
  split; [repeat (constructor; [cbn; intros Q; repeat (destruct Q as [Q|Q]; [discriminate|]); contradiction|]); constructor|]. split; [now left|]. split; [reflexivity|].
  destruct (scan_records scan_boards ltac:(vm_compute; reflexivity)) as (Fs & Fd).
  apply (C54_added_board_is_listed id_codec w e l (str "SYSOP") (str "Again") (rp ["bbs"; ".BRD"]%string) (Some (concat (map (BoardHeader_MarshalBinary id_codec) scan_boards))) (map (BoardHeader_MarshalBinary id_codec) scan_boards) scan_boards 0%nat);
    [apply scan_sane|apply scan_home|exact T|reflexivity|reflexivity|reflexivity|reflexivity|split; [reflexivity|]; split; [vm_compute; discriminate|no_nul]|split; [reflexivity|]; split; [vm_compute; discriminate|no_nul]|apply scan_holds|reflexivity|exact Fs|exact Fd].
Qed.
Print Assumptions C54_ids_stay_unique_refuted.
(** An id longer than its field is cut without a word. *)
Definition long_id_cmd : tool_env := tool_cmdline ["add_board"; "--board_id"; "ABCDEFGHIJKLMNOP"; "--title"; "Letters"]%string.
Theorem C54_id_kept_refuted : exists cd w e l id t, sane w /\ home_ok w e /\ typed e "add_board" l /\ option_is l "board_id" id /\ option_is l "title" t /\
  ascii_text id /\ (exists m, snd (run (tool cd 0 e) w) = Ok [OutArgs m]) /\
  option_map (map bh_name) (match snd (run (ReadBoardRecords cd 3000 (te_home e)) (fst (run (tool cd 0 e) w))) with Ok bs => Some bs | _ => None end) = Some [firstn 13 id] /\ firstn 13 id <> id.
Proof.
  exists id_codec, (scan_world true [] [] []), long_id_cmd, [Option_ (str "board_id") (str "ABCDEFGHIJKLMNOP"); Option_ (str "title") (str "Letters")], (str "ABCDEFGHIJKLMNOP"), (str "Letters").
  split; [apply scan_sane|]. split; [apply scan_home|]. split; [split; [vm_compute; reflexivity|plain_args]|]. split; [reflexivity|]. split; [reflexivity|].
  split; [repeat (constructor; [vm_compute; reflexivity|]); constructor|]. split; [eexists; vm_compute; reflexivity|]. split; [vm_compute; reflexivity|discriminate].
Qed.
Print Assumptions C54_id_kept_refuted.
Example C54_nonvacuous :
  let w := scan_world true scan_boards [] [] in
  let e := tool_cmdline ["add_board"; "--board_id"; "new"; "--title"; "A title"]%string in
  sane w /\ home_ok w e /\ typed e "add_board" [Option_ (str "board_id") (str "new"); Option_ (str "title") (str "A title")] /\
  holds_file w (te_home e) Boards (rp ["bbs"; ".BRD"]%string) (Some (concat (map (BoardHeader_MarshalBinary id_codec) scan_boards))) /\
  big5_cstr_fits id_codec 13 (str "new") /\ big5_cstr_fits id_codec 49 (str "A title") /\
  snd (run (ReadBoardRecords id_codec 900 sample_wd) (fst (run (tool id_codec 0 e) w))) = Ok (scan_boards ++ [new_board (str "new") (str "A title")]) /\
  option_missing [Option_ (str "board_id") (str "new")] "title".
Proof.
  split; [apply scan_sane|]. split; [apply scan_home|]. split; [split; [vm_compute; reflexivity|plain_args]|]. split; [apply scan_holds|].
  split; [split; [reflexivity|]; split; [vm_compute; discriminate|no_nul]|]. split; [split; [reflexivity|]; split; [vm_compute; discriminate|no_nul]|].
  split; vm_compute; reflexivity.
Qed.

(** ** C56: when the tool panics *)
(** These commands never do, whatever is typed and whatever the files hold. *)
Theorem C56_boards_and_users_never_panic cd fuel e w :
  ~ In (nth 0 (te_args e) []) (map str ["show_user_article_list"; "show_user_comment_list"; "show_board_article_list"; "add_board_article"; "show_board_article"]%string) ->
  snd (run (tool cd fuel e) w) <> Panic.
Proof.
  intros H. apply calm_run. unfold tool. cbv zeta. revert H. generalize (nth 0 (te_args e) []). intros c H.
  assert (Q : forall x, In x (map str ["show_user_article_list"; "show_user_comment_list"; "show_board_article_list"; "add_board_article"; "show_board_article"]%string) -> beqb c x = false)
    by (intros x I; destruct (beqb_spec c x) as [->|]; [contradiction|reflexivity]).
  rewrite (Q (str "show_user_article_list")), (Q (str "show_user_comment_list")), (Q (str "show_board_article_list")), (Q (str "add_board_article")), (Q (str "show_board_article")) by (cbn [map In]; tauto). clear Q H.
  destruct (beqb c (str "show_board_list")).
  { apply calm_try; [apply calm_dir|]. intros _. apply calm_try; [apply calm_home|]. intros wd. apply calm_try; [apply calm_boards|discriminate]. }
  destruct (beqb c (str "add_board")); [apply calm_addboard|].
  destruct (beqb c (str "show_user_list")); [|discriminate].
  apply calm_try; [apply calm_dir|]. intros _. apply calm_try; [apply calm_home|]. intros wd. apply calm_try; [apply calm_users|discriminate].
Qed.
Print Assumptions C56_boards_and_users_never_panic.
(** The commands about one board do not when the home is good and the board, if given,
    is not the empty text; whatever the files hold. *)
Theorem C56_board_commands_partial cd fuel e w c l :
  sane w -> home_ok w e -> typed e c l -> In c ["show_board_article_list"; "add_board_article"; "show_board_article"]%string ->
  (forall b, option_is l "board" b -> b <> []) ->
  snd (run (tool cd fuel e) w) <> Panic.
Proof.
  intros S H T I O. destruct (run_db S H) as (w1 & _ & _ & R). rewrite (tool_cmd cd fuel e _ l T).
  assert (Nd : forall k, (forall b, b <> [] -> calm (k b)) -> calm (need e (str "board") k)).
  { intros k K. unfold need. rewrite (typed_arg e c l _ T). destruct (last_value l (str "board")) as [b|] eqn:E; [apply K, O, E|discriminate]. }
  assert (N' : forall x k, (forall v, calm (k v)) -> calm (need e x k)) by (intros x k K; unfold need; destruct M_BbsTool.arg; [apply K|discriminate]).
  cbn [In] in I. destruct I as [<-|[<-|[<-|[]]]].
  - change (if beqb (str "show_board_article_list") (str "show_board_list") then showboardlist cd fuel e else _) with (showBoardArticleList cd fuel e).
    unfold showBoardArticleList. rewrite R. apply calm_run, Nd. intros b Nb. cbn [db_call]. apply calm_bind; [now apply calm_index|]. intros [a|er| |] N; (discriminate || contradiction).
  - change (if beqb (str "add_board_article") (str "show_board_list") then showboardlist cd fuel e else _) with (addBoardArticle cd fuel e).
    unfold addBoardArticle. rewrite R. apply calm_run, Nd. intros b Nb. do 3 (apply N'; intros ?).
    destruct (M_BbsTool.arg e (str "content")); [now apply calm_post|]. destruct (M_BbsTool.arg e (str "content_file")); [|apply calm_say]; (apply calm_try; [apply calm_read_file|]; intros text; now apply calm_post).
  - change (if beqb (str "show_board_article") (str "show_board_list") then showboardlist cd fuel e else _) with (showBoardArticle cd e).
    unfold showBoardArticle. rewrite R. apply calm_run, Nd. intros b Nb. apply N'. intros f. cbn [db_call]. apply calm_try; [now apply calm_read_article|discriminate].
Qed.
Print Assumptions C56_board_commands_partial.
(** The commands about one user do not when the user is given and every board has a
    name; whatever the indexes and the articles hold. *)
Theorem C56_user_commands_partial cd e w c l user bs :
  sane w -> home_ok w e -> typed e c l -> In c ["show_user_article_list"; "show_user_comment_list"]%string ->
  option_is l "user_id" user -> boards_are cd w (te_home e) bs -> Forall (fun h => bh_name h <> []) bs ->
  exists n, forall fuel, (n <= fuel)%nat -> snd (run (tool cd fuel e) w) <> Panic.
Proof.
  intros S H T I O B F. destruct (run_home S H) as (w1 & S1 & SF & R). apply (boards_same _ _ _ _ _ SF) in B.
  destruct (read_boards cd w1 _ bs S1 B) as (n & Rb). exists n. intros fuel Hf. destruct (Rb fuel Hf) as (w2 & E & _). rewrite (tool_cmd cd fuel e _ l T).
  cbn [In] in I. destruct I as [<-|[<-|[]]].
  - change (if beqb (str "show_user_article_list") (str "show_board_list") then showboardlist cd fuel e else _) with (showuserarticlelist cd fuel e).
    unfold showuserarticlelist. rewrite R. unfold must_arg. rewrite (typed_arg e _ l _ T), O. rewrite (run_try _ (lift (Ok user)) _ w1 w1 user eq_refl).
    unfold try at 1. rewrite run_bind. unfold GetUserArticleRecordFile. rewrite run_pbind, E.
    pose proof (calm_run _ (calm_articles_on cd fuel (te_home e) user bs F) w2) as Q. destruct (run (articles_on cd fuel (te_home e) user bs) w2) as [w3 o]. cbn [snd] in Q. destruct o; cbn [run snd]; congruence.
  - change (if beqb (str "show_user_comment_list") (str "show_board_list") then showboardlist cd fuel e else _) with (showusercommentlist cd fuel e).
    unfold showusercommentlist. rewrite R. unfold must_arg. rewrite (typed_arg e _ l _ T), O. rewrite (run_try _ (lift (Ok user)) _ w1 w1 user eq_refl).
    unfold try at 1. rewrite run_bind. unfold GetUserCommentRecordFile. rewrite run_pbind, E.
    pose proof (calm_run _ (calm_comments_on cd fuel (te_home e) user bs F) w2) as Q. destruct (run (comments_on cd fuel (te_home e) user bs) w2) as [w3 o]. cbn [snd] in Q. destruct o; cbn [run snd]; congruence.
Qed.
Print Assumptions C56_user_commands_partial.
(** The ways it does: a home that cannot be opened, an unknown driver, an empty board,
    no user, a board without a name. *)
Definition dying : list (world * tool_env) :=
  let w := scan_world true scan_boards [] [] in
  [(w, ToolEnv (str "pttbbs") (str "/nowhere") (map str ["show_board_article_list"; "--board"; "SYSOP"]%string));
   (w, ToolEnv (str "other") sample_wd (map str ["show_board_article"; "--board"; "SYSOP"; "--filename"; "M.1"]%string));
   (w, tool_cmdline ["show_board_article_list"; "--board"; ""]%string);
   (w, tool_cmdline ["show_user_article_list"]%string);
   (scan_world true [named_board []] [] [], tool_cmdline ["show_user_comment_list"; "--user_id"; "lex"]%string)].
Theorem C56_never_panics_refuted : Forall (fun x => sane (fst x) /\ snd (run (tool id_codec 900 (snd x)) (fst x)) = Panic) dying.
Proof. repeat (constructor; [split; [apply scan_sane|vm_compute; reflexivity]|]). constructor. Qed.
Print Assumptions C56_never_panics_refuted.
(** Whatever the command about a board, with a home that cannot be opened. *)
Theorem C56_no_home_panics cd fuel e w l b f :
  typed e "show_board_article" l -> option_is l "board" b -> option_is l "filename" f ->
  (forall w', snd (run (openDB e) w) <> Ok w') -> snd (run (tool cd fuel e) w) = Panic.
Proof.
  intros T O1 O2 N. rewrite (tool_cmd cd fuel e _ l T).
  change (if beqb (str "show_board_article") (str "show_board_list") then showboardlist cd fuel e else _) with (showBoardArticle cd e).
  unfold showBoardArticle, with_db. rewrite run_bind.
  assert (Q : snd (run (openDB e) w) <> Panic /\ snd (run (openDB e) w) <> Diverge).
  { split; [apply calm_run, calm_pbind; [apply calm_dir|intros _; apply calm_home]|]. unfold openDB, chkIsDir, tool_open. clear.
    cbn [run pbind bind]. destruct (exec (Open (te_home e) O_RDONLY) w) as [w1 [fd|er]]; cbn [run bind snd]; [|discriminate].
    destruct (exec (Stat (te_home e)) w1) as [w2 s]. cbn [run bind]. destruct (exec (Close fd) w2) as [w3 c]. cbn [run bind]. destruct s as [[|]|er]; cbn [run bind snd]; try discriminate. destruct beqb; discriminate. }
  destruct (run (openDB e) w) as [w1 [wd|er| |]]; cbn [snd] in *; [now destruct (N wd)| |now destruct Q|now destruct Q].
  rewrite (run_need e _ l _ _ b T O1), (run_need e _ l _ _ f T O2). reflexivity.
Qed.
Print Assumptions C56_no_home_panics.
Example C56_nonvacuous :
  let w := scan_world true scan_boards article1 article2 in let e := tool_cmdline ["show_user_comment_list"; "--user_id"; "lex"]%string in
  sane w /\ home_ok w e /\ typed e "show_user_comment_list" [Option_ (str "user_id") (str "lex")] /\ boards_are id_codec w (te_home e) scan_boards /\ Forall (fun h => bh_name h <> []) scan_boards /\
  typed (tool_cmdline ["show_board_article"; "--filename"; "M.1"]%string) "show_board_article" [Option_ (str "filename") (str "M.1")] /\
  (forall w', snd (run (openDB (ToolEnv (str "pttbbs") (str "/nowhere") [])) w) <> Ok w') /\
  ~ In (nth 0 (te_args (tool_cmdline ["add_board"]%string)) []) (map str ["show_user_article_list"; "show_user_comment_list"; "show_board_article_list"; "add_board_article"; "show_board_article"]%string).
Proof.
  split; [apply scan_sane|]. split; [apply scan_home|]. split; [split; [vm_compute; reflexivity|plain_args]|]. split; [apply scan_boards_are; vm_compute; reflexivity|].
  split; [repeat (constructor; [discriminate|]); constructor|]. split; [split; [vm_compute; reflexivity|plain_args]|].
  split; [intros w' Q; vm_compute in Q; discriminate Q|]. cbn. intros Q. repeat (destruct Q as [Q|Q]; [discriminate Q|]). contradiction.
Qed.

(** The home that is checked is not the home that is used when its name has a question
    mark: the tool then shows the boards of another directory. *)
Definition two_homes : world := world_of
  [(rp ["bbs"]%string, NDir); (rp ["bbs"; ".BRD"]%string, NFile 0); (rp ["bbs?new"]%string, NDir); (rp ["bbs?new"; ".BRD"]%string, NFile 1)]
  [BoardHeader_MarshalBinary id_codec sample_board; []].
Theorem C53_home_is_used_refuted : exists cd w e l bs, sane w /\ te_driver e = str "pttbbs" /\ typed e "show_board_list" l /\
  (exists rp, names w (te_home e) rp /\ look w rp = Some EDir) /\ boards_are cd w (te_home e) bs /\
  snd (run (tool cd 900 e) w) <> Ok (map (fun h => Out (str "title: " ++ bh_title h)) bs).
Proof.
  exists id_codec, two_homes, (ToolEnv (str "pttbbs") (str "/bbs?new") [str "show_board_list"]), [], [].
  split; [apply saneb_sane; vm_compute; reflexivity|]. split; [reflexivity|]. split; [split; [reflexivity|constructor]|].
  split; [exists (rp ["bbs?new"]%string); split; [split; [split; [discriminate|no_nul]|vm_compute; reflexivity]|reflexivity]|]. split.
  - exists [], []. split; [|split; [split; [constructor|exists 0%nat; split; [reflexivity|lia]]|constructor]].
    exists (str "/bbs?new/.BRD"), (rp ["bbs?new"; ".BRD"]%string). split; [reflexivity|]. split; [split; [split; [discriminate|no_nul]|vm_compute; reflexivity]|]. split; [reflexivity|discriminate].
  - vm_compute. discriminate.
Qed.
Print Assumptions C53_home_is_used_refuted.
