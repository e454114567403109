(** * Lemmas about the commands of bbstool *)
From Coq Require Import Lia ZifyBool ZifyNat ZifyN.
From Verif Require Import M_Base M_Const M_Cstr M_Sys M_Text M_Utf8 M_Path M_File M_Board M_Userec M_Time M_FileOps M_DB M_Login M_Regex M_Comment M_Scan M_Tool M_BbsTool.
From Verif Require Import S_World S_Path S_Layout S_File S_Board S_Userec S_Store S_Scan S_Tool S_BbsTool.
From Verif Require Import P_Base P_Ext P_Layout P_Records P_Sys P_Read P_FileOps P_BoardList P_Store P_PoolList P_Utf8 P_Scan T_Path T_Misc.
Open Scope N_scope.

(** ** Programs that only read *)
Definition reads {R} (c : sys R) : Prop :=
  match c with
  | Open _ fl => o_wr fl = false /\ o_creat fl = false /\ o_trunc fl = false
  | Write _ _ | Ftruncate _ _ | Unlink _ => False
  | _ => True
  end.
Fixpoint reader {A} (p : prog A) : Prop :=
  match p with Ret _ => True | Call c k => reads c /\ forall r, reader (k r) end.
Lemma same_files_intro w w' : w_cwd w' = w_cwd w -> w_tree w' = w_tree w -> w_data w' = w_data w -> same_files w w'.
Proof. intros E1 E2 E3. split; [exact E1|]. intros q. unfold look. now rewrite E2, E3. Qed.
Lemma reads_same {R} (c : sys R) w : reads c -> same_files w (fst (exec c w)).
Proof.
  intros H. destruct c as [p fl|fd n|fd|fd d|fd off|fd|fd n|fd|p|p| |n]; cbn [reads] in H; try contradiction; cbn [exec].
  - destruct H as (H1 & H2 & H3). unfold sys_open. rewrite H1, H2, H3. cbn [andb orb].
    destruct (has_nul p); [apply same_files_refl|]. destruct (beqb p []); [apply same_files_refl|]. cbv zeta.
    destruct (if is_dir w _ then Some NDir else _) as [[|i]|]; try apply same_files_refl; now apply same_files_intro.
  - unfold sys_read. destruct (w_fds w fd) as [o|]; [|apply same_files_refl]. destruct (of_ino o); [|apply same_files_refl]. destruct (of_rd o); [|apply same_files_refl]. now apply same_files_intro.
  - unfold sys_read_all. destruct (w_fds w fd) as [o|]; [|apply same_files_refl]. destruct (of_ino o); [|apply same_files_refl]. destruct (of_rd o); [|apply same_files_refl]. now apply same_files_intro.
  - unfold sys_seek_set. destruct (w_fds w fd) as [o|]; [|apply same_files_refl]. destruct (off <? 0)%Z; [apply same_files_refl|]. now apply same_files_intro.
  - unfold sys_seek_cur0. destruct (w_fds w fd); apply same_files_refl.
  - now apply same_files_intro.
  - unfold sys_stat. destruct (has_nul p); [apply same_files_refl|]. destruct (beqb p []); [apply same_files_refl|]. cbv zeta. destruct is_dir; [apply same_files_refl|].
    destruct (w_tree w _) as [[|i]|]; apply same_files_refl.
  - now apply same_files_intro.
  - now apply same_files_intro.
Qed.
Lemma reader_crash {A} (p : prog A) : reader p -> forall w w', crash p w w' -> same_files w w'.
Proof.
  induction p as [a|R c k IH]; intros H w w' C; cbn [crash] in C; destruct C as [->|C]; try apply same_files_refl; [contradiction|].
  destruct H as [Hc Hk]. destruct C as [C|C]; [destruct c; try contradiction; cbn [reads] in Hc; contradiction|].
  pose proof (reads_same c w Hc) as S1. destruct (exec c w) as [w1 r]. cbn [fst] in S1. apply (same_files_trans _ w1); [exact S1|]. now apply (IH r).
Qed.
Lemma reader_run {A} (p : prog A) : reader p -> forall w, same_files w (fst (run p w)).
Proof.
  induction p as [a|R c k IH]; intros H w; [apply same_files_refl|]. destruct H as [Hc Hk]. cbn [run].
  pose proof (reads_same c w Hc) as S1. destruct (exec c w) as [w1 r]. cbn [fst] in S1. apply (same_files_trans _ w1); [exact S1|]. now apply (IH r).
Qed.
Lemma reader_bind {A B} (p : prog A) (f : A -> prog B) : reader p -> (forall a, reader (f a)) -> reader (bind p f).
Proof. induction p as [a|R c k IH]; intros H F; cbn [bind]; [apply F|]. destruct H as [Hc Hk]. split; [exact Hc|]. intros r. now apply IH. Qed.
Lemma reader_pbind {A B} (p : prog (outcome A)) (f : A -> prog (outcome B)) : reader p -> (forall a, reader (f a)) -> reader (pbind p f).
Proof. intros H F. apply reader_bind; [exact H|]. intros [a|e| |]; try exact Logic.I. apply F. Qed.
Lemma reader_lift {A} (o : outcome A) : reader (lift o).
Proof. exact Logic.I. Qed.
Lemma reader_close_if {A} closes fd (p : prog A) : reader p -> reader (close_if closes fd p).
Proof. unfold close_if. destruct closes; [|auto]. intros H. split; [exact Logic.I|]. auto. Qed.
Lemma reader_read_loop {A} size (decode : bytes -> outcome A) strict closes fuel fd : forall acc, reader (read_loop size decode strict closes fuel fd acc).
Proof.
  induction fuel as [|fuel IH]; intros acc; cbn [read_loop reader]; [exact Logic.I|]. split; [exact Logic.I|]. intros r.
  assert (G : forall b, reader match decode b with
    | Ok a => read_loop size decode strict closes fuel fd (a :: acc)
    | Err e => close_if closes fd (Ret (Err e)) | Panic => close_if closes fd (Ret Panic) | Diverge => Ret Diverge end).
  { intros b. destruct (decode b); [apply IH|apply reader_close_if; exact Logic.I|apply reader_close_if; exact Logic.I|exact Logic.I]. }
  destruct r as [[|b d]|e]; [apply reader_close_if; exact Logic.I|destruct strict; apply G|destruct strict; [apply reader_close_if; exact Logic.I|apply G]].
Qed.
Lemma reader_open_records {A} size (decode : bytes -> outcome A) strict closes fuel p : reader (open_records size decode strict closes fuel p).
Proof. split; [cbn; auto|]. intros [fd|e]; [apply reader_read_loop|exact Logic.I]. Qed.
Lemma reader_read_all p : reader (open_read_all p).
Proof. split; [cbn; auto|]. intros [fd|e]; [|exact Logic.I]. split; [exact Logic.I|]. intros r. split; [exact Logic.I|]. intros _. destruct r; exact Logic.I. Qed.
Lemma reader_index cd fuel wd b : reader (ReadBoardArticleRecordsFile cd fuel wd b).
Proof.
  apply reader_pbind; [exact Logic.I|]. intros p. apply reader_bind; [apply reader_open_records|]. intros [a|e| |]; try exact Logic.I.
  destruct says_no_such_file; exact Logic.I.
Qed.
Lemma reader_boards cd fuel wd : reader (ReadBoardRecords cd fuel wd).
Proof. apply reader_pbind; [exact Logic.I|]. intros p. apply reader_open_records. Qed.
Lemma reader_users cd fuel wd : reader (ReadUserRecords cd fuel wd).
Proof. apply reader_pbind; [exact Logic.I|]. intros p. apply reader_open_records. Qed.
Lemma reader_article wd b f : reader (DB_ReadBoardArticleFile wd b f).
Proof. apply reader_pbind; [exact Logic.I|]. intros p. rewrite read_article_shape. apply reader_read_all. Qed.
Lemma reader_user_articles cd fuel wd u : reader (GetUserArticleRecordFile cd fuel wd u).
Proof.
  apply reader_pbind; [apply reader_boards|]. intros bs. induction bs as [|b bs IH]; cbn [articles_on]; [exact Logic.I|].
  destruct shouldSkip; [exact IH|]. apply reader_pbind; [apply reader_index|]. intros l. apply reader_pbind; [exact IH|]. intros r. exact Logic.I.
Qed.
Lemma reader_user_comments cd fuel wd u : reader (GetUserCommentRecordFile cd fuel wd u).
Proof.
  apply reader_pbind; [apply reader_boards|]. intros bs. induction bs as [|b bs IH]; cbn [comments_on]; [exact Logic.I|].
  destruct shouldSkip; [exact IH|]. apply reader_pbind; [|intros r; apply reader_pbind; [exact IH|]; intros r'; exact Logic.I].
  apply reader_pbind; [apply reader_index|]. intros l. induction l as [|a l IHl]; cbn [comments_in]; [exact Logic.I|].
  apply reader_pbind; [|intros c; apply reader_pbind; [exact IHl|]; intros r; exact Logic.I].
  apply reader_pbind; [apply reader_article|]. intros c. exact Logic.I.
Qed.
Lemma reader_try {A} what (p : prog (outcome A)) k : reader p -> (forall a, reader (k a)) -> reader (try what p k).
Proof. intros H F. apply reader_bind; [exact H|]. intros [a|e| |]; try exact Logic.I. apply F. Qed.
Lemma reader_say l p : reader p -> reader (say l p).
Proof. intros H. apply reader_bind; [exact H|]. intros [a|e| |]; exact Logic.I. Qed.
Lemma reader_chk d : reader (chkIsDir d).
Proof. split; [cbn; auto|]. intros [fd|e]; [|exact Logic.I]. split; [exact Logic.I|]. intros r. split; [exact Logic.I|]. intros _. destruct r as [[|]|]; exact Logic.I. Qed.
Lemma reader_with_db e k : (forall db, reader (k db)) -> reader (with_db e k).
Proof.
  intros F. apply reader_bind; [apply reader_pbind; [apply reader_chk|intros _; exact Logic.I]|]. intros [wd|er| |]; try exact Logic.I; [apply F|apply reader_say, F].
Qed.
Lemma reader_need e k f : (forall v, reader (f v)) -> reader (need e k f).
Proof. intros F. unfold need. destruct (M_BbsTool.arg e k); [apply F|exact Logic.I]. Qed.
Lemma reader_db_call {A} db (f : bytes -> prog (outcome A)) : (forall wd, reader (f wd)) -> reader (db_call db f).
Proof. intros F. destruct db; [apply F|exact Logic.I]. Qed.
Lemma reader_tool cd fuel e : shows (nth 0 (te_args e) []) -> reader (tool cd fuel e).
Proof.
  intros [N1 N2]. unfold tool. cbv zeta. set (c := nth 0 (te_args e) []) in *.
  destruct (beqb_spec c (str "show_board_list")).
  { apply reader_try; [apply reader_chk|]. intros _. apply reader_try; [exact Logic.I|]. intros wd. apply reader_try; [apply reader_boards|]. intros l. exact Logic.I. }
  destruct (beqb_spec c (str "add_board")); [contradiction|].
  destruct (beqb_spec c (str "show_user_list")).
  { apply reader_try; [apply reader_chk|]. intros _. apply reader_try; [exact Logic.I|]. intros wd. apply reader_try; [apply reader_users|]. intros l. exact Logic.I. }
  destruct (beqb_spec c (str "show_user_article_list")).
  { apply reader_try; [apply reader_chk|]. intros _. apply reader_try; [exact Logic.I|]. intros wd. apply reader_try; [exact Logic.I|]. intros u. apply reader_try; [apply reader_user_articles|]. intros l. exact Logic.I. }
  destruct (beqb_spec c (str "show_user_comment_list")).
  { apply reader_try; [apply reader_chk|]. intros _. apply reader_try; [exact Logic.I|]. intros wd. apply reader_try; [exact Logic.I|]. intros u. apply reader_try; [apply reader_user_comments|]. intros l. exact Logic.I. }
  destruct (beqb_spec c (str "show_board_article_list")).
  { apply reader_with_db. intros db. apply reader_need. intros b. apply reader_bind; [apply reader_db_call; intros wd; apply reader_index|]. intros [l|er| |]; exact Logic.I. }
  destruct (beqb_spec c (str "add_board_article")); [contradiction|].
  destruct (beqb_spec c (str "show_board_article")); [|exact Logic.I].
  apply reader_with_db. intros db. apply reader_need. intros b. apply reader_need. intros f. apply reader_try; [apply reader_db_call; intros wd; apply reader_article|]. intros d. exact Logic.I.
Qed.

(** ** Running the commands *)
Lemma run_try {A} what (p : prog (outcome A)) k w w1 a : run p w = (w1, Ok a) -> run (try what p k) w = run (k a) w1.
Proof. intros E. unfold try. rewrite run_bind, E. reflexivity. Qed.
Lemma run_try_err {A} what (p : prog (outcome A)) k w w1 e : run p w = (w1, Err e) -> run (try what p k) w = (w1, Ok [OutErr what e]).
Proof. intros E. unfold try. rewrite run_bind, E. reflexivity. Qed.
Lemma run_try_panic {A} what (p : prog (outcome A)) k w w1 : run p w = (w1, Panic) -> run (try what p k) w = (w1, Panic).
Proof. intros E. unfold try. rewrite run_bind, E. reflexivity. Qed.
Lemma run_say l p w w1 r : run p w = (w1, Ok r) -> run (say l p) w = (w1, Ok (l ++ r)).
Proof. intros E. unfold say. rewrite run_bind, E. reflexivity. Qed.
Lemma chk_dir w p rp : sane w -> names w p rp -> look w rp = Some EDir ->
  exists w', run (chkIsDir p) w = (w', Ok tt) /\ sane w' /\ same_files w w' /\ (forall fd, w_fds w' fd = w_fds w fd).
Proof.
  intros S [Pp Rp] L. assert (D : is_dir w rp = true) by now apply is_dir_look.
  unfold chkIsDir. cbn [run exec]. unfold sys_open. destruct (proper_tests p Pp) as [-> ->]. rewrite Rp. cbv zeta. rewrite D. cbn [o_creat o_excl o_wr O_RDONLY andb orb run exec].
  set (w1 := bump_fd _). unfold sys_stat. destruct (proper_tests p Pp) as [-> ->].
  change (w_cwd w1) with (w_cwd w). rewrite Rp. change (is_dir w1 rp) with (is_dir w rp). rewrite D. cbn [run exec].
  eexists. split; [reflexivity|]. split.
  - apply sane_close. unfold w1. apply sane_new_fd; [exact S|]. cbn. discriminate.
  - split; [now apply same_files_intro|]. intros fd. cbn. destruct (N.eq_dec fd (w_nextfd w)) as [->|]; [symmetry; apply (sane_fd _ S); lia|reflexivity].
Qed.
Lemma home_open w e : home_ok w e -> tool_open e = Ok (te_home e).
Proof. intros (D & Q & _). unfold tool_open. rewrite D. cbn [beqb]. change (beqb (str "pttbbs") (str "pttbbs")) with true. cbv iota. f_equal. exact (proj1 (C45_file_url (te_home e) [] Q)). Qed.
Lemma run_home {w e} : sane w -> home_ok w e ->
  exists w1, sane w1 /\ same_files w w1 /\ forall what1 what2 k,
    run (try what1 (chkIsDir (te_home e)) (fun _ => try what2 (lift (tool_open e)) k)) w = run (k (te_home e)) w1.
Proof.
  intros S H. pose proof H as (_ & _ & rp & N & L). destruct (chk_dir w _ rp S N L) as (w1 & R & S1 & SF & _). exists w1. split; [exact S1|]. split; [exact SF|]. intros what1 what2 k.
  rewrite (run_try _ _ _ _ _ _ R). apply run_try. unfold lift. now rewrite (home_open w e H).
Qed.
Lemma run_db {w e} : sane w -> home_ok w e ->
  exists w1, sane w1 /\ same_files w w1 /\ forall k, run (with_db e k) w = run (k (Some (te_home e))) w1.
Proof.
  intros S H. pose proof H as (_ & _ & rp & N & L). destruct (chk_dir w _ rp S N L) as (w1 & R & S1 & SF & _). exists w1. split; [exact S1|]. split; [exact SF|]. intros k.
  unfold with_db, openDB. rewrite run_bind, run_pbind, R. unfold lift. now rewrite (home_open w e H).
Qed.
Lemma typed_cmd e c l : typed e c l -> nth 0 (te_args e) [] = str c.
Proof. intros [-> _]. reflexivity. Qed.
Lemma typed_arg e c l k : typed e c l -> M_BbsTool.arg e k = last_value l k.
Proof. intros [E P]. unfold M_BbsTool.arg, args_of. rewrite E. now apply C39_options_have_their_last_value. Qed.
Lemma tool_cmd cd fuel e c l : typed e c l -> tool cd fuel e =
  (if beqb (str c) (str "show_board_list") then showboardlist cd fuel e
  else if beqb (str c) (str "add_board") then addboard cd e
  else if beqb (str c) (str "show_user_list") then showuserlist cd fuel e
  else if beqb (str c) (str "show_user_article_list") then showuserarticlelist cd fuel e
  else if beqb (str c) (str "show_user_comment_list") then showusercommentlist cd fuel e
  else if beqb (str c) (str "show_board_article_list") then showBoardArticleList cd fuel e
  else if beqb (str c) (str "add_board_article") then addBoardArticle cd fuel e
  else if beqb (str c) (str "show_board_article") then showBoardArticle cd e
  else Ret (Ok [Out (str "unknown subcommand: " ++ str c)])).
Proof. intros T. unfold tool. now rewrite (typed_cmd e c l T). Qed.
Lemma run_need e c l k f v : typed e c l -> option_is l k v -> need e (str k) f = f v.
Proof. intros T O. unfold need. now rewrite (typed_arg e c l _ T), O. Qed.
Lemma run_need_missing e c l k f : typed e c l -> option_missing l k -> need e (str k) f = Ret (Ok [Out (str "please provide " ++ str k ++ str " argument")]).
Proof. intros T O. unfold need. now rewrite (typed_arg e c l _ T), O. Qed.

Lemma f_cstr_fun d off len s s' : f_cstr d off len s -> f_cstr d off len s' -> s = s'.
Proof. intros (v & A & C) (v' & A' & C'). rewrite (at_off_fun _ _ _ _ _ A A') in *. now rewrite (c_string_fun _ _ _ C C'). Qed.
Lemma f_flag_fun d off b b' : f_flag d off b -> f_flag d off b' -> b = b'.
Proof. intros (n & F & E) (n' & F' & E'). pose proof (f_num_fun _ _ _ _ _ F F'). subst n'. destruct b, b'; intuition congruence. Qed.
Lemma userec_decoded_fun cd d f g : userec_decoded cd d f -> userec_decoded cd d g -> f = g.
Proof.
  intros A B. unfold userec_decoded in *. decompose [and] A. clear A. decompose [and] B. clear B. destruct f, g; cbn in *.
  repeat match goal with
  | A : f_num d ?o ?k ?x, B : f_num d ?o ?k ?y |- _ => pose proof (f_num_fun _ _ _ _ _ A B); clear A B; subst y
  | A : f_int d ?o ?k ?x, B : f_int d ?o ?k ?y |- _ => pose proof (f_int_fun _ _ _ _ _ A B); clear A B; subst y
  | A : f_time d ?o ?x, B : f_time d ?o ?y |- _ => pose proof (f_time_fun _ _ _ _ A B); clear A B; subst y
  | A : f_flag d ?o ?x, B : f_flag d ?o ?y |- _ => pose proof (f_flag_fun _ _ _ _ A B); clear A B; subst y
  | A : f_cstr d ?o ?k ?x, B : f_cstr d ?o ?k ?y |- _ => pose proof (f_cstr_fun _ _ _ _ _ A B); clear A B; subst y
  | A : f_cstr_big5 cd d ?o ?k ?x, B : f_cstr_big5 cd d ?o ?k ?y |- _ => pose proof (f_cstr_big5_fun _ _ _ _ _ _ A B); clear A B; subst y
  end. reflexivity.
Qed.
Lemma read_users cd w wd us : sane w -> users_are cd w wd us ->
  exists n, forall fuel, (n <= fuel)%nat -> forall w1, sane w1 -> same_files w w1 ->
  exists w', run (ReadUserRecords cd fuel wd) w1 = (w', Ok us) /\ sane w' /\ same_files w w'.
Proof.
  intros S (d & ss & C & Sl & Dec). exists (Datatypes.S (length d)). intros fuel Hf w1 S1 SF1. apply (content_same _ _ _ _ _ SF1) in C. destruct C as (p & rp & E & N & L & _).
  destruct (open_records_file 512 (UnmarshalUserec cd) false false fuel w1 p rp d) as (w' & l & R & G & S' & SF & FD); auto; [reflexivity| |].
  { intros b Lb. destruct (userec_decode cd b) as (x & E' & _); [lia|eauto]. }
  assert (l = us) as ->.
  { assert (ss = cut 512 d) as -> by (apply (slots_unique 512 d); [lia|exact Sl|exact (cut_slots 512 d eq_refl)]).
    apply (Forall2_fun (userec_decoded cd) (userec_decoded_fun cd) (cut 512 d)); [|exact Dec].
    apply (decode_slots _ (UnmarshalUserec cd)); [reflexivity| |exact G]. intros s Ls. apply userec_decode. unfold lenN. lia. }
  exists w'. split; [|split; [exact S'|now apply (same_files_trans _ w1)]]. unfold ReadUserRecords. rewrite run_pbind. unfold lift. cbn [object_path] in E. rewrite E. cbn [run].
  exact R.
Qed.

(** ** The board that add_board adds *)
Lemma sub_zeros D o k i j : sub o k D = zeros k -> i + j <= k -> sub (o + i) j D = zeros j.
Proof.
  intros H L. assert (Q : sub (o + i) j D = sub i j (sub o k D)).
  { unfold sub. rewrite skipn_firstn_comm, firstn_firstn, Nat.min_l, skipn_skipn by lia. do 2 f_equal. lia. }
  rewrite Q, H. unfold zeros, sub. rewrite skipn_repeat, firstn_repeat. f_equal. lia.
Qed.
Definition raw_board (name title : bytes) : BoardHeader := BoardHeader_SetTitle (BoardHeader_SetBoardID NewBoardHeader name) title.
Lemma new_board_roundtrip cd name title :
  enc cd [] = [] -> dec cd [] = [] -> big5_cstr_fits cd 13 name -> big5_cstr_fits cd 49 title ->
  UnmarshalBoardHeader cd (BoardHeader_MarshalBinary cd (raw_board name title)) = Ok (new_board name title).
Proof.
  intros E0 D0 F1 F2. unfold UnmarshalBoardHeader. rewrite board_length.
  replace (256 <? PosOfSRExpire + 4) with false by reflexivity.
  pose proof (board_slots cd (raw_board name title)) as A.
  pose proof (board_hole_next cd (raw_board name title) eq_refl) as Z1. pose proof (board_hole_child cd (raw_board name title) eq_refl) as Z2.
  generalize dependent (BoardHeader_MarshalBinary cd (raw_board name title)). intros D A Z1 Z2.
  unfold board_writes in A.
  pose proof (sub_zeros D 136 8 0 4 Z1 ltac:(lia)) as Z11. pose proof (sub_zeros D 136 8 4 4 Z1 ltac:(lia)) as Z12.
  pose proof (sub_zeros D 144 8 0 4 Z2 ltac:(lia)) as Z21. pose proof (sub_zeros D 144 8 4 4 Z2 ltac:(lia)) as Z22.
  change (bh_next (raw_board name title)) with (@nil Z) in A. change (bh_firstchild (raw_board name title)) with (@nil Z) in A.
  break_slots A. lit_hyps D.
  assert (P1 : big5uaoToUTF8String cd (trim_nul (pad 33 (utf8ToBig5UAOString cd []))) = []) by (apply rt_trim_big5; unfold big5_text_fits, text_fits; rewrite E0, D0; split; [reflexivity|]; split; [cbn; lia|]; split; [|intros [|? ?]]; discriminate).
  assert (P2 : big5uaoToUTF8String cd (trim_nul (pad 1 (utf8ToBig5UAOString cd []))) = []) by (apply rt_trim_big5; unfold big5_text_fits, text_fits; rewrite E0, D0; split; [reflexivity|]; split; [cbn; lia|]; split; [|intros [|? ?]]; discriminate).
  apply (f_equal Ok). apply BoardHeader_ext; BoardHeader_proj.
  1: slot D; exact (rt_split_big5 cd 13 name F1).
  1: slot D; exact (rt_split_big5 cd 49 title F2).
  all: unfold r8, r16, r32; lit_goal D.
  21: slot D; exact P1.
  21: slot D; exact P2.
  14: change (PosOfNext + 4) with 140; rewrite Z11, Z12; vm_compute; reflexivity.
  14: change (PosOfFirstChild + 4) with 148; rewrite Z21, Z22; vm_compute; reflexivity.
  all: slot D; vm_compute; reflexivity.
Qed.
Lemma run_append_board cd p h w rp old : sane w -> names w p rp -> has_dir w rp -> look w rp = option_map EFile old ->
  exists w', run (AppendBoardHeaderFileRecord cd p h) w = (w', Ok tt) /\ sane w' /\ same_but rp w w' /\
    look w' rp = Some (EFile (old_or_empty old ++ BoardHeader_MarshalBinary cd h)).
Proof.
  intros S N HD L. rewrite append_board_shape. destruct old as [d|]; cbn [option_map] in L.
  - destruct (open_write_file O_APPEND_CREATE_WRONLY p (BoardHeader_MarshalBinary cd h) w rp d) as (w' & R & S' & B & L'); auto.
    exists w'. split; [exact R|]. split; [exact S'|]. split; [exact B|]. rewrite L'. unfold written. cbn [o_trunc O_APPEND_CREATE_WRONLY o_append]. now rewrite write_at_end.
  - destruct (open_write_create O_APPEND_CREATE_WRONLY p (BoardHeader_MarshalBinary cd h) w rp) as (w' & R & S' & B & L'); auto.
    exists w'. split; [exact R|]. split; [exact S'|]. split; [exact B|]. rewrite L'. unfold written. cbn [o_trunc O_APPEND_CREATE_WRONLY o_append]. now rewrite write_at_end.
Qed.
Lemma names_same w w' p rp : same_files w w' -> names w p rp -> names w' p rp.
Proof. intros [C _] [P R]. split; [exact P|]. now rewrite C. Qed.
Lemma holds_same w w' wd o rp old : same_files w w' -> holds_file w wd o rp old -> holds_file w' wd o rp old.
Proof.
  intros SF (p & E & N & D & L). exists p. split; [exact E|]. split; [now apply (names_same w)|]. destruct SF as [_ SF].
  split; [unfold has_dir; now rewrite SF|now rewrite SF].
Qed.
Lemma run_addboard cd w e l id t rp old fuel :
  sane w -> home_ok w e -> typed e "add_board" l -> option_is l "board_id" id -> option_is l "title" t ->
  holds_file w (te_home e) Boards rp old ->
  exists w', run (tool cd fuel e) w = (w', Ok [OutArgs (args_of e)]) /\ sane w' /\ w_cwd w' = w_cwd w /\ (forall q, q <> rp -> look w' q = look w q) /\
    look w' rp = Some (EFile (old_or_empty old ++ BoardHeader_MarshalBinary cd (raw_board id t))).
Proof.
  intros S H T O1 O2 F. destruct (run_home S H) as (w1 & S1 & SF & R). apply (holds_same _ w1 _ _ _ _ SF) in F. destruct F as (p & E & N & D & L). cbn [object_path] in E.
  destruct (run_append_board cd p (raw_board id t) w1 rp old S1 N D L) as (w2 & R2 & S2 & (C2 & B2 & _) & L2).
  exists w2. split; [|split; [exact S2|]]; [|destruct SF as [C SF]; split; [congruence|]; split; [|exact L2]; intros q Q; rewrite B2 by exact Q; apply SF].
  rewrite (tool_cmd cd fuel e _ l T).
  change (if beqb (str "add_board") (str "show_board_list") then showboardlist cd fuel e else _) with (addboard cd e).
  unfold addboard. rewrite R, !(typed_arg e _ l _ T), O1, O2. unfold say. rewrite run_bind. cbn [NewBoardRecord].
  fold (raw_board id t). rewrite (run_try _ (lift (Ok (raw_board id t))) _ w1 w1 _ eq_refl).
  assert (Q : run (AddBoardRecord cd (te_home e) (raw_board id t)) w1 = (w2, Ok tt)).
  { unfold AddBoardRecord. rewrite run_pbind. unfold lift. rewrite E. cbn [run]. exact R2. }
  rewrite (run_try _ _ _ _ _ _ Q). reflexivity.
Qed.

(** ** Programs that never panic, whatever the operating system answers *)
Fixpoint calm {A} (p : prog (outcome A)) : Prop :=
  match p with Ret o => o <> Panic | Call _ k => forall r, calm (k r) end.
Lemma calm_run {A} (p : prog (outcome A)) : calm p -> forall w, snd (run p w) <> Panic.
Proof. induction p as [o|R c k IH]; intros H w; [exact H|]. cbn [run]. destruct (exec c w) as [w' r]. now apply IH. Qed.
Lemma calm_bind {A B} (p : prog (outcome A)) (k : outcome A -> prog (outcome B)) :
  calm p -> (forall o, o <> Panic -> calm (k o)) -> calm (bind p k).
Proof. induction p as [o|R c h IH]; intros H K; cbn [bind]; [now apply K|]. intros r. now apply IH. Qed.
Lemma calm_pbind {A B} (p : prog (outcome A)) (k : A -> prog (outcome B)) : calm p -> (forall a, calm (k a)) -> calm (pbind p k).
Proof. intros H K. apply calm_bind; [exact H|]. intros [a|e| |] N; [apply K|discriminate|contradiction|discriminate]. Qed.
Lemma calm_try {A} what (p : prog (outcome A)) k : calm p -> (forall a, calm (k a)) -> calm (try what p k).
Proof. intros H K. apply calm_bind; [exact H|]. intros [a|e| |] N; [apply K|discriminate|contradiction|discriminate]. Qed.
Lemma calm_say l p : calm p -> calm (say l p).
Proof. intros H. apply calm_bind; [exact H|]. intros [a|e| |] N; (discriminate || contradiction). Qed.
Lemma calm_lift {A} (o : outcome A) : o <> Panic -> calm (lift o).
Proof. auto. Qed.
Lemma calm_loop {A} size (decode : bytes -> outcome A) strict closes : (forall b, lenN b = size -> decode b <> Panic) ->
  forall fuel fd acc, calm (read_loop size decode strict closes fuel fd acc).
Proof.
  intros D fuel. induction fuel as [|fuel IH]; intros fd acc; [discriminate|]. cbn [read_loop calm]. intros r.
  assert (K : forall d, calm (match decode (fill size d) with
    | Ok a => read_loop size decode strict closes fuel fd (a :: acc) | Err e => close_if closes fd (Ret (Err e))
    | Panic => close_if closes fd (Ret Panic) | Diverge => Ret Diverge end)).
  { intros d. pose proof (D (fill size d) (lenN_fill size d)) as Q. destruct (decode (fill size d)); [apply IH|destruct closes; cbn; discriminate|contradiction|discriminate]. }
  destruct r as [[|x d]|e]; [destruct closes; cbn; discriminate|apply (K (x :: d))|]. destruct strict; [destruct closes; cbn; discriminate|apply (K [])].
Qed.
Lemma calm_open {A} size (decode : bytes -> outcome A) strict closes fuel p : (forall b, lenN b = size -> decode b <> Panic) ->
  calm (open_records size decode strict closes fuel p).
Proof. intros D. cbn [open_records calm]. intros [fd|e]; [now apply calm_loop|discriminate]. Qed.
Lemma calm_boards cd fuel wd : calm (ReadBoardRecords cd fuel wd).
Proof.
  unfold ReadBoardRecords. apply calm_pbind; [discriminate|]. intros p. apply calm_open. intros b L Q. change BoardHeaderRecordLength with 256 in L. destruct (board_decode cd b) as (x & E & _); [lia|]. rewrite E in Q. discriminate Q.
Qed.
Lemma calm_users cd fuel wd : calm (ReadUserRecords cd fuel wd).
Proof.
  unfold ReadUserRecords. apply calm_pbind; [discriminate|]. intros p. apply calm_open. intros b L Q. destruct (userec_decode cd b) as (x & E & _); [lia|]. rewrite E in Q. discriminate Q.
Qed.
Lemma first_byte_calm s : s <> [] -> first_byte s <> Panic.
Proof. destruct s; [contradiction|discriminate]. Qed.
Lemma obind_calm {A B} (o : outcome A) (k : A -> outcome B) : o <> Panic -> (forall a, k a <> Panic) -> obind o k <> Panic.
Proof. intros H K. destruct o; cbn; try discriminate; auto. Qed.
Lemma article_path_calm wd b f : b <> [] -> GetBoardArticleFilePath wd b f <> Panic.
Proof. intros H. apply obind_calm; [now apply first_byte_calm|discriminate]. Qed.
Lemma calm_index cd fuel wd b : b <> [] -> calm (ReadBoardArticleRecordsFile cd fuel wd b).
Proof.
  intros Nb. unfold ReadBoardArticleRecordsFile. apply calm_pbind; [apply calm_lift, obind_calm; [now apply first_byte_calm|discriminate]|]. intros p.
  apply calm_bind.
  - apply calm_open. intros x L Q. destruct (file_decode cd x) as (y & E & _); [lia|]. rewrite E in Q. discriminate Q.
  - intros [l|e| |] N; try discriminate; [|contradiction]. destruct says_no_such_file; discriminate.
Qed.
Ltac calm_calls := repeat first [progress cbn [calm]|match goal with |- forall r : res _, _ => intros [?|?] | |- forall _, _ => intros ? end]; try discriminate.
Lemma calm_read_file p : calm (read_file p).
Proof. unfold read_file. calm_calls. Qed.
Lemma calm_read_article wd b f : b <> [] -> calm (DB_ReadBoardArticleFile wd b f).
Proof. intros Nb. apply calm_pbind; [now apply calm_lift, article_path_calm|]. intros p. unfold ReadBoardArticleFile. calm_calls. Qed.
Lemma calm_write_article wd b f d : b <> [] -> calm (DB_WriteBoardArticleFile wd b f d).
Proof. intros Nb. apply calm_pbind; [now apply calm_lift, article_path_calm|]. intros p. unfold WriteBoardArticleFile. calm_calls. Qed.
Lemma calm_add_article cd wd b f : b <> [] -> calm (AddArticleRecordFileRecord cd wd b f).
Proof.
  intros Nb. apply calm_pbind; [apply calm_lift, obind_calm; [now apply first_byte_calm|discriminate]|]. intros p. rewrite append_record_shape. unfold open_write. calm_calls.
Qed.
Lemma calm_create fuel wd b owner date title : b <> [] -> calm (CreateArticleRecord fuel wd b owner date title).
Proof.
  intros Nb. apply calm_pbind; [|discriminate]. induction fuel as [|fuel IH]; [discriminate|]. cbn [CreateBoardArticleFilename calm]. intros t r.
  pose proof (article_path_calm wd b (article_name t r) Nb). destruct GetBoardArticleFilePath as [p|e| |]; try discriminate; [|contradiction]. cbn [calm]. intros [fd|e]; [cbn [calm]; discriminate|exact IH].
Qed.
Lemma calm_dir p : calm (chkIsDir p).
Proof. unfold chkIsDir. cbn [calm]. intros [fd|e]; [|discriminate]. cbn [calm]. intros r _. destruct r as [[|]|e]; discriminate. Qed.
Lemma calm_home e : calm (lift (tool_open e)).
Proof. apply calm_lift. unfold tool_open. destruct beqb; discriminate. Qed.
Lemma calm_addboard cd e : calm (addboard cd e).
Proof.
  apply calm_try; [apply calm_dir|]. intros _. apply calm_try; [apply calm_home|]. intros wd. apply calm_say, calm_try; [apply calm_lift; unfold NewBoardRecord; destruct M_BbsTool.arg; [destruct M_BbsTool.arg|]; discriminate|].
  intros h. apply calm_try; [|discriminate]. apply calm_pbind; [discriminate|]. intros p. rewrite append_board_shape. unfold open_write. calm_calls.
Qed.
Lemma calm_post cd fuel wd b owner date title text : b <> [] -> calm (post cd fuel (Some wd) b owner date title text).
Proof.
  intros Nb. apply calm_try; [now apply calm_create|]. intros f. apply calm_try; [now apply calm_add_article|]. intros _. apply calm_try; [now apply calm_write_article|discriminate].
Qed.
Lemma calm_articles_on cd fuel wd user bs : Forall (fun h => bh_name h <> []) bs -> calm (articles_on cd fuel wd user bs).
Proof.
  induction 1 as [|h bs N _ IH]; [discriminate|]. cbn [articles_on]. destruct shouldSkip; [exact IH|]. apply calm_pbind; [now apply calm_index|]. intros l. apply calm_pbind; [exact IH|discriminate].
Qed.
Lemma comments_calm b f ls : forall n, comments ls n b f <> Panic.
Proof.
  induction ls as [|l ls IH]; intros n; [discriminate|]. cbn [comments]. unfold NewUserCommentRecord.
  assert (Q : parseUserComment (FilterStringANSI l) <> Panic).
  { unfold parseUserComment. destruct FindStringSubmatch as [[whole g]|]; [|discriminate]. cbv zeta. destruct (g 1%nat); [discriminate|]. destruct Parse; [|discriminate]. destruct whole; discriminate. }
  destruct parseUserComment as [[[o t] c]|e| |]; [|destruct e; (discriminate || apply IH)|contradiction|discriminate].
  specialize (IH ((n + 1) mod 2 ^ 32)). destruct comments; [discriminate|discriminate|contradiction|discriminate].
Qed.
Lemma calm_comments_on cd fuel wd user bs : Forall (fun h => bh_name h <> []) bs -> calm (comments_on cd fuel wd user bs).
Proof.
  induction 1 as [|h bs N _ IH]; [discriminate|]. cbn [comments_on]. destruct shouldSkip; [exact IH|]. apply calm_pbind; [|intros l; apply calm_pbind; [exact IH|discriminate]].
  apply calm_pbind; [now apply calm_index|]. intros l. clear IH. induction l as [|a l IH]; [discriminate|]. cbn [comments_in]. apply calm_pbind; [|intros c; apply calm_pbind; [exact IH|discriminate]].
  apply calm_pbind; [now apply calm_read_article|]. intros d. cbn [calm]. apply comments_calm.
Qed.
