(** * C30-C32: the comments of an article; a user's articles and comments *)
From Coq Require Import Lia ZifyBool ZifyNat ZifyN.
From Verif Require Import M_Base M_Sys M_Path M_File M_Board M_FileOps M_DB M_Text M_Utf8 M_Regex M_Time M_Login M_Comment M_Scan.
From Verif Require Import S_Layout S_World S_Path S_File S_Board S_Store S_Example S_ExWorld.
From Verif Require Import P_Base P_Layout P_Records P_Sys P_Read P_Path P_FileOps P_BoardList P_Store P_Pool P_PoolList T_BoardList T_Store.
From Verif Require Import S_Text S_Utf8 S_Time S_Login S_Ansi S_Comment P_Time P_Ansi T_Login T_Comment S_Scan P_Scan.
Open Scope N_scope.

(** ** C30 *)
(** An article whose lines are all shorter than 64 KiB. *)
Theorem C30_comments_exact w wd b f d raw ls :
  sane w -> content_of w wd (Article b f) (Some d) -> text d raw -> Forall short_line raw -> Forall2 without_cr raw ls -> N.of_nat (length ls) < 2 ^ 32 ->
  (forall cs, snd (run (GetBoardArticleCommentRecords wd b f) w) = Ok cs <-> numbered b f 1 ls cs) /\
  (forall e, snd (run (GetBoardArticleCommentRecords wd b f) w) = Err e <-> e = EBadTime /\ Exists impossible_date ls) /\
  same_files w (fst (run (GetBoardArticleCommentRecords wd b f) w)).
Proof.
  intros S C T F W Len. assert (Ls : lines_seen d ls) by (exists raw; auto).
  destruct (comments_run b f ls 1) as [(cs & E & H)|(E & ls1 & l & ls2 & cs & Eq & H & Im)]; [lia| |].
  - destruct (proj1 (read_comments w wd b f w S (same_files_refl w)) cs) as (w' & R & S' & SF); [exists d, ls; auto|]. rewrite R. cbn [fst snd]. split; [|split; [|exact SF]].
    + intros cs'. split; [intros [= <-]; exact H|]. intros H'. f_equal. exact (numbered_fun _ _ _ _ _ _ H H').
    + intros e. split; [discriminate|]. intros [_ X]. apply Exists_exists in X as (l & I & Im). apply in_split in I as (ls1 & ls2 & ->). exfalso. eapply numbered_no_bad; eauto.
  - destruct (proj2 (read_comments w wd b f w S (same_files_refl w)) EBadTime) as (w' & R & S' & SF); [right; exists d, ls1, l, ls2, cs; subst; auto 8|]. rewrite R. cbn [fst snd]. split; [|split; [|exact SF]].
    + intros cs'. split; [discriminate|]. intros H'. exfalso. eapply numbered_no_bad; eauto.
    + intros e. split; [intros [= <-]; split; [reflexivity|]|intros [-> _]; reflexivity]. rewrite Eq. apply Exists_exists. exists l. split; [apply in_or_app; right; now left|exact Im].
Qed.
Print Assumptions C30_comments_exact.
(** Every line is one of three kinds, so one of the two answers is given: no panic. *)
Theorem C30_always_answers w wd b f d raw ls :
  sane w -> content_of w wd (Article b f) (Some d) -> text d raw -> Forall short_line raw -> Forall2 without_cr raw ls -> N.of_nat (length ls) < 2 ^ 32 ->
  (exists cs, snd (run (GetBoardArticleCommentRecords wd b f) w) = Ok cs) \/ snd (run (GetBoardArticleCommentRecords wd b f) w) = Err EBadTime.
Proof.
  intros S C T F W Len. destruct (C30_comments_exact w wd b f d raw ls S C T F W Len) as (A & B & _). destruct (comments_run b f ls 1) as [(cs & E & H)|(E & ls1 & l & ls2 & cs & Eq & H & Im)]; [lia| |].
  - left. exists cs. now apply A.
  - right. apply B. split; [reflexivity|]. rewrite Eq. apply Exists_exists. exists l. split; [apply in_or_app; right; now left|exact Im].
Qed.
Print Assumptions C30_always_answers.
(** The floors are 1, 2, 3, ... without gaps, and the records name the board and file. *)
Theorem C30_floors b f ls cs i c : numbered b f 1 ls cs -> nth_error cs i = Some c ->
  uc_order c = 1 + N.of_nat i /\ uc_board c = b /\ uc_file c = f.
Proof.
  generalize 1. intros k H. revert i. induction H as [k|k l ls cs C H IH|k l o t x ls cs C H IH]; intros i E; [destruct i; discriminate E|now apply IH|].
  destruct i as [|i]; cbn [nth_error] in E; [injection E as <-; cbn; repeat split; lia|]. destruct (IH i E) as (-> & E2). split; [lia|exact E2].
Qed.
Print Assumptions C30_floors.
(** The i-th record is that of the i-th comment line. *)
Theorem C30_order b f ls cs : numbered b f 1 ls cs ->
  exists kept, selected (fun l => exists o t x, comment_line l o t x) ls kept /\
    Forall2 (fun l c => comment_line l (uc_owner c) (uc_time c) (uc_text c)) kept cs.
Proof.
  generalize 1. intros k H. induction H as [k|k l ls cs C H (kept & S & F)|k l o t x ls cs C H (kept & S & F)].
  - exists []. split; constructor.
  - exists kept. split; [|exact F]. constructor; [|exact S]. intros (o & t & x & Q). exact (proj1 (comment_exclusive _ _ _ _ Q) C).
  - exists (l :: kept). split; [constructor; [eauto|exact S]|]. constructor; [exact C|exact F].
Qed.
Print Assumptions C30_order.
(** A line of 64 KiB ends the search without a word: what follows it makes no difference. *)
Theorem C30_long_line_cuts w wd b f d raw l rest ls cs :
  sane w -> content_of w wd (Article b f) (Some d) -> text d (raw ++ l :: rest) -> Forall short_line raw -> ~ short_line l ->
  Forall2 without_cr raw ls -> N.of_nat (length ls) < 2 ^ 32 -> numbered b f 1 ls cs ->
  snd (run (GetBoardArticleCommentRecords wd b f) w) = Ok cs.
Proof.
  intros S C T F L W Len Nu. destruct (proj1 (read_comments w wd b f w S (same_files_refl w)) cs) as (w' & R & _); [|now rewrite R].
  exists d, ls. split; [exact C|]. split; [|auto]. exists raw. split; [exact F|]. split; [exact W|]. right. exists l, rest. auto.
Qed.
Print Assumptions C30_long_line_cuts.
(** An article that does not exist is an error. *)
Theorem C30_missing_article w wd b f : sane w -> content_of w wd (Article b f) None ->
  snd (run (GetBoardArticleCommentRecords wd b f) w) = Err (ESys ENOENT).
Proof. intros S C. destruct (proj2 (read_comments w wd b f w S (same_files_refl w)) (ESys ENOENT)) as (w' & R & _); [now left|now rewrite R]. Qed.
Print Assumptions C30_missing_article.

(** A BBS with three boards: SYSOP with two articles, ALLPOST with one, test without. *)
Definition named_board (n : bytes) : BoardHeader :=
  BoardHeader_SetBoardID sample_board n.
Definition article_by (f o : bytes) : FileHeader := MkFileHeader f 1599059246 0 o (str " 9/02") (str "[Test] hello") 0 0 0 0 0 0 0.
Definition scan_tree (second : bool) : list (rpath * node) :=
  dirs_of [["bbs"]; ["bbs"; "boards"]; ["bbs"; "boards"; "S"]; ["bbs"; "boards"; "S"; "SYSOP"];
           ["bbs"; "boards"; "A"]; ["bbs"; "boards"; "A"; "ALLPOST"]]%string
  ++ [(rp ["bbs"; ".BRD"]%string, NFile 0); (rp ["bbs"; "boards"; "S"; "SYSOP"; ".DIR"]%string, NFile 1);
      (rp ["bbs"; "boards"; "S"; "SYSOP"; "M.1"]%string, NFile 2); (rp ["bbs"; "boards"; "A"; "ALLPOST"; ".DIR"]%string, NFile 3)]
  ++ if second then [(rp ["bbs"; "boards"; "S"; "SYSOP"; "M.2"]%string, NFile 4)] else [].
Definition m1 := article_by (str "M.1") (str "pichu").
Definition m2 := article_by (str "M.2") (str "lex").
Definition scan_boards := [named_board (str "SYSOP"); named_board (str "ALLPOST"); named_board (str "test")].
Definition scan_data (bs : list BoardHeader) (c1 c2 : bytes) : list bytes :=
  [concat (map (BoardHeader_MarshalBinary id_codec) bs); MarshalToByte id_codec m1 ++ MarshalToByte id_codec m2; c1; MarshalToByte id_codec m1; c2].
Definition scan_world (second : bool) (bs : list BoardHeader) (c1 c2 : bytes) : world := world_of (scan_tree second) (scan_data bs c1 c2).
Lemma scan_sane second bs c1 c2 : sane (scan_world second bs c1 c2).
Proof. apply saneb_sane. destruct second; vm_compute; reflexivity. Qed.
Definition nl := [x0a].
Definition line_of (user txt : bytes) : bytes := push ++ user ++ str ": " ++ txt ++ str " 05/15 01:06".
Definition article1 : bytes := str "hello" ++ nl ++ line_of (str "pichu") (str "first") ++ nl ++ str "--" ++ nl ++ line_of (str "lex") (str "second") ++ [x0d] ++ nl ++ line_of (str "pichu") (str "third").
Definition article2 : bytes := line_of (str "pichu") (str "fourth") ++ nl.
Definition bad_article : bytes := str "pichu: oops 02/30 10:00" ++ nl.
Lemma m1_content second bs c1 c2 : content_of (scan_world second bs c1 c2) sample_wd (Article (str "SYSOP") (str "M.1")) (Some c1).
Proof.
  exists (str "/bbs/boards/S/SYSOP/M.1"), (rp ["bbs"; "boards"; "S"; "SYSOP"; "M.1"]%string). split; [vm_compute; reflexivity|]. split; [split; [split; [discriminate|no_nul]|vm_compute; reflexivity]|].
  split; [vm_compute; reflexivity|discriminate].
Qed.
Lemma m2_missing bs c1 c2 : content_of (scan_world false bs c1 c2) sample_wd (Article (str "SYSOP") (str "M.2")) None.
Proof.
  exists (str "/bbs/boards/S/SYSOP/M.2"), (rp ["bbs"; "boards"; "S"; "SYSOP"; "M.2"]%string). split; [vm_compute; reflexivity|]. split; [split; [split; [discriminate|no_nul]|vm_compute; reflexivity]|].
  split; [vm_compute; reflexivity|]. intros _ k d. do 6 (destruct k as [|k]; [vm_compute; discriminate|]). vm_compute. destruct k; discriminate.
Qed.
Definition record_of (k : N) (user txt : bytes) (f : bytes) : UserComment := Comment_ k the_time user [] (str "SYSOP") f txt.
Example C30_nonvacuous :
  let w := scan_world true scan_boards article1 article2 in
  sane w /\ content_of w sample_wd (Article (str "SYSOP") (str "M.1")) (Some article1) /\
  Forall short_line (raw_lines article1 []) /\ text article1 (raw_lines article1 []) /\
  snd (run (GetBoardArticleCommentRecords sample_wd (str "SYSOP") (str "M.1")) w) =
    Ok [record_of 1 (str "pichu") (str "first") (str "M.1"); record_of 2 (str "lex") (str "second") (str "M.1"); record_of 3 (str "pichu") (str "third") (str "M.1")] /\
  snd (run (GetBoardArticleCommentRecords sample_wd (str "SYSOP") (str "M.1")) (scan_world true scan_boards bad_article [])) = Err EBadTime.
Proof.
  split; [apply scan_sane|]. split; [apply m1_content|]. split; [|split; [|split; vm_compute; reflexivity]].
  - assert (Q : forallb (fun l => lenN l <? 65536) (raw_lines article1 []) = true) by (vm_compute; reflexivity). rewrite forallb_forall in Q. apply Forall_forall. intros l H. apply Q in H. unfold short_line. lia.
  - destruct (every_text article1) as (ls & T). now rewrite (raw_lines_text _ _ T).
Qed.
(** the comment after a long line is lost *)
Definition long_text : bytes := repeat "x"%byte (N.to_nat 65536).
Theorem C30_long_line_refuted : exists w wd b f d raw o t x,
  sane w /\ content_of w wd (Article b f) (Some d) /\ text d raw /\ Exists (fun l => comment_line l o t x) raw /\
  snd (run (GetBoardArticleCommentRecords wd b f) w) = Ok [].
Proof.
  set (l := line_of (str "pichu") (str "first")). set (d := long_text ++ x0a :: l).
  exists (scan_world true scan_boards d []), sample_wd, (str "SYSOP"), (str "M.1"), d, [long_text; l], (str "pichu"), the_time, (str "first").
  assert (T : text d [long_text; l]).
  { exists [long_text], l. split; [unfold d; cbn [unlines map concat]; rewrite app_nil_r, <- app_assoc; reflexivity|]. split; [|reflexivity].
    constructor; [intros H; apply repeat_spec in H; discriminate H|]. constructor; [|constructor].
    intros H. assert (Q : existsb (Byte.eqb x0a) l = true) by (apply existsb_exists; exists x0a; split; [exact H|reflexivity]). vm_compute in Q. discriminate Q. }
  split; [apply scan_sane|]. split; [apply m1_content|]. split; [exact T|]. split; [right; left; apply comment_line_spec; vm_compute; reflexivity|].
  apply (C30_long_line_cuts _ _ _ _ d [] long_text [l] [] []); [apply scan_sane|apply m1_content|exact T|constructor| |constructor|reflexivity|constructor].
  unfold short_line, long_text, lenN. rewrite repeat_length. lia.
Qed.
Print Assumptions C30_long_line_refuted.

(** ** C31 *)
Theorem C31_user_articles_exact cd w wd user bs ls rs :
  sane w -> boards_are cd w wd bs -> Forall2 (searched cd w wd) bs ls -> Forall2 (fun hl r => posts user (fst hl) (snd hl) r) (combine bs ls) rs ->
  exists n, forall fuel, (n <= fuel)%nat -> exists w',
    run (GetUserArticleRecordFile cd fuel wd user) w = (w', Ok (concat rs)) /\ sane w' /\ same_files w w'.
Proof.
  intros S B Q P. destruct (read_boards cd w wd bs S B) as (n & R). destruct (articles_loop cd w wd user bs S ls rs Q P) as (n2 & R2).
  exists (Nat.max n n2). intros fuel Hf. unfold GetUserArticleRecordFile. rewrite run_pbind. destruct (R fuel ltac:(lia)) as (w1 & E & S1 & SF). rewrite E. apply R2; [lia|exact S1|exact SF].
Qed.
Print Assumptions C31_user_articles_exact.
(** When the board file exists and the index of every board searched is a file or is
    missing, there is an answer. *)
Theorem C31_answers cd w wd user bs :
  sane w -> boards_are cd w wd bs ->
  Forall (fun h => bh_name h = str "ALLPOST" \/ exists old, content_of w wd (Index (bh_name h)) old) bs ->
  exists ls rs, Forall2 (searched cd w wd) bs ls /\ Forall2 (fun hl r => posts user (fst hl) (snd hl) r) (combine bs ls) rs /\
  exists n, forall fuel, (n <= fuel)%nat -> exists w', run (GetUserArticleRecordFile cd fuel wd user) w = (w', Ok (concat rs)).
Proof.
  intros S B K.
  assert (D : forall (s : N) (A : Type) (R : bytes -> A -> Prop), (forall v, N.of_nat (length v) = s -> exists a, R v a) -> forall ss, Forall (fun v => length v = N.to_nat s) ss -> exists l, Forall2 R ss l).
  { intros s A R H ss F. induction F as [|v ss L F (l & IH)]; [exists []; constructor|]. destruct (H v) as (a & Ra); [lia|]. exists (a :: l). now constructor. }
  assert (Q : exists ls, Forall2 (searched cd w wd) bs ls).
  { clear B. induction K as [|h bs Kh K (ls & F)]; [exists []; constructor|].
    assert (X : exists l, searched cd w wd h l); [|destruct X as (l & X); exists (l :: ls); constructor; [exact X|exact F]].
    destruct (beqb (bh_name h) (str "ALLPOST")) eqn:E; [apply beqb_eq in E; exists []; now left|].
    assert (N : bh_name h <> str "ALLPOST") by (intros Z; apply beqb_eq in Z; congruence).
    destruct Kh as [Z|(old & Co)]; [contradiction|].
    destruct (D 128 _ (file_decoded cd)) with (ss := cut 128 (old_or_empty old)) as (l & Dl); [intros v Lv; destruct (file_decode cd v) as (b & _ & Q); [unfold lenN; lia|eauto]|exact (proj1 (cut_slots 128 _ eq_refl))|].
    exists l. right. split; [exact N|]. exists old, (cut 128 (old_or_empty old)). split; [exact Co|]. split; [exact (cut_slots 128 _ eq_refl)|exact Dl]. }
  destruct Q as (ls & Q).
  assert (P : exists rs, Forall2 (fun hl r => posts user (fst hl) (snd hl) r) (combine bs ls) rs).
  { generalize (combine bs ls). intros cb. induction cb as [|[h l] cb (rs & F)]; [exists []; constructor|]. eexists. constructor; [apply articles_by_posts|exact F]. }
  destruct P as (rs & P). exists ls, rs. split; [exact Q|]. split; [exact P|].
  destruct (C31_user_articles_exact cd w wd user bs ls rs S B Q P) as (n & R). exists n. intros fuel Hf. destruct (R fuel Hf) as (w' & E & _). now exists w'.
Qed.
Print Assumptions C31_answers.
(** What is in the answer. *)
Theorem C31_membership user hls rs x :
  Forall2 (fun hl r => posts user (fst hl) (snd hl) r) hls rs ->
  (In x (concat rs) <-> exists h l a, In (h, l) hls /\ In a l /\ fh_owner a = user /\
     x = UArticle (bh_name h) (fh_title a) user (fh_filename a)).
Proof.
  assert (SI : forall l l' (a : FileHeader), selected (fun a => fh_owner a = user) l l' -> In a l' <-> In a l /\ fh_owner a = user).
  { induction 1 as [|b l l' P _ IH|b l l' P _ IH]; cbn [In]; [tauto| |]; (split; [intros H|intros [H O]]).
    - destruct H as [->|H]; [tauto|]. apply IH in H. tauto.
    - destruct H as [->|H]; [now left|]. right. now apply IH.
    - apply IH in H. tauto.
    - destruct H as [->|H]; [contradiction|]. now apply IH. }
  induction 1 as [|[h l] r hls rs (l' & Sel & ->) F IH]; cbn [concat].
  - split; [intros []|intros (h & l & a & [] & _)].
  - rewrite in_app_iff, IH. cbn [fst snd] in *. rewrite in_map_iff. split.
    + intros [(a & <- & I)|(h' & l0 & a & I & R)].
      * apply (SI _ _ _ Sel) in I as [I O]. exists h, l, a. split; [now left|]. split; [exact I|]. split; [exact O|]. now rewrite O.
      * exists h', l0, a. split; [now right|exact R].
    + intros (h' & l0 & a & [[= <- <-]|I] & Ia & O & E).
      * left. exists a. split; [now rewrite E, O|]. apply (SI _ _ _ Sel). now split.
      * right. exists h', l0, a. auto.
Qed.
Print Assumptions C31_membership.
Theorem C31_no_board_file cd fuel w wd user : sane w -> content_of w wd Boards None ->
  snd (run (GetUserArticleRecordFile cd fuel wd user) w) = Err (ESys ENOENT) /\ snd (run (GetUserCommentRecordFile cd fuel wd user) w) = Err (ESys ENOENT).
Proof.
  intros S (p & rp & E & N & L & M). cbn [object_path option_map] in *.
  assert (R : run (ReadBoardRecords cd fuel wd) w = (w, Err (ESys ENOENT))).
  { unfold ReadBoardRecords. rewrite run_pbind. unfold lift. rewrite E. cbn [run]. unfold OpenBoardHeaderFile. rewrite (open_records_missing _ _ _ _ _ w p rp N L). now rewrite (missing_enoent' w rp (M eq_refl)). }
  split; [unfold GetUserArticleRecordFile|unfold GetUserCommentRecordFile]; rewrite run_pbind, R; reflexivity.
Qed.
Print Assumptions C31_no_board_file.
(** A board without a name ends the search with a panic. *)
Theorem C31_nameless_board_panics cd w wd user bs1 h bs2 ls1 :
  sane w -> boards_are cd w wd (bs1 ++ h :: bs2) -> Forall2 (searched cd w wd) bs1 ls1 -> bh_name h = [] ->
  exists n, forall fuel, (n <= fuel)%nat -> snd (run (GetUserArticleRecordFile cd fuel wd user) w) = Panic.
Proof.
  intros S B Q E. destruct (read_boards cd w wd _ S B) as (n & R).
  assert (L : exists n, forall fuel, (n <= fuel)%nat -> forall w1, sane w1 -> same_files w w1 -> snd (run (articles_on cd fuel wd user (bs1 ++ h :: bs2)) w1) = Panic).
  { clear B R n. induction Q as [|h1 l1 bs1 ls1 Ql Q (n & IH)]; cbn [app].
    - exists 0%nat. intros fuel _ w1 _ _. cbn [articles_on]. assert (K : shouldSkip (BoardID h) = false) by (unfold shouldSkip, BoardID; rewrite E; reflexivity). rewrite K. rewrite run_pbind. unfold ReadBoardArticleRecordsFile. rewrite run_pbind. unfold BoardID. rewrite E. reflexivity.
    - destruct Ql as [[A1 ->]|[A1 Ix1]].
      + exists n. intros fuel Hf w1 S1 SF. cbn [articles_on]. rewrite (proj2 (skip_spec h1) A1). now apply IH.
      + destruct (read_index cd w wd _ l1 S Ix1) as (n2 & R2). exists (Nat.max n n2). intros fuel Hf w1 S1 SF. cbn [articles_on].
        destruct (shouldSkip (BoardID h1)) eqn:K; [apply skip_spec in K; contradiction|]. rewrite run_pbind.
        destruct (R2 fuel ltac:(lia) w1 S1 SF) as (w2 & E2 & S2 & SF2). change (BoardID h1) with (bh_name h1). rewrite E2. rewrite run_pbind. specialize (IH fuel ltac:(lia) w2 S2 SF2).
        destruct (run (articles_on cd fuel wd user (bs1 ++ h :: bs2)) w2) as [w3 o]. cbn [snd] in IH. subst o. reflexivity. }
  destruct L as (n2 & L). exists (Nat.max n n2). intros fuel Hf. unfold GetUserArticleRecordFile. rewrite run_pbind. destruct (R fuel ltac:(lia)) as (w1 & E1 & S1 & SF). rewrite E1. apply L; [lia|exact S1|exact SF].
Qed.
Print Assumptions C31_nameless_board_panics.
Lemma scan_boards_are second bs c1 c2 : map (fun b => UnmarshalBoardHeader id_codec (BoardHeader_MarshalBinary id_codec b)) bs = map Ok bs ->
  boards_are id_codec (scan_world second bs c1 c2) sample_wd bs.
Proof.
  intros H. exists (concat (map (BoardHeader_MarshalBinary id_codec) bs)), (map (BoardHeader_MarshalBinary id_codec) bs). split; [|split].
  - exists (str "/bbs/.BRD"), (rp ["bbs"; ".BRD"]%string). split; [vm_compute; reflexivity|]. split; [split; [split; [discriminate|no_nul]|vm_compute; reflexivity]|]. split; [reflexivity|discriminate].
  - apply slots_concat; [lia|]. apply Forall_forall. intros s I. apply in_map_iff in I as (b & <- & _). pose proof (board_marshal_length id_codec b). unfold lenN in *. lia.
  - induction bs as [|b bs IH]; [constructor|]. cbn [map] in *. injection H as E H. constructor; [|now apply IH].
    destruct (board_decode id_codec (BoardHeader_MarshalBinary id_codec b)) as (b' & E' & D); [pose proof (board_marshal_length id_codec b); unfold lenN in *; lia|]. rewrite E in E'. now injection E' as <-.
Qed.
Lemma sysop_articles second bs c1 c2 : articles_are id_codec (scan_world second bs c1 c2) sample_wd (str "SYSOP") [m1; m2].
Proof.
  exists (Some (MarshalToByte id_codec m1 ++ MarshalToByte id_codec m2)), [MarshalToByte id_codec m1; MarshalToByte id_codec m2]. split; [|split].
  - exists (str "/bbs/boards/S/SYSOP/.DIR"), (rp ["bbs"; "boards"; "S"; "SYSOP"; ".DIR"]%string). split; [vm_compute; reflexivity|]. split; [split; [split; [discriminate|no_nul]|vm_compute; reflexivity]|]. split; [reflexivity|discriminate].
  - split; [repeat (constructor; [vm_compute; reflexivity|]); constructor|]. exists 0%nat. split; [vm_compute; reflexivity|lia].
  - constructor; [|constructor; [|constructor]].
    + destruct (file_decode id_codec (MarshalToByte id_codec m1)) as (f & E & D); [vm_compute; discriminate|]. assert (Q : NewFileHeaderWithByte id_codec (MarshalToByte id_codec m1) = Ok m1) by (vm_compute; reflexivity). rewrite Q in E. now injection E as <-.
    + destruct (file_decode id_codec (MarshalToByte id_codec m2)) as (f & E & D); [vm_compute; discriminate|]. assert (Q : NewFileHeaderWithByte id_codec (MarshalToByte id_codec m2) = Ok m2) by (vm_compute; reflexivity). rewrite Q in E. now injection E as <-.
Qed.
Lemma test_articles second bs c1 c2 : articles_are id_codec (scan_world second bs c1 c2) sample_wd (str "test") [].
Proof.
  exists None, []. split; [|split].
  - exists (str "/bbs/boards/t/test/.DIR"), (rp ["bbs"; "boards"; "t"; "test"; ".DIR"]%string). split; [vm_compute; reflexivity|]. split; [split; [split; [discriminate|no_nul]|vm_compute; reflexivity]|].
    split; [destruct second; reflexivity|]. intros _ k d. destruct second; (do 6 (destruct k as [|k]; [vm_compute; discriminate|]); vm_compute; destruct k; discriminate).
  - split; [constructor|]. exists 0%nat. split; [reflexivity|lia].
  - constructor.
Qed.
Lemma scan_searched second c1 c2 : Forall2 (searched id_codec (scan_world second scan_boards c1 c2) sample_wd) scan_boards [[m1; m2]; []; []].
Proof.
  constructor; [right; split; [discriminate|apply sysop_articles]|]. constructor; [left; now split|]. constructor; [right; split; [discriminate|apply test_articles]|]. constructor.
Qed.
Example C31_nonvacuous :
  let w := scan_world true scan_boards article1 article2 in
  sane w /\ boards_are id_codec w sample_wd scan_boards /\ Forall2 (searched id_codec w sample_wd) scan_boards [[m1; m2]; []; []] /\
  snd (run (GetUserArticleRecordFile id_codec 800 sample_wd (str "pichu")) w) = Ok [UArticle (str "SYSOP") (str "[Test] hello") (str "pichu") (str "M.1")] /\
  snd (run (GetUserArticleRecordFile id_codec 800 sample_wd (str "lex")) w) = Ok [UArticle (str "SYSOP") (str "[Test] hello") (str "lex") (str "M.2")].
Proof.
  split; [apply scan_sane|]. split; [apply scan_boards_are; vm_compute; reflexivity|]. split; [apply scan_searched|]. split; vm_compute; reflexivity.
Qed.
Theorem C31_never_panics_refuted : exists cd w wd user bs, sane w /\ boards_are cd w wd bs /\
  exists n, forall fuel, (n <= fuel)%nat -> snd (run (GetUserArticleRecordFile cd fuel wd user) w) = Panic.
Proof.
  set (bs := [named_board (str "SYSOP"); named_board []]). exists id_codec, (scan_world true bs [] []), sample_wd, (str "pichu"), bs.
  assert (B : boards_are id_codec (scan_world true bs [] []) sample_wd bs) by (apply scan_boards_are; vm_compute; reflexivity).
  split; [apply scan_sane|]. split; [exact B|].
  apply (C31_nameless_board_panics id_codec _ _ _ [named_board (str "SYSOP")] (named_board []) [] [[m1; m2]]); [apply scan_sane|exact B| |reflexivity].
  constructor; [right; split; [discriminate|apply sysop_articles]|constructor].
Qed.
Print Assumptions C31_never_panics_refuted.

(** ** C32 *)
Theorem C32_user_comments_exact cd w wd user bs ls rs :
  sane w -> boards_are cd w wd bs -> Forall2 (searched cd w wd) bs ls ->
  Forall2 (fun hl r => remarks w wd user (bh_name (fst hl)) (snd hl) r) (combine bs ls) rs ->
  exists n, forall fuel, (n <= fuel)%nat -> exists w',
    run (GetUserCommentRecordFile cd fuel wd user) w = (w', Ok (concat rs)) /\ sane w' /\ same_files w w'.
Proof.
  intros S B Q P. destruct (read_boards cd w wd bs S B) as (n & R). destruct (comments_boards cd w wd user bs S ls rs Q P) as (n2 & R2).
  exists (Nat.max n n2). intros fuel Hf. unfold GetUserCommentRecordFile. rewrite run_pbind. destruct (R fuel ltac:(lia)) as (w1 & E & S1 & SF). rewrite E. apply R2; [lia|exact S1|exact SF].
Qed.
Print Assumptions C32_user_comments_exact.
Theorem C32_board_comments_exact cd w wd user b l r :
  sane w -> articles_are cd w wd b l -> remarks w wd user b l r ->
  exists n, forall fuel, (n <= fuel)%nat -> exists w',
    run (GetBoardUserCommentRecord cd fuel wd b user) w = (w', Ok r) /\ sane w' /\ same_files w w'.
Proof. intros S Ix P. destruct (board_comments cd w wd user b l r S Ix P) as (n & R). exists n. intros fuel Hf. apply R; [exact Hf|exact S|apply same_files_refl]. Qed.
Print Assumptions C32_board_comments_exact.
(** The first article that cannot be read decides the answer: all other comments are lost. *)
Theorem C32_first_failure cd w wd user bs1 h bs2 ls1 rs1 la a lb css e :
  sane w -> boards_are cd w wd (bs1 ++ h :: bs2) -> Forall2 (searched cd w wd) bs1 ls1 ->
  Forall2 (fun hl r => remarks w wd user (bh_name (fst hl)) (snd hl) r) (combine bs1 ls1) rs1 ->
  bh_name h <> str "ALLPOST" -> articles_are cd w wd (bh_name h) (la ++ a :: lb) ->
  Forall2 (fun a cs => comments_are w wd (bh_name h) (fh_filename a) cs) la css -> comments_fail w wd (bh_name h) (fh_filename a) e ->
  exists n, forall fuel, (n <= fuel)%nat -> snd (run (GetUserCommentRecordFile cd fuel wd user) w) = Err e.
Proof.
  intros S B Q P A Ix C F. destruct (read_boards cd w wd _ S B) as (n & R). destruct (comments_boards_fail cd w wd user bs1 h bs2 ls1 rs1 la a lb css e S Q P A Ix C F) as (n2 & R2).
  exists (Nat.max n n2). intros fuel Hf. unfold GetUserCommentRecordFile. rewrite run_pbind. destruct (R fuel ltac:(lia)) as (w1 & E & S1 & SF). rewrite E.
  destruct (R2 fuel ltac:(lia) w1 S1 SF) as (w2 & E2 & _). now rewrite E2.
Qed.
Print Assumptions C32_first_failure.
Lemma article1_comments second bs c2 : exists cs, comments_are (scan_world second bs article1 c2) sample_wd (str "SYSOP") (str "M.1") cs.
Proof.
  destruct (comments_run (str "SYSOP") (str "M.1") (fst (scan_lines article1)) 1) as [(cs & _ & H)|(E & _)]; [vm_compute; discriminate| |vm_compute in E; discriminate E].
  exists cs, article1, (fst (scan_lines article1)). split; [apply m1_content|]. split; [now apply lines_seen_spec|]. split; [vm_compute; reflexivity|exact H].
Qed.
(** one missing article file *)
Theorem C32_missing_article_refuted : exists cd w wd user bs ls c,
  sane w /\ boards_are cd w wd bs /\ Forall2 (searched cd w wd) bs ls /\
  (exists h l a cs, In (h, l) (combine bs ls) /\ In a l /\ comments_are w wd (bh_name h) (fh_filename a) cs /\ In c cs /\ uc_owner c = user) /\
  exists n, forall fuel, (n <= fuel)%nat -> snd (run (GetUserCommentRecordFile cd fuel wd user) w) = Err (ESys ENOENT).
Proof.
  set (w := scan_world false scan_boards article1 []).
  exists id_codec, w, sample_wd, (str "pichu"), scan_boards, [[m1; m2]; []; []], (record_of 1 (str "pichu") (str "first") (str "M.1")).
  assert (B : boards_are id_codec w sample_wd scan_boards) by (apply scan_boards_are; vm_compute; reflexivity).
  destruct (article1_comments false scan_boards []) as (cs & C).
  split; [apply scan_sane|]. split; [exact B|]. split; [apply scan_searched|]. split.
  - exists (named_board (str "SYSOP")), [m1; m2], m1, cs. split; [now left|]. split; [now left|]. split; [exact C|]. split; [|reflexivity].
    destruct (proj1 (read_comments w sample_wd (str "SYSOP") (str "M.1") w (scan_sane _ _ _ _) (same_files_refl w)) cs C) as (w' & R & _).
    apply (f_equal snd) in R. cbn [snd] in R. assert (K : snd (run (GetBoardArticleCommentRecords sample_wd (str "SYSOP") (str "M.1")) w) = Ok [record_of 1 (str "pichu") (str "first") (str "M.1"); record_of 2 (str "lex") (str "second") (str "M.1"); record_of 3 (str "pichu") (str "third") (str "M.1")]) by (vm_compute; reflexivity).
    rewrite K in R. injection R as <-. now left.
  - apply (C32_first_failure id_codec w sample_wd (str "pichu") [] (named_board (str "SYSOP")) (tl scan_boards) [] [] [m1] m2 [] [cs]); [apply scan_sane|exact B|constructor|constructor|discriminate|apply sysop_articles| |].
    + constructor; [exact C|constructor].
    + left. split; [apply m2_missing|reflexivity].
Qed.
Print Assumptions C32_missing_article_refuted.
(** one line with an impossible date *)
Theorem C32_bad_date_refuted : exists cd w wd user bs ls,
  sane w /\ boards_are cd w wd bs /\ Forall2 (searched cd w wd) bs ls /\
  snd (run (GetBoardArticleCommentRecords wd (str "SYSOP") (str "M.2")) w) = Ok [record_of 1 user (str "fourth") (str "M.2")] /\
  exists n, forall fuel, (n <= fuel)%nat -> snd (run (GetUserCommentRecordFile cd fuel wd user) w) = Err EBadTime.
Proof.
  set (w := scan_world true scan_boards bad_article article2).
  exists id_codec, w, sample_wd, (str "pichu"), scan_boards, [[m1; m2]; []; []].
  assert (B : boards_are id_codec w sample_wd scan_boards) by (apply scan_boards_are; vm_compute; reflexivity).
  split; [apply scan_sane|]. split; [exact B|]. split; [apply scan_searched|]. split; [vm_compute; reflexivity|].
  apply (C32_first_failure id_codec w sample_wd (str "pichu") [] (named_board (str "SYSOP")) (tl scan_boards) [] [] [] m1 [m2] []); [apply scan_sane|exact B|constructor|constructor|discriminate|apply sysop_articles|constructor|].
  right. exists bad_article, [], (str "pichu: oops 02/30 10:00"), [], []. split; [apply m1_content|]. split; [apply lines_seen_spec; vm_compute; reflexivity|]. split; [vm_compute; reflexivity|]. split; [constructor|]. split; [apply impossible_spec; vm_compute; reflexivity|reflexivity].
Qed.
Print Assumptions C32_bad_date_refuted.
Example C32_nonvacuous :
  let w := scan_world true scan_boards article1 article2 in
  snd (run (GetUserCommentRecordFile id_codec 800 sample_wd (str "pichu")) w) =
    Ok [record_of 1 (str "pichu") (str "first") (str "M.1"); record_of 3 (str "pichu") (str "third") (str "M.1"); record_of 1 (str "pichu") (str "fourth") (str "M.2")] /\
  snd (run (GetUserCommentRecordFile id_codec 800 sample_wd (str "lex")) w) = Ok [record_of 2 (str "lex") (str "second") (str "M.1")] /\
  sane w /\ boards_are id_codec w sample_wd scan_boards /\ Forall2 (searched id_codec w sample_wd) scan_boards [[m1; m2]; []; []] /\
  exists r, remarks w sample_wd (str "pichu") (str "SYSOP") [m1; m2] r /\ length r = 3%nat.
Proof.
  split; [vm_compute; reflexivity|]. split; [vm_compute; reflexivity|]. split; [apply scan_sane|]. split; [apply scan_boards_are; vm_compute; reflexivity|]. split; [apply scan_searched|].
  set (w := scan_world true scan_boards article1 article2).
  set (c1 := [record_of 1 (str "pichu") (str "first") (str "M.1"); record_of 2 (str "lex") (str "second") (str "M.1"); record_of 3 (str "pichu") (str "third") (str "M.1")]).
  set (c2 := [record_of 1 (str "pichu") (str "fourth") (str "M.2")]).
  exists (comments_by (str "pichu") c1 ++ comments_by (str "pichu") c2). split; [|vm_compute; reflexivity].
  exists [c1; c2], [comments_by (str "pichu") c1; comments_by (str "pichu") c2]. split; [|split].
  - constructor; [|constructor; [|constructor]].
    + exists article1, (fst (scan_lines article1)). split; [apply m1_content|]. split; [now apply lines_seen_spec|]. split; [vm_compute; reflexivity|].
      destruct (comments_run (str "SYSOP") (str "M.1") (fst (scan_lines article1)) 1) as [(cs & E & H)|(E & _)]; [vm_compute; discriminate| |vm_compute in E; discriminate E].
      assert (K : comments (fst (scan_lines article1)) 1 (str "SYSOP") (str "M.1") = Ok c1) by (vm_compute; reflexivity). rewrite K in E. injection E as <-. exact H.
    + exists article2, (fst (scan_lines article2)). split; [|split; [now apply lines_seen_spec|]; split; [vm_compute; reflexivity|]].
      * exists (str "/bbs/boards/S/SYSOP/M.2"), (rp ["bbs"; "boards"; "S"; "SYSOP"; "M.2"]%string). split; [vm_compute; reflexivity|]. split; [split; [split; [discriminate|no_nul]|vm_compute; reflexivity]|]. split; [vm_compute; reflexivity|discriminate].
      * destruct (comments_run (str "SYSOP") (str "M.2") (fst (scan_lines article2)) 1) as [(cs & E & H)|(E & _)]; [vm_compute; discriminate| |vm_compute in E; discriminate E].
        assert (K : comments (fst (scan_lines article2)) 1 (str "SYSOP") (str "M.2") = Ok c2) by (vm_compute; reflexivity). rewrite K in E. injection E as <-. exact H.
  - constructor; [apply comments_by_selected|]. constructor; [apply comments_by_selected|constructor].
  - cbn [concat]. now rewrite app_nil_r.
Qed.
