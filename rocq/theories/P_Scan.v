(** * Lemmas about searching all boards *)
From Coq Require Import Lia ZifyBool ZifyNat ZifyN.
From Verif Require Import M_Base M_Sys M_Path M_File M_Board M_FileOps M_DB M_Text M_Utf8 M_Regex M_Time M_Login M_Comment M_Scan.
From Verif Require Import S_Layout S_World S_Path S_File S_Board S_Store.
From Verif Require Import P_Base P_Layout P_Records P_Sys P_Read P_Path P_FileOps P_BoardList P_Store P_PoolList.
From Verif Require Import S_Text S_Utf8 S_Time S_Login S_Ansi S_Comment P_Ansi T_Login T_Comment S_Scan.
Open Scope N_scope.

(** ** Decoding is a function *)
Lemma c_string_fun v s s' : c_string v s -> c_string v s' -> s = s'.
Proof.
  intros [N H] [N' H']. destruct H as [->|(t & ->)].
  - destruct H' as [H'|(t & ->)]; [exact H'|]. exfalso. apply N. apply in_or_app. right. now left.
  - destruct H' as [<-|(t' & E)].
    + exfalso. apply N'. apply in_or_app. right. now left.
    + revert s' N' E. induction s as [|a s IH]; intros [|b s'] N' E; cbn [app] in E; [reflexivity| | |].
      * injection E as <- _. exfalso. apply N'. now left.
      * injection E as -> _. exfalso. apply N. now left.
      * injection E as <- E. f_equal. apply IH; [intros Q; apply N; now right|intros Q; apply N'; now right|exact E].
Qed.
Lemma f_cstr_big5_fun cd d off len s s' : f_cstr_big5 cd d off len s -> f_cstr_big5 cd d off len s' -> s = s'.
Proof.
  intros (v & (x & A & C) & ->) (v' & (x' & A' & C') & ->). rewrite (at_off_fun _ _ _ _ _ A A') in *. now rewrite (c_string_fun _ _ _ C C').
Qed.
Lemma f_ints_fun d off k cnt l l' : f_ints d off k cnt l -> f_ints d off k cnt l' -> l = l'.
Proof.
  intros [L H] [L' H']. apply nth_error_ext. intros i. destruct (nth_error l i) as [z|] eqn:E, (nth_error l' i) as [z'|] eqn:E'.
  - f_equal. eapply f_int_fun; eauto.
  - apply nth_error_None in E'. assert (i < length l)%nat by (apply nth_error_Some; congruence). lia.
  - apply nth_error_None in E. assert (i < length l')%nat by (apply nth_error_Some; congruence). lia.
  - reflexivity.
Qed.
Lemma board_decoded_fun cd d f g : board_decoded cd d f -> board_decoded cd d g -> f = g.
Proof.
  intros A B. unfold board_decoded in *. decompose [and] A. clear A. decompose [and] B. clear B. destruct f, g; cbn in *.
  repeat match goal with
  | A : f_num d ?o ?k ?x, B : f_num d ?o ?k ?y |- _ => pose proof (f_num_fun _ _ _ _ _ A B); clear A B; subst y
  | A : f_int d ?o ?k ?x, B : f_int d ?o ?k ?y |- _ => pose proof (f_int_fun _ _ _ _ _ A B); clear A B; subst y
  | A : f_time d ?o ?x, B : f_time d ?o ?y |- _ => pose proof (f_time_fun _ _ _ _ A B); clear A B; subst y
  | A : f_trim d ?o ?k ?x, B : f_trim d ?o ?k ?y |- _ => pose proof (f_trim_fun _ _ _ _ _ A B); clear A B; subst y
  | A : f_trim_big5 cd d ?o ?k ?x, B : f_trim_big5 cd d ?o ?k ?y |- _ => pose proof (f_trim_big5_fun _ _ _ _ _ _ A B); clear A B; subst y
  | A : f_cstr_big5 cd d ?o ?k ?x, B : f_cstr_big5 cd d ?o ?k ?y |- _ => pose proof (f_cstr_big5_fun _ _ _ _ _ _ A B); clear A B; subst y
  | A : f_ints d ?o ?k ?c ?x, B : f_ints d ?o ?k ?c ?y |- _ => pose proof (f_ints_fun _ _ _ _ _ _ A B); clear A B; subst y
  end. reflexivity.
Qed.
Lemma Forall2_fun {A B} (R : A -> B -> Prop) : (forall a b b', R a b -> R a b' -> b = b') ->
  forall l r r', Forall2 R l r -> Forall2 R l r' -> r = r'.
Proof. intros F l r r' H. revert r'. induction H as [|a b l r Hab H IH]; intros r' H'; inversion H'; subst; [reflexivity|]. f_equal; eauto. Qed.

(** ** Contents *)
Lemma missing_enoent' w rp : (forall k d, look w (firstn k rp) <> Some (EFile d)) -> missing w rp = ENOENT.
Proof.
  intros H. unfold missing. assert (existsb (fun a => is_file (w_tree w a)) (ancestors rp) = false) as ->; [|reflexivity].
  apply not_true_iff_false. rewrite existsb_exists. intros (a & I & F).
  unfold ancestors in I. apply in_map_iff in I. destruct I as (k & <- & I). apply in_seq in I.
  destruct (w_tree w (firstn k rp)) as [[|i]|] eqn:T; cbn in F; try discriminate F.
  apply (H k (w_data w i)). unfold look. rewrite T. destruct (firstn k rp) eqn:E; [|reflexivity].
  destruct rp as [|x rp]; cbn in I; [lia|]. destruct k; [lia|]. discriminate E.
Qed.
Lemma content_same w w' wd o old : same_files w w' -> content_of w wd o old -> content_of w' wd o old.
Proof.
  intros [C L] (p & rp & P & [Pp N] & E & M). exists p, rp. split; [exact P|]. split; [split; [exact Pp|now rewrite C]|]. split; [now rewrite L|].
  intros O k d. rewrite L. now apply M.
Qed.
Lemma articles_same cd w w' wd b l : same_files w w' -> articles_are cd w wd b l -> articles_are cd w' wd b l.
Proof. intros S (old & ss & C & R). exists old, ss. split; [now apply (content_same w)|exact R]. Qed.
Lemma searched_same cd w w' wd h l : same_files w w' -> searched cd w wd h l -> searched cd w' wd h l.
Proof. intros S [H|[N H]]; [now left|right]. split; [exact N|]. now apply (articles_same cd w). Qed.
Lemma comments_same w w' wd b f cs : same_files w w' -> comments_are w wd b f cs -> comments_are w' wd b f cs.
Proof. intros S (d & ls & C & R). exists d, ls. split; [now apply (content_same w)|exact R]. Qed.
Lemma fail_same w w' wd b f e : same_files w w' -> comments_fail w wd b f e -> comments_fail w' wd b f e.
Proof.
  intros S [[C E]|(d & ls1 & l & ls2 & cs & C & R)]; [left; split; [now apply (content_same w)|exact E]|right].
  exists d, ls1, l, ls2, cs. split; [now apply (content_same w)|exact R].
Qed.
Lemma same_files_refl w : same_files w w.
Proof. split; reflexivity. Qed.
Lemma same_files_trans w1 w2 w3 : same_files w1 w2 -> same_files w2 w3 -> same_files w1 w3.
Proof. intros [C L] [C' L']. split; [congruence|]. intros q. now rewrite L', L. Qed.

(** ** Single reads *)
Lemma read_boards cd w wd bs : sane w -> boards_are cd w wd bs ->
  exists n, forall fuel, (n <= fuel)%nat -> exists w', run (ReadBoardRecords cd fuel wd) w = (w', Ok bs) /\ sane w' /\ same_files w w'.
Proof.
  intros S (d & ss & (p & rp & E & N & L & _) & Sl & Dec). exists (Datatypes.S (length d)). intros fuel Hf.
  destruct (open_records_file 256 (UnmarshalBoardHeader cd) false false fuel w p rp d) as (w' & l & R & G & S' & SF & FD); auto; [reflexivity| |].
  { intros b Lb. destruct (board_decode cd b) as (x & E' & _); [lia|eauto]. }
  assert (l = bs) as ->.
  { assert (ss = cut 256 d) as -> by (apply (slots_unique 256 d); [lia|exact Sl|exact (cut_slots 256 d eq_refl)]).
    apply (Forall2_fun (board_decoded cd) (board_decoded_fun cd) (cut 256 d)); [|exact Dec].
    apply (decode_slots _ (UnmarshalBoardHeader cd)); [reflexivity| |exact G]. intros s Ls. apply board_decode. unfold lenN. lia. }
  exists w'. split; [|now split]. unfold ReadBoardRecords. rewrite run_pbind. unfold lift. cbn [object_path] in E. rewrite E. cbn [run].
  unfold OpenBoardHeaderFile. change BoardHeaderRecordLength with 256. exact R.
Qed.
Lemma read_index cd w wd b l : sane w -> articles_are cd w wd b l ->
  exists n, forall fuel, (n <= fuel)%nat -> forall w1, sane w1 -> same_files w w1 ->
  exists w', run (ReadBoardArticleRecordsFile cd fuel wd b) w1 = (w', Ok l) /\ sane w' /\ same_files w w'.
Proof.
  intros S (old & ss & (p & rp & E & N & L & M) & Sl & Dec). exists (Datatypes.S (length (old_or_empty old))). intros fuel Hf w1 S1 SF1.
  assert (C1 : content_of w1 wd (Index b) old) by (apply (content_same w); [exact SF1|]; exists p, rp; auto).
  clear N L M S. cbn [object_path] in E. destruct C1 as (p' & rp' & E' & N & L & M). cbn [object_path] in E'. rewrite E in E'. injection E' as <-.
  destruct old as [d|]; cbn [option_map old_or_empty] in *.
  - destruct (open_records_file 128 (NewFileHeaderWithByte cd) false true fuel w1 p rp' d) as (w' & l' & R & G & S' & SF & FD); auto; [reflexivity|apply header_decodes|].
    assert (l' = l) as ->.
    { assert (ss = cut 128 d) as -> by (apply (slots_unique 128 d); [lia|exact Sl|exact (cut_slots 128 d eq_refl)]).
      apply (Forall2_fun (file_decoded cd) (file_decoded_fun cd) (cut 128 d)); [|exact Dec].
      apply (decode_slots _ (NewFileHeaderWithByte cd)); [reflexivity| |exact G]. intros s Ls. apply file_decode. unfold lenN. lia. }
    exists w'. split; [|split; [exact S'|now apply (same_files_trans _ w1)]]. unfold ReadBoardArticleRecordsFile. rewrite run_pbind. unfold lift. rewrite E. cbn [run].
    rewrite run_bind. unfold OpenFileHeaderFile. rewrite R. reflexivity.
  - exists w1. split; [|now split]. unfold ReadBoardArticleRecordsFile. rewrite run_pbind. unfold lift. rewrite E. cbn [run].
    rewrite run_bind. unfold OpenFileHeaderFile. rewrite (open_records_missing 128 _ _ _ _ w1 p rp' N L). rewrite (missing_enoent' w1 rp' (M eq_refl)). cbn [says_no_such_file run].
    destruct Sl as [FS (k & C & K)]. destruct ss as [|s ss]; [inversion Dec; reflexivity|]. exfalso. inversion FS; subst. cbn [concat] in C. apply (f_equal (@length byte)) in C.
    rewrite app_length in C. cbn [app] in C. rewrite repeat_length in C. lia.
Qed.

(** ** The comments of one article *)
Lemma lines_seen_spec d ls : lines_seen d ls <-> fst (scan_lines d) = ls.
Proof.
  unfold scan_lines. split.
  - intros (raw & F & W & [T|(l & r & T & L)]).
    + rewrite (raw_lines_text _ _ T), (scan_short raw F). cbn [fst]. clear T F. induction W as [|x y raw ls H W IH]; [reflexivity|]. cbn [map]. rewrite IH. f_equal. now apply drop_cr_spec.
    + rewrite (raw_lines_text _ _ T), (scan_long raw l r F L). cbn [fst]. clear T F. induction W as [|x y raw ls H W IH]; [reflexivity|]. cbn [map]. rewrite IH. f_equal. now apply drop_cr_spec.
  - intros <-. destruct (every_text d) as (raw & T). rewrite (raw_lines_text _ _ T).
    assert (W : forall r, Forall2 without_cr r (map drop_cr r)) by (induction r; constructor; [now apply drop_cr_spec|assumption]).
    assert (C : Forall short_line raw \/ exists a l b, raw = a ++ l :: b /\ Forall short_line a /\ ~ short_line l).
    { clear T. induction raw as [|l raw IH]; [left; constructor|]. destruct (N.lt_ge_cases (lenN l) 65536) as [G|G].
      - destruct IH as [IH|(a & m & b & -> & FA & NL)]; [left; now constructor|right]. exists (l :: a), m, b. split; [reflexivity|]. split; [now constructor|exact NL].
      - right. exists [], l, raw. split; [reflexivity|]. split; [constructor|]. unfold short_line. lia. }
    destruct C as [F|(a & l & b & -> & F & NL)].
    + rewrite (scan_short raw F). exists raw. split; [exact F|]. split; [apply W|now left].
    + rewrite (scan_long a l b F NL). exists a. split; [exact F|]. split; [apply W|right]. now exists l, b.
Qed.
Lemma comment_line_spec l o t txt : comment_line l o t txt <-> parseUserComment (FilterStringANSI l) = Ok (o, t, txt).
Proof.
  rewrite C29_parse_exact. split.
  - intros (u & m & st & F & R). apply filter_spec in F. rewrite F. now exists m, st.
  - intros (m & st & R). exists (FilterStringANSI l), m, st. split; [now apply filter_spec|exact R].
Qed.
Lemma not_comment_spec l : not_comment_line l <-> parseUserComment (FilterStringANSI l) = Err ENotUserComment.
Proof.
  rewrite C29_not_a_comment. split.
  - intros (u & F & R). apply filter_spec in F. now rewrite F.
  - intros R. exists (FilterStringANSI l). split; [now apply filter_spec|exact R].
Qed.
Lemma impossible_spec l : impossible_date l <-> parseUserComment (FilterStringANSI l) = Err EBadTime.
Proof.
  split.
  - intros (u & o & m & st & F & R & N). apply filter_spec in F. rewrite F. destruct (parse_cases u) as [[Q _]|(o' & m' & st' & F' & [(t & T & _)|[_ E]])]; [now apply found_not_none in R| |exact E].
    destruct (found_fun _ _ _ _ _ _ _ R F') as (<- & <- & <-). now apply N in T.
  - intros E. destruct (C29_other_answers (FilterStringANSI l)) as [(o & t & x & K)|[K|[_ (o & m & st & R & N)]]]; [rewrite E in K; discriminate K|rewrite E in K; discriminate K|].
    exists (FilterStringANSI l), o, m, st. split; [now apply filter_spec|now split].
Qed.
Lemma line_cases l : (exists o t txt, comment_line l o t txt) \/ not_comment_line l \/ impossible_date l.
Proof.
  destruct (C29_other_answers (FilterStringANSI l)) as [(o & t & x & K)|[K|[K _]]].
  - left. exists o, t, x. now apply comment_line_spec.
  - right. left. now apply not_comment_spec.
  - right. right. now apply impossible_spec.
Qed.
Lemma comments_run b f ls k : k + N.of_nat (length ls) <= 2 ^ 32 ->
  (exists cs, comments ls k b f = Ok cs /\ numbered b f k ls cs) \/
  (comments ls k b f = Err EBadTime /\ exists ls1 l ls2 cs, ls = ls1 ++ l :: ls2 /\ numbered b f k ls1 cs /\ impossible_date l).
Proof.
  revert k. induction ls as [|l ls IH]; intros k Hk; [left; exists []; split; [reflexivity|constructor]|].
  cbn [length] in Hk. cbn [comments]. unfold NewUserCommentRecord. destruct (line_cases l) as [(o & t & x & C)|[C|C]].
  - rewrite (proj1 (comment_line_spec l o t x) C). destruct ls as [|l2 ls].
    + cbn [comments]. left. eexists. split; [reflexivity|]. econstructor; [exact C|constructor].
    + rewrite N.mod_small by (cbn [length] in Hk; lia). destruct (IH (k + 1)) as [(cs & E & H)|(E & ls1 & m & ls2 & cs & Eq & H & Im)]; [cbn [length] in *; lia| |].
      * rewrite E. left. eexists. split; [reflexivity|]. econstructor; [exact C|exact H].
      * rewrite E. right. split; [reflexivity|]. eexists (l :: ls1), m, ls2, _. split; [now rewrite Eq|]. split; [econstructor; [exact C|exact H]|exact Im].
  - rewrite (proj1 (not_comment_spec l) C). destruct (IH k) as [(cs & E & H)|(E & ls1 & m & ls2 & cs & -> & H & Im)]; [lia| |].
    + rewrite E. left. eexists. split; [reflexivity|]. now constructor.
    + rewrite E. right. split; [reflexivity|]. exists (l :: ls1), m, ls2, cs. split; [reflexivity|]. split; [now constructor|exact Im].
  - rewrite (proj1 (impossible_spec l) C). right. split; [reflexivity|]. exists [], l, ls, []. split; [reflexivity|]. split; [constructor|exact C].
Qed.
Lemma comment_line_fun l o t x o' t' x' : comment_line l o t x -> comment_line l o' t' x' -> o = o' /\ t = t' /\ x = x'.
Proof. rewrite !comment_line_spec. intros E E'. rewrite E in E'. injection E' as -> -> ->. auto. Qed.
Lemma comment_exclusive l o t x : comment_line l o t x -> ~ not_comment_line l /\ ~ impossible_date l.
Proof. rewrite comment_line_spec, not_comment_spec, impossible_spec. intros E. rewrite E. split; discriminate. Qed.
Lemma not_comment_exclusive l : not_comment_line l -> ~ impossible_date l.
Proof. rewrite not_comment_spec, impossible_spec. intros E. rewrite E. discriminate. Qed.
Lemma numbered_fun b f k ls cs cs' : numbered b f k ls cs -> numbered b f k ls cs' -> cs = cs'.
Proof.
  intros H. revert cs'. induction H as [k|k l ls cs C H IH|k l o t x ls cs C H IH]; intros cs' H'; inversion H'; subst; [reflexivity|auto| | |].
  - match goal with K : comment_line _ _ _ _ |- _ => destruct (proj1 (comment_exclusive _ _ _ _ K) C) end.
  - match goal with K : not_comment_line _ |- _ => destruct (proj1 (comment_exclusive _ _ _ _ C) K) end.
  - match goal with K : comment_line _ _ _ _ |- _ => destruct (comment_line_fun _ _ _ _ _ _ _ C K) as (<- & <- & <-) end. f_equal. auto.
Qed.
Lemma numbered_no_bad b f k ls cs ls1 l ls2 : numbered b f k ls cs -> ls = ls1 ++ l :: ls2 -> ~ impossible_date l.
Proof.
  intros H. revert ls1. induction H as [k|k m ls cs C H IH|k m o t x ls cs C H IH]; intros ls1 E; destruct ls1; cbn [app] in E; try discriminate E.
  - injection E as <- <-. now apply not_comment_exclusive.
  - injection E as <- ->. eapply IH. reflexivity.
  - injection E as <- <-. exact (proj2 (comment_exclusive _ _ _ _ C)).
  - injection E as <- ->. eapply IH. reflexivity.
Qed.
Lemma read_comments w wd b f w1 : sane w1 -> same_files w w1 ->
  (forall cs, comments_are w wd b f cs -> exists w', run (GetBoardArticleCommentRecords wd b f) w1 = (w', Ok cs) /\ sane w' /\ same_files w w') /\
  (forall e, comments_fail w wd b f e -> exists w', run (GetBoardArticleCommentRecords wd b f) w1 = (w', Err e) /\ sane w' /\ same_files w w').
Proof.
  intros S1 SF.
  assert (R : forall d, content_of w wd (Article b f) (Some d) -> exists w', run (GetBoardArticleCommentRecords wd b f) w1 = (w', comments (fst (scan_lines d)) 1 b f) /\ sane w' /\ same_files w w').
  { intros d C. apply (content_same _ _ _ _ _ SF) in C. destruct C as (p & rp & E & N & L & _). cbn [object_path option_map] in *.
    destruct (open_read_all_file p w1 rp d S1 N L) as (w' & R & S' & SF' & _). exists w'. split; [|split; [exact S'|now apply (same_files_trans _ w1)]].
    unfold GetBoardArticleCommentRecords, DB_ReadBoardArticleFile. rewrite !run_pbind. unfold lift. rewrite E. cbn [run]. rewrite read_article_shape, R. reflexivity. }
  split.
  - intros cs (d & ls & C & Ls & Len & Nu). destruct (R d C) as (w' & E & K). exists w'. split; [|exact K]. rewrite E. f_equal. apply lines_seen_spec in Ls. rewrite Ls.
    destruct (comments_run b f ls 1) as [(cs' & -> & H)|(_ & ls1 & l & ls2 & cs' & -> & _ & Im)]; [lia|f_equal; exact (numbered_fun _ _ _ _ _ _ H Nu)|].
    exfalso. eapply numbered_no_bad; eauto.
  - intros e [[C ->]|(d & ls1 & l & ls2 & cs & C & Ls & Len & Nu & Im & ->)].
    + apply (content_same _ _ _ _ _ SF) in C. destruct C as (p & rp & E & N & L & M). cbn [object_path option_map] in *. exists w1. split; [|now split].
      unfold GetBoardArticleCommentRecords, DB_ReadBoardArticleFile. rewrite !run_pbind. unfold lift. rewrite E. cbn [run]. rewrite read_article_shape, (open_read_all_missing p w1 rp N L).
      now rewrite (missing_enoent' w1 rp (M eq_refl)).
    + destruct (R d C) as (w' & E & K). exists w'. split; [|exact K]. rewrite E. f_equal. apply lines_seen_spec in Ls. rewrite Ls.
      destruct (comments_run b f (ls1 ++ l :: ls2) 1) as [(cs' & -> & H)|(-> & _)]; [lia| |reflexivity]. exfalso. eapply numbered_no_bad; eauto.
Qed.

(** ** Selections *)
Lemma selected_fun {A} (P : A -> Prop) l r r' : selected P l r -> selected P l r' -> r = r'.
Proof. intros H. revert r'. induction H; intros r' H'; inversion H'; subst; try contradiction; [reflexivity|f_equal; auto|auto]. Qed.
Lemma articles_by_posts user h l : posts user h l (articles_by user (BoardID h) l).
Proof.
  induction l as [|a l (l' & S & E)]; [exists []; split; [constructor|reflexivity]|]. cbn [articles_by]. rewrite E. destruct (beqb (fh_owner a) user) eqn:B.
  - apply beqb_eq in B. exists (a :: l'). split; [now constructor|reflexivity].
  - exists l'. split; [|reflexivity]. constructor; [|exact S]. intros Q. apply beqb_eq in Q. congruence.
Qed.
Lemma posts_fun user h l r r' : posts user h l r -> posts user h l r' -> r = r'.
Proof. intros (l1 & S1 & ->) (l2 & S2 & ->). now rewrite (selected_fun _ _ _ _ S1 S2). Qed.
Lemma comments_by_selected user l : selected (fun c => uc_owner c = user) l (comments_by user l).
Proof.
  induction l as [|c l IH]; cbn [comments_by]; [constructor|]. destruct (beqb user (uc_owner c)) eqn:B.
  - apply beqb_eq in B. now constructor.
  - constructor; [|exact IH]. intros Q. symmetry in Q. apply beqb_eq in Q. congruence.
Qed.
Lemma skip_spec h : shouldSkip (BoardID h) = true <-> bh_name h = str "ALLPOST".
Proof. apply beqb_eq. Qed.

(** ** The loops *)
Lemma articles_loop cd w wd user bs : sane w -> forall ls rs, Forall2 (searched cd w wd) bs ls -> Forall2 (fun hl r => posts user (fst hl) (snd hl) r) (combine bs ls) rs ->
  exists n, forall fuel, (n <= fuel)%nat -> forall w1, sane w1 -> same_files w w1 ->
  exists w', run (articles_on cd fuel wd user bs) w1 = (w', Ok (concat rs)) /\ sane w' /\ same_files w w'.
Proof.
  intros S. induction bs as [|h bs IH]; intros ls rs Q P; inversion Q as [|? l ? ls' Ql Q']; subst; cbn [combine] in P; inversion P as [|? r ? rs' Pr P']; subst.
  - exists 0%nat. intros fuel _ w1 S1 SF. exists w1. now split.
  - destruct (IH ls' rs' Q' P') as (n & R). cbn [fst snd] in Pr. destruct Ql as [[A ->]|[A Ix]].
    + exists n. intros fuel Hf w1 S1 SF. cbn [articles_on]. rewrite (proj2 (skip_spec h) A). rewrite <- (posts_fun _ _ _ _ _ (articles_by_posts user h []) Pr). cbn [articles_by concat app]. now apply R.
    + destruct (read_index cd w wd _ l S Ix) as (n2 & R2). exists (Nat.max n n2). intros fuel Hf w1 S1 SF. cbn [articles_on].
      destruct (shouldSkip (BoardID h)) eqn:K; [apply skip_spec in K; contradiction|]. rewrite run_pbind.
      destruct (R2 fuel ltac:(lia) w1 S1 SF) as (w2 & E2 & S2 & SF2). change (BoardID h) with (bh_name h). rewrite E2. rewrite run_pbind.
      destruct (R fuel ltac:(lia) w2 S2 SF2) as (w3 & E3 & S3 & SF3). rewrite E3. cbn [run]. exists w3. split; [|now split].
      rewrite <- (posts_fun _ _ _ _ _ (articles_by_posts user h l) Pr). reflexivity.
Qed.
Lemma comments_loop w wd user b l css rs : Forall2 (fun a cs => comments_are w wd b (fh_filename a) cs) l css -> Forall2 (selected (fun c => uc_owner c = user)) css rs ->
  forall w1, sane w1 -> same_files w w1 ->
  exists w', run (comments_in wd user b l) w1 = (w', Ok (concat rs)) /\ sane w' /\ same_files w w'.
Proof.
  intros H. revert rs. induction H as [|a cs l css C H IH]; intros rs P w1 S1 SF; inversion P as [|? r ? rs' Pr P']; subst; [exists w1; now split|].
  cbn [comments_in]. rewrite run_pbind. destruct (proj1 (read_comments w wd b (fh_filename a) w1 S1 SF) cs C) as (w2 & E2 & S2 & SF2). rewrite E2. rewrite run_pbind.
  destruct (IH rs' P' w2 S2 SF2) as (w3 & E3 & S3 & SF3). rewrite E3. cbn [run concat]. exists w3. split; [|now split].
  now rewrite (selected_fun _ _ _ _ (comments_by_selected user cs) Pr).
Qed.
Lemma comments_loop_fails w wd user b l1 a l2 css e : Forall2 (fun a cs => comments_are w wd b (fh_filename a) cs) l1 css -> comments_fail w wd b (fh_filename a) e ->
  forall w1, sane w1 -> same_files w w1 ->
  exists w', run (comments_in wd user b (l1 ++ a :: l2)) w1 = (w', Err e) /\ sane w' /\ same_files w w'.
Proof.
  intros H F. induction H as [|a' cs l1 css C H IH]; intros w1 S1 SF; cbn [app comments_in]; rewrite run_pbind.
  - destruct (proj2 (read_comments w wd b (fh_filename a) w1 S1 SF) e F) as (w2 & E2 & K2). rewrite E2. now exists w2.
  - destruct (proj1 (read_comments w wd b (fh_filename a') w1 S1 SF) cs C) as (w2 & E2 & S2 & SF2). rewrite E2. rewrite run_pbind.
    destruct (IH w2 S2 SF2) as (w3 & E3 & K3). rewrite E3. now exists w3.
Qed.
Lemma board_comments cd w wd user b l r : sane w -> articles_are cd w wd b l -> remarks w wd user b l r ->
  exists n, forall fuel, (n <= fuel)%nat -> forall w1, sane w1 -> same_files w w1 ->
  exists w', run (GetBoardUserCommentRecord cd fuel wd b user) w1 = (w', Ok r) /\ sane w' /\ same_files w w'.
Proof.
  intros S Ix (css & rs & C & Se & ->). destruct (read_index cd w wd b l S Ix) as (n & R). exists n. intros fuel Hf w1 S1 SF.
  unfold GetBoardUserCommentRecord. rewrite run_pbind. destruct (R fuel Hf w1 S1 SF) as (w2 & E2 & S2 & SF2). rewrite E2. now apply (comments_loop w wd user b l css rs).
Qed.
Lemma comments_boards cd w wd user bs : sane w -> forall ls rs, Forall2 (searched cd w wd) bs ls ->
  Forall2 (fun hl r => remarks w wd user (bh_name (fst hl)) (snd hl) r) (combine bs ls) rs ->
  exists n, forall fuel, (n <= fuel)%nat -> forall w1, sane w1 -> same_files w w1 ->
  exists w', run (comments_on cd fuel wd user bs) w1 = (w', Ok (concat rs)) /\ sane w' /\ same_files w w'.
Proof.
  intros S. induction bs as [|h bs IH]; intros ls rs Q P; inversion Q as [|? l ? ls' Ql Q']; subst; cbn [combine] in P; inversion P as [|? r ? rs' Pr P']; subst.
  - exists 0%nat. intros fuel _ w1 S1 SF. exists w1. now split.
  - destruct (IH ls' rs' Q' P') as (n & R). cbn [fst snd] in Pr. destruct Ql as [[A ->]|[A Ix]].
    + exists n. intros fuel Hf w1 S1 SF. cbn [comments_on]. rewrite (proj2 (skip_spec h) A). destruct Pr as (css & rs & C & Se & ->). inversion C; subst. inversion Se; subst. cbn [concat app]. now apply R.
    + destruct (board_comments cd w wd user _ l r S Ix Pr) as (n2 & R2). exists (Nat.max n n2). intros fuel Hf w1 S1 SF. cbn [comments_on].
      destruct (shouldSkip (BoardID h)) eqn:K; [apply skip_spec in K; contradiction|]. rewrite run_pbind.
      destruct (R2 fuel ltac:(lia) w1 S1 SF) as (w2 & E2 & S2 & SF2). change (BoardID h) with (bh_name h). rewrite E2. rewrite run_pbind.
      destruct (R fuel ltac:(lia) w2 S2 SF2) as (w3 & E3 & S3 & SF3). rewrite E3. cbn [run concat]. exists w3. now split.
Qed.
Lemma comments_boards_fail cd w wd user bs1 h bs2 ls1 rs1 la a lb css e : sane w -> Forall2 (searched cd w wd) bs1 ls1 ->
  Forall2 (fun hl r => remarks w wd user (bh_name (fst hl)) (snd hl) r) (combine bs1 ls1) rs1 ->
  bh_name h <> str "ALLPOST" -> articles_are cd w wd (bh_name h) (la ++ a :: lb) ->
  Forall2 (fun a cs => comments_are w wd (bh_name h) (fh_filename a) cs) la css -> comments_fail w wd (bh_name h) (fh_filename a) e ->
  exists n, forall fuel, (n <= fuel)%nat -> forall w1, sane w1 -> same_files w w1 ->
  exists w', run (comments_on cd fuel wd user (bs1 ++ h :: bs2)) w1 = (w', Err e) /\ sane w' /\ same_files w w'.
Proof.
  intros S Q P A Ix C F. revert rs1 P. induction Q as [|h1 l1 bs1 ls1 Ql Q IH]; intros rs1 P; cbn [combine] in P; inversion P as [|? r ? rs' Pr P']; subst; cbn [app].
  - destruct (read_index cd w wd _ _ S Ix) as (n & R). exists n. intros fuel Hf w1 S1 SF. cbn [comments_on].
    destruct (shouldSkip (BoardID h)) eqn:K; [apply skip_spec in K; contradiction|]. rewrite run_pbind. unfold GetBoardUserCommentRecord. rewrite run_pbind.
    destruct (R fuel Hf w1 S1 SF) as (w2 & E2 & S2 & SF2). change (BoardID h) with (bh_name h). rewrite E2.
    destruct (comments_loop_fails w wd user (bh_name h) la a lb css e C F w2 S2 SF2) as (w3 & E3 & K3). rewrite E3. now exists w3.
  - destruct (IH rs' P') as (n & R). cbn [fst snd] in Pr. destruct Ql as [[A1 ->]|[A1 Ix1]].
    + exists n. intros fuel Hf w1 S1 SF. cbn [comments_on]. rewrite (proj2 (skip_spec h1) A1). now apply R.
    + destruct (board_comments cd w wd user _ l1 r S Ix1 Pr) as (n2 & R2). exists (Nat.max n n2). intros fuel Hf w1 S1 SF. cbn [comments_on].
      destruct (shouldSkip (BoardID h1)) eqn:K; [apply skip_spec in K; contradiction|]. rewrite run_pbind.
      destruct (R2 fuel ltac:(lia) w1 S1 SF) as (w2 & E2 & S2 & SF2). change (BoardID h1) with (bh_name h1). rewrite E2. rewrite run_pbind.
      destruct (R fuel ltac:(lia) w2 S2 SF2) as (w3 & E3 & S3 & SF3). rewrite E3. cbn [run]. exists w3. now split.
Qed.
