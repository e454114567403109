(** * Property theorems: C77 (comments in Big5) *)
From Coq Require Import Lia ZifyBool ZifyNat ZifyN.
From Verif Require Import M_Base M_Sys M_Path M_Utf8 M_Comment M_Scan M_Time M_Big5.
From Verif Require Import S_World S_Path S_Utf8 S_Ansi S_Time S_Login S_Comment S_Store S_Scan S_Json S_Big5 S_Big5Comment S_ExWorld.
From Verif Require Import P_Base P_Utf8 P_Json P_Scan T_Ansi T_Comment T_Scan T_Big5 T_Big5Use.
Open Scope N_scope.

(** ** Bytes of a text in Big5 *)
Lemma in_big5_app tb a b s : in_big5 tb (a ++ b) s -> exists x y, s = x ++ y /\ in_big5 tb a x /\ in_big5 tb b y.
Proof.
  intros (ss & F & ->). apply Forall2_app_inv_l in F as (l1 & l2 & F1 & F2 & ->). exists (concat l1), (concat l2). split; [apply concat_app|]. split; [now exists l1|now exists l2].
Qed.
Lemma in_big5_cons tb c t s : in_big5 tb (c :: t) s -> exists x y, s = x ++ y /\ S_Big5.code tb c x /\ in_big5 tb t y.
Proof. intros (ss & F & ->). inversion F as [|? x ? ss' C F']; subst. exists x, (concat ss'). split; [reflexivity|]. split; [exact C|now exists ss']. Qed.
Lemma in_big5_nil tb s : in_big5 tb [] s -> s = [].
Proof. intros (ss & F & ->). now inversion F. Qed.
Lemma code_pair tb c l r : 128 <= c -> S_Big5.code tb c [l; r] -> 0x81 <= b2n l <= 0xFE /\ (0x40 <= b2n r <= 0x7E \/ 0xA1 <= b2n r <= 0xFE).
Proof. intros Q [[C _]|(_ & l' & r' & E & (p & P & _) & _)]; [lia|]. injection E as <- <-. unfold pointer in P. lia. Qed.
Lemma code_cases tb c x : S_Big5.code tb c x -> (c < 128 /\ x = [n2b c]) \/ (128 <= c /\ exists l r, x = [l; r] /\ 0x81 <= b2n l <= 0xFE /\ (0x40 <= b2n r <= 0x7E \/ 0xA1 <= b2n r <= 0xFE)).
Proof. intros C. pose proof C as [[A ->]|(A & l & r & -> & _)]; [now left|right]. split; [exact A|]. exists l, r. split; [reflexivity|]. exact (code_pair tb c l r A C). Qed.
Lemma in_big5_ascii tb t : Forall (fun c => c < 128) t -> forall s, in_big5 tb t s -> s = map n2b t.
Proof.
  induction 1 as [|c t C F IH]; intros s I; [now apply in_big5_nil in I|]. apply in_big5_cons in I as (x & y & -> & Q & I). cbn [map]. rewrite (IH y I).
  apply code_cases in Q as [[_ ->]|[Q _]]; [reflexivity|lia].
Qed.
Lemma in_big5_low tb t s b : in_big5 tb t s -> b2n b < 0x40 -> In b s -> In (b2n b) t.
Proof.
  revert s. induction t as [|c t IH]; intros s I L B; [apply in_big5_nil in I; subst; contradiction|]. apply in_big5_cons in I as (x & y & -> & Q & I).
  apply in_app_or in B as [B|B]; [left|right; now apply (IH y)]. apply code_cases in Q as [[Q ->]|(Q & l & r & -> & H)].
  - destruct B as [B|[]]. subst b. rewrite b2n_small; lia.
  - destruct B as [B|[B|[]]]; subst b; lia.
Qed.
Lemma chars_back o : map n2b (chars o) = o.
Proof. unfold chars. rewrite map_map. rewrite <- (map_id o) at 2. apply map_ext. intros b. apply n2b_b2n. Qed.
Lemma in_big5_chars tb o s : Forall (fun b => b2n b < 128) o -> in_big5 tb (chars o) s -> s = o.
Proof. intros A I. apply in_big5_ascii in I; [now rewrite chars_back in I|]. unfold chars. apply Forall_map. exact A. Qed.

(** ** Trimming *)
Lemma white_first w : white w -> exists a v, w = a :: v /\ (v = [] /\ (9 <= b2n a <= 13 \/ b2n a = 32) \/ exists b u, v = b :: u /\ 128 <= b2n a /\ 0x80 <= b2n b <= 0xA0).
Proof.
  intros [n H|n H| |n H|n H| |]; cbn [map].
  - exists (n2b n), []. split; [reflexivity|]. left. split; [reflexivity|]. rewrite b2n_small; lia.
  - eexists _, _. split; [reflexivity|]. right. eexists _, _. split; [reflexivity|]. rewrite !b2n_small; lia.
  - eexists _, _. split; [reflexivity|]. right. eexists _, _. split; [reflexivity|]. rewrite !b2n_small; lia.
  - eexists _, _. split; [reflexivity|]. right. eexists _, _. split; [reflexivity|]. rewrite !b2n_small; lia.
  - eexists _, _. split; [reflexivity|]. right. eexists _, _. split; [reflexivity|]. rewrite !b2n_small; lia.
  - eexists _, _. split; [reflexivity|]. right. eexists _, _. split; [reflexivity|]. rewrite !b2n_small; lia.
  - eexists _, _. split; [reflexivity|]. right. eexists _, _. split; [reflexivity|]. rewrite !b2n_small; lia.
Qed.
Lemma white_last w : white w -> exists v a, w = v ++ [a] /\ (v = [] /\ (9 <= b2n a <= 13 \/ b2n a = 32) \/ exists u b, v = u ++ [b] /\ 128 <= b2n a /\ (b2n a <= 0xA0 \/ b2n b = 0x80)).
Proof.
  intros [n H|n H| |n H|n H| |]; cbn [map].
  - exists [], (n2b n). split; [reflexivity|]. left. split; [reflexivity|]. rewrite b2n_small; lia.
  - exists [n2b 0xC2], (n2b n). split; [reflexivity|]. right. exists [], (n2b 0xC2). split; [reflexivity|]. rewrite !b2n_small; lia.
  - exists [n2b 0xE1; n2b 0x9A], (n2b 0x80). split; [reflexivity|]. right. exists [n2b 0xE1], (n2b 0x9A). split; [reflexivity|]. rewrite !b2n_small; lia.
  - exists [n2b 0xE2; n2b 0x80], (n2b n). split; [reflexivity|]. right. exists [n2b 0xE2], (n2b 0x80). split; [reflexivity|]. rewrite !b2n_small; lia.
  - exists [n2b 0xE2; n2b 0x80], (n2b n). split; [reflexivity|]. right. exists [n2b 0xE2], (n2b 0x80). split; [reflexivity|]. rewrite !b2n_small; lia.
  - exists [n2b 0xE2; n2b 0x81], (n2b 0x9F). split; [reflexivity|]. right. exists [n2b 0xE2], (n2b 0x81). split; [reflexivity|]. rewrite !b2n_small; lia.
  - exists [n2b 0xE3; n2b 0x80], (n2b 0x80). split; [reflexivity|]. right. exists [n2b 0xE3], (n2b 0x80). split; [reflexivity|]. rewrite !b2n_small; lia.
Qed.
Lemma blanks_white l : Forall ascii_blank l -> exists ws, map n2b l = concat ws /\ Forall white ws.
Proof.
  induction 1 as [|c l C F (ws & E & W)]; [exists []; now split|]. exists ([n2b c] :: ws). split; [cbn [map concat app]; now rewrite E|]. constructor; [now constructor|exact W].
Qed.
Lemma blank_ascii l : Forall ascii_blank l -> Forall (fun c => c < 128) l.
Proof. apply Forall_impl. unfold ascii_blank. lia. Qed.
Lemma trimmed_big5 tb txt tt s : in_big5 tb txt s -> without_blanks txt tt -> exists x, in_big5 tb tt x /\ trimmed s x.
Proof.
  intros I (l & r & -> & L & R & Hl & Hr). apply in_big5_app in I as (sl & s2 & -> & Il & I). apply in_big5_app in I as (x & sr & -> & Ix & Ir). exists x. split; [exact Ix|].
  apply (in_big5_ascii tb _ (blank_ascii l L)) in Il as ->. apply (in_big5_ascii tb _ (blank_ascii r R)) in Ir as ->.
  destruct (blanks_white l L) as (wl & -> & Wl). destruct (blanks_white r R) as (wr & -> & Wr). exists wl, wr. split; [reflexivity|]. split; [exact Wl|]. split; [exact Wr|]. split.
  - intros w u W E. destruct (white_first w W) as (a & v & -> & K). destruct tt as [|c tt]; [apply in_big5_nil in Ix; subst x; discriminate E|].
    apply in_big5_cons in Ix as (y & z & -> & C & _). apply code_cases in C as [[C ->]|(C & p & q & -> & P1 & P2)]; cbn [app] in E.
    + injection E as E _. destruct K as [[_ K]|(b & u' & _ & K & _)]; subst a; rewrite b2n_small in K by lia; [|lia]. apply (Hl c tt eq_refl). unfold ascii_blank. lia.
    + destruct K as [[-> K]|(b & u' & -> & K1 & K2)]; cbn [app] in E; [injection E as <- _; lia|injection E as <- <- _; lia].
  - intros w u W E. destruct (white_last w W) as (v & a & -> & K). destruct (app_last_case tt) as [->|(tt' & c & ->)]; [apply in_big5_nil in Ix; subst x; symmetry in E; apply app_eq_nil in E as [_ E]; apply app_eq_nil in E as [_ E]; discriminate E|].
    apply in_big5_app in Ix as (y & z & -> & _ & Iz). apply in_big5_cons in Iz as (z1 & z2 & -> & C & Iz). apply in_big5_nil in Iz as ->. rewrite app_nil_r in E.
    apply code_cases in C as [[C ->]|(C & p & q & -> & P1 & P2)].
    + rewrite app_assoc in E. apply app_inj_tail in E as [_ <-]. destruct K as [[_ K]|(u' & b & _ & K & _)]; rewrite b2n_small in K by lia; [|lia]. apply (Hr c tt' eq_refl). unfold ascii_blank. lia.
    + change [p; q] with ([p] ++ [q]) in E. rewrite !app_assoc in E. apply app_inj_tail in E as [E <-]. destruct K as [[-> K]|(u' & b & -> & K1 & K2)]; [lia|].
      rewrite app_assoc in E. apply app_inj_tail in E as [_ <-]. lia.
Qed.

Lemma mark_big5 tb mk s : mark_text mk -> in_big5 tb mk s -> mark s.
Proof.
  intros [Nc Last] I. split; [intros H; apply Nc; exact (in_big5_low tb mk s ":"%byte I ltac:(vm_compute; reflexivity) H)|]. intros a b E.
  destruct (app_last_case mk) as [->|(m & c & ->)]; [apply in_big5_nil in I; subst s; destruct a; discriminate E|].
  apply in_big5_app in I as (y & z & -> & _ & Iz). apply in_big5_cons in Iz as (z1 & z2 & -> & C & Iz). apply in_big5_nil in Iz as ->. rewrite app_nil_r in E.
  destruct (Last m c eq_refl) as (C1 & C2 & C3). apply code_cases in C as [[_ ->]|[C _]]; [|lia]. apply app_inj_tail in E as [_ <-]. tauto.
Qed.
Lemma author_ascii o : author o -> Forall (fun b => b2n b < 128) o.
Proof. intros (l & r & -> & L & _ & F). constructor; [unfold letter in L; lia|]. eapply Forall_impl; [|exact F]. unfold letter, decimal. lia. Qed.
Lemma stamp_ascii st : stamp st -> Forall (fun b => b2n b < 128) st.
Proof.
  intros (a & b & c & d & sp & e & f & g & h & -> & F & B).
  assert (Q : forall x, In x [a; b; c; d; e; f; g; h] -> b2n x < 128) by (intros x I; rewrite Forall_forall in F; apply F in I; unfold decimal in I; lia).
  assert (P : b2n sp < 128) by (cbn in B; repeat destruct B as [B|B]; try contradiction; subst sp; vm_compute; reflexivity).
  repeat constructor; try exact P; try (apply Q; cbn; tauto); vm_compute; reflexivity.
Qed.

(** A comment whose letters are coloured, even inside a character, is found with its author,
    its time and its text. *)
Theorem C77_comment_read : forall tb line o t tt, good_tables tb -> comment_in_big5 tb line o t tt ->
  exists x, comment_line line o t x /\ in_utf8 tt (Big5ToUtf8 tb x).
Proof.
  intros tb line o t tt G (l & last & mk & txt & st & post & -> & F & P & I & Mk & A & Nc & Nn & Wb & St & T & Ns).
  apply in_big5_app in I as (s1 & s2 & E & I1 & I). apply in_big5_app in I as (s3 & s4 & -> & I2 & I). apply in_big5_cons in I as (s5 & s6 & -> & C & I).
  apply in_big5_app in I as (s7 & s8 & -> & I3 & I). apply in_big5_app in I as (s9 & s10 & -> & I4 & I5).
  apply code_cases in C as [[_ ->]|[C _]]; [|lia]. apply in_big5_chars in I2 as ->; [|now apply author_ascii]. apply in_big5_chars in I4 as ->; [|now apply stamp_ascii].
  destruct (trimmed_big5 tb txt tt s7 I3 Wb) as (x & Ix & Tr). exists x. split.
  - apply comment_line_spec. rewrite (C28_colours_removed l last F P), E. change ([n2b 58] ++ s7 ++ st ++ s10) with (":"%byte :: s7 ++ st ++ s10).
    apply C29_line_parsed_partial; [now apply (mark_big5 tb mk)|exact A| | |exact St| |exact T|exact Tr]; intros H.
    + apply Nc. exact (in_big5_low tb txt s7 ":"%byte I3 ltac:(vm_compute; reflexivity) H).
    + apply Nn. exact (in_big5_low tb txt s7 x0a I3 ltac:(vm_compute; reflexivity) H).
    + apply Ns. exact (in_big5_low tb post s10 "/"%byte I5 ltac:(vm_compute; reflexivity) H).
  - exact (proj2 (C74_decoded tb x G) tt (in_big5_reads tb tt x G Ix)).
Qed.
Print Assumptions C77_comment_read.

(** ** In an article *)
Lemma selected_in {A} (P : A -> Prop) ls kept l : selected P ls kept -> In l ls -> P l -> In l kept.
Proof.
  induction 1 as [|x ls kept Y H IH|x ls kept N H IH]; intros I Q; [contradiction| |].
  - destruct I as [->|I]; [now left|right; now apply IH].
  - destruct I as [->|I]; [contradiction|now apply IH].
Qed.
Lemma Forall2_in_l {A B} (R : A -> B -> Prop) l1 l2 x : Forall2 R l1 l2 -> In x l1 -> exists y, In y l2 /\ R x y.
Proof. induction 1 as [|a b l1 l2 H F IH]; intros I; [contradiction|]. destruct I as [->|I]; [exists b; split; [now left|exact H]|]. destruct (IH I) as (y & Y & Q). exists y. split; [now right|exact Q]. Qed.
Theorem C77_article : forall tb w wd b f d raw ls cs line o t tt, good_tables tb ->
  sane w -> content_of w wd (Article b f) (Some d) -> S_Login.text d raw -> Forall short_line raw -> Forall2 without_cr raw ls -> N.of_nat (length ls) < 2 ^ 32 ->
  snd (run (GetBoardArticleCommentRecords wd b f) w) = Ok cs -> In line ls -> comment_in_big5 tb line o t tt ->
  exists c, In c cs /\ uc_owner c = o /\ uc_time c = t /\ in_utf8 tt (Big5ToUtf8 tb (uc_text c)).
Proof.
  intros tb w wd b f d raw ls cs line o t tt G S C T F W Len R I Q. destruct (C30_comments_exact w wd b f d raw ls S C T F W Len) as (E & _ & _). apply E in R.
  destruct (C30_order b f ls cs R) as (kept & Sel & F2). destruct (C77_comment_read tb line o t tt G Q) as (x & L & U).
  pose proof (selected_in _ _ _ _ Sel I (ex_intro _ o (ex_intro _ t (ex_intro _ x L)))) as K. destruct (Forall2_in_l _ _ _ _ F2 K) as (c & Ic & Lc). exists c. split; [exact Ic|].
  apply comment_line_spec in L, Lc. rewrite L in Lc. injection Lc as <- <- <-. repeat split; exact U || apply U.
Qed.
Print Assumptions C77_article.

(** ** What is not true *)
(** "The author of a comment is what stands between the mark and the colon", for any mark
    without a colon that does not end in an ASCII letter or digit *)
Definition C77_author_statement : Prop := forall tb mk o txt tt st t line, good_tables tb ->
  in_big5 tb (mk ++ chars o ++ 58 :: txt ++ chars st) line -> plain line ->
  ~ In 58 mk -> (forall a c, mk = a ++ [c] -> ~ (48 <= c <= 57 \/ 65 <= c <= 90 \/ 97 <= c <= 122)) ->
  author o -> ~ In 58 txt -> ~ In 10 txt -> without_blanks txt tt -> stamp st -> spells_short st t ->
  exists x, comment_line line o t x /\ in_utf8 tt (Big5ToUtf8 tb x).
(** "A comment without ESC, bell and CSI character keeps its text" *)
Definition C77_text_statement : Prop := forall tb mk o txt tt st t line, good_tables tb ->
  in_big5 tb (mk ++ chars o ++ 58 :: txt ++ chars st) line -> ~ In 27 (mk ++ txt) -> ~ In 7 (mk ++ txt) -> ~ In 0x9B (mk ++ txt) ->
  mark_text mk -> author o -> ~ In 58 txt -> ~ In 10 txt -> without_blanks txt tt -> stamp st -> spells_short st t ->
  exists x, comment_line line o t x /\ in_utf8 tt (Big5ToUtf8 tb x).
Lemma sample_has l r c : In (l, r, c) sample_index -> S_Big5.code sample_tables c [l; r].
Proof.
  intros I. destruct (sample_ok l r c I) as (A & _ & P & _ & D & L & E). right. split; [exact A|]. exists l, r. split; [reflexivity|]. split; [|exact E].
  exists (number l r). split; [exact P|]. right. exists c. split; [|reflexivity]. split; [exact L|]. split; [exact D|lia].
Qed.
Lemma ascii_in_big5 tb s : Forall (fun b => b2n b < 128) s -> in_big5 tb (chars s) s.
Proof.
  intros F. exists (map (fun b => [b]) s). split; [|clear F; induction s as [|b s IH]; [reflexivity|cbn [map concat app]; now rewrite <- IH]].
  induction F as [|b s B F IH]; constructor; [|exact IH]. left. split; [exact B|]. now rewrite n2b_b2n.
Qed.
Lemma big5_app tb a b x y : in_big5 tb a x -> in_big5 tb b y -> in_big5 tb (a ++ b) (x ++ y).
Proof. intros (s1 & F1 & ->) (s2 & F2 & ->). exists (s1 ++ s2). split; [now apply Forall2_app|symmetry; apply concat_app]. Qed.
Lemma big5_one tb c x : S_Big5.code tb c x -> in_big5 tb [c] x.
Proof. intros C. exists [x]. split; [constructor; [exact C|constructor]|]. cbn. now rewrite app_nil_r. Qed.
Ltac ascii := repeat (constructor; [vm_compute; reflexivity|]); constructor.
Ltac absent := let H := fresh in intros H; vm_compute in H; repeat (destruct H as [H|H]; [discriminate H|]); exact H.
Definition said (mark txt : bytes) : bytes := mark ++ str "pichu: " ++ txt ++ str " 05/15 01:06".
Theorem C77_author_refuted : ~ C77_author_statement.
Proof.
  intros H. destruct (H sample_tables [0x65B0] (str "pichu") (chars (str " hi ")) (chars (str "hi")) the_stamp the_time (said [xb7; x73] (str "hi")) sample_good) as (x & L & _).
  - apply big5_app with (x := [xb7; x73]) (y := str "pichu: hi 05/15 01:06"); [apply big5_one, sample_has; now left|]. apply (ascii_in_big5 sample_tables (str "pichu: hi 05/15 01:06")). ascii.
  - split; [absent|]. split; [absent|]. intros a b E. assert (I : In xc2 (said [xb7; x73] (str "hi"))) by (rewrite E; apply in_or_app; right; now left). revert I. absent.
  - absent.
  - intros a c E. destruct a as [|? [|]]; try discriminate E. injection E as <-. vm_compute. intuition discriminate.
  - exact pichu_author.
  - absent.
  - absent.
  - exists [32], [32]. split; [reflexivity|]. split; [constructor; [now right|constructor]|]. split; [constructor; [now right|constructor]|]. split.
    + intros c u E. injection E as <- _. vm_compute. intuition discriminate.
    + intros c u E. change (chars (str "hi")) with ([104] ++ [105]) in E. apply app_inj_tail in E as [_ <-]. vm_compute. intuition discriminate.
  - apply the_stamp_ok.
  - apply the_stamp_ok.
  - apply comment_line_spec in L. vm_compute in L. discriminate L.
Qed.
Print Assumptions C77_author_refuted.
Theorem C77_text_refuted : ~ C77_text_statement.
Proof.
  intros H. destruct (H sample_tables [] (str "pichu") (32 :: [0x5208; 0x8000] ++ [32]) [0x5208; 0x8000] the_stamp the_time (said [] [xa4; xc2; x9b; x41]) sample_good) as (x & L & U).
  - apply (big5_app sample_tables (chars (str "pichu: ")) ([0x5208] ++ [0x8000] ++ chars (str " 05/15 01:06")) (str "pichu: ")); [apply ascii_in_big5; ascii|].
    apply (big5_app sample_tables [0x5208] _ [xa4; xc2]); [apply big5_one, sample_has; cbn; tauto|]. apply (big5_app sample_tables [0x8000] _ [x9b; x41]); [apply big5_one, sample_has; cbn; tauto|].
    apply ascii_in_big5. ascii.
  - absent.
  - absent.
  - absent.
  - split; [absent|]. intros a c E. destruct a; discriminate E.
  - exact pichu_author.
  - absent.
  - absent.
  - exists [32], [32]. split; [reflexivity|]. split; [constructor; [now right|constructor]|]. split; [constructor; [now right|constructor]|]. split.
    + intros c u E. injection E as <- _. vm_compute. intuition discriminate.
    + intros c u E. change [0x5208; 0x8000] with ([0x5208] ++ [0x8000]) in E. apply app_inj_tail in E as [_ <-]. vm_compute. intuition discriminate.
  - apply the_stamp_ok.
  - apply the_stamp_ok.
  - apply comment_line_spec in L. assert (E : parseUserComment (FilterStringANSI (said [] [xa4; xc2; x9b; x41])) = Ok (str "pichu", the_time, [xa4])) by (vm_compute; reflexivity).
    rewrite E in L. assert (X : x = [xa4]) by congruence. subst x. destruct U as [_ U]. vm_compute in U. discriminate U.
Qed.
Print Assumptions C77_text_refuted.

(** ** Example: a line in three colours, one of them starting inside a character *)
Definition red : bytes := x1b :: str "[31m".
Definition bright : bytes := x1b :: str "[1;33m".
Definition coloured_line : bytes := coloured [([], bright); ([xaa; xba] ++ str " pichu", red); (str ": " ++ [xb7], bright); ([x73; xa5; xd8; x21] ++ str "  ", red)] (the_stamp ++ str " ok").
Example C77_nonvacuous :
  good_tables sample_tables /\ comment_in_big5 sample_tables coloured_line (str "pichu") the_time [0x65B0; 0x76EE; 33] /\
  Big5ToUtf8 sample_tables [xb7; x73; xa5; xd8; x21] = str "新目!" /\
  let d := str "hello" ++ nl ++ coloured_line ++ nl in
  snd (run (GetBoardArticleCommentRecords sample_wd (str "SYSOP") (str "M.1")) (scan_world true scan_boards d [])) = Ok [record_of 1 (str "pichu") [xb7; x73; xa5; xd8; x21] (str "M.1")].
Proof.
  split; [exact sample_good|]. split; [|split; vm_compute; reflexivity].
  assert (Pl : forall s, existsb (Byte.eqb x1b) s = false -> existsb (Byte.eqb x07) s = false -> existsb (Byte.eqb xc2) s = false -> plain s).
  { assert (K : forall b s, existsb (Byte.eqb b) s = false -> ~ In b s).
    { intros b s E I. assert (X : existsb (Byte.eqb b) s = true) by (apply existsb_exists; exists b; split; [exact I|destruct (Byte.eqb b b) eqn:Q; [reflexivity|apply Byte.eqb_false in Q; congruence]]). congruence. }
    intros s A B C. split; [now apply K|]. split; [now apply K|]. intros a b E. apply (K _ _ C). rewrite E. apply in_or_app. right. now left. }
  assert (Cr : colour red) by (exists (str "31"), []; split; [reflexivity|]; split; [split; [cbn; lia|repeat constructor; vm_compute; discriminate]|constructor]).
  assert (Cb : colour bright) by (exists (str "1"), [str "33"]; split; [reflexivity|]; split; [split; [cbn; lia|repeat constructor; vm_compute; discriminate]|constructor; [split; [cbn; lia|repeat constructor; vm_compute; discriminate]|constructor]]).
  exists [([], bright); ([xaa; xba] ++ str " pichu", red); (str ": " ++ [xb7], bright); ([x73; xa5; xd8; x21] ++ str "  ", red)], (the_stamp ++ str " ok"),
    ([0x7684] ++ [32]), ([32] ++ [0x65B0; 0x76EE; 33] ++ [32; 32]), the_stamp, (chars (str " ok")). split; [reflexivity|].
  split; [repeat (constructor; [split; [apply Pl; vm_compute; reflexivity|assumption]|]); constructor|]. split; [apply Pl; vm_compute; reflexivity|].
  split; [|split; [|split; [|split; [|split; [|split; [|split; [|split]]]]]]].
  - apply (big5_app sample_tables [0x7684] _ [xaa; xba]); [apply big5_one, sample_has; cbn; tauto|]. apply (big5_app sample_tables (chars (str " pichu: ")) _ (str " pichu: ")); [apply ascii_in_big5; ascii|].
    apply (big5_app sample_tables [0x65B0] _ [xb7; x73]); [apply big5_one, sample_has; cbn; tauto|]. apply (big5_app sample_tables [0x76EE] _ [xa5; xd8]); [apply big5_one, sample_has; cbn; tauto|].
    apply (ascii_in_big5 sample_tables (str "!  05/15 01:06 ok")). ascii.
  - split; [absent|]. intros a c E. apply app_inj_tail in E as [_ <-]. vm_compute. intuition discriminate.
  - exact pichu_author.
  - absent.
  - absent.
  - exists [32], [32; 32]. split; [reflexivity|]. split; [repeat (constructor; [now right|]); constructor|]. split; [repeat (constructor; [now right|]); constructor|]. split.
    + intros c u E. injection E as <- _. vm_compute. intuition discriminate.
    + intros c u E. change [0x65B0; 0x76EE; 33] with ([0x65B0; 0x76EE] ++ [33]) in E. apply app_inj_tail in E as [_ <-]. vm_compute. intuition discriminate.
  - apply the_stamp_ok.
  - apply the_stamp_ok.
  - absent.
Qed.
