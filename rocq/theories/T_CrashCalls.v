(** * Property theorems about crashes in sequences of calls: C58 *)
From Coq Require Import Lia ZifyBool ZifyNat ZifyN.
From Verif Require Import M_Base M_Sys M_Path M_File M_Board M_FileOps M_DB M_BbsTool.
From Verif Require Import S_World S_Path S_File S_Store S_Pool S_Create S_Tool S_BbsTool S_Post S_Crash S_ExWorld S_Example.
From Verif Require Import P_Base P_Sys P_Path P_Records P_Store P_BoardList P_Pool P_PoolList P_Create P_Crash P_BbsTool P_Post P_CrashCalls.
From Verif Require Import T_Records T_Store T_BoardList T_Create T_BbsTool T_Post.
Open Scope N_scope.

(** ** C58: any sequence of calls, interrupted anywhere *)
Theorem C58_crash_of_calls : forall cd wd fuel O cs s w w',
  ~ In x00 wd -> sane w -> stored w wd O s -> Forall call_ok cs -> Forall (fun c => O (call_object c)) cs ->
  crash (client cd wd fuel cs) w w' ->
  exists s', interrupted cd cs s s' /\ stored w' wd O s' /\ sane w' /\ elsewhere wd O w w'.
Proof.
  intros cd wd fuel O cs s w w' Nw S H K KO C.
  destruct (client_crash cd wd fuel O Nw cs [] s w w' S H K KO C) as (s' & I & ST & EL).
  exists s'. split; [exact I|]. split; [exact ST|]. split; [exact (crash_sane _ w w' S C)|exact EL].
Qed.
Print Assumptions C58_crash_of_calls.

(** The calls of a later session mean what they always mean. *)
Theorem C58_later_calls : forall cd wd fuel O cs s w w' later w2 rs,
  ~ In x00 wd -> sane w -> stored w wd O s -> Forall call_ok cs -> Forall (fun c => O (call_object c)) cs ->
  crash (client cd wd fuel cs) w w' ->
  Forall call_ok later -> Forall (fun c => O (call_object c)) later -> cexec cd wd later w' w2 rs ->
  exists s' s2, interrupted cd cs s s' /\ history_meets cd later s' s2 rs /\ stored w2 wd O s2.
Proof.
  intros cd wd fuel O cs s w w' later w2 rs Nw S H K KO C K2 KO2 X.
  destruct (C58_crash_of_calls cd wd fuel O cs s w w' Nw S H K KO C) as (s' & I & ST & S' & _).
  destruct (calls_refine cd wd O later s' w' w2 rs Nw S' ST K2 KO2 X) as (s2 & HM & ST2 & _). eauto.
Qed.
Print Assumptions C58_later_calls.

(** Any number of sessions, each stopped anywhere. *)
Theorem C58_sessions : forall cd wd fuel O css s w w',
  ~ In x00 wd -> sane w -> stored w wd O s ->
  Forall (Forall call_ok) css -> Forall (Forall (fun c => O (call_object c))) css ->
  sessions cd wd fuel css w w' ->
  exists s', interrupted_all cd css s s' /\ stored w' wd O s' /\ sane w' /\ elsewhere wd O w w'.
Proof.
  intros cd wd fuel O css s w w' Nw S H K KO X. revert s S H K KO.
  induction X as [w|cs css w w1 w2 C X IH]; intros s S H K KO.
  - exists s. split; [now constructor|]. split; [exact H|]. split; [exact S|apply elsewhere_refl].
  - inversion K as [|? ? K1 K2]. inversion KO as [|? ? O1 O2]. subst.
    destruct (C58_crash_of_calls cd wd fuel O cs s w w1 Nw S H K1 O1 C) as (s1 & I & ST & S1 & E1).
    destruct (IH s1 S1 ST K2 O2) as (s2 & I2 & ST2 & S2 & E2).
    exists s2. split; [now apply int_cons with (s1 := s1)|]. split; [exact ST2|]. split; [exact S2|]. exact (elsewhere_trans _ _ _ _ _ E1 E2).
Qed.
Print Assumptions C58_sessions.

(** ** Posting *)
Lemma filename_crash wd b : ident b -> ~ In x00 wd -> forall fuel w w', sane w -> crash (CreateBoardArticleFilename fuel wd b) w w' ->
  w_cwd w' = w_cwd w /\
  ((forall q, look w' q = look w q) \/
   exists n, fresh_name n /\ look w (board_entry w wd b n) = None /\ look w' (board_entry w wd b n) = Some (EFile []) /\
     forall q, q <> board_entry w wd b n -> look w' q = look w q).
Proof.
  intros Ib Nw. induction fuel as [|fuel IH]; intros w w' S C; cbn [CreateBoardArticleFilename crash] in C.
  { destruct C as [->|[]]. auto. }
  destruct C as [->|[[]|C]]; [auto|]. cbn [exec] in C.
  destruct C as [->|[[]|C]]; [auto|].
  set (w1 := bump_rtick (bump_tick w)). assert (S1 : sane w1) by now apply sane_rtick, sane_tick.
  destruct (candidate_path wd b Ib Nw w 0) as [p Ep].
  unfold candidate in Ep. rewrite !Nat.add_0_r in Ep.
  change (str "M." ++ fmt_d (w_clock w (w_tick w)) ++ str ".A." ++ fmt_3X (w_rand w (w_rtick w) mod 4096))
    with (article_name (w_clock w (w_tick w)) (w_rand w (w_rtick w) mod 4096)) in Ep.
  change (w_rand (bump_tick w) (w_rtick (bump_tick w))) with (w_rand w (w_rtick w)) in C.
  set (n := article_name (w_clock w (w_tick w)) (w_rand w (w_rtick w) mod 4096)) in *.
  rewrite Ep in C. fold w1 in C.
  cbn [crash] in C. destruct C as [->|[[]|C]]; [auto|].
  assert (Nm : names w1 p (board_entry w1 wd b n)) by exact (article_names wd w1 b _ _ p Ib Nw Ep).
  destruct (look w1 (board_entry w1 wd b n)) as [e|] eqn:L.
  { destruct (open_taken wd w1 b _ _ p Ib Nw Ep) as [er Er]; [fold n; congruence|]. rewrite Er in C. exact (IH w1 w' S1 C). }
  destruct (look w1 (board_dir w1 wd b)) as [[|x]|] eqn:D.
  2-3: destruct (open_no_dir wd w1 b _ _ p Ib Nw S1 Ep) as [er Er]; [congruence|]; rewrite Er in C; exact (IH w1 w' S1 C).
  assert (HD : has_dir w1 (board_entry w1 wd b n)) by (unfold has_dir; now rewrite board_entry_parent).
  destruct (created_world w1 p O_WRONLY_CREATE_EXCL _ S1 Nm L eq_refl HD) as (E & S2 & L2 & F2 & _).
  rewrite E in C. set (w2 := bump_fd _) in *.
  assert (X : w_cwd w' = w_cwd w /\ forall q, look w' q = look w2 q).
  { cbn [crash] in C. destruct C as [->|[[]|C]]; [auto|]. cbn [exec] in C. destruct C as [->|[]]. auto. }
  destruct X as [X1 X2]. split; [exact X1|]. right. exists n. split; [apply article_name_fresh, N.mod_upper_bound; discriminate|].
  split; [exact L|]. split; [rewrite X2; exact L2|]. intros q Hq. rewrite X2. now apply F2.
Qed.
Lemma crash_answer_intro {A} (k : A -> answer) (p : prog (outcome A)) w w' : crash p w w' -> crash (answer_with k p) w w'.
Proof. apply crash_bind_first. Qed.
Lemma board_object_at wd w b o n : ident b -> ~ In x00 wd -> plain_object o ->
  home_dir (w_cwd w) wd ++ object_comps o = board_entry w wd b n -> exists p, object_path wd o = Ok p /\ names w p (board_entry w wd b n).
Proof.
  intros Ib Nw Pl E. destruct (object_resolves (w_cwd w) wd o Pl Nw) as (p & Ep & Pp & Rp). exists p. split; [exact Ep|]. split; [exact Pp|].
  rewrite Rp. exact E.
Qed.
Lemma entry_dir w wd b n e : sane w -> look w (board_entry w wd b n) = Some e -> look w (board_dir w wd b) = Some EDir.
Proof.
  intros S L. unfold board_entry in L.
  destruct (sane_tree _ S (board_dir w wd b) n) as [X|X].
  - unfold look in L. destruct (board_dir w wd b ++ [n]) eqn:Q; [now apply app_eq_nil in Q|]. intros Z. rewrite Z in L. discriminate L.
  - unfold board_dir in X. now apply app_eq_nil in X.
  - unfold look. rewrite X. now destruct (board_dir w wd b).
Qed.
Lemma fresh_not_index w wd b n : fresh_name n -> index_entry w wd b <> board_entry w wd b n.
Proof.
  intros (t & r & ts & rs & _ & _ & _ & ->) Q. unfold index_entry, board_entry in Q. apply app_inv_head in Q. discriminate Q.
Qed.

Lemma listed_encoded cd m n v : file_encoded cd (ccmd_record (NewEmpty (m_board m) (m_owner m) (m_date m) (m_title m)) n) v -> file_encoded cd (listed m n) v.
Proof.
  intros V. rewrite (file_encoded_unique _ _ _ _ V (file_encode cd _)).
  replace (MarshalToByte cd _) with (MarshalToByte cd (listed m n)); [apply file_encode|]. unfold MarshalToByte. f_equal.
Qed.
Theorem C58_crash_of_post : forall cd fuel wd w m w',
  sane w -> ~ In x00 wd -> ident (m_board m) -> index_fine w wd (m_board m) ->
  crash (post_message cd fuel wd m) w w' ->
  sane w' /\ w_cwd w' = w_cwd w /\ half_posted cd wd w w' m.
Proof.
  intros cd fuel wd w m w' S Nw I Ix C. split; [exact (crash_sane _ w w' S C)|].
  unfold post_message, post, db_call in C. unfold try at 1 in C.
  apply crash_bind in C. destruct C as [C|C].
  { unfold CreateArticleRecord, pbind in C. apply crash_bind in C.
    assert (C' : crash (CreateBoardArticleFilename fuel wd (m_board m)) w w' \/ w' = fst (run (CreateBoardArticleFilename fuel wd (m_board m)) w)).
    { destruct C as [C|C]; [now left|right]. destruct (snd (run _ w)); cbn [crash] in C; destruct C as [C|[]]; exact C. }
    assert (C2 : crash (CreateBoardArticleFilename fuel wd (m_board m)) w w').
    { destruct C' as [C'|C']; [exact C'|]. rewrite C'. generalize (CreateBoardArticleFilename fuel wd (m_board m)). clear.
      intros p. revert w. induction p as [a|R c k IH]; intros w; [now left|]. right. right. cbn [run]. destruct (exec c w). apply IH. }
    destruct (filename_crash wd (m_board m) I Nw fuel w w' S C2) as [E [Q|(n & F & L & L' & O)]].
    - split; [exact E|]. now left.
    - split; [exact E|]. right. exists n. cbv zeta. split; [exact F|]. split; [exact L|]. split; [intros q H1 H2; now apply O|].
      left. split; [exact L'|]. apply O. now apply fresh_not_index. }
  destruct (run (CreateArticleRecord fuel wd (m_board m) (m_owner m) (m_date m) (m_title m)) w) as [w1 o] eqn:Rc. cbn [fst snd] in C.
  pose proof (C08_created_article_is_new fuel wd w (NewEmpty (m_board m) (m_owner m) (m_date m) (m_title m)) w1 o S Nw I Rc) as Cr.
  assert (S1 : sane w1). { pose proof (run_sane (CreateArticleRecord fuel wd (m_board m) (m_owner m) (m_date m) (m_title m)) w S) as X. now rewrite Rc in X. }
  assert (E1 : w_cwd w1 = w_cwd w).
  { destruct (filename_crash wd (m_board m) I Nw fuel w w1 S) as [E _]; [|exact E].
    revert Rc. unfold CreateArticleRecord, pbind. rewrite run_bind. generalize (CreateBoardArticleFilename fuel wd (m_board m)). clear.
    intros p. revert w. induction p as [a|R c k IH]; intros w Rc.
    - destruct a; cbn [run] in Rc; injection Rc as <- _; now left.
    - right. right. cbn [run] in Rc. destruct (exec c w) as [w2 r]. exact (IH r w2 Rc). }
  destruct o as [f|e| |].
  2-4: cbn [crash] in C; destruct C as [->|[]]; split; [exact E1|]; left; exact Cr.
  cbv zeta in Cr. cbn [ccmd_board ccmd_text] in Cr. destruct Cr as (Ef & Fr & L0 & L1 & O1).
  set (n := fh_filename f) in *. cbn [ccmd_record] in Ef.
  assert (Enc : forall v, file_encoded cd f v -> file_encoded cd (listed m n) v) by (intros v; rewrite Ef; apply listed_encoded).
  set (art := board_entry w wd (m_board m) n) in *. set (idx := index_entry w wd (m_board m)) in *.
  assert (Nai : idx <> art) by now apply fresh_not_index.
  assert (Hart : board_entry w1 wd (m_board m) n = art) by (unfold art, board_entry, board_dir; now rewrite E1).
  assert (Hidx : index_entry w1 wd (m_board m) = idx) by (unfold idx, index_entry, board_entry, board_dir; now rewrite E1).
  assert (HD1 : look w1 (board_dir w1 wd (m_board m)) = Some EDir) by (apply (entry_dir w1 wd (m_board m) n (EFile [])); [exact S1|now rewrite Hart]).
  assert (Li : exists old, look w1 idx = option_map EFile old /\ text_at w idx = old_or_empty old /\ look w1 idx = look w idx).
  { pose proof (O1 idx Nai) as X. unfold text_at. rewrite X. unfold index_fine in Ix. fold idx in Ix.
    destruct (look w idx) as [[|d]|]; [contradiction|now exists (Some d)|now exists None]. }
  destruct Li as (old & Li & Lt & Lx).
  assert (Pi : plain_object (Index (m_board m))) by exact I.
  assert (Pa : plain_object (Article (m_board m) n)) by now apply fresh_name_plain.
  destruct (board_object_at wd w1 (m_board m) (Index (m_board m)) (str ".DIR") I Nw Pi) as (pi & Epi & Npi).
  { exact (iplace_entry wd w1 (m_board m) I). }
  destruct (board_object_at wd w1 (m_board m) (Article (m_board m) n) n I Nw Pa) as (pa & Epa & Npa).
  { symmetry. exact (board_entry_place w1 wd (m_board m) n [] I). }
  change (board_entry w1 wd (m_board m) (str ".DIR")) with (index_entry w1 wd (m_board m)) in Npi. rewrite Hidx in Npi. rewrite Hart in Npa.
  assert (HDi : has_dir w1 idx). { rewrite <- Hidx. unfold has_dir, index_entry. now rewrite board_entry_parent. }
  unfold try at 1 in C. apply crash_bind in C. destruct C as [C|C].
  { destruct (call_crash cd wd (AddRecord (m_board m) f) w1 w' pi idx old 0) with (7 := crash_answer_intro (fun _ => Done) _ _ _ C) as ((E2 & O2) & now & L2 & T);
      auto; [split; [exact Pi|exact Logic.I]|].
    split; [congruence|]. right. exists n. cbv zeta. fold art idx. split; [exact Fr|]. split; [exact L0|].
    split; [intros q H1 H2; rewrite O2, O1; auto|].
    destruct T as [->|(v & k & V & ->)].
    - left. split; [rewrite O2; auto|]. rewrite L2, <- Li. exact Lx.
    - right. exists v, k. split; [exact (Enc v V)|]. left. split; [rewrite O2; auto|]. rewrite L2, Lt. reflexivity. }
  destruct (call_step cd wd (AddRecord (m_board m) f) w1 pi idx old S1) as (w2 & r & new & (_ & n0 & R2) & S2 & (E2 & O2) & L2 & M); auto.
  { split; [exact Pi|exact Logic.I]. }
  cbn [call_prog] in R2. rewrite run_answer in R2. cbn [call_meets] in M. destruct M as (v & V & -> & ->).
  destruct (run (AddArticleRecordFileRecord cd wd (m_board m) f) w1) as [w2' [[]|e| |]]; cbn [fst snd] in R2; [|discriminate R2..].
  injection R2 as ->. cbn [fst snd] in C.
  assert (La : look w2 art = option_map EFile (Some [])) by (rewrite O2; auto).
  unfold try in C. apply crash_bind in C. 
  assert (C' : crash (DB_WriteBoardArticleFile wd (m_board m) n (M_Cstr.utf8ToBig5UAOString cd (m_text m))) w2 w').
  { destruct C as [C|C]; [exact C|].
    assert (X : w' = fst (run (DB_WriteBoardArticleFile wd (m_board m) n (M_Cstr.utf8ToBig5UAOString cd (m_text m))) w2)).
    { destruct (snd (run _ w2)); cbn [crash] in C; destruct C as [C|[]]; exact C. }
    rewrite X. generalize (DB_WriteBoardArticleFile wd (m_board m) n (M_Cstr.utf8ToBig5UAOString cd (m_text m))). clear.
    intros p. revert w2. induction p as [a|R c k IH]; intros w; [now left|]. right. right. cbn [run]. destruct (exec c w). apply IH. }
  clear C. assert (HDa : has_dir w2 art).
  { unfold has_dir. rewrite O2; [unfold art; rewrite board_entry_parent; rewrite <- HD1; f_equal; unfold board_dir; now rewrite E1|].
    unfold art, idx, index_entry, board_entry, board_dir. rewrite removelast_last. intros Q. apply (f_equal (@length bytes)) in Q. rewrite !app_length in Q. cbn in Q. lia. }
  destruct (call_crash cd wd (WriteArticle (m_board m) n (enc cd (m_text m))) w2 w' pa art (Some []) 0) with (7 := crash_answer_intro (fun _ => Done) _ _ _ C') as ((E3 & O3) & now & L3 & T);
      auto; [split; [exact Pa|exact Logic.I]| |].
  { destruct Npa as [A B]. split; [exact A|]. now rewrite E2. }
  split; [congruence|]. right. exists n. cbv zeta. fold art idx. split; [exact Fr|]. split; [exact L0|].
  split; [intros q H1 H2; rewrite O3, O2, O1; auto|]. right.
  destruct T as [->|(k & d' & (rest & -> & [[-> _]|(a & Ea & La')]) & ->)].
  - exists v, 0%nat. split; [exact (Enc v V)|]. right. split; [exact L3|]. rewrite O3, L2, Lt by auto. reflexivity.
  - exists v, k. split; [exact (Enc v V)|]. right. rewrite app_nil_r in L3. split; [exact L3|]. rewrite O3, L2, Lt by auto. reflexivity.
  - exists v, k. split; [exact (Enc v V)|]. right. injection Ea as Ea. symmetry in Ea. apply app_eq_nil in Ea as [-> ->].
    rewrite app_nil_r in L3. split; [exact L3|]. rewrite O3, L2, Lt by auto. reflexivity.
Qed.
Print Assumptions C58_crash_of_post.

(** ** Calls are not all or nothing *)
Definition C58_all_or_nothing_statement : Prop :=
  forall cd wd fuel O cs s w w',
  ~ In x00 wd -> sane w -> stored w wd O s -> Forall call_ok cs -> Forall (fun c => O (call_object c)) cs ->
  crash (client cd wd fuel cs) w w' ->
  exists done rest s1 rs, cs = done ++ rest /\ history_meets cd done s s1 rs /\ stored w' wd O s1.
Definition draft_calls : list call := [WriteDraft (str "pichu") (str "0") (str "new")].
Definition draft_crash : world := crash_at 1 0 (client id_codec sample_wd 0 draft_calls) sample_world.
Theorem C58_all_or_nothing_refuted : ~ C58_all_or_nothing_statement.
Proof.
  intros H. pose (o := Draft (str "pichu") (str "0")).
  assert (Po : plain_object o) by (split; [exact pichu_ident|split; no_nul]).
  destruct (H id_codec sample_wd 0%nat sample_objects draft_calls sample_store sample_world draft_crash) as (dn & rest & s1 & rs & E & M & ST).
  - exact sample_wd_ok.
  - exact sample_sane.
  - exact sample_stored.
  - constructor; [|constructor]. split; [exact Po|exact Logic.I].
  - constructor; [|constructor]. unfold sample_objects. cbn. tauto.
  - apply crash_at_crash.
  - assert (Oo : sample_objects o) by (unfold sample_objects; cbn; tauto).
    destruct (ST o Oo Po) as (p & q & Ep & [_ Nq] & _ & L).
    change (object_path sample_wd o) with (Ok (str "/bbs/home/p/pichu/buf.0")) in Ep. injection Ep as <-.
    assert (Q : look draft_crash q = Some (EFile [])) by (rewrite <- Nq; vm_compute; reflexivity).
    rewrite Q in L. destruct dn as [|c dn].
    + inversion M. subst. vm_compute in L. discriminate L.
    + destruct dn; [|discriminate E]. injection E as <- <-. inversion M as [|c0 cs0 s0 s2 s3 r rs0 CM OM HM]. subst.
      inversion HM. subst. cbn [call_meets call_object] in CM. destruct CM as [CM _]. fold o in CM. rewrite CM in L. vm_compute in L. discriminate L.
Qed.
Print Assumptions C58_all_or_nothing_refuted.

(** ** Examples *)
Definition two_calls : list call :=
  [AppendArticle (str "SYSOP") (str "M.1.A.001") (str "!"); AddRecord (str "test") sample_file; WriteDraft (str "pichu") (str "1") (str "abc")].
(** the first call is complete, five bytes of the record have been written *)
Definition torn_world : world := crash_at 4 5 (client id_codec sample_wd 0 two_calls) sample_world.
Example C58_nonvacuous :
  ~ In x00 sample_wd /\ sane sample_world /\ stored sample_world sample_wd sample_objects sample_store /\
  Forall call_ok two_calls /\ Forall (fun c => sample_objects (call_object c)) two_calls /\
  crash (client id_codec sample_wd 0 two_calls) sample_world torn_world /\
  sessions id_codec sample_wd 0 [two_calls; []] sample_world torn_world /\
  look torn_world (rp ["bbs"; "boards"; "t"; "test"; ".DIR"]%string) = Some (EFile (firstn 5 (MarshalToByte id_codec sample_file))) /\
  look torn_world (rp ["bbs"; "home"; "p"; "pichu"; "buf.1"]%string) = None /\
  snd (run (DB_ReadBoardArticleFile sample_wd (str "SYSOP") (str "M.1.A.001")) torn_world) = Ok (str "hello!").
Proof.
  split; [exact sample_wd_ok|]. split; [exact sample_sane|]. split; [exact sample_stored|]. split; [|split; [|split; [|split]]].
  - pose proof sysop_ident. pose proof test_ident. pose proof pichu_ident. pose proof m1_component.
    unfold two_calls. repeat apply Forall_cons; try apply Forall_nil; (split; [cbn [call_object plain_object]|exact Logic.I]);
    auto; try (split; [assumption|]); try (split; [no_nul|no_nul]); (split; [assumption|split; discriminate]).
  - unfold two_calls, sample_objects. repeat apply Forall_cons; try apply Forall_nil; cbn; tauto.
  - apply crash_at_crash.
  - apply ses_cons with (w1 := torn_world); [apply crash_at_crash|]. apply ses_cons with (w1 := torn_world); [apply crash_refl|constructor].
  - split; [vm_compute; reflexivity|]. split; vm_compute; reflexivity.
Qed.
(** posting [hi] stopped after three bytes of the text *)
Definition torn_post : world := crash_at 11 3 (post_message id_codec 20 sample_wd hi) crowded.
Example C58_post_nonvacuous :
  sane crowded /\ ~ In x00 sample_wd /\ ident (m_board hi) /\ index_fine crowded sample_wd (m_board hi) /\
  crash (post_message id_codec 20 sample_wd hi) crowded torn_post /\
  look torn_post (board_entry crowded sample_wd (str "test") (str "M.1600000000.A.008")) = Some (EFile (str "tex")) /\
  look torn_post (index_entry crowded sample_wd (str "test")) = Some (EFile (MarshalToByte id_codec (listed hi (str "M.1600000000.A.008")))).
Proof.
  split; [exact crowded_sane|]. split; [no_nul|]. split; [exact test_ident|]. split; [exact crowded_index|].
  split; [apply crash_at_crash|]. split; vm_compute; reflexivity.
Qed.
