(** * Property theorems: C74 (texts in Big5), in records and articles *)
From Coq Require Import Lia ZifyBool ZifyNat ZifyN.
From Verif Require Import M_Base M_Sys M_Path M_Utf8 M_File M_Board M_FileOps M_DB M_Comment M_Scan M_BbsTool M_Big5.
From Verif Require Import S_World S_Path S_Layout S_File S_Store S_Create S_Scan S_Tool S_BbsTool S_Post S_Json S_Big5 S_ExWorld S_Example.
From Verif Require Import P_Base P_Sys P_Path P_Records P_Store P_BoardList P_Pool P_PoolList P_Create P_Scan P_BbsTool P_Post P_Json T_Records T_Store T_BoardList T_Create T_Scan T_BbsTool T_Post T_Big5.
Open Scope N_scope.

(** An article that add_board_article has posted is shown with its text up to the first
    character that Big5 does not have. *)
Theorem C74_shown : forall tb w e l m fuel w' n t a, good_tables tb ->
  sane w -> home_ok w e -> typed e "add_board_article" l -> message_typed l m w ->
  ident (m_board m) -> index_fine w (te_home e) (m_board m) ->
  run (tool (big5 tb) fuel e) w = (w', Ok [Out (str "new filename: " ++ n)]) ->
  reads_as (m_text m) t -> writable_part tb t a ->
  forall e' l', te_driver e' = te_driver e -> te_home e' = te_home e -> typed e' "show_board_article" l' ->
    option_is l' "board" (m_board m) -> option_is l' "filename" n ->
    exists shown, prints (big5 tb) e' w' [Out (str "filecontent: "); Out shown] /\ in_utf8 a shown /\
      (in_utf8 t (m_text m) -> Forall (has_code tb) t -> shown = m_text m).
Proof.
  intros tb w e l m fuel w' n t a G S H T M I Ix R RA Wa e' l' Ed Eh T' O1 O2.
  exists (Big5ToUtf8 tb (Utf8ToBig5 tb (m_text m))). split; [|exact (C74_comes_back tb (m_text m) t a G RA Wa)].
  destruct (C55_add_board_article (big5 tb) w e l m fuel w' _ S H T M I Ix R) as (S' & C' & [[Z _]|(n' & E & P)]); [discriminate Z|].
  injection E as E. subst n'. destruct P as (Fr & L0 & Lt & _ & Lo). pose proof (home_no_nul w e H) as Nw.
  assert (Ce : forall b k, board_entry w' (te_home e) b k = board_entry w (te_home e) b k) by (intros b k; unfold board_entry, S_Create.board_dir; now rewrite C').
  apply (C53_show_board_article (big5 tb) w' e' l' (m_board m) n (enc (big5 tb) (m_text m)) S'); auto.
  - destruct H as (Hd & Hq & rh & [Pp N] & Lh). split; [congruence|]. split; [now rewrite Eh|]. exists rh. rewrite Eh. split; [split; [exact Pp|now rewrite C']|].
    rewrite Lo; [exact Lh| |]; intros ->; [rewrite Lh in L0; discriminate L0|]. now apply Ix.
  - rewrite Eh. assert (Pl : plain_object (Article (m_board m) n)) by (now apply fresh_name_plain).
    destruct (entry_names w' (te_home e) (m_board m) n Nw Pl) as (p & Ep & Np). exists p, (board_entry w' (te_home e) (m_board m) n).
    split; [exact Ep|]. split; [exact Np|]. rewrite Ce, Lt. split; [reflexivity|discriminate].
Qed.
Print Assumptions C74_shown.

(** It is listed with its title, if all of it can be written and takes at most 65 bytes. *)
Theorem C74_listed : forall tb w e l m fuel w' n ss recs t, good_tables tb ->
  sane w -> home_ok w e -> typed e "add_board_article" l -> message_typed l m w ->
  ident (m_board m) -> index_fine w (te_home e) (m_board m) ->
  text_at w (index_entry w (te_home e) (m_board m)) = concat ss -> Forall (fun s => length s = 128%nat) ss -> Forall2 (file_decoded (big5 tb)) ss recs ->
  run (tool (big5 tb) fuel e) w = (w', Ok [Out (str "new filename: " ++ n)]) ->
  text_fits 28 n -> text_fits 14 (m_owner m) -> text_fits 6 (m_date m) ->
  in_utf8 t (m_title m) -> Forall (has_code tb) t -> ~ In 0 t -> big5_size t <= 65 ->
  articles_are (big5 tb) w' (te_home e) (m_board m) (recs ++ [listed m n]).
Proof.
  intros tb w e l m fuel w' n ss recs t G S H T M I Ix Es Fs Fd R Tn To Td U F N L.
  apply (C55_posted_article_is_listed (big5 tb) w e l m fuel w' n ss recs S H T M I Ix Es Fs Fd R).
  split; [exact Tn|]. split; [vm_compute; split; [discriminate|reflexivity]|]. split; [vm_compute; split; [discriminate|reflexivity]|].
  split; [exact To|]. split; [exact Td|]. exact (proj2 (C74_fits tb t (m_title m) 65 G U F N L)).
Qed.
Print Assumptions C74_listed.

(** ** Tables for examples: the characters of big5_test.go:31-42 and three more (the last one is
    made up; the pair belongs to the Hong Kong extension) *)
Definition sample_index : list (byte * byte * N) :=
  [(xb7, x73, 0x65B0); (xaa, xba, 0x7684); (xa5, xd8, 0x76EE); (xbf, xfd, 0x9304);
   (xc7, xd0, 0x30D4); (xc7, xe6, 0x30EA); (xc7, xa7, 0x30AB); (xc7, xe5, 0x30E9); (x88, x66, 0xCA);
   (xa4, xc2, 0x5208); (x9b, x41, 0x8000)].
Definition number (l r : byte) : N := (b2n l - 0x81) * 157 + (b2n r - (if b2n r <? 0x7F then 0x40 else 0x62)).
Definition sample_tables : tables :=
  Tables 19782 (fun p => match find (fun x => number (fst (fst x)) (snd (fst x)) =? p) sample_index with Some x => snd x | None => 0 end)
    (fun c => match find (fun x => snd x =? c) sample_index with Some x => 256 * b2n (fst (fst x)) + b2n (snd (fst x)) | None => 0 end).
Lemma sample_in p c : indexed sample_tables p c -> exists l r, In (l, r, c) sample_index /\ p = number l r.
Proof.
  intros (_ & E & N). cbn [sample_tables t_decode] in E. destruct (find _ sample_index) as [[[l r] d]|] eqn:F; [|congruence]. apply find_some in F as [I Q]. cbn [fst snd] in *. subst d.
  exists l, r. split; [exact I|lia].
Qed.
Lemma sample_ok : forall l r c, In (l, r, c) sample_index -> 128 <= c /\ code_point c /\ pointer l r (number l r) /\ ~ In (number l r) (map fst doubles) /\
  t_decode sample_tables (number l r) = c /\ number l r < 19782 /\ t_encode sample_tables c = 256 * b2n l + b2n r.
Proof.
  intros l r c I. cbn in I. repeat destruct I as [I|I]; try contradiction; injection I as <- <- <-;
    (split; [vm_compute; discriminate|]; split; [left; reflexivity|]; split; [split; [split; vm_compute; discriminate|first [left; split; [split; vm_compute; discriminate|reflexivity]|right; split; [split; vm_compute; discriminate|reflexivity]]]|];
     split; [vm_compute; intuition discriminate|]; split; [vm_compute; reflexivity|]; split; vm_compute; reflexivity).
Qed.
Lemma sample_good : good_tables sample_tables.
Proof.
  split; [|split; [|split]].
  - intros p c I. apply sample_in in I as (l & r & I & _). apply sample_ok in I. tauto.
  - intros p cs c D I. apply sample_in in I as (l & r & I & ->). apply sample_ok in I. destruct I as (_ & _ & _ & N & _). apply N. apply (in_map fst) in D. exact D.
  - intros c E. cbn [sample_tables t_encode] in E. destruct (find _ sample_index) as [[[l r] d]|] eqn:F; [|congruence]. apply find_some in F as [I Q]. cbn [fst snd] in *. replace d with c in * by lia.
    pose proof (sample_ok l r c I) as (C & _ & P & _ & D & L & EE). exists l, r, (number l r). split; [exact P|]. split; [|exact EE]. split; [exact L|]. split; [exact D|lia].
  - intros p c I. apply sample_in in I as (l & r & I & _). apply sample_ok in I. destruct I as (_ & _ & P & _ & _ & _ & E). rewrite E. unfold pointer in P. lia.
Qed.

(** ** What is not true *)
(** "A text that is stored and read comes back as it was." *)
Definition C74_statement : Prop := forall tb s t, good_tables tb -> in_utf8 t s -> Big5ToUtf8 tb (Utf8ToBig5 tb s) = s.
Definition smiling : list N := [97; 0x1F600; 98].
Theorem C74_cut_refuted : ~ C74_statement.
Proof.
  intros H. specialize (H sample_tables (concat (map utf8 smiling)) smiling sample_good).
  assert (U : in_utf8 smiling (concat (map utf8 smiling))) by (split; [repeat (constructor; [first [left; reflexivity|right; split; vm_compute; discriminate]|]); constructor|reflexivity]).
  apply H in U. vm_compute in U. discriminate U.
Qed.
Print Assumptions C74_cut_refuted.
(** "What the command says it has posted is shown." *)
Definition C74_posted_statement : Prop := forall tb w e l m fuel w' n e' l' t, good_tables tb ->
  sane w -> home_ok w e -> typed e "add_board_article" l -> message_typed l m w ->
  ident (m_board m) -> index_fine w (te_home e) (m_board m) -> in_utf8 t (m_text m) ->
  run (tool (big5 tb) fuel e) w = (w', Ok [Out (str "new filename: " ++ n)]) ->
  te_driver e' = te_driver e -> te_home e' = te_home e -> typed e' "show_board_article" l' ->
  option_is l' "board" (m_board m) -> option_is l' "filename" n ->
  prints (big5 tb) e' w' [Out (str "filecontent: "); Out (m_text m)].
Definition smile : string := "a😀b".
Definition smile_show : list string := ["show_board_article"; "--board"; "test"; "--filename"; "M.1600000000.A.008"]%string.
Lemma smile_reads : in_utf8 smiling (str smile).
Proof. split; [repeat (constructor; [first [left; reflexivity|right; split; vm_compute; discriminate]|]); constructor|vm_compute; reflexivity]. Qed.
Theorem C74_posted_refuted : ~ C74_posted_statement.
Proof.
  intros C. set (e := tool_cmdline (post_args "test" "Hi" smile)). set (l := post_options "test" "Hi" smile). set (m := example_message "test" "Hi" smile).
  assert (R : snd (run (tool (big5 sample_tables) 20 e) crowded) = Ok [Out (str "new filename: " ++ str "M.1600000000.A.008")]) by (vm_compute; reflexivity).
  assert (T : typed e "add_board_article" l) by (split; [vm_compute; reflexivity|plain_args]).
  assert (T' : typed (tool_cmdline smile_show) "show_board_article" [Option_ (str "board") (str "test"); Option_ (str "filename") (str "M.1600000000.A.008")]) by (split; [vm_compute; reflexivity|plain_args]).
  destruct (C sample_tables crowded e l m 20%nat (fst (run (tool (big5 sample_tables) 20 e) crowded)) (str "M.1600000000.A.008") (tool_cmdline smile_show) [Option_ (str "board") (str "test"); Option_ (str "filename") (str "M.1600000000.A.008")] smiling sample_good crowded_sane (crowded_home _) T ltac:(typed_message) test_ident crowded_index smile_reads) as [n P];
    [rewrite <- R; apply surjective_pairing|reflexivity|reflexivity|exact T'|reflexivity|reflexivity|].
  destruct (P (n + 900)%nat ltac:(lia)) as (w2 & Q & _). apply (f_equal snd) in Q. cbn [snd] in Q.
  assert (X : forall k, snd (run (tool (big5 sample_tables) k (tool_cmdline smile_show)) (fst (run (tool (big5 sample_tables) 20 e) crowded))) = Ok [Out (str "filecontent: "); Out (str "a")]) by (intros k; vm_compute; reflexivity).
  rewrite X in Q. discriminate Q.
Qed.
Print Assumptions C74_posted_refuted.
(** "Bytes that are read without a U+FFFD and written again are the same bytes." *)
Definition C74_bytes_statement : Prop := forall tb s t, good_tables tb -> big5_reads tb s t -> ~ In 0xFFFD t -> Utf8ToBig5 tb (Big5ToUtf8 tb s) = s.
Theorem C74_bytes_refuted : ~ C74_bytes_statement.
Proof.
  intros H. assert (R : big5_reads sample_tables [x88; x62] ([0xCA; 0x304] ++ [])).
  { apply B5Pair; [|constructor]. exists 1133. split; [split; [split; vm_compute; discriminate|left; split; [split; vm_compute; discriminate|reflexivity]]|]. left. split; [reflexivity|now left]. }
  specialize (H sample_tables _ _ sample_good R). assert (N : ~ In 0xFFFD ([0xCA; 0x304] ++ [])) by (cbn; intuition discriminate). apply H in N. vm_compute in N. discriminate N.
Qed.
Print Assumptions C74_bytes_refuted.
(** "A title that is too long for its field is kept as far as there is room." *)
Definition C74_title_statement : Prop := forall tb f t, good_tables tb -> in_utf8 t (fh_title f) -> Forall (has_code tb) t -> ~ In 0 t ->
  exists g j, NewFileHeaderWithByte (big5 tb) (MarshalToByte (big5 tb) f) = Ok g /\ in_utf8 (firstn j t) (fh_title g).
Definition long_title : list N := repeat 0x65B0 33.
Definition long_titled : FileHeader := MkFileHeader (str "M.1") 0%Z 0%Z (str "pichu") (str "11/16") (concat (map utf8 long_title)) 0%Z 0%Z 0 0 0 0 0.
Lemma new_indexed : exists p, indexed sample_tables p 0x65B0.
Proof. exists (number xb7 x73). split; [reflexivity|]. split; [vm_compute; reflexivity|discriminate]. Qed.
Lemma firstn_points {A} (P : A -> Prop) j l : Forall P l -> Forall P (firstn j l).
Proof. intros F. revert j. induction F as [|x l H F IH]; intros [|j]; cbn [firstn]; constructor; [exact H|apply IH]. Qed.
Theorem C74_title_refuted : ~ C74_title_statement.
Proof.
  intros H. specialize (H sample_tables long_titled long_title sample_good).
  assert (U : in_utf8 long_title (fh_title long_titled)) by (split; [apply Forall_forall; intros c I; apply repeat_spec in I; subst c; left; reflexivity|reflexivity]).
  assert (F : Forall (has_code sample_tables) long_title) by (apply Forall_forall; intros c I; apply repeat_spec in I; subst c; right; exact new_indexed).
  assert (N : ~ In 0 long_title) by (intros I; apply repeat_spec in I; discriminate I).
  destruct (H U F N) as (g & j & E & _ & Q).
  assert (X : exists g, NewFileHeaderWithByte (big5 sample_tables) (MarshalToByte (big5 sample_tables) long_titled) = Ok g /\ fh_title g = concat (map utf8 (repeat 0x65B0 32 ++ [0xFFFD]))).
  { destruct (NewFileHeaderWithByte (big5 sample_tables) (MarshalToByte (big5 sample_tables) long_titled)) as [g'|e| |] eqn:Y.
    - exists g'. split; [reflexivity|]. apply (f_equal (fun o => match o with Ok x => fh_title x | _ => [] end)) in Y. rewrite <- Y. vm_compute. reflexivity.
    - discriminate E. - discriminate E. - discriminate E. }
  destruct X as (g' & E' & Q'). rewrite E in E'. assert (g = g') by congruence. subst g'. rewrite Q' in Q. apply (f_equal runes) in Q. revert Q.
  assert (RR : forall l, Forall code_point l -> runes (concat (map utf8 l)) = l).
  { intros l0 P. symmetry. apply reads_as_unique. induction P as [|c l1 C P IH]; [constructor|cbn [map concat]; now constructor]. }
  rewrite !RR.
  - intros Q. assert (I : In 0xFFFD (firstn j long_title)) by (rewrite <- Q; apply in_app_iff; right; now left).
    assert (I' : In 0xFFFD long_title) by (rewrite <- (firstn_skipn j long_title); apply in_app_iff; now left). apply repeat_spec in I'. discriminate I'.
  - apply firstn_points. exact (proj1 U).
  - apply Forall_app. split; [apply Forall_forall; intros c I; apply repeat_spec in I; subst c; left; reflexivity|]. constructor; [right; split; vm_compute; discriminate|constructor].
Qed.
Print Assumptions C74_title_refuted.
(** "The comments of an article are given as text, like its title." They are given in Big5. *)
Definition C74_comments_statement : Prop := forall tb w wd b f s t cs c, good_tables tb -> sane w ->
  content_of w wd (Article b f) (Some (Utf8ToBig5 tb s)) -> in_utf8 t s -> Forall (has_code tb) t ->
  snd (run (GetBoardArticleCommentRecords wd b f) w) = Ok cs -> In c cs -> exists x, in_utf8 x (uc_text c).
Definition commented : bytes := str "pichu: " ++ concat (map utf8 [0x65B0; 0x7684]) ++ str " 05/15 01:06".
Theorem C74_comments_refuted : ~ C74_comments_statement.
Proof.
  intros H. set (d := Utf8ToBig5 sample_tables commented).
  assert (R : snd (run (GetBoardArticleCommentRecords sample_wd (str "SYSOP") (str "M.1")) (scan_world true scan_boards d [])) = Ok [record_of 1 (str "pichu") [xb7; x73; xaa; xba] (str "M.1")]) by (vm_compute; reflexivity).
  specialize (H sample_tables _ sample_wd (str "SYSOP") (str "M.1") commented (runes commented) [record_of 1 (str "pichu") [xb7; x73; xaa; xba] (str "M.1")] (record_of 1 (str "pichu") [xb7; x73; xaa; xba] (str "M.1")) sample_good (scan_sane true scan_boards d []) (m1_content true scan_boards d [])).
  destruct H as (x & P & E); [| |exact R|now left|].
  - split; [|vm_compute; reflexivity]. apply Forall_forall. intros c I. assert (Q : forallb (fun c => c <? 0xD800) (runes commented) = true) by (vm_compute; reflexivity). rewrite forallb_forall in Q. apply Q in I. left. lia.
  - apply Forall_forall. intros c I. assert (Q : forallb (fun c => (c <? 128) || (c =? 0x65B0) || (c =? 0x7684)) (runes commented) = true) by (vm_compute; reflexivity). rewrite forallb_forall in Q. apply Q in I.
    destruct (c <? 128) eqn:A; [left; lia|]. right. destruct (c =? 0x65B0) eqn:B; [replace c with 0x65B0 by lia; exact new_indexed|]. replace c with 0x7684 by lia.
    exists (number xaa xba). split; [reflexivity|]. split; [vm_compute; reflexivity|discriminate].
  - cbn [uc_text record_of] in E. destruct P as [|c x C P]; [discriminate E|]. cbn [map concat] in E. assert (D : decode_rune [xb7; x73; xaa; xba] = Some (c, length (utf8 c))) by (rewrite E; exact (decode_good c _ C)).
    assert (D0 : decode_rune [xb7; x73; xaa; xba] = Some (RuneError, 1%nat)) by reflexivity. rewrite D0 in D. apply some_pair in D as [D1 D2]. rewrite <- D1 in D2. discriminate D2.
Qed.
Print Assumptions C74_comments_refuted.

(** ** Examples *)
(** the test vectors of big5_test.go:31-42 and 65-76 *)
Example C74_nonvacuous :
  good_tables sample_tables /\
  Utf8ToBig5 sample_tables (str "新的目錄") = [xb7; x73; xaa; xba; xa5; xd8; xbf; xfd] /\
  Big5ToUtf8 sample_tables [xb7; x73; xaa; xba; xa5; xd8; xbf; xfd] = str "新的目錄" /\
  Utf8ToBig5 sample_tables (str "ピリカピリララ") = [xc7; xd0; xc7; xe6; xc7; xa7; xc7; xd0; xc7; xe6; xc7; xe5; xc7; xe5] /\
  Big5ToUtf8 sample_tables [xc7; xd0; xc7; xe6; xc7; xa7; xc7; xd0; xc7; xe6; xc7; xe5; xc7; xe5] = str "ピリカピリララ" /\
  Forall (has_code sample_tables) (runes (str "x新的")) /\ writable_part sample_tables smiling [97] /\ ~ has_code sample_tables 0x1F600 /\
  Big5ToUtf8 sample_tables [x61; xb7; x0a; xff; x80; xb7; x7f; x81; x40; xb7] = concat (map utf8 [97; 0xFFFD; 10; 0xFFFD; 0xFFFD; 0xFFFD; 0xFFFD; 0xFFFD]).
Proof.
  assert (N : ~ has_code sample_tables 0x1F600).
  { intros [H|[p H]]; [vm_compute in H; discriminate H|]. apply sample_in in H as (l & r & I & _). cbn in I. repeat destruct I as [I|I]; try contradiction; discriminate I. }
  split; [exact sample_good|]. repeat (split; [vm_compute; reflexivity|]). split; [|split; [|split; [exact N|vm_compute; reflexivity]]].
  - change (runes (str "x新的")) with [120; 0x65B0; 0x7684]. constructor; [left; reflexivity|]. constructor; [right; exact new_indexed|]. constructor; [|constructor]. right.
    exists (number xaa xba). split; [reflexivity|]. split; [vm_compute; reflexivity|discriminate].
  - split; [constructor; [left; reflexivity|constructor]|]. right. exists 0x1F600, [98]. now split.
Qed.
(** an article with Chinese title and text *)
Example C74_posted_nonvacuous :
  let e := tool_cmdline (post_args "test" "新的" "x目錄") in let l := post_options "test" "新的" "x目錄" in let m := example_message "test" "新的" "x目錄" in
  sane crowded /\ home_ok crowded e /\ typed e "add_board_article" l /\ message_typed l m crowded /\ ident (m_board m) /\ index_fine crowded sample_wd (m_board m) /\
  text_fits 28 (str "M.1600000000.A.008") /\ text_fits 14 (m_owner m) /\ text_fits 6 (m_date m) /\ in_utf8 [0x65B0; 0x7684] (m_title m) /\ big5_size [0x65B0; 0x7684] = 4 /\
  let (w', r) := run (tool (big5 sample_tables) 20 e) crowded in
  r = Ok [Out (str "new filename: " ++ str "M.1600000000.A.008")] /\
  look w' (rp ["bbs"; "boards"; "t"; "test"; "M.1600000000.A.008"]%string) = Some (EFile [x78; xa5; xd8; xbf; xfd]) /\
  snd (run (tool (big5 sample_tables) 900 (tool_cmdline smile_show)) w') = Ok [Out (str "filecontent: "); Out (str "x目錄")] /\
  snd (run (tool (big5 sample_tables) 900 (tool_cmdline ["show_board_article_list"; "--board"; "test"]%string)) w') = Ok [Out (str "M.1600000000.A.008        pichu 11/16 新的")].
Proof.
  cbv zeta. split; [exact crowded_sane|]. split; [apply crowded_home|]. split; [split; [vm_compute; reflexivity|plain_args]|].
  split; [typed_message|]. split; [exact test_ident|]. split; [exact crowded_index|]. split; [fits|]. split; [fits|]. split; [fits|].
  split; [split; [repeat (constructor; [left; reflexivity|]); constructor|vm_compute; reflexivity]|]. split; [reflexivity|].
  rewrite (surjective_pairing (run _ crowded)). split; [vm_compute; reflexivity|]. split; [vm_compute; reflexivity|]. split; vm_compute; reflexivity.
Qed.
