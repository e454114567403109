(** * Property theorems: C78 (Chinese names and titles, from the files to the users) *)
From Coq Require Import Lia ZifyBool ZifyNat ZifyN.
From Verif Require Import M_Base M_Cstr M_Sys M_Path M_Utf8 M_File M_Userec M_Board M_FileOps M_DB M_Web M_Mux M_Json M_Jwt M_Form M_Service M_BbsTool M_Big5.
From Verif Require Import S_World S_Path S_Layout S_File S_Userec S_Board S_Store S_Create S_Post S_Web S_Mux S_Json S_Form S_Service S_Scan S_Tool S_BbsTool S_Big5 S_Big5Field S_Example S_ExWorld.
From Verif Require Import P_Base P_Layout P_Read P_Records P_Json P_PoolList P_Create P_Scan P_BbsTool P_Post T_Crypt T_Store T_Web T_Json T_Scan T_Form T_Routes T_BbsTool T_Post T_Service T_Big5 T_Big5Use.
Open Scope N_scope.

Lemma decoded_text tb d off len s t v : good_tables tb -> f_cstr_big5 (big5 tb) d off len s -> big5_at tb d off len t -> is_text s v -> v = JStr t.
Proof.
  intros G (x & F & ->) (y & F' & R) (t' & RA & ->). rewrite <- (f_cstr_fun _ _ _ _ _ F F') in R. f_equal. destruct (C74_decoded tb x G) as [_ D]. specialize (D t R).
  destruct (C60_bytes_as_text (Big5ToUtf8 tb x)) as [(u & _ & One) Back]. cbn [big5 dec] in RA. rewrite (One t' RA). symmetry. apply One. now apply Back.
Qed.

Theorem C78_information : forall tb old zone sign w us bs requests answers i w' r uid query rp od before d after real nick, good_tables tb ->
  served old zone sign (big5 tb) w us bs requests answers -> nth_error requests i = Some (w', r) ->
  w_method r = str "GET" -> element uid -> addresses (w_target r) (str "/v1/users/" ++ uid ++ str "/information") query ->
  holds_file w service_home Passwds rp od -> slots 512 (old_or_empty od) (before ++ d :: after) ->
  f_cstr d 4 13 uid -> Forall (fun s => ~ f_cstr s 4 13 uid) before ->
  big5_at tb d 17 20 real -> big5_at tb d 37 24 nick ->
  exists body, nth_error answers i = Some (Response 200 body) /\
  S_Json.shows body (fun v => exists data, v = JObj [(S_Json.text "data", JObj data)] /\ In (S_Json.text "realname", JStr real) data /\ In (S_Json.text "nickname", JStr nick) data).
Proof.
  intros tb old zone sign w us bs requests answers i w' r uid query rp od before d after real nick G H E M U A HF Sl Uid Before Real Nick.
  pose proof H as (_ & (rp' & od' & ss & HF' & Sl' & F) & _). rewrite (holds_one _ _ _ _ _ _ _ HF' HF) in Sl'.
  assert (X : ss = before ++ d :: after) by (apply (slots_unique 512 (old_or_empty od)); [lia|exact Sl'|exact Sl]). subst ss.
  apply Forall2_app_inv_l in F as (ub & ur & Fb & Fr & ->). inversion Fr as [|? u ? ua Du Fa]; subst. 
  assert (FU : first_user (ub ++ u :: ua) uid u).
  { exists ub, ua. split; [reflexivity|]. split; [destruct Du as (_ & Q & _); exact (f_cstr_fun _ _ _ _ _ Q Uid)|].
    clear - Fb Before. induction Fb as [|s v before ub D Fb IH]; [constructor|]. inversion Before as [|? ? N Before']; subst. constructor; [|now apply IH]. intros <-. apply N. apply D. }
  destruct (C70_information old zone sign (big5 tb) w _ bs requests answers i w' r uid query H E M U A) as [(u' & body & FU' & An & T)|[N _]].
  - rewrite (first_user_fun _ _ _ _ FU' FU) in T. exists body. split; [exact An|]. destruct T as (v & J & m & -> & T). exists (JObj m). split; [exact J|].
    inversion T as [|? [k data] ? ? KQ T2]; subst. destruct KQ as [K Q]. cbn [fst snd] in K, Q. destruct Q as (dm & Q & T1). inversion T2; subst.  exists dm. split; [reflexivity|]. 
    destruct Du as (_ & _ & D17 & D37 & _).
    repeat match goal with T : Forall2 _ (_ :: _) _ |- _ => let k := fresh "k" in let x := fresh "x" in let K := fresh "K" in let V := fresh "V" in inversion T as [|? [k x] ? ? [K V] ?]; clear T; subst; cbn [fst snd] in K, V; try subst k end.
    split.
    + do 9 right. left. f_equal. eapply decoded_text; [exact G|exact D17|exact Real|eassumption].
    + do 5 right. left. f_equal. eapply decoded_text; [exact G|exact D37|exact Nick|eassumption].
  - destruct FU as (b0 & a0 & Q & Q2 & _). rewrite Q in N. apply Forall_app in N as [_ N]. inversion N; subst. contradiction.
Qed.
Print Assumptions C78_information.

(** ** A board with a Chinese title *)
Lemma size_app a b : big5_size (a ++ b) = big5_size a + big5_size b.
Proof. unfold big5_size. induction a as [|c a IH]; [reflexivity|]. cbn [app map fold_right]. rewrite IH. destruct (c <? 128); lia. Qed.
(** The first [k] bytes of a text in Big5. *)
Lemma cut_reads tb t s k : in_big5 tb t s -> k < big5_size t -> exists a b, t = a ++ b /\
  (big5_reads tb (firstn (N.to_nat k) s) a /\ big5_size a = k \/ big5_reads tb (firstn (N.to_nat k) s) (a ++ [0xFFFD]) /\ big5_size a + 1 = k).
Proof.
  intros (ss & F & ->). revert k. induction F as [|c x t ss C F IH]; intros k L; [cbn in L; lia|].
  destruct (N.eq_dec k 0) as [->|K]; [exists [], (c :: t); split; [reflexivity|left; split; [constructor|reflexivity]]|].
  change (big5_size (c :: t)) with ((if c <? 128 then 1 else 2) + big5_size t) in L. cbn [concat].
  destruct C as [[C ->]|(C & l & r & -> & St & _)].
  - replace (c <? 128) with true in L by lia. destruct (IH (k - 1)) as (a & b & -> & H); [lia|]. exists (c :: a), b. split; [reflexivity|].
    replace (N.to_nat k) with (S (N.to_nat (k - 1))) by lia. cbn [app firstn].
    assert (Q : forall u v, big5_reads tb u v -> big5_reads tb (n2b c :: u) (c :: v)).
    { intros u v H0. replace c with (b2n (n2b c)) at 2 by (apply b2n_small; lia). constructor; [rewrite b2n_small; lia|exact H0]. }
    change (big5_size (c :: a)) with ((if c <? 128 then 1 else 2) + big5_size a). replace (c <? 128) with true by lia.
    destruct H as [[H E]|[H E]]; [left|right]; (split; [now apply Q|lia]).
  - replace (c <? 128) with false in L by lia. destruct (N.eq_dec k 1) as [->|K1].
    + exists [], (c :: t). split; [reflexivity|]. right. split; [|reflexivity]. cbn [app firstn N.to_nat Pos.to_nat Pos.iter_op].
      apply B5Alone; [|intros _; now left|constructor]. destruct St as (p & P & _). unfold pointer in P. lia.
    + destruct (IH (k - 2)) as (a & b & -> & H); [lia|]. exists (c :: a), b. split; [reflexivity|].
      replace (N.to_nat k) with (S (S (N.to_nat (k - 2)))) by lia. cbn [app firstn].
      change (big5_size (c :: a)) with ((if c <? 128 then 1 else 2) + big5_size a). replace (c <? 128) with false by lia.
      destruct H as [[H E]|[H E]]; [left|right]; (split; [|lia]).
      * exact (B5Pair tb l r _ [c] a St H).
      * exact (B5Pair tb l r _ [c] (a ++ [0xFFFD]) St H).
Qed.
Lemma stored_kept tb d off len t a s : good_tables tb -> writable_part tb (runes t) a -> ~ In 0 a -> e_text d off len (Utf8ToBig5 tb t) ->
  f_cstr_big5 (big5 tb) d off len s -> kept_in len a s.
Proof.
  intros G Wa Z (v & At & K) (x & (v' & At' & Cs) & ->). rewrite <- (at_off_fun _ _ _ _ _ At At') in Cs. cbn [big5 dec].
  assert (RA : reads_as t (runes t)) by (destruct (C60_bytes_as_text t) as [(u & R & One) _]; now rewrite <- (reads_as_unique _ _ R)).
  destruct (C74_encoded tb t _ G RA) as (a' & Wa' & E). rewrite (writable_fun _ _ _ _ Wa' Wa) in E. pose proof (proj2 (E _) eq_refl) as I. clear E Wa' a'.
  pose proof (in_big5_nul _ _ _ I Z) as NZ. pose proof (in_big5_size _ _ _ I) as Sz. assert (Lv : lenN v = len) by (destruct At as (pre & post & _ & _ & Q); exact Q).
  destruct K as [(j & ->)|(u & E)].
  - assert (X : x = Utf8ToBig5 tb t).
    { apply (c_string_fun _ _ _ Cs). split; [exact NZ|]. destruct j as [|j]; [left; cbn [repeat]; apply app_nil_r|right; exists (repeat x00 j); reflexivity]. }
    subst x. left. split; [unfold lenN in *; rewrite app_length in Lv; lia|]. exact (proj2 (C74_decoded tb _ G) a (in_big5_reads tb a _ G I)).
  - assert (X : x = v). { apply (c_string_fun _ _ _ Cs). split; [intros H; apply NZ; rewrite E; apply in_or_app; now left|now left]. } subst x.
    destruct u as [|b u].
    + rewrite app_nil_r in E. left. split; [rewrite E in Sz; lia|]. rewrite <- E. exact (proj2 (C74_decoded tb _ G) a (in_big5_reads tb a _ G I)).
    + right. assert (L : len < big5_size a) by (rewrite <- Sz, E; unfold lenN in *; rewrite app_length; cbn [length]; lia). split; [exact L|].
      destruct (cut_reads tb a _ len I L) as (a1 & b1 & -> & H). exists a1, b1. split; [reflexivity|].
      assert (Q : firstn (N.to_nat len) (Utf8ToBig5 tb t) = v) by (rewrite E, <- Lv; unfold lenN; rewrite Nat2N.id, firstn_app, firstn_all, Nat.sub_diag; apply app_nil_r).
      rewrite Q in H. destruct H as [[H S]|[H S]]; [left|right]; (split; [|exact S]); exact (proj2 (C74_decoded tb _ G) _ H).
Qed.
Theorem C78_board_added : forall tb w e l id t ids ts rp old ss bs fuel, good_tables tb ->
  sane w -> home_ok w e -> typed e "add_board" l -> option_is l "board_id" id -> option_is l "title" t ->
  (exists us, reads_as id us /\ writable_part tb us ids) -> (exists us, reads_as t us /\ writable_part tb us ts) -> ~ In 0 ids -> ~ In 0 ts ->
  holds_file w (te_home e) Boards rp old -> old_or_empty old = concat ss -> Forall (fun s => length s = 256%nat) ss -> Forall2 (board_decoded (big5 tb)) ss bs ->
  let w' := fst (run (tool (big5 tb) fuel e) w) in
  exists h, boards_are (big5 tb) w' (te_home e) (bs ++ [h]) /\ kept_in 13 ids (bh_name h) /\ kept_in 49 ts (bh_title h).
Proof.
  intros tb w e l id t ids ts rp old ss bs fuel G S H T O1 O2 (u1 & R1 & W1) (u2 & R2 & W2) Z1 Z2 F Eo Fs Fd w'. subst w'.
  destruct (run_addboard (big5 tb) w e l id t rp old fuel S H T O1 O2 F) as (w' & R & S' & C & B & L). rewrite R. cbn [fst]. clear R.
  destruct (board_encode (big5 tb) (raw_board id t)) as (Ln & E1 & E2 & _). cbn [bh_name bh_title raw_board] in E1, E2.
  generalize dependent (BoardHeader_MarshalBinary (big5 tb) (raw_board id t)). intros D L Ln E1 E2.
  destruct (board_decode (big5 tb) D) as (h & _ & Dh); [unfold lenN; lia|]. exists h. split; [|split].
  - exists (old_or_empty old ++ D), (ss ++ [D]). split; [|split].
    + destruct F as (p & Ep & [P N] & _). exists p, rp. split; [exact Ep|]. split; [split; [exact P|]; rewrite C; exact N|]. split; [exact L|discriminate].
    + split; [apply Forall_app; split; [exact Fs|constructor; [|constructor]]; unfold lenN in Ln; lia|].
      exists 0%nat. split; [|lia]. rewrite concat_app, Eo. cbn [concat repeat]. rewrite !app_nil_r. reflexivity.
    + apply Forall2_app; [exact Fd|]. constructor; [exact Dh|constructor].
  - destruct Dh as (D1 & _). rewrite (reads_as_unique _ _ R1) in W1. exact (stored_kept tb D 0 13 id ids _ G W1 Z1 E1 D1).
  - destruct Dh as (_ & D2 & _). rewrite (reads_as_unique _ _ R2) in W2. exact (stored_kept tb D 13 49 t ts _ G W2 Z2 E2 D2).
Qed.
Print Assumptions C78_board_added.

(** ** An article with a Chinese title *)
Lemma trimmed_id v s j : v = s ++ repeat x00 j -> ~ In x00 s -> S_Layout.trimmed v s.
Proof.
  intros -> N. exists 0%nat, j. split; [reflexivity|]. split; intros s' E; apply N; rewrite E; [now left|apply in_or_app; right; now left].
Qed.
Lemma stored_kept_trim tb d off len t a s : good_tables tb -> writable_part tb (runes t) a -> ~ In 0 a -> e_text d off len (Utf8ToBig5 tb t) ->
  f_trim_big5 (big5 tb) d off len s -> kept_in len a s.
Proof.
  intros G Wa Z K (x & (v & At & Tr) & ->). apply (stored_kept tb d off len t a _ G Wa Z K). exists x. split; [|reflexivity]. exists v. split; [exact At|].
  destruct K as (v' & At' & K). rewrite <- (at_off_fun _ _ _ _ _ At At') in K.
  assert (RA : reads_as t (runes t)) by (destruct (C60_bytes_as_text t) as [(u & R & One) _]; now rewrite <- (reads_as_unique _ _ R)).
  destruct (C74_encoded tb t _ G RA) as (a' & Wa' & E). rewrite (writable_fun _ _ _ _ Wa' Wa) in E. pose proof (proj2 (E _) eq_refl) as I. clear E Wa' a'.
  pose proof (in_big5_nul _ _ _ I Z) as NZ. destruct K as [(j & K)|(u & E)].
  - rewrite (f_trim_fun d off len x _ (ex_intro _ v (conj At Tr)) (ex_intro _ v (conj At (trimmed_id _ _ _ K NZ)))). split; [exact NZ|]. destruct j as [|j]; [left; rewrite K; cbn [repeat]; apply app_nil_r|right; exists (repeat x00 j); exact K].
  - assert (Nv : ~ In x00 v) by (intros H; apply NZ; rewrite E; apply in_or_app; now left).
    rewrite (f_trim_fun d off len x v (ex_intro _ v (conj At Tr)) (ex_intro _ v (conj At (trimmed_id v v 0 (eq_sym (app_nil_r v)) Nv)))). split; [exact Nv|now left].
Qed.
Theorem C78_posted_title : forall tb w e l m fuel w' n ts ss recs, good_tables tb ->
  sane w -> home_ok w e -> typed e "add_board_article" l -> message_typed l m w ->
  ident (m_board m) -> index_fine w (te_home e) (m_board m) ->
  text_at w (index_entry w (te_home e) (m_board m)) = concat ss -> Forall (fun s => length s = 128%nat) ss -> Forall2 (file_decoded (big5 tb)) ss recs ->
  run (tool (big5 tb) fuel e) w = (w', Ok [Out (str "new filename: " ++ n)]) ->
  (exists us, reads_as (m_title m) us /\ writable_part tb us ts) -> ~ In 0 ts ->
  exists h, articles_are (big5 tb) w' (te_home e) (m_board m) (recs ++ [h]) /\ kept_in 65 ts (fh_title h).
Proof.
  intros tb w e l m fuel w' n ts ss recs G S H T M I Ix Eo Fs Fd R (us & RA & Wp) Z.
  destruct (C55_add_board_article (big5 tb) w e l m fuel w' _ S H T M I Ix R) as (S' & C' & [[Q _]|(n' & E & P)]); [discriminate Q|].
  injection E as E. subst n'. destruct P as (Fr & L0 & Lt & (v & Ev & Lv) & Lo).
  pose proof (home_no_nul w e H) as Nw.
  assert (Ce : forall b k, board_entry w' (te_home e) b k = board_entry w (te_home e) b k) by (intros b k; unfold board_entry, S_Create.board_dir; now rewrite C').
  pose proof Ev as (Ln & _ & _ & _ & _ & _ & _ & Et & _). destruct (file_decode (big5 tb) v) as (h & _ & Dh); [unfold lenN; lia|]. exists h. split.
  - exists (Some (concat ss ++ v)), (ss ++ [v]). split; [|split].
    + destruct (index_names w' (te_home e) (m_board m) Nw I) as (p & Ep & Np). exists p, (index_entry w' (te_home e) (m_board m)). split; [exact Ep|]. split; [exact Np|].
      unfold index_entry in *. rewrite Ce, Lv, Eo. split; [reflexivity|discriminate].
    + split; [apply Forall_app; split; [exact Fs|constructor; [lia|constructor]]|].
      exists 0%nat. cbn [old_or_empty]. split; [|lia]. rewrite concat_app. cbn [concat repeat]. now rewrite !app_nil_r.
    + apply Forall2_app; [exact Fd|]. constructor; [exact Dh|constructor].
  - destruct Dh as (_ & _ & _ & _ & _ & Dt & _). rewrite (reads_as_unique _ _ RA) in Wp. exact (stored_kept_trim tb v 54 65 (m_title m) ts _ G Wp Z Et Dt).
Qed.
Print Assumptions C78_posted_title.

(** ** Examples *)
Definition named_slot : bytes := put_all 512 [W 4 13 (str "SYSOP"); W 17 20 [xb7; x73; xaa; xba]; W 37 24 ([xa5; xd8; xbf; xfd; x21; xb7]); w32 100 1600000000].
Definition named_world : world := world_of service_tree [named_slot; []].
Definition ask_sysop : raw := Raw (str "GET") (str "/v1/users/SYSOP/information") [] [] [].
Lemma named_at off len s : off + len <= 512 -> newStringFormCString (sub off len named_slot) = s -> f_cstr named_slot off len s.
Proof. intros L <-. apply f_cstr_sub. assert (Q : lenN named_slot = 512) by (vm_compute; reflexivity). lia. Qed.
(** a user called 新的, nickname 目錄! and half a character *)
Example C78_nonvacuous : exists us bs answers,
  good_tables sample_tables /\
  served true taipei (fun x => x) (big5 sample_tables) named_world us bs [(named_world, ask_sysop)] answers /\
  element (str "SYSOP") /\ addresses (w_target ask_sysop) (str "/v1/users/" ++ str "SYSOP" ++ str "/information") [] /\
  holds_file named_world service_home Passwds (rp ["home"; "bbs"; ".PASSWDS"]%string) (Some named_slot) /\ slots 512 named_slot ([] ++ named_slot :: []) /\
  f_cstr named_slot 4 13 (str "SYSOP") /\ big5_at sample_tables named_slot 17 20 [0x65B0; 0x7684] /\ big5_at sample_tables named_slot 37 24 [0x76EE; 0x9304; 33; 0xFFFD].
Proof.
  assert (HP : holds_file named_world service_home Passwds (rp ["home"; "bbs"; ".PASSWDS"]%string) (Some named_slot)).
  { eexists. split; [reflexivity|]. split; [split; [split; [discriminate|no_nul]|vm_compute; reflexivity]|]. split; [vm_compute; reflexivity|]. vm_compute. reflexivity. }
  assert (HB : holds_file named_world service_home Boards (rp ["home"; "bbs"; ".BRD"]%string) (Some [])).
  { eexists. split; [reflexivity|]. split; [split; [split; [discriminate|no_nul]|vm_compute; reflexivity]|]. split; [vm_compute; reflexivity|]. reflexivity. }
  assert (S : sane named_world) by (apply saneb_sane; vm_compute; reflexivity).
  destruct (C70_always_answers true taipei (fun x => x) (big5 sample_tables) named_world S taipei_good (ex_intro _ _ (ex_intro _ _ HP)) (ex_intro _ _ (ex_intro _ _ HB))) as (us & bs & K).
  destruct (K [(named_world, ask_sysop)]) as (answers & An & _). exists us, bs, answers. split; [exact sample_good|]. split; [exact An|].
  split; [repeat split; try discriminate; no_nul|]. split; [apply addresses_iff; split; [reflexivity|]; eexists; eexists; repeat split|]. split; [exact HP|].
  assert (St : forall l r c, In (l, r, c) sample_index -> stands_for sample_tables l r [c]).
  { intros l r c I. destruct (sample_ok l r c I) as (A & _ & P & _ & D & L & _). exists (number l r). split; [exact P|]. right. exists c. split; [|reflexivity]. split; [exact L|]. split; [exact D|lia]. }
  split; [cbn [app]; assert (Q : N.of_nat (length named_slot) = 512) by (vm_compute; reflexivity); split; [constructor; [lia|constructor]|exists 0%nat; split; [cbn [concat repeat]; now rewrite !app_nil_r|lia]]|].
  split; [apply named_at; vm_compute; [discriminate|reflexivity]|]. split.
  - exists [xb7; x73; xaa; xba]. split; [apply named_at; vm_compute; [discriminate|reflexivity]|].
    apply (B5Pair _ _ _ _ [0x65B0] [0x7684]); [apply St; cbn; tauto|]. apply (B5Pair _ _ _ _ [0x7684] []); [apply St; cbn; tauto|constructor].
  - exists [xa5; xd8; xbf; xfd; x21; xb7]. split; [apply named_at; vm_compute; [discriminate|reflexivity]|].
    apply (B5Pair _ _ _ _ [0x76EE] [0x9304; 33; 0xFFFD]); [apply St; cbn; tauto|]. apply (B5Pair _ _ _ _ [0x9304] [33; 0xFFFD]); [apply St; cbn; tauto|].
    apply (B5Ascii _ x21); [reflexivity|]. apply B5Alone; [vm_compute; discriminate|intros _; now left|constructor].
Qed.
(** and what that user is told *)
Example C78_body_nonvacuous :
  omap (fun u => respond true taipei (fun x => x) (Server [u] []) ask_sysop) (UnmarshalUserec (big5 sample_tables) named_slot) = Ok (Response 200 (str
"{
  ""data"": {
    ""chess_status"": {},
    ""last_login_ip"": """",
    ""last_login_ipv4"": """",
    ""last_login_time"": ""2020-09-13T20:26:40+08:00"",
    ""money"": ""0"",
    ""nickname"": ""目錄!�"",
    ""number_of_login_days"": ""0"",
    ""number_of_posts"": ""0"",
    ""plan"": {},
    ""realname"": ""新的"",
    ""user_id"": ""SYSOP""
  }
}")).
Proof. vm_compute. reflexivity. Qed.
(** a board 目錄 whose title is cut inside its 25th character *)
Definition long_name : string := "新新新新新新新新新新新新新新新新新新新新新新新新新新新新新新".
Example C78_board_nonvacuous :
  let w := scan_world true [] [] [] in let e := tool_cmdline ["add_board"; "--board_id"; "目錄"; "--title"; long_name]%string in
  sane w /\ home_ok w e /\ typed e "add_board" [Option_ (str "board_id") (str "目錄"); Option_ (str "title") (str long_name)] /\
  in_utf8 (repeat 0x65B0 30) (str long_name) /\ writable_part sample_tables (repeat 0x65B0 30) (repeat 0x65B0 30) /\
  holds_file w (te_home e) Boards (rp ["bbs"; ".BRD"]%string) (Some []) /\
  omap (map (fun h => (bh_name h, bh_title h))) (snd (run (ReadBoardRecords (big5 sample_tables) 900 sample_wd) (fst (run (tool (big5 sample_tables) 0 e) w)))) =
    Ok [(str "目錄", concat (map utf8 (repeat 0x65B0 24 ++ [0xFFFD])))].
Proof.
  cbv zeta. split; [apply scan_sane|]. split; [apply scan_home|]. split; [split; [vm_compute; reflexivity|plain_args]|].
  split; [split; [apply Forall_forall; intros c I; apply repeat_spec in I; subst c; left; reflexivity|vm_compute; reflexivity]|].
  split; [apply writable_all; apply Forall_forall; intros c I; apply repeat_spec in I; subst c; right; exact new_indexed|]. split; [exact (scan_holds true [] [] [])|].
  vm_compute. reflexivity.
Qed.
