(** * Posting articles *)
From Coq Require Import Lia ZifyBool ZifyNat ZifyN.
From Verif Require Import M_Base M_Sys M_Path M_File M_Board M_FileOps M_DB M_BbsTool.
From Verif Require Import S_World S_Path S_File S_Store S_Create S_Scan S_Tool S_BbsTool S_Post S_ExWorld S_Example.
From Verif Require Import P_Base P_Sys P_Path P_Records P_Store P_BoardList P_Pool P_PoolList P_Create P_Scan P_BbsTool P_Post T_Records T_Store T_BoardList T_Create T_BbsTool.
Open Scope N_scope.

Lemma rec_encoded cd m n : file_encoded cd (listed m n) (rec_bytes cd (m, n)).
Proof.
  replace (rec_bytes cd (m, n)) with (MarshalToByte cd (listed m n)); [apply file_encode|].
  unfold rec_bytes, MarshalToByte. f_equal.
Qed.

(** ** C57: posting at the same time *)
Theorem C57_concurrent_posts : forall cd fuel wd w css sched w' ps,
  sane w -> ~ In x00 wd ->
  (forall ms m, In ms css -> In m ms -> ident (m_board m) /\ index_fine w wd (m_board m)) ->
  run_pool sched w (map (poster cd fuel wd) css) = (w', ps) ->
  sane w' /\ w_cwd w' = w_cwd w /\
  exists log : posts_log,
    (* every post in the log has a name that was not used before, and the names of a board are different *)
    NoDup (map (fun e => (m_board (fst (snd e)), snd (snd e))) log) /\
    (forall i m n, In (i, (m, n)) log -> (exists ms, nth_error css i = Some ms /\ In m ms) /\ fresh_name n /\
       look w (board_entry w wd (m_board m) n) = None /\
       (look w' (board_entry w wd (m_board m) n) = Some (EFile (enc cd (m_text m))) \/
        look w' (board_entry w wd (m_board m) n) = Some (EFile []))) /\
    (* the index of a board is the old one followed by its posts *)
    (forall b, (exists ms m, In ms css /\ In m ms /\ m_board m = b) ->
       exists vs, Forall2 (file_encoded cd) (map (fun e => listed (fst e) (snd e)) (on_board b log)) vs /\
         (look w' (index_entry w wd b) = Some (EFile (text_at w (index_entry w wd b) ++ concat vs)) \/
          look w' (index_entry w wd b) = None /\ look w (index_entry w wd b) = None /\ vs = [])) /\
    (* a client that has finished was told the names of its posts, and their texts are complete *)
    (forall i ms rs, nth_error css i = Some ms -> nth_error ps i = Some (Ret rs) ->
       map fst rs = ms /\ reported rs (by_client i log) /\
       forall m n, In (m, n) (by_client i log) -> look w' (board_entry w wd (m_board m) n) = Some (EFile (enc cd (m_text m)))) /\
    (* nothing else that existed has changed *)
    (forall q, look w q <> None -> (forall ms m, In ms css -> In m ms -> q <> index_entry w wd (m_board m)) -> look w' q = look w q) /\
    (* and what is new is the index or an article of a board posted to, which is in the log when the client has finished *)
    (forall q, look w q = None -> look w' q <> None ->
       exists i ms m, nth_error css i = Some ms /\ In m ms /\ (q = index_entry w wd (m_board m) \/
         exists n, fresh_name n /\ q = board_entry w wd (m_board m) n /\
           forall rs, nth_error ps i = Some (Ret rs) -> In (i, (m, n)) log)).
Proof.
  intros cd fuel wd w css sched w' ps S Nw Fine R.
  destruct (pool_run cd wd w css Nw Fine sched w _ _ _ _ _ (pinv_start cd wd w css Nw Fine fuel S)) as (st & made & log & wrote & C).
  rewrite R in C. cbn [fst snd] in C. pose proof (p_gw _ _ _ _ _ _ _ _ _ _ C) as G.
  assert (In_ : forall i m n, In (i, (m, n)) made -> eplace wd w (m, n) = board_entry w wd (m_board m) n).
  { intros i m n H. destruct (from_fine cd wd w css Fine i (m, n) _ _ _ _ G H) as (I & _). now apply (eplace_entry wd w (m, n)). }
  split; [apply G|]. split; [apply G|]. exists log. split; [|split; [|split; [|split; [|split]]]].
  - pose proof (g_nodupl _ _ _ _ _ _ _ _ G) as N. pose proof (g_log _ _ _ _ _ _ _ _ G) as I. pose proof (g_nodup _ _ _ _ _ _ _ _ G) as K.
    clear - N I K. induction log as [|x log IH]; [constructor|]. apply NoDup_cons_iff in N as [N1 N2]. cbn [map]. constructor.
    + intros Z. apply in_map_iff in Z as (y & E & Hy). apply N1. replace x with y; [exact Hy|].
      apply (NoDup_map_same ekey made); [exact K|apply I; now right|apply I; now left|exact E].
    + apply IH; [exact N2|]. intros y Hy. apply I. now right.
  - intros i m n H. pose proof (g_log _ _ _ _ _ _ _ _ G _ H) as Hm. destruct (g_in _ _ _ _ _ _ _ _ G i (m, n) Hm) as (A & B & D & E).
    rewrite (In_ i m n Hm) in *. split; [exact A|]. split; [exact B|]. split; [exact D|]. destruct E as [[_ E]|[_ E]]; auto.
  - intros b Hb. pose proof (posted_ident wd w css Fine b Hb) as I. exists (map (rec_bytes cd) (on_board b log)). split.
    + induction (on_board b log) as [|[m n] l IH]; [constructor|]. cbn [map]. constructor; [apply rec_encoded|exact IH].
    + rewrite <- (iplace_entry wd w b I). destruct (g_idx _ _ _ _ _ _ _ _ G b Hb) as [(A & B & D)|A]; [right|left; exact A]. rewrite D. auto.
  - intros i ms rs Hm Hr. pose proof (p_ok _ _ _ _ _ _ _ _ _ _ C i _ ms Hr Hm) as K. cbn [ok] in K. destruct K as (_ & EM & EL & E & Rp).
    split; [exact E|]. split; [exact Rp|]. intros m n H. rewrite EL in H. apply by_client_in in H. pose proof (g_wrote _ _ _ _ _ _ _ _ G _ H) as Hd.
    destruct (g_in _ _ _ _ _ _ _ _ G i (m, n) Hd) as (_ & _ & _ & [[_ X]|[X _]]); [|contradiction]. now rewrite (In_ i m n Hd) in X.
  - intros q Hq Hn. apply (g_out _ _ _ _ _ _ _ _ G).
    + intros b (ms & m & H1 & H2 & <-). rewrite iplace_entry by now apply (Fine ms). now apply (Hn ms m).
    + intros [i e] H Z. destruct (g_in _ _ _ _ _ _ _ _ G i e H) as (_ & _ & X & _). cbn [snd] in Z. rewrite <- Z in X. contradiction.
  - intros q Hq Hn. assert (D : forall x y : rpath, {x = y} + {x <> y}) by apply rp_eq_dec.
    destruct (in_dec D q (map (fun m => index_entry w wd (m_board m)) (concat css))) as [H|H].
    + apply in_map_iff in H as (m & E & H). apply in_concat in H as (ms & H1 & H2). apply In_nth_error in H1 as [i H1]. exists i, ms, m. auto.
    + destruct (in_dec D q (map (fun x => eplace wd w (snd x)) made)) as [H'|H'].
      * apply in_map_iff in H' as ([i [m n]] & E & H'). destruct (g_in _ _ _ _ _ _ _ _ G i (m, n) H') as ((ms & Hm & Hi) & Fr & _).
        exists i, ms, m. split; [exact Hm|]. split; [exact Hi|]. right. exists n. split; [exact Fr|]. cbn [snd] in E. split; [rewrite <- E; exact (In_ i m n H')|].
        intros rs Hr. pose proof (p_ok _ _ _ _ _ _ _ _ _ _ C i _ ms Hr Hm) as K. cbn [ok] in K. destruct K as (_ & EM & _).
        apply by_client_in. rewrite <- EM. now apply by_client_in.
      * exfalso. apply Hn. rewrite <- Hq. apply (g_out _ _ _ _ _ _ _ _ G).
        -- intros b (ms & m & H1 & H2 & <-) Z. apply H. apply in_map_iff. exists m. rewrite iplace_entry in Z by now apply (Fine ms).
           split; [now symmetry|]. apply in_concat. eauto.
        -- intros x Hx Z. apply H'. apply in_map_iff. exists x. auto.
Qed.
Print Assumptions C57_concurrent_posts.

(** ** C55: posting one article *)
Lemma open_write_returns fl p d w : snd (run (open_write fl p d) w) <> Diverge.
Proof.
  unfold open_write. cbn [run]. destruct (exec (Open p fl) w) as [w1 [fd|e]]; [|discriminate]. cbn [run].
  destruct (exec (Write fd d) w1) as [w2 [x|e]]; cbn [run]; destruct (exec (Close fd) w2); discriminate.
Qed.
Lemma posting_returns cd wd b f text w : ~ In x00 wd -> plain_object (Article b (fh_filename f)) ->
  snd (run (try (str "AddArticleRecordFileRecord error: ") (AddArticleRecordFileRecord cd wd b f) (fun _ =>
    try (str "WriteBoardArticleFile error:  ") (DB_WriteBoardArticleFile wd b (fh_filename f) text) (fun _ =>
      Ret (Ok [Out (str "new filename: " ++ fh_filename f)])))) w) <> Diverge.
Proof.
  intros Nw Pl. unfold try, AddArticleRecordFileRecord, DB_WriteBoardArticleFile. rewrite run_bind, run_pbind. unfold lift. cbn [run].
  destruct (object_resolves [] wd (Index b)) as (p & Ep & _); [apply Pl|exact Nw|]. cbn [object_path] in Ep. rewrite Ep, append_record_shape.
  pose proof (open_write_returns O_APPEND_CREATE_WRONLY p (MarshalToByte cd f) w) as Q. destruct (run (open_write O_APPEND_CREATE_WRONLY p (MarshalToByte cd f)) w) as [w1 [[]|e| |]]; cbn [snd] in Q; try contradiction; try discriminate.
  rewrite run_bind, run_pbind. cbn [run].
  destruct (object_resolves [] wd (Article b (fh_filename f)) Pl Nw) as (p' & Ep' & _). cbn [object_path] in Ep'. rewrite Ep', write_article_shape.
  pose proof (open_write_returns O_WRONLY_CREATE p' text w1) as Q'. destruct (run (open_write O_WRONLY_CREATE p' text) w1) as [w2 [[]|e| |]]; cbn [snd] in Q'; try contradiction; discriminate.
Qed.
Lemma post_alone cd fuel wd w m w' r : sane w -> ~ In x00 wd -> ident (m_board m) -> index_fine w wd (m_board m) ->
  run (post_message cd fuel wd m) w = (w', r) ->
  sane w' /\ w_cwd w' = w_cwd w /\
  (r = Diverge /\ (forall q, look w' q = look w q) \/ exists n, r = Ok [Out (str "new filename: " ++ n)] /\ posted cd wd w w' m n).
Proof.
  intros S Nw I Ix R.
  destruct (run_as_pool (poster cd fuel wd [m]) w) as [k Rk].
  assert (Rp : run (poster cd fuel wd [m]) w = (w', [(m, r)])).
  { unfold poster. cbn [poster_from]. rewrite run_bind, R. reflexivity. }
  rewrite Rp in Rk. cbn [fst snd] in Rk. change [poster cd fuel wd [m]] with (map (poster cd fuel wd) [[m]]) in Rk.
  assert (F : forall ms m', In ms [[m]] -> In m' ms -> ident (m_board m') /\ index_fine w wd (m_board m')) by (intros ms m' [<-|[]] [<-|[]]; auto).
  destruct (C57_concurrent_posts _ _ _ _ _ _ _ _ S Nw F Rk) as (S' & C' & log & _ & L1 & L2 & L3 & L4 & L5).
  split; [exact S'|]. split; [exact C'|]. destruct (L3 0%nat [m] [(m, r)] eq_refl eq_refl) as (_ & Rep & Txt).
  assert (Own : log = map (fun e => (0%nat, e)) (by_client 0 log)).
  { clear - L1. induction log as [|[i [m' n]] log IH]; [reflexivity|]. destruct (L1 i m' n (or_introl eq_refl)) as ((ms & Hm & _) & _).
    destruct i as [|i]; [|now destruct i]. unfold by_client. cbn. f_equal. apply IH. intros i m2 n2 H. apply L1. now right. }
  remember (by_client 0 log) as own eqn:Eown. clear Eown.
  inversion Rep as [|m1 n rs l Rep' E1 E2|m1 rs l Rep' E1 E2]; subst; inversion Rep'; subst; cbn [map] in *.
  - right. exists n. split; [reflexivity|].
    destruct (L1 0%nat m n (or_introl eq_refl)) as (_ & Fr & L0 & _). specialize (Txt m n (or_introl eq_refl)).
    split; [exact Fr|]. split; [exact L0|]. split; [exact Txt|]. split.
    + destruct (L2 (m_board m)) as (vs & Fv & Lv); [exists [m], m; cbn; auto|].
      assert (on_board (m_board m) [(0%nat, (m, n))] = [(m, n)]) as Eo by exact (on_board_snoc 0 (m, n) []).
      rewrite Eo in Fv. cbn [map] in Fv. inversion Fv as [|? v ? vs' V1 V2]. inversion V2. subst. exists v. split; [exact V1|].
      destruct Lv as [Lv|(_ & _ & Z)]; [|discriminate Z]. rewrite Lv. cbn [concat]. now rewrite app_nil_r.
    + intros q Q1 Q2. destruct (look w q) as [x|] eqn:Lq.
      * rewrite <- Lq. apply L4; [congruence|]. intros ms m' [<-|[]] [<-|[]]. exact Q2.
      * destruct (look w' q) eqn:Lq'; [|reflexivity]. destruct (L5 q Lq) as (i & ms & m' & Hm & Hi & [Z|(n' & _ & Z & In_)]); [congruence| |].
        -- destruct i as [|i]; [|now destruct i]. injection Hm as <-. destruct Hi as [<-|[]]. contradiction.
        -- destruct i as [|i]; [|now destruct i]. injection Hm as <-. destruct Hi as [<-|[]]. specialize (In_ _ eq_refl).
           destruct In_ as [[= <-]|[]]. contradiction.
  - left. split; [reflexivity|].
    revert R. unfold post_message, post. unfold try at 1, db_call. rewrite run_bind.
    destruct (run (CreateArticleRecord fuel wd (m_board m) (m_owner m) (m_date m) (m_title m)) w) as [w1 o] eqn:Rc.
    pose proof (C08_created_article_is_new fuel wd w (NewEmpty (m_board m) (m_owner m) (m_date m) (m_title m)) w1 o S Nw I Rc) as Cr.
    destruct o as [f|e| |]; intros R.
    + exfalso. destruct Cr as (_ & Fn & _).
      apply (posting_returns cd wd (m_board m) f (enc cd (m_text m)) w1 Nw); [now apply fresh_name_plain|exact (f_equal snd R)].
    + discriminate R.
    + discriminate R.
    + injection R as <-. exact Cr.
Qed.
Print Assumptions post_alone.
Lemma same_entry w w1 wd b n : same_files w w1 -> board_entry w1 wd b n = board_entry w wd b n.
Proof. intros [C _]. unfold board_entry, S_Create.board_dir. now rewrite C. Qed.
Lemma same_posted cd wd w w1 w' m n : same_files w w1 -> posted cd wd w1 w' m n -> posted cd wd w w' m n.
Proof.
  intros SF. unfold posted, index_entry, text_at. rewrite !(same_entry w w1 wd _ _ SF). destruct SF as [_ L]. rewrite !L.
  intros (A & B & C & D & E). split; [exact A|]. split; [exact B|]. split; [exact C|]. split; [exact D|]. intros q Q1 Q2. rewrite <- L. now apply E.
Qed.
Lemma home_no_nul w e : home_ok w e -> ~ In x00 (te_home e).
Proof. intros (_ & _ & rp & [[_ P] _] & _). exact P. Qed.
(** what the command does after its options have been read *)
Lemma tool_post cd w e l m : sane w -> home_ok w e -> typed e "add_board_article" l -> message_typed l m w ->
  exists w1, sane w1 /\ same_files w w1 /\ clocks w1 = clocks w /\
    forall fuel, run (tool cd fuel e) w = run (post_message cd fuel (te_home e) m) w1.
Proof.
  intros S H T (O1 & O2 & O3 & O4 & O5). destruct (run_db_clocks S H) as (w1 & S1 & SF & Ck & R).
  assert (G : forall fuel, run (tool cd fuel e) w = run (match M_BbsTool.arg e (str "content"), M_BbsTool.arg e (str "content_file") with
      | Some text, _ => post cd fuel (Some (te_home e)) (m_board m) (m_owner m) (m_date m) (m_title m) text
      | None, Some file => try (str "readfile error: ") (read_file file) (fun text => post cd fuel (Some (te_home e)) (m_board m) (m_owner m) (m_date m) (m_title m) text)
      | None, None => say [Out (str "please provide content or content_file")]
          (try (str "readfile error: ") (read_file []) (fun text => post cd fuel (Some (te_home e)) (m_board m) (m_owner m) (m_date m) (m_title m) text))
      end) w1).
  { intros fuel. rewrite (tool_cmd cd fuel e _ l T).
    change (if beqb (str "add_board_article") (str "show_board_list") then showboardlist cd fuel e else _) with (addBoardArticle cd fuel e).
    unfold addBoardArticle. rewrite R, (run_need e _ l _ _ _ T O1), (run_need e _ l _ _ _ T O2), (run_need e _ l _ _ _ T O3), (run_need e _ l _ _ _ T O4). reflexivity. }
  rewrite !(typed_arg e _ l _ T) in G. destruct O5 as [O5|(O5 & f & rp & O6 & Nm & L)].
  - exists w1. split; [exact S1|]. split; [exact SF|]. split; [exact Ck|]. intros fuel. rewrite G, O5. reflexivity.
  - unfold option_missing in O5. unfold option_is in O6. rewrite O5, O6 in G.
    destruct (open_read_all_file f w1 rp (m_text m) S1) as (w2 & R2 & S2 & SF2 & _).
    { destruct Nm as [P N]. split; [exact P|]. now rewrite (proj1 SF). }
    { now rewrite (proj2 SF). }
    exists w2. split; [exact S2|]. split; [now apply (same_files_trans _ w1)|]. split.
    { rewrite <- Ck. pose proof (run_clocks _ (timeless_read_all f) w1) as E. now rewrite R2 in E. }
    intros fuel. rewrite G, read_file_shape. apply (run_try _ _ _ _ _ _ R2).
Qed.
(** For every state of the files, every clock and every generator of random numbers:
    as long as no free name has been found nothing changes; otherwise the command says the
    name, which was not used, the article holds the text, the index has one record more,
    and nothing else changed. *)
Theorem C55_add_board_article : forall cd w e l m fuel w' r,
  sane w -> home_ok w e -> typed e "add_board_article" l -> message_typed l m w ->
  ident (m_board m) -> index_fine w (te_home e) (m_board m) ->
  run (tool cd fuel e) w = (w', r) ->
  sane w' /\ w_cwd w' = w_cwd w /\
  (r = Diverge /\ (forall q, look w' q = look w q) \/
   exists n, r = Ok [Out (str "new filename: " ++ n)] /\ posted cd (te_home e) w w' m n).
Proof.
  intros cd w e l m fuel w' r S H T M I Ix R. destruct (tool_post cd w e l m S H T M) as (w1 & S1 & SF & _ & Rt). rewrite Rt in R.
  assert (Ix1 : index_fine w1 (te_home e) (m_board m)).
  { unfold index_fine, index_entry in *. rewrite (same_entry w w1 _ _ _ SF), (proj2 SF). exact Ix. }
  destruct (post_alone cd fuel (te_home e) w1 m w' r S1 (home_no_nul w e H) I Ix1 R) as (S' & C' & [[-> L]|(n & -> & P)]).
  - split; [exact S'|]. split; [rewrite C'; apply SF|]. left. split; [reflexivity|]. intros q. rewrite L. apply SF.
  - split; [exact S'|]. split; [rewrite C'; apply SF|]. right. exists n. split; [reflexivity|]. now apply (same_posted cd _ w w1).
Qed.
Print Assumptions C55_add_board_article.
(** When the board has a directory with finitely many files and the clock goes on, the
    command ends. *)
Theorem C55_returns : forall cd w e l m used,
  sane w -> home_ok w e -> typed e "add_board_article" l -> message_typed l m w ->
  ident (m_board m) -> index_fine w (te_home e) (m_board m) ->
  look w (board_dir w (te_home e) (m_board m)) = Some EDir ->
  (forall n, look w (board_entry w (te_home e) (m_board m) n) <> None -> In n used) -> clock_advances w ->
  exists n0, forall fuel, (n0 < fuel)%nat -> exists w' n,
    run (tool cd fuel e) w = (w', Ok [Out (str "new filename: " ++ n)]) /\ posted cd (te_home e) w w' m n.
Proof.
  intros cd w e l m used S H T M I Ix D Fin A. destruct (tool_post cd w e l m S H T M) as (w1 & S1 & SF & Ck & Rt).
  assert (D1 : look w1 (board_dir w1 (te_home e) (m_board m)) = Some EDir).
  { rewrite (proj2 SF). unfold S_Create.board_dir in *. rewrite (proj1 SF). exact D. }
  destruct (C09_returns_if_time_goes_on_partial (te_home e) w1 (m_board m) (m_owner m) (m_date m) (m_title m) used (home_no_nul w e H) I D1) as [n0 Hn].
  { intros n. rewrite (same_entry w w1 _ _ _ SF), (proj2 SF). apply Fin. }
  { intros t. destruct (A t) as [k Hk]. exists k. injection Ck as -> -> _ _. exact Hk. }
  exists n0. intros fuel Hf. destruct (run (tool cd fuel e) w) as [w' r] eqn:R.
  destruct (C55_add_board_article cd w e l m fuel w' r S H T M I Ix R) as (_ & _ & [[-> _]|(n & -> & P)]); [|eauto].
  exfalso. rewrite Rt in R. destruct (Hn fuel Hf) as [f Ef]. revert R. unfold post_message, post. unfold try at 1, db_call. rewrite run_bind.
  destruct (run (CreateArticleRecord fuel (te_home e) (m_board m) (m_owner m) (m_date m) (m_title m)) w1) as [w2 o] eqn:Rc. cbn [snd] in Ef. subst o. intros R.
  pose proof (C08_created_article_is_new fuel _ w1 (NewEmpty (m_board m) (m_owner m) (m_date m) (m_title m)) w2 _ S1 (home_no_nul w e H) I Rc) as (_ & Fn & _).
  apply (posting_returns cd (te_home e) (m_board m) f (enc cd (m_text m)) w2 (home_no_nul w e H)); [now apply fresh_name_plain|exact (f_equal snd R)].
Qed.
Print Assumptions C55_returns.

Lemma entry_names w wd b n : ~ In x00 wd -> plain_object (Article b n) ->
  exists p, GetBoardArticleFilePath wd b n = Ok p /\ names w p (board_entry w wd b n).
Proof.
  intros Nw Pl. destruct (object_resolves (w_cwd w) wd (Article b n) Pl Nw) as (p & Ep & Pp & Rp). exists p. split; [exact Ep|]. split; [exact Pp|].
  rewrite Rp. symmetry. exact (board_entry_place w wd b n [] (proj1 Pl)).
Qed.
Lemma index_names w wd b : ~ In x00 wd -> ident b -> exists p, GetBoardArticlesDirectoryPath wd b = Ok p /\ names w p (index_entry w wd b).
Proof.
  intros Nw Ib. destruct (object_resolves (w_cwd w) wd (Index b) Ib Nw) as (p & Ep & Pp & Rp). exists p. split; [exact Ep|]. split; [exact Pp|].
  rewrite Rp. exact (iplace_entry wd w b Ib).
Qed.
(** Afterwards the article is listed last, and shown with its text. *)
Theorem C55_posted_article_is_listed : forall cd w e l m fuel w' n ss recs,
  sane w -> home_ok w e -> typed e "add_board_article" l -> message_typed l m w ->
  ident (m_board m) -> index_fine w (te_home e) (m_board m) ->
  text_at w (index_entry w (te_home e) (m_board m)) = concat ss -> Forall (fun s => length s = 128%nat) ss -> Forall2 (file_decoded cd) ss recs ->
  run (tool cd fuel e) w = (w', Ok [Out (str "new filename: " ++ n)]) -> file_fits cd (listed m n) ->
  articles_are cd w' (te_home e) (m_board m) (recs ++ [listed m n]) /\
  forall e' l', te_driver e' = te_driver e -> te_home e' = te_home e -> typed e' "show_board_article" l' ->
    option_is l' "board" (m_board m) -> option_is l' "filename" n ->
    prints cd e' w' [Out (str "filecontent: "); Out (dec cd (enc cd (m_text m)))].
Proof.
  intros cd w e l m fuel w' n ss recs S H T M I Ix Eo Fs Fd R Ft.
  destruct (C55_add_board_article cd w e l m fuel w' _ S H T M I Ix R) as (S' & C' & [[Z _]|(n' & E & P)]); [discriminate Z|].
  injection E as E. subst n'. destruct P as (Fr & L0 & Lt & (v & Ev & Lv) & Lo).
  pose proof (home_no_nul w e H) as Nw.
  assert (Ce : forall b k, board_entry w' (te_home e) b k = board_entry w (te_home e) b k) by (intros b k; unfold board_entry, S_Create.board_dir; now rewrite C').
  split.
  - assert (Dv : length v = 128%nat /\ file_decoded cd v (listed m n)).
    { rewrite (file_encoded_unique cd _ _ _ Ev (file_encode cd (listed m n))). pose proof (is_rec_marshal cd (listed m n) Ft) as [Ln Rd].
      destruct (file_decode cd (MarshalToByte cd (listed m n))) as (g & Eg & Dg); [pose proof (marshal_length cd (listed m n)); lia|].
      rewrite Rd in Eg. injection Eg as <-. split; [unfold lenN in Ln; lia|exact Dg]. }
    exists (Some (concat ss ++ v)), (ss ++ [v]). split; [|split].
    + destruct (index_names w' (te_home e) (m_board m) Nw I) as (p & Ep & Np). exists p, (index_entry w' (te_home e) (m_board m)). split; [exact Ep|]. split; [exact Np|].
      unfold index_entry in *. rewrite Ce, Lv, Eo. split; [reflexivity|discriminate].
    + split; [apply Forall_app; split; [exact Fs|constructor; [apply Dv|constructor]]|].
      exists 0%nat. cbn [old_or_empty]. split; [|lia]. rewrite concat_app. cbn [concat repeat]. now rewrite !app_nil_r.
    + apply Forall2_app; [exact Fd|]. constructor; [apply Dv|constructor].
  - intros e' l' Ed Eh T' O1 O2. apply (C53_show_board_article cd w' e' l' (m_board m) n (enc cd (m_text m)) S'); auto.
    + destruct H as (Hd & Hq & rh & [Pp N] & Lh). split; [congruence|]. split; [now rewrite Eh|]. exists rh. rewrite Eh. split; [split; [exact Pp|now rewrite C']|].
      rewrite Lo; [exact Lh| |]; intros ->; [rewrite Lh in L0; discriminate L0|]. now apply Ix.
    + rewrite Eh. assert (Pl : plain_object (Article (m_board m) n)) by (now apply fresh_name_plain).
      destruct (entry_names w' (te_home e) (m_board m) n Nw Pl) as (p & Ep & Np). exists p, (board_entry w' (te_home e) (m_board m) n).
      split; [exact Ep|]. split; [exact Np|]. rewrite Ce, Lt. split; [reflexivity|discriminate].
Qed.
Print Assumptions C55_posted_article_is_listed.
(** Without one of the four options the command names a missing one and changes nothing. *)
Theorem C55_missing_options : forall cd w e l k,
  sane w -> home_ok w e -> typed e "add_board_article" l -> In k ["board"; "owner"; "date"; "title"]%string -> option_missing l k ->
  exists k', In k' ["board"; "owner"; "date"; "title"]%string /\ option_missing l k' /\
    prints cd e w [Out (str "please provide " ++ str k' ++ str " argument")].
Proof.
  intros cd w e l k S H T Ik O. destruct (run_db S H) as (w1 & S1 & SF & R).
  assert (G : forall k' rest, (forall fuel, addBoardArticle cd fuel e = with_db e (fun db => rest db fuel)) ->
    (forall db fuel, rest db fuel = Ret (Ok [Out (str "please provide " ++ str k' ++ str " argument")])) -> prints cd e w [Out (str "please provide " ++ str k' ++ str " argument")]).
  { intros k' rest E1 E2. exists 0%nat. intros fuel _. exists w1. split; [|auto]. rewrite (tool_cmd cd fuel e _ l T).
    change (if beqb (str "add_board_article") (str "show_board_list") then showboardlist cd fuel e else _) with (addBoardArticle cd fuel e). rewrite E1, R, E2. reflexivity. }
  assert (Dec : forall x, option_missing l x \/ exists v, option_is l x v) by (intros x; unfold option_missing, option_is; destruct (last_value l (str x)); eauto).
  destruct (Dec "board"%string) as [M1|[v1 M1]].
  { exists "board"%string. split; [cbn; auto|]. split; [exact M1|]. eapply G; [intros fuel; reflexivity|]. intros db fuel. apply (run_need_missing e _ l _ _ T M1). }
  destruct (Dec "owner"%string) as [M2|[v2 M2]].
  { exists "owner"%string. split; [cbn; auto|]. split; [exact M2|]. eapply G; [intros fuel; reflexivity|]. intros db fuel. cbv beta.
    rewrite (run_need e _ l _ _ _ T M1). apply (run_need_missing e _ l _ _ T M2). }
  destruct (Dec "date"%string) as [M3|[v3 M3]].
  { exists "date"%string. split; [cbn; auto|]. split; [exact M3|]. eapply G; [intros fuel; reflexivity|]. intros db fuel. cbv beta.
    rewrite (run_need e _ l _ _ _ T M1), (run_need e _ l _ _ _ T M2). apply (run_need_missing e _ l _ _ T M3). }
  destruct (Dec "title"%string) as [M4|[v4 M4]].
  { exists "title"%string. split; [cbn; auto|]. split; [exact M4|]. eapply G; [intros fuel; reflexivity|]. intros db fuel. cbv beta.
    rewrite (run_need e _ l _ _ _ T M1), (run_need e _ l _ _ _ T M2), (run_need e _ l _ _ _ T M3). apply (run_need_missing e _ l _ _ T M4). }
  exfalso. unfold option_missing, option_is in *. cbn in Ik. repeat destruct Ik as [<-|Ik]; try contradiction; congruence.
Qed.
Print Assumptions C55_missing_options.
(** Without a text it asks for one, and then fails to read a file with an empty name. *)
Theorem C55_missing_text : forall cd w e l b owner date title,
  sane w -> home_ok w e -> typed e "add_board_article" l ->
  option_is l "board" b -> option_is l "owner" owner -> option_is l "date" date -> option_is l "title" title ->
  option_missing l "content" -> option_missing l "content_file" ->
  prints cd e w [Out (str "please provide content or content_file"); OutErr (str "readfile error: ") (ESys ENOENT)].
Proof.
  intros cd w e l b owner date title S H T O1 O2 O3 O4 O5 O6. destruct (run_db S H) as (w1 & S1 & SF & R).
  exists 0%nat. intros fuel _. exists w1. split; [|auto]. rewrite (tool_cmd cd fuel e _ l T).
  change (if beqb (str "add_board_article") (str "show_board_list") then showboardlist cd fuel e else _) with (addBoardArticle cd fuel e).
  unfold addBoardArticle. rewrite R, (run_need e _ l _ _ _ T O1), (run_need e _ l _ _ _ T O2), (run_need e _ l _ _ _ T O3), (run_need e _ l _ _ _ T O4).
  rewrite !(typed_arg e _ l _ T). unfold option_missing in O5, O6. rewrite O5, O6. reflexivity.
Qed.
Print Assumptions C55_missing_text.

(** ** A failure halfway *)
(** One would rely on: when the command reports an error, there is no new article. *)
Definition C55_all_or_nothing_statement : Prop := forall cd w e l m fuel w' os,
  sane w -> home_ok w e -> typed e "add_board_article" l -> message_typed l m w -> ident (m_board m) ->
  run (tool cd fuel e) w = (w', Ok os) ->
  (exists n, os = [Out (str "new filename: " ++ n)]) \/ forall q, look w' q = look w q.
Definition post_args (b title text : string) : list string :=
  ["add_board_article"; "--board"; b; "--owner"; "pichu"; "--date"; "11/16"; "--title"; title; "--content"; text]%string.
Definition post_options (b title text : string) : list S_Tool.arg :=
  [Option_ (str "board") (str b); Option_ (str "owner") (str "pichu"); Option_ (str "date") (str "11/16"); Option_ (str "title") (str title); Option_ (str "content") (str text)].
Definition example_message (b title text : string) : message := Message (str b) (str "pichu") (str "11/16") (str title) (str text).
Lemma crowded_home args : home_ok crowded (tool_cmdline args).
Proof.
  split; [reflexivity|]. split; [cbn; intros H; repeat (destruct H as [H|H]; [discriminate|]); contradiction|]. exists (rp ["bbs"]%string). split; [split; [split; [discriminate|no_nul]|vm_compute; reflexivity]|vm_compute; reflexivity].
Qed.
Lemma dir_ident : ident (str "dir").
Proof. solve_ident. Qed.
Ltac typed_message := repeat (split; [reflexivity|]); left; reflexivity.
Theorem C55_all_or_nothing_refuted : ~ C55_all_or_nothing_statement.
Proof.
  intros C. set (e := tool_cmdline (post_args "dir" "Hi" "text")). set (l := post_options "dir" "Hi" "text"). set (m := example_message "dir" "Hi" "text").
  assert (R : run (tool id_codec 20 e) crowded = (fst (run (tool id_codec 20 e) crowded), Ok [OutErr (str "AddArticleRecordFileRecord error: ") (ESys EISDIR)])).
  { rewrite (surjective_pairing (run (tool id_codec 20 e) crowded)) at 1. f_equal. }
  assert (T : typed e "add_board_article" l) by (split; [vm_compute; reflexivity|plain_args]).
  assert (M : message_typed l m crowded) by typed_message.
  destruct (C id_codec crowded e l m 20%nat _ _ crowded_sane (crowded_home _) T M dir_ident R) as [[n E]|Q].
  - discriminate E.
  - specialize (Q (rp ["bbs"; "boards"; "d"; "dir"; "M.1600000000.A.007"]%string)). vm_compute in Q. discriminate Q.
Qed.
Print Assumptions C55_all_or_nothing_refuted.

(** One would rely on: an article that the index has got has its text, at every moment and
    after a crash.  But the index comes first. *)
Definition listed_is_written (cd : codec) (w w' : world) (wd : bytes) (m : message) (n : bytes) : Prop :=
  (exists v, file_encoded cd (listed m n) v /\ look w' (index_entry w wd (m_board m)) = Some (EFile (text_at w (index_entry w wd (m_board m)) ++ v))) ->
  look w' (board_entry w wd (m_board m) n) = Some (EFile (enc cd (m_text m))).
Definition C57_always_written_statement : Prop := forall cd fuel wd w m sched w' ps n,
  sane w -> ~ In x00 wd -> ident (m_board m) -> index_fine w wd (m_board m) ->
  run_pool sched w [poster cd fuel wd [m]] = (w', ps) -> listed_is_written cd w w' wd m n.
Definition C57_crash_statement : Prop := forall cd fuel wd w m w' n,
  sane w -> ~ In x00 wd -> ident (m_board m) -> index_fine w wd (m_board m) ->
  crash (post_message cd fuel wd m) w w' -> listed_is_written cd w w' wd m n.
Lemma run_pool_crash {A} (p : prog A) sched : forall w, Forall (fun i => i = 0%nat) sched -> crash p w (fst (run_pool sched w [p])).
Proof.
  revert p. induction sched as [|i sched IH]; intros p w F.
  - destruct p; cbn; now left.
  - inversion F as [|? ? -> F']; subst. destruct p as [a|R c k]; cbn [run_pool nth_error step1].
    + clear F. cbn [upd_nth]. apply IH. exact F'.
    + right. right. destruct (exec c w) as [w1 r]. cbn [upd_nth]. now apply IH.
Qed.
Definition halfway {A} (p : prog A) : world := fst (run_pool (repeat 0 9)%nat crowded [p]).
Definition hi : message := example_message "test" "Hi" "text".
Lemma not_written w' : look w' (board_entry crowded sample_wd (str "test") (str "M.1600000000.A.008")) = Some (EFile []) ->
  look w' (index_entry crowded sample_wd (str "test")) = Some (EFile (MarshalToByte id_codec (listed hi (str "M.1600000000.A.008")))) ->
  ~ listed_is_written id_codec crowded w' sample_wd hi (str "M.1600000000.A.008").
Proof.
  intros A B Q. unfold listed_is_written in Q. change (m_board hi) with (str "test") in Q. rewrite A, B in Q.
  assert (E : text_at crowded (index_entry crowded sample_wd (str "test")) = []) by (vm_compute; reflexivity). rewrite E in Q.
  clear A B E. discriminate Q. eexists. split; [apply file_encode|reflexivity].
Qed.
Lemma crowded_index : index_fine crowded sample_wd (str "test").
Proof. intros Q. vm_compute in Q. discriminate Q. Qed.
Theorem C57_always_written_refuted : ~ C57_always_written_statement.
Proof.
  intros C. set (p := poster id_codec 20 sample_wd [hi]). apply (not_written (halfway p)); [vm_compute; reflexivity|vm_compute; reflexivity|].
  apply (C id_codec 20%nat sample_wd crowded hi (repeat 0 9)%nat _ (snd (run_pool (repeat 0 9)%nat crowded [p])));
    [exact crowded_sane|no_nul|exact test_ident|exact crowded_index|].
  apply surjective_pairing.
Qed.
Print Assumptions C57_always_written_refuted.
Theorem C57_crash_leaves_empty_article_refuted : ~ C57_crash_statement.
Proof.
  intros C. set (p := post_message id_codec 20 sample_wd hi). apply (not_written (halfway p)); [vm_compute; reflexivity|vm_compute; reflexivity|].
  apply (C id_codec 20%nat); [exact crowded_sane|no_nul|exact test_ident|exact crowded_index|].
  apply run_pool_crash. repeat constructor.
Qed.
Print Assumptions C57_crash_leaves_empty_article_refuted.

(** ** Examples *)
Example C55_nonvacuous :
  let e := tool_cmdline (post_args "test" "Hi" "text") in
  sane crowded /\ home_ok crowded e /\ typed e "add_board_article" (post_options "test" "Hi" "text") /\
  message_typed (post_options "test" "Hi" "text") hi crowded /\ ident (m_board hi) /\ index_fine crowded sample_wd (m_board hi) /\
  look crowded (board_dir crowded sample_wd (m_board hi)) = Some EDir /\ clock_advances crowded /\
  (forall n, look crowded (board_entry crowded sample_wd (m_board hi) n) <> None -> In n [str "M.1600000000.A.007"]) /\
  (exists ss recs, text_at crowded (index_entry crowded sample_wd (m_board hi)) = concat ss /\ Forall (fun s => length s = 128%nat) ss /\ Forall2 (file_decoded id_codec) ss recs) /\
  file_fits id_codec (listed hi (str "M.1600000000.A.008")) /\
  let (w', r) := run (tool id_codec 20 e) crowded in
  r = Ok [Out (str "new filename: " ++ str "M.1600000000.A.008")] /\
  snd (run (tool id_codec 900 (tool_cmdline ["show_board_article"; "--board"; "test"; "--filename"; "M.1600000000.A.008"]%string)) w') = Ok [Out (str "filecontent: "); Out (str "text")] /\
  snd (run (tool id_codec 900 (tool_cmdline ["show_board_article_list"; "--board"; "test"]%string)) w') = Ok [Out (str "M.1600000000.A.008        pichu 11/16 Hi")].
Proof.
  cbv zeta. split; [exact crowded_sane|]. split; [apply crowded_home|]. split; [split; [vm_compute; reflexivity|plain_args]|].
  split; [typed_message|]. split; [exact test_ident|]. split; [exact crowded_index|].
  destruct C09_nonvacuous as (A & B & C). split; [exact A|]. split; [exact B|]. split; [exact C|].
  split. { exists [], []. split; [vm_compute; reflexivity|]. split; constructor. }
  split. { unfold file_fits. fits. }
  rewrite (surjective_pairing (run _ crowded)). split; [vm_compute; reflexivity|]. split; vm_compute; reflexivity.
Qed.
Definition posters : list (list message) := [[hi; example_message "SYSOP" "Two" "second"]; [example_message "test" "Three" "third"]].
Definition posters_sched : list nat := concat (repeat [0; 1; 1; 0]%nat 24).
Example C57_nonvacuous :
  let x := run_pool posters_sched crowded (map (poster id_codec 20 sample_wd) posters) in
  sane crowded /\ ~ In x00 sample_wd /\
  (forall ms m, In ms posters -> In m ms -> ident (m_board m) /\ index_fine crowded sample_wd (m_board m)) /\
  map finished (snd x) =
    [Some [(hi, Ok [Out (str "new filename: " ++ str "M.1600000000.A.008")]); (example_message "SYSOP" "Two" "second", Ok [Out (str "new filename: " ++ str "M.1600000001.A.008")])];
     Some [(example_message "test" "Three" "third", Ok [Out (str "new filename: " ++ str "M.1600000001.A.007")])]].
Proof.
  cbv zeta. split; [exact crowded_sane|]. split; [no_nul|]. split.
  { intros ms m Hms Hm. cbn in Hms. repeat destruct Hms as [<-|Hms]; try contradiction; cbn in Hm;
      repeat destruct Hm as [<-|Hm]; try contradiction; (split; [first [exact test_ident|exact sysop_ident]|intros Q; vm_compute in Q; discriminate Q]). }
  vm_compute. reflexivity.
Qed.
