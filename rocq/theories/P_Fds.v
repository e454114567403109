(** * Descriptors: a syntactic discipline that implies that nothing is leaked *)
From Coq Require Import Lia ZifyBool ZifyNat ZifyN.
From Verif Require Import M_Base M_Sys M_Path M_FileOps M_DB S_World S_Store P_Base P_Sys.
Open Scope N_scope.

(** the descriptor a call works on *)
Definition sys_fd {R} (c : sys R) : option N :=
  match c with
  | Read fd _ | ReadAll fd | Write fd _ | SeekSet fd _ | SeekCur0 fd | Ftruncate fd _ => Some fd
  | _ => None
  end.
Definition plain_sys {R} (c : sys R) : Prop := match c with Open _ _ | Close _ => False | _ => True end.

(** [tidy ok held p]: the program, holding the descriptors [held], works only on
    those and the ones it opens, and holds none when it returns, unless its
    result is one of the exempted ones ([ok]). *)
Inductive tidy {A} (ex : A -> Prop) : list N -> prog A -> Prop :=
| tidy_ret a : tidy ex [] (Ret a)
| tidy_exempt held a : ex a -> tidy ex held (Ret a)
| tidy_open held p fl k :
    (forall e, tidy ex held (k (RErr e))) -> (forall fd, tidy ex (fd :: held) (k (ROk fd))) ->
    tidy ex held (Call (Open p fl) k)
| tidy_close a b fd k : tidy ex (a ++ b) (k tt) -> tidy ex (a ++ fd :: b) (Call (Close fd) k)
| tidy_other held R (c : sys R) k :
    plain_sys c -> (forall fd, sys_fd c = Some fd -> In fd held) ->
    (forall r, tidy ex held (k r)) -> tidy ex held (Call c k).

Definition fresh_fds (w : world) : Prop := forall fd, w_nextfd w <= fd -> w_fds w fd = None.

Lemma plain_fds {R} (c : sys R) w : plain_sys c ->
  w_nextfd (fst (exec c w)) = w_nextfd w /\
  forall f, w_fds w f = None \/ sys_fd c <> Some f -> w_fds (fst (exec c w)) f = w_fds w f.
Proof.
  intros P. destruct c; cbn [plain_sys] in P; try contradiction; cbn [exec sys_fd].
  - unfold sys_read. destruct (w_fds w fd) as [[[i|] ? ? rd ?]|] eqn:E; cbn; auto. destruct rd; cbn; auto.
    split; auto. intros f [H|H]; destruct N.eq_dec; congruence.
  - unfold sys_read_all. destruct (w_fds w fd) as [[[i|] ? ? rd ?]|] eqn:E; cbn; auto. destruct rd; cbn; auto.
    split; auto. intros f [H|H]; destruct N.eq_dec; congruence.
  - unfold sys_write. destruct (w_fds w fd) as [[[i|] ? ? rd wr]|] eqn:E; cbn; auto. destruct wr; cbn; auto.
    split; auto. intros f [H|H]; destruct N.eq_dec; congruence.
  - unfold sys_seek_set. destruct (w_fds w fd) as [[[i|] ? ? rd wr]|] eqn:E; cbn; auto; destruct (off <? 0)%Z; cbn; auto;
    (split; auto; intros f [H|H]; destruct N.eq_dec; congruence).
  - unfold sys_seek_cur0. destruct (w_fds w fd); cbn; auto.
  - unfold sys_ftruncate. destruct (w_fds w fd) as [[[i|] ? ? rd wr]|] eqn:E; cbn; auto. destruct wr; cbn; auto.
  - unfold sys_stat. destruct (has_nul p), (beqb p []); cbn; auto. destruct (is_dir w (resolve (w_cwd w) p)); cbn; auto. destruct (w_tree w (resolve (w_cwd w) p)) as [[]|]; cbn; auto.
  - unfold sys_unlink. destruct (has_nul p), (beqb p []); cbn; auto. destruct (is_dir w (resolve (w_cwd w) p)); cbn; auto. destruct (w_tree w (resolve (w_cwd w) p)) as [[]|]; cbn; auto.
  - cbn. auto.
  - cbn. auto.
Qed.
Lemma open_fds p fl w : 
  (exists e, exec (Open p fl) w = (w, RErr e)) \/
  exists w1, exec (Open p fl) w = (w1, ROk (w_nextfd w)) /\ w_nextfd w1 = N.succ (w_nextfd w) /\
    (exists o, w_fds w1 (w_nextfd w) = Some o) /\
    forall f, f <> w_nextfd w -> w_fds w1 f = w_fds w f.
Proof.
  cbn [exec]. unfold sys_open.
  destruct (has_nul p); [left; eauto|]. destruct (beqb p []); [left; eauto|].
  assert (K : forall w1 o, w_nextfd w1 = w_nextfd w -> (forall f, w_fds w1 f = w_fds w f) ->
    exists w2, (bump_fd (set_fd w1 (w_nextfd w) (Some o)), ROk (w_nextfd w)) = (w2, ROk (w_nextfd w)) /\
      w_nextfd w2 = N.succ (w_nextfd w) /\ (exists o, w_fds w2 (w_nextfd w) = Some o) /\
      forall f, f <> w_nextfd w -> w_fds w2 f = w_fds w f).
  { intros w1 o E F. eexists. split; [reflexivity|]. cbn. rewrite E. split; [reflexivity|]. split.
    - exists o. now destruct N.eq_dec.
    - intros f Hf. destruct N.eq_dec; [contradiction|]. apply F. }
  destruct (if is_dir w (resolve (w_cwd w) p) then Some NDir else w_tree w (resolve (w_cwd w) p)) as [[|i]|].
  - destruct (o_creat fl && o_excl fl); [left; eauto|]. destruct (o_wr fl || o_creat fl); [left; eauto|].
    right. apply K; auto.
  - destruct (o_creat fl && o_excl fl); [left; eauto|]. right. apply K; destruct (o_trunc fl); auto.
  - destruct (o_creat fl); [|left; eauto]. destruct (is_dir w (parent (resolve (w_cwd w) p))); [|left; eauto]. right. apply K; auto.
Qed.

Lemma tidy_sound {A} (ex : A -> Prop) held p : tidy ex held p -> forall w0 w w' a,
  fresh_fds w0 -> fresh_fds w -> w_nextfd w0 <= w_nextfd w ->
  (forall h, In h held -> w_nextfd w0 <= h) ->
  (forall f, ~ In f held -> w_fds w f = w_fds w0 f) ->
  run p w = (w', a) -> fresh_fds w' /\ (ex a \/ same_fds w0 w').
Proof.
  induction 1 as [a0|held a0 E|held p fl k He IHe Ho IHo|a0 b fd k H IH|held R c k P Hc H IH];
    intros w0 w w' a F0 F M Hh Hf Rn.
  - cbn in Rn. injection Rn as <- <-. split; [exact F|]. right. intros f. now apply Hf.
  - cbn in Rn. injection Rn as <- <-. split; [exact F|]. now left.
  - cbn [run] in Rn. destruct (open_fds p fl w) as [(e & E)|(w1 & E & N1 & (o & O1) & F1)]; rewrite E in Rn.
    + eapply (IHe e w0 w); eauto.
    + eapply (IHo (w_nextfd w) w0 w1); eauto.
      * intros f Q. rewrite F1 by lia. apply F. lia.
      * lia.
      * intros h [<-|Q]; [lia|auto].
      * intros f Q. rewrite F1 by (intros ->; apply Q; now left). apply Hf. intros Q'. apply Q. now right.
  - cbn [run exec] in Rn. eapply (IH w0 (set_fd w fd None)); eauto.
    + intros f Q. cbn. destruct N.eq_dec; [reflexivity|]. now apply F.
    + intros h Q. apply Hh. apply in_app_iff in Q. apply in_app_iff. cbn. tauto.
    + intros f Q. cbn. destruct N.eq_dec as [->|Nf].
      * symmetry. apply F0. apply Hh. apply in_app_iff. right. now left.
      * apply Hf. intros Q'. apply Q. apply in_app_iff in Q'. apply in_app_iff. destruct Q' as [Q'|[Q'|Q']]; auto. congruence.
  - cbn [run] in Rn. destruct (plain_fds c w P) as [N1 F1]. destruct (exec c w) as [w1 r]. cbn [fst] in *.
    eapply (IH r w0 w1); eauto.
    + intros f Q. rewrite F1; [apply F; lia|]. left. apply F. lia.
    + lia.
    + intros f Q. rewrite F1; [now apply Hf|]. right. intros Q'. apply Q. now apply Hc.
Qed.
Lemma tidy_run {A} (ex : A -> Prop) p w w' a : tidy ex [] p -> fresh_fds w -> run p w = (w', a) -> ~ ex a -> same_fds w w'.
Proof.
  intros T F R X. destruct (tidy_sound ex [] p T w w w' a) as [_ [Q|Q]]; auto; try lia; try contradiction.
Qed.

Definition diverges {A} (o : outcome A) : Prop := o = Diverge.

Lemma tidy_bind {A B} (ex : A -> Prop) (ex' : B -> Prop) held p (k : A -> prog B) :
  tidy ex held p -> (forall a, tidy ex' [] (k a)) -> (forall a, ex a -> forall h, tidy ex' h (k a)) ->
  tidy ex' held (bind p k).
Proof.
  intros T Hk Hx. induction T as [a0|held a0 E|held q fl k0 He IHe Ho IHo|a0 b fd k0 H IH|held R c k0 P Hc H IH]; cbn [bind].
  - apply Hk.
  - now apply Hx.
  - now constructor.
  - now apply tidy_close.
  - now apply tidy_other.
Qed.
Lemma tidy_pbind {A B} held (p : prog (outcome A)) (k : A -> prog (outcome B)) :
  tidy diverges held p -> (forall a, tidy diverges [] (k a)) -> tidy diverges held (pbind p k).
Proof.
  intros T Hk. eapply tidy_bind; [exact T| |].
  - intros [a|e| |]; [apply Hk|constructor..].
  - intros a -> h. now apply tidy_exempt.
Qed.
Lemma tidy_lift {A} (o : outcome A) : tidy diverges [] (lift o).
Proof. constructor. Qed.
Lemma tidy_close1 {A} (ex : A -> Prop) fd b k : tidy ex b (k tt) -> tidy ex (fd :: b) (Call (Close fd) k).
Proof. intros H. now apply (tidy_close ex [] b fd k). Qed.

(** proves [tidy] of straight-line programs *)
Ltac tidy_step :=
  match goal with
  | |- tidy _ [] (Ret _) => apply tidy_ret
  | |- tidy _ _ (Ret Diverge) => apply tidy_exempt; reflexivity
  | |- tidy _ _ (Call (Open _ _) _) => apply tidy_open; intros
  | |- tidy _ (?fd :: _) (Call (Close ?fd) _) => apply tidy_close1
  | |- tidy _ _ (Call _ _) => apply tidy_other; [exact I| |intros]
  | |- tidy _ _ (pbind (lift _) _) => apply tidy_pbind; [apply tidy_lift|intros]
  | |- forall fd, sys_fd _ = Some fd -> _ => cbn [sys_fd]; intros ? [= <-] || intros ? [=]; cbn [In]; auto
  | |- tidy _ _ (match ?r with ROk _ => _ | RErr _ => _ end) => destruct r
  end.
Ltac tidy_tac := repeat (cbv beta; tidy_step).

Lemma tidy_open_write fl p d : tidy diverges [] (open_write fl p d).
Proof. unfold open_write. tidy_tac. Qed.
Lemma tidy_read_loop {A} size (decode : bytes -> outcome A) strict fuel fd acc :
  tidy diverges [fd] (read_loop size decode strict true fuel fd acc).
Proof.
  revert acc. induction fuel as [|fuel IH]; intros acc; cbn [read_loop]; [tidy_tac|].
  apply tidy_other; [exact I|cbn; intros ? [= <-]; now left|]. intros r. unfold close_if.
  assert (K : forall d, tidy diverges [fd] match decode (fill size d) with
     | Ok a => read_loop size decode strict true fuel fd (a :: acc)
     | Err e => Call (Close fd) (fun _ => Ret (Err e))
     | Panic => Call (Close fd) (fun _ => Ret Panic)
     | Diverge => Ret Diverge end).
  { intros d. destruct (decode _); tidy_tac. apply IH. }
  destruct r as [[|x d]|e].
  - tidy_tac.
  - exact (K (x :: d)).
  - destruct strict; [tidy_tac|exact (K [])].
Qed.
Lemma tidy_open_records {A} size (decode : bytes -> outcome A) strict fuel p :
  tidy diverges [] (open_records size decode strict true fuel p).
Proof. unfold open_records. tidy_tac. apply tidy_read_loop. Qed.
Lemma tidy_read_file p : tidy diverges [] (read_file p).
Proof. unfold read_file. tidy_tac. Qed.
Lemma tidy_read_article p : tidy diverges [] (ReadBoardArticleFile p).
Proof. unfold ReadBoardArticleFile. tidy_tac. Qed.
Lemma tidy_update cd p i f : tidy diverges [] (UpdateFileHeaderFileRecord cd p i f).
Proof. unfold UpdateFileHeaderFileRecord. tidy_tac. Qed.
Lemma tidy_copy_loop {A} chunk fuel (K : outcome unit -> prog (outcome A)) fi fo : 
  (forall o, o <> Diverge -> o <> Panic -> tidy diverges [fo; fi] (K o)) -> K Diverge = Ret Diverge ->
  forall k, tidy diverges [fo; fi] (bind (copy_loop chunk fuel k fi fo) K).
Proof.
  intros HK HD. induction fuel as [|fuel IH]; intros k; cbn [copy_loop bind]; [rewrite HD; tidy_tac|].
  apply tidy_other; [exact I|cbn; intros ? [= <-]; auto|]. intros [[|x d]|e]; cbn [bind].
  - apply HK; discriminate.
  - apply tidy_other; [exact I|cbn; intros ? [= <-]; auto|]. intros [n|e]; [apply IH|]. apply HK; discriminate.
  - apply HK; discriminate.
Qed.
Lemma tidy_remove chunk fuel p i : tidy diverges [] (RemoveBoardHeaderFileRecord chunk fuel p i).
Proof.
  unfold RemoveBoardHeaderFileRecord. tidy_tac. apply tidy_copy_loop; [|reflexivity].
  intros [a1|e| |] H1 H2; try congruence; tidy_tac.
Qed.
Lemma tidy_create fuel wd b : tidy diverges [] (CreateBoardArticleFilename fuel wd b).
Proof.
  induction fuel as [|fuel IH]; cbn [CreateBoardArticleFilename]; tidy_tac.
  destruct (GetBoardArticleFilePath _ _ _); tidy_tac. exact IH.
Qed.
Lemma tidy_create_fixed fuel wd b t (K : bytes * N -> prog (outcome M_File.FileHeader)) :
  (forall n fd, tidy diverges [fd] (K (n, fd))) -> tidy diverges [] (pbind (create_fixed_time fuel wd b t) K).
Proof.
  intros HK. unfold pbind. induction fuel as [|fuel IH]; cbn [create_fixed_time bind]; tidy_tac.
  destruct (GetBoardArticleFilePath _ _ _); cbn [bind]; tidy_tac; cbn [bind]; [exact IH|apply HK].
Qed.
Lemma tidy_new_with_map fuel wd o d t b : tidy diverges [] (NewArticleRecordWithMap fuel wd o d t b).
Proof.
  unfold NewArticleRecordWithMap. destruct o, d, t, b; tidy_tac.
  apply tidy_create_fixed. intros n fd. tidy_tac.
Qed.

(** ** The calls of the store *)
Definition leaky (c : call) : Prop := c = ListBoards \/ c = ListUsers.
Lemma tidy_call cd wd c fuel : ~ leaky c -> tidy diverges [] (call_prog cd wd c fuel).
Proof.
  intros NL. assert (K : forall A (f : A -> answer) (p : prog (outcome A)), tidy diverges [] p -> tidy diverges [] (answer_with f p)).
  { intros A f p T. unfold answer_with. apply tidy_pbind; [exact T|]. intros a. constructor. }
  destruct c; cbn [call_prog]; try (exfalso; apply NL; unfold leaky; auto; fail); apply K;
  unfold AddArticleRecordFileRecord, UpdateArticleRecord, ReadBoardArticleRecordsFile, ReadBoardTreasureRecordsFile, DB_WriteBoardArticleFile, DB_AppendBoardArticleFile,
    DB_ReadBoardArticleFile, ReadBoardTreasureFile, DB_WriteUserDraft, DB_DeleteUserDraft, GetUserDrafts, AddBoardRecord;
  tidy_tac; rewrite ?append_record_shape, ?append_board_shape, ?write_article_shape, ?append_article_shape, ?write_draft_shape;
  auto using tidy_open_write, tidy_update, tidy_read_article, tidy_open_records.
  - eapply tidy_bind; [apply tidy_open_records| |].
    + intros [l|e| |]; [constructor| |constructor|constructor]. destruct (says_no_such_file _ e); constructor.
    + intros o -> h. now apply tidy_exempt.
  - apply tidy_open_records.
  - unfold DeleteUserDraft. tidy_tac.
  - unfold ReadUserDraft. tidy_tac. apply tidy_read_file.
Qed.
