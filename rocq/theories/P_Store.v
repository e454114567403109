(** * Proofs for the map-of-files refinement *)
From Coq Require Import Lia ZifyBool ZifyNat ZifyN.
From Verif Require Import M_Base M_Sys M_Path M_File M_Board M_Userec M_FileOps M_DB.
From Verif Require Import S_World S_Path S_Layout S_File S_Board S_Userec S_BoardList S_Store.
From Verif Require Import P_Base P_Layout P_Records P_Sys P_Read P_Path P_FileOps P_BoardList.
Open Scope N_scope.

Definition same_else (rp : rpath) (w w' : world) : Prop :=
  w_cwd w' = w_cwd w /\ (forall q, q <> rp -> look w' q = look w q).
Lemma same_but_else rp w w' : same_but rp w w' -> same_else rp w w'.
Proof. intros (C & F & _). split; auto. Qed.
Lemma same_files_else rp w w' : same_files w w' -> same_else rp w w'.
Proof. intros (C & F). split; auto. Qed.
Lemma same_else_refl rp w : same_else rp w w.
Proof. split; auto. Qed.

(** ** reading whole files *)
Definition open_read_all (p : bytes) : prog (outcome bytes) :=
  Call (Open p O_RDONLY) (fun r =>
  match r with
  | RErr e => Ret (Err (ESys e))
  | ROk fd =>
      Call (ReadAll fd) (fun r =>
      Call (Close fd) (fun _ =>
      match r with
      | RErr e => Ret (Err (ESys e))
      | ROk d => Ret (Ok d)
      end))
  end).
Lemma read_article_shape p : ReadBoardArticleFile p = open_read_all p.
Proof. reflexivity. Qed.
Lemma read_file_shape p : read_file p = open_read_all p.
Proof. reflexivity. Qed.

Lemma open_read_all_file p w rp d :
  sane w -> names w p rp -> look w rp = Some (EFile d) ->
  exists w', run (open_read_all p) w = (w', Ok d) /\ sane w' /\ same_files w w' /\ same_fds w w'.
Proof.
  intros S N L. destruct (open_existing w p O_RDONLY rp d N L eq_refl) as (i & T & D & E).
  unfold open_read_all. cbn [run]. rewrite E. cbn [o_trunc O_RDONLY o_append o_rd o_wr].
  set (w1 := bump_fd _).
  assert (F : w_fds w1 (w_nextfd w) = Some (OFile (Some i) 0 false true false)).
  { subst w1. cbn. now destruct N.eq_dec. }
  cbn [run exec]. unfold sys_read_all. rewrite F. cbn [of_ino of_rd of_pos of_append of_wr N.to_nat skipn].
  cbn [run exec]. eexists. split.
  { f_equal. f_equal. subst w1. cbn. exact D. }
  split; [|split].
  - apply sane_close. apply sane_set_fd.
    + apply sane_new_fd; auto. cbn. intros j [= <-]. eapply sane_ino; eauto.
    + cbn. lia.
    + intros q j [= <-] Q. cbn in Q. injection Q as <-. cbn. eapply sane_ino; eauto.
  - split; [reflexivity|]. intros q. reflexivity.
  - intros f. cbn. destruct N.eq_dec; [subst; symmetry; apply (sane_fd w S); lia|].
    reflexivity.
Qed.
Lemma open_read_all_missing p w rp : names w p rp -> look w rp = None ->
  run (open_read_all p) w = (w, Err (ESys (missing w rp))).
Proof. intros N L. unfold open_read_all. cbn [run]. rewrite (open_missing w p O_RDONLY rp N L); auto. Qed.

Lemma stat_file p w rp d : names w p rp -> look w rp = Some (EFile d) -> exec (Stat p) w = (w, ROk false).
Proof.
  intros [P R] L. destruct (look_file _ _ _ L) as (i & T & D & N).
  cbn [exec]. unfold sys_stat. destruct (proper_tests p P) as [-> ->]. rewrite R.
  assert (is_dir w rp = false) as ->. { apply is_dir_look_false. rewrite L. discriminate. }
  now rewrite T.
Qed.
Lemma stat_missing p w rp : names w p rp -> look w rp = None -> exec (Stat p) w = (w, RErr (missing w rp)).
Proof.
  intros [P R] L. destruct (look_none _ _ L) as (T & N).
  cbn [exec]. unfold sys_stat. destruct (proper_tests p P) as [-> ->]. rewrite R.
  assert (is_dir w rp = false) as ->. { apply is_dir_look_false. rewrite L. discriminate. }
  now rewrite T.
Qed.
Lemma unlink_file p w rp d : sane w -> names w p rp -> look w rp = Some (EFile d) ->
  exec (Unlink p) w = (set_tree w rp None, ROk tt) /\ sane (set_tree w rp None) /\
  look (set_tree w rp None) rp = None /\ same_but rp w (set_tree w rp None).
Proof.
  intros S [P R] L. destruct (look_file _ _ _ L) as (i & T & D & N). split; [|split; [|split]].
  - cbn [exec]. unfold sys_unlink. destruct (proper_tests p P) as [-> ->]. rewrite R.
    assert (is_dir w rp = false) as ->. { apply is_dir_look_false. rewrite L. discriminate. }
    now rewrite T.
  - eapply sane_unlink; eauto.
  - unfold look. cbn. destruct rp; [contradiction|]. destruct rp_eq_dec; [reflexivity|contradiction].
  - split; [reflexivity|]. split; [|intros fd; reflexivity]. intros q Hq. unfold look. cbn.
    destruct q; [reflexivity|]. destruct rp_eq_dec; [contradiction|reflexivity].
Qed.
Lemma unlink_missing p w rp : names w p rp -> look w rp = None -> exec (Unlink p) w = (w, RErr (missing w rp)).
Proof.
  intros [P R] L. destruct (look_none _ _ L) as (T & N).
  cbn [exec]. unfold sys_unlink. destruct (proper_tests p P) as [-> ->]. rewrite R.
  assert (is_dir w rp = false) as ->. { apply is_dir_look_false. rewrite L. discriminate. }
  now rewrite T.
Qed.

(** ** writing into the middle *)
Lemma write_patched pos v d : v <> [] -> patched pos v d (write_at pos v d).
Proof.
  intros Nv. unfold write_at. destruct v as [|b v]; [contradiction|]. set (x := b :: v) in *.
  assert (LA : length (firstn (N.to_nat pos) (d ++ zeros (pos - lenN d))) = N.to_nat pos).
  { rewrite firstn_length, app_length. unfold zeros, lenN. rewrite repeat_length. lia. }
  split; [|split].
  - exists (firstn (N.to_nat pos) (d ++ zeros (pos - lenN d))), (skipn (N.to_nat pos + length x) d).
    split; [reflexivity|]. rewrite LA. split; [lia|reflexivity].
  - rewrite !app_length, LA, skipn_length. lia.
  - intros k y E H. destruct H as [H|H].
    + rewrite nth_error_app1 in E by lia.
      assert (E' : nth_error (d ++ zeros (pos - lenN d)) k = Some y).
      { rewrite <- (firstn_skipn (N.to_nat pos) (d ++ zeros (pos - lenN d))).
        rewrite nth_error_app1 by lia. exact E. }
      destruct (Nat.lt_ge_cases k (length d)) as [Hk|Hk].
      * left. rewrite nth_error_app1 in E' by lia. exact E'.
      * right. rewrite nth_error_app2 in E' by lia. split; [apply nth_error_None; lia|].
        apply nth_error_In in E'. unfold zeros in E'. now apply repeat_spec in E'.
    + left. rewrite nth_error_app2 in E by lia. rewrite nth_error_app2 in E by lia. rewrite LA in E.
      assert (G : forall n m (l : bytes), nth_error (skipn n l) m = nth_error l (n + m)).
      { clear. induction n as [|n IH]; intros m l; [reflexivity|]. destruct l; [now destruct m|]. apply IH. }
      rewrite G in E. rewrite <- E. f_equal. lia.
Qed.

Lemma decode_slots {A} (D : bytes -> A -> Prop) (decode : bytes -> outcome A) (size : N) d l :
  0 < size -> (forall s, N.of_nat (length s) = size -> exists a, decode s = Ok a /\ D s a) ->
  Forall2 (fun s a => decode s = Ok a) (cut size d) l -> Forall2 D (cut size d) l.
Proof.
  intros P H G. destruct (cut_slots size d P) as [LS _]. revert LS. induction G as [|s f ss l E G IH]; intros LS; constructor.
  - inversion LS as [|? ? Ls]. subst. destruct (H s) as (a & E' & Q); [lia|]. rewrite E in E'. injection E' as <-. exact Q.
  - apply IH. now inversion LS.
Qed.

Lemma run_answer {A} (k : A -> answer) p w : run (answer_with k p) w =
  (fst (run p w), match snd (run p w) with Ok a => Ok (k a) | Err e => Err e | Panic => Panic | Diverge => Diverge end).
Proof. unfold answer_with. rewrite run_pbind. destruct (run p w) as [w' [a|e| |]]; reflexivity. Qed.

Lemma returns_const cd wd c w w' r : (forall n, run (call_prog cd wd c n) w = (w', r)) -> r <> Diverge -> returns (call_prog cd wd c) w w' r.
Proof. intros H N. split; [exact N|]. exists 0%nat. apply H. Qed.

(** what one call does to its object *)
Lemma call_step cd wd c w p rp old :
  sane w -> call_ok c -> object_path wd (call_object c) = Ok p -> names w p rp -> has_dir w rp ->
  look w rp = option_map EFile old ->
  exists w' r new, returns (call_prog cd wd c) w w' r /\ sane w' /\ same_else rp w w' /\
    look w' rp = option_map EFile new /\ call_meets cd c old new r.
Proof.
  intros S [P Hi] E N H L. pose proof (missing_enoent w rp S H) as M.
  destruct c; cbn [call_object object_path] in E; cbn [call_meets].
  - (* AddRecord *)
    assert (R : exists w', run (AppendFileHeaderFileRecord cd p f) w = (w', Ok tt) /\ sane w' /\ same_but rp w w' /\
      look w' rp = Some (EFile (old_or_empty old ++ MarshalToByte cd f))).
    { rewrite append_record_shape. destruct old as [d|]; cbn [option_map] in L.
      - destruct (open_write_file O_APPEND_CREATE_WRONLY p (MarshalToByte cd f) w rp d) as (w' & R & S' & B & L'); auto.
        exists w'. split; [exact R|]. split; [exact S'|]. split; [exact B|]. rewrite L'. unfold written. cbn [o_trunc O_APPEND_CREATE_WRONLY o_append]. now rewrite write_at_end.
      - destruct (open_write_create O_APPEND_CREATE_WRONLY p (MarshalToByte cd f) w rp) as (w' & R & S' & B & L'); auto.
        exists w'. split; [exact R|]. split; [exact S'|]. split; [exact B|]. rewrite L'. unfold written. cbn [o_trunc O_APPEND_CREATE_WRONLY o_append]. now rewrite write_at_end. }
    destruct R as (w' & R & S' & B & L').
    exists w', (Ok Done), (Some (old_or_empty old ++ MarshalToByte cd f)). split.
    { apply returns_const; [|discriminate]. intros n. cbn [call_prog]. rewrite run_answer.
      unfold AddArticleRecordFileRecord. rewrite run_pbind. unfold lift. rewrite E. cbn [run]. rewrite R. reflexivity. }
    split; [exact S'|]. split; [now apply same_but_else|]. split; [exact L'|].
    exists (MarshalToByte cd f). split; [apply file_encode|]. auto.
  - (* UpdateRecord *)
    destruct old as [d|]; cbn [option_map] in L.
    + destruct (update_file cd p i f w rp d) as (w' & R & S' & B & L'); auto.
      exists w', (Ok Done), (Some (write_at (i * 128) (MarshalToByte cd f) d)). split.
      { apply returns_const; [|discriminate]. intros n. cbn [call_prog]. rewrite run_answer.
        unfold UpdateArticleRecord. rewrite run_pbind. unfold lift. rewrite E. cbn [run]. rewrite R. reflexivity. }
      split; [exact S'|]. split; [now apply same_but_else|]. split; [exact L'|].
      exists (MarshalToByte cd f), (write_at (i * 128) (MarshalToByte cd f) d). split; [apply file_encode|]. split; [|auto].
      apply write_patched. intros Q. pose proof (marshal_length cd f) as X. rewrite Q in X. discriminate.
    + exists w, (no_file), None. split.
      { apply returns_const; [|discriminate]. intros n. cbn [call_prog]. rewrite run_answer.
        unfold UpdateArticleRecord. rewrite run_pbind. unfold lift. rewrite E. cbn [run].
        rewrite (update_missing cd p i f w rp N L), M. reflexivity. }
      split; [exact S|]. split; [apply same_else_refl|]. auto.
  - (* ListRecords *)
    destruct old as [d|]; cbn [option_map] in L.
    + destruct (open_records_file 128 (NewFileHeaderWithByte cd) false true (Datatypes.S (length d)) w p rp d)
        as (w' & l & R & G & S' & SF & FD); auto; [reflexivity|apply header_decodes|].
      exists w', (Ok (Files l)), (Some d). split.
      { split; [discriminate|]. exists (Datatypes.S (length d)). cbn [call_prog]. rewrite run_answer.
        unfold ReadBoardArticleRecordsFile. rewrite run_pbind. unfold lift. rewrite E. cbn [run].
        rewrite run_bind. unfold OpenFileHeaderFile. rewrite R. reflexivity. }
      split; [exact S'|]. split; [now apply same_files_else|]. split; [destruct SF as [_ SF]; now rewrite SF|].
      split; [reflexivity|]. exists (cut 128 d), l. split; [exact (cut_slots 128 d eq_refl)|]. split; [|reflexivity].
      apply (decode_slots _ (NewFileHeaderWithByte cd)); [reflexivity| |exact G]. intros s Ls. apply file_decode. unfold lenN. lia.
    + exists w, (Ok (Files [])), None. split.
      { split; [discriminate|]. exists 0%nat. cbn [call_prog]. rewrite run_answer.
        rewrite (list_board_missing cd w wd b p rp 0); auto. }
      split; [exact S|]. split; [apply same_else_refl|]. split; [exact L|]. split; [reflexivity|].
      exists [], []. split; [|split; [constructor|reflexivity]]. split; [constructor|]. exists 0%nat. cbn. split; [reflexivity|lia].
  - (* ListTreasures *)
    destruct old as [d|]; cbn [option_map] in L.
    + destruct (open_records_file 128 (NewFileHeaderWithByte cd) false true (Datatypes.S (length d)) w p rp d)
        as (w' & l & R & G & S' & SF & FD); auto; [reflexivity|apply header_decodes|].
      exists w', (Ok (Files l)), (Some d). split.
      { split; [discriminate|]. exists (Datatypes.S (length d)). cbn [call_prog]. rewrite run_answer.
        unfold ReadBoardTreasureRecordsFile. rewrite run_pbind. unfold lift. rewrite E. cbn [run].
        unfold OpenFileHeaderFile. rewrite R. reflexivity. }
      split; [exact S'|]. split; [now apply same_files_else|]. split; [destruct SF as [_ SF]; now rewrite SF|].
      split; [reflexivity|]. exists (cut 128 d), l. split; [exact (cut_slots 128 d eq_refl)|]. split; [|reflexivity].
      apply (decode_slots _ (NewFileHeaderWithByte cd)); [reflexivity| |exact G]. intros s Ls. apply file_decode. unfold lenN. lia.
    + exists w, no_file, None. split.
      { split; [discriminate|]. exists 0%nat. cbn [call_prog]. rewrite run_answer.
        unfold ReadBoardTreasureRecordsFile. rewrite run_pbind. unfold lift. rewrite E. cbn [run].
        unfold OpenFileHeaderFile. rewrite (open_records_missing _ _ _ _ _ w p rp N L), M. reflexivity. }
      split; [exact S|]. split; [apply same_else_refl|]. auto.
  - (* WriteArticle *)
    assert (R : exists w', run (WriteBoardArticleFile p c) w = (w', Ok tt) /\ sane w' /\ same_but rp w w' /\
      look w' rp = Some (EFile (c ++ skipn (length c) (old_or_empty old)))).
    { rewrite write_article_shape. destruct old as [d|]; cbn [option_map] in L.
      - destruct (open_write_file O_WRONLY_CREATE p c w rp d) as (w' & R & S' & B & L'); auto.
        exists w'. split; [exact R|]. split; [exact S'|]. split; [exact B|]. rewrite L'. unfold written. cbn [o_trunc O_WRONLY_CREATE o_append].
        now rewrite write_at_0.
      - destruct (open_write_create O_WRONLY_CREATE p c w rp) as (w' & R & S' & B & L'); auto.
        exists w'. split; [exact R|]. split; [exact S'|]. split; [exact B|]. rewrite L'. unfold written. cbn [o_trunc O_WRONLY_CREATE o_append].
        now rewrite write_at_0. }
    destruct R as (w' & R & S' & B & L').
    exists w', (Ok Done), (Some (c ++ skipn (length c) (old_or_empty old))). split.
    { apply returns_const; [|discriminate]. intros n. cbn [call_prog]. rewrite run_answer.
      unfold DB_WriteBoardArticleFile. rewrite run_pbind. unfold lift. rewrite E. cbn [run]. rewrite R. reflexivity. }
    split; [exact S'|]. split; [now apply same_but_else|]. split; [exact L'|]. split; [|reflexivity].
    exists (skipn (length c) (old_or_empty old)). split; [reflexivity|].
    destruct (Nat.le_gt_cases (length (old_or_empty old)) (length c)) as [Q|Q].
    + left. split; [now apply skipn_all2|exact Q].
    + right. destruct old as [d|]; cbn [old_or_empty] in *; [|cbn in Q; lia].
      exists (firstn (length c) d). split; [now rewrite firstn_skipn|]. rewrite firstn_length. lia.
  - (* AppendArticle *)
    destruct old as [d|]; cbn [option_map] in L.
    + destruct (open_write_file O_APPEND_WRONLY p c w rp d) as (w' & R & S' & B & L'); auto.
      exists w', (Ok Done), (Some (d ++ c)). split.
      { apply returns_const; [|discriminate]. intros n. cbn [call_prog]. rewrite run_answer.
        unfold DB_AppendBoardArticleFile. rewrite run_pbind. unfold lift. rewrite E. cbn [run].
        rewrite append_article_shape, R. reflexivity. }
      split; [exact S'|]. split; [now apply same_but_else|]. split; [|auto].
      rewrite L'. unfold written. cbn [o_trunc O_APPEND_WRONLY o_append]. now rewrite write_at_end.
    + exists w, no_file, None. split.
      { apply returns_const; [|discriminate]. intros n. cbn [call_prog]. rewrite run_answer.
        unfold DB_AppendBoardArticleFile. rewrite run_pbind. unfold lift. rewrite E. cbn [run].
        rewrite append_article_shape, (open_write_missing O_APPEND_WRONLY p c w rp N L), M; auto. }
      split; [exact S|]. split; [apply same_else_refl|]. auto.
  - (* ReadArticle *)
    destruct old as [d|]; cbn [option_map] in L.
    + destruct (open_read_all_file p w rp d) as (w' & R & S' & SF & _); auto.
      exists w', (Ok (Bytes d)), (Some d). split.
      { apply returns_const; [|discriminate]. intros n. cbn [call_prog]. rewrite run_answer.
        unfold DB_ReadBoardArticleFile. rewrite run_pbind. unfold lift. rewrite E. cbn [run].
        rewrite read_article_shape, R. reflexivity. }
      split; [exact S'|]. split; [now apply same_files_else|]. split; [destruct SF as [_ SF]; now rewrite SF|]. auto.
    + exists w, no_file, None. split.
      { apply returns_const; [|discriminate]. intros n. cbn [call_prog]. rewrite run_answer.
        unfold DB_ReadBoardArticleFile. rewrite run_pbind. unfold lift. rewrite E. cbn [run].
        rewrite read_article_shape, (open_read_all_missing p w rp N L), M. reflexivity. }
      split; [exact S|]. split; [apply same_else_refl|]. auto.
  - (* ReadTreasure *)
    destruct old as [d|]; cbn [option_map] in L.
    + destruct (open_read_all_file p w rp d) as (w' & R & S' & SF & _); auto.
      exists w', (Ok (Bytes d)), (Some d). split.
      { apply returns_const; [|discriminate]. intros n. cbn [call_prog]. rewrite run_answer.
        unfold ReadBoardTreasureFile. rewrite run_pbind. unfold lift. rewrite E. cbn [run].
        rewrite read_article_shape, R. reflexivity. }
      split; [exact S'|]. split; [now apply same_files_else|]. split; [destruct SF as [_ SF]; now rewrite SF|]. auto.
    + exists w, no_file, None. split.
      { apply returns_const; [|discriminate]. intros n. cbn [call_prog]. rewrite run_answer.
        unfold ReadBoardTreasureFile. rewrite run_pbind. unfold lift. rewrite E. cbn [run].
        rewrite read_article_shape, (open_read_all_missing p w rp N L), M. reflexivity. }
      split; [exact S|]. split; [apply same_else_refl|]. auto.
  - (* WriteDraft *)
    assert (R : exists w', run (WriteUserDraft p c) w = (w', Ok tt) /\ sane w' /\ same_but rp w w' /\
      look w' rp = Some (EFile c)).
    { rewrite write_draft_shape. destruct old as [d'|]; cbn [option_map] in L.
      - destruct (open_write_file O_WRONLY_CREATE_TRUNC p c w rp d') as (w' & R & S' & B & L'); auto.
        exists w'. split; [exact R|]. split; [exact S'|]. split; [exact B|]. rewrite L'. unfold written. cbn [o_trunc O_WRONLY_CREATE_TRUNC o_append].
        rewrite write_at_0. destruct (length c); cbn; now rewrite app_nil_r.
      - destruct (open_write_create O_WRONLY_CREATE_TRUNC p c w rp) as (w' & R & S' & B & L'); auto.
        exists w'. split; [exact R|]. split; [exact S'|]. split; [exact B|]. rewrite L'. unfold written. cbn [o_trunc O_WRONLY_CREATE_TRUNC o_append].
        rewrite write_at_0. destruct (length c); cbn; now rewrite app_nil_r. }
    destruct R as (w' & R & S' & B & L').
    exists w', (Ok Done), (Some c). split.
    { apply returns_const; [|discriminate]. intros n. cbn [call_prog]. rewrite run_answer.
      unfold DB_WriteUserDraft. rewrite run_pbind. unfold lift. rewrite E. cbn [run]. rewrite R. reflexivity. }
    split; [exact S'|]. split; [now apply same_but_else|]. auto.
  - (* DeleteDraft *)
    destruct old as [d'|]; cbn [option_map] in L.
    + destruct (unlink_file p w rp d' S N L) as (U & S' & L' & B).
      exists (set_tree w rp None), (Ok Done), None. split.
      { apply returns_const; [|discriminate]. intros n. cbn [call_prog]. rewrite run_answer.
        unfold DB_DeleteUserDraft. rewrite run_pbind. unfold lift. rewrite E. cbn [run].
        unfold DeleteUserDraft. cbn [run]. rewrite U. reflexivity. }
      split; [exact S'|]. split; [now apply same_but_else|]. auto.
    + exists w, no_file, None. split.
      { apply returns_const; [|discriminate]. intros n. cbn [call_prog]. rewrite run_answer.
        unfold DB_DeleteUserDraft. rewrite run_pbind. unfold lift. rewrite E. cbn [run].
        unfold DeleteUserDraft. cbn [run]. rewrite (unlink_missing p w rp N L), M. reflexivity. }
      split; [exact S|]. split; [apply same_else_refl|]. auto.
  - (* ReadDraft *)
    destruct old as [d'|]; cbn [option_map] in L.
    + destruct (open_read_all_file p w rp d') as (w' & R & S' & SF & _); auto.
      exists w', (Ok (Bytes d')), (Some d'). split.
      { apply returns_const; [|discriminate]. intros n. cbn [call_prog]. rewrite run_answer.
        unfold GetUserDrafts. rewrite run_pbind. unfold lift. rewrite E. cbn [run].
        unfold ReadUserDraft. cbn [run]. rewrite (stat_file p w rp d' N L). rewrite read_file_shape, R. reflexivity. }
      split; [exact S'|]. split; [now apply same_files_else|]. split; [destruct SF as [_ SF]; now rewrite SF|]. auto.
    + exists w, (Ok (Bytes [])), None. split.
      { apply returns_const; [|discriminate]. intros n. cbn [call_prog]. rewrite run_answer.
        unfold GetUserDrafts. rewrite run_pbind. unfold lift. rewrite E. cbn [run].
        unfold ReadUserDraft. cbn [run]. rewrite (stat_missing p w rp N L). reflexivity. }
      split; [exact S|]. split; [apply same_else_refl|]. auto.
  - (* AddBoard *)
    assert (R : exists w', run (AppendBoardHeaderFileRecord cd p h) w = (w', Ok tt) /\ sane w' /\ same_but rp w w' /\
      look w' rp = Some (EFile (old_or_empty old ++ BoardHeader_MarshalBinary cd h))).
    { rewrite append_board_shape. destruct old as [d|]; cbn [option_map] in L.
      - destruct (open_write_file O_APPEND_CREATE_WRONLY p (BoardHeader_MarshalBinary cd h) w rp d) as (w' & R & S' & B & L'); auto.
        exists w'. split; [exact R|]. split; [exact S'|]. split; [exact B|]. rewrite L'. unfold written. cbn [o_trunc O_APPEND_CREATE_WRONLY o_append]. now rewrite write_at_end.
      - destruct (open_write_create O_APPEND_CREATE_WRONLY p (BoardHeader_MarshalBinary cd h) w rp) as (w' & R & S' & B & L'); auto.
        exists w'. split; [exact R|]. split; [exact S'|]. split; [exact B|]. rewrite L'. unfold written. cbn [o_trunc O_APPEND_CREATE_WRONLY o_append]. now rewrite write_at_end. }
    destruct R as (w' & R & S' & B & L').
    exists w', (Ok Done), (Some (old_or_empty old ++ BoardHeader_MarshalBinary cd h)). split.
    { apply returns_const; [|discriminate]. intros n. cbn [call_prog]. rewrite run_answer.
      unfold AddBoardRecord. rewrite run_pbind. unfold lift. rewrite E. cbn [run]. rewrite R. reflexivity. }
    split; [exact S'|]. split; [now apply same_but_else|]. split; [exact L'|].
    exists (BoardHeader_MarshalBinary cd h). split; [apply board_encode|]. auto.
  - (* ListBoards *)
    destruct old as [d|]; cbn [option_map] in L.
    + destruct (open_records_file 256 (UnmarshalBoardHeader cd) false false (Datatypes.S (length d)) w p rp d)
        as (w' & l & R & G & S' & SF & FD); auto; [reflexivity| |].
      { intros b Lb. destruct (board_decode cd b) as (x & E' & _); [lia|eauto]. }
      exists w', (Ok (BoardList l)), (Some d). split.
      { split; [discriminate|]. exists (Datatypes.S (length d)). cbn [call_prog]. rewrite run_answer.
        unfold ReadBoardRecords. rewrite run_pbind. unfold lift. rewrite E. cbn [run].
        unfold OpenBoardHeaderFile. change BoardHeaderRecordLength with 256. rewrite R. reflexivity. }
      split; [exact S'|]. split; [now apply same_files_else|]. split; [destruct SF as [_ SF]; now rewrite SF|].
      split; [reflexivity|]. exists (cut 256 d), l. split; [exact (cut_slots 256 d eq_refl)|]. split; [|reflexivity].
      apply (decode_slots _ (UnmarshalBoardHeader cd)); [reflexivity| |exact G]. intros s Ls. apply board_decode. unfold lenN. lia.
    + exists w, no_file, None. split.
      { split; [discriminate|]. exists 0%nat. cbn [call_prog]. rewrite run_answer.
        unfold ReadBoardRecords. rewrite run_pbind. unfold lift. rewrite E. cbn [run].
        unfold OpenBoardHeaderFile. rewrite (open_records_missing _ _ _ _ _ w p rp N L), M. reflexivity. }
      split; [exact S|]. split; [apply same_else_refl|]. auto.
  - (* ListUsers *)
    destruct old as [d|]; cbn [option_map] in L.
    + destruct (open_records_file 512 (UnmarshalUserec cd) false false (Datatypes.S (length d)) w p rp d)
        as (w' & l & R & G & S' & SF & FD); auto; [reflexivity| |].
      { intros b Lb. destruct (userec_decode cd b) as (x & E' & _); [lia|eauto]. }
      exists w', (Ok (UserList l)), (Some d). split.
      { split; [discriminate|]. exists (Datatypes.S (length d)). cbn [call_prog]. rewrite run_answer.
        unfold ReadUserRecords. rewrite run_pbind. unfold lift. rewrite E. cbn [run].
        unfold OpenUserecFile. rewrite R. reflexivity. }
      split; [exact S'|]. split; [now apply same_files_else|]. split; [destruct SF as [_ SF]; now rewrite SF|].
      split; [reflexivity|]. exists (cut 512 d), l. split; [exact (cut_slots 512 d eq_refl)|]. split; [|reflexivity].
      apply (decode_slots _ (UnmarshalUserec cd)); [reflexivity| |exact G]. intros s Ls. apply userec_decode. unfold lenN. lia.
    + exists w, no_file, None. split.
      { split; [discriminate|]. exists 0%nat. cbn [call_prog]. rewrite run_answer.
        unfold ReadUserRecords. rewrite run_pbind. unfold lift. rewrite E. cbn [run].
        unfold OpenUserecFile. rewrite (open_records_missing _ _ _ _ _ w p rp N L), M. reflexivity. }
      split; [exact S|]. split; [apply same_else_refl|]. auto.
Qed.

(** ** frame *)
Definition st_set (s : store) (o : object) (v : option bytes) : store :=
  fun q => if object_eq_dec q o then v else s q.

Lemma object_names wd o p w rp : plain_object o -> ~ In x00 wd -> object_path wd o = Ok p -> names w p rp ->
  rp = home_dir (w_cwd w) wd ++ object_comps o.
Proof.
  intros P Nw E [_ R]. destruct (object_resolves (w_cwd w) wd o P Nw) as (q & Q & _ & R').
  rewrite E in Q. injection Q as <-. congruence.
Qed.

Lemma object_comps_nonempty o : plain_object o -> object_comps o <> [].
Proof.
  intros P E. destruct o; cbn in P, E; try discriminate;
  repeat match goal with H : _ /\ _ |- _ => destruct H end;
  repeat match goal with H : ident ?b |- _ => apply ident_nonempty in H end;
  try (destruct b; try contradiction; discriminate); try (destruct u; try contradiction; discriminate).
Qed.

Lemma stored_step wd O s o w w' p rp new :
  ~ In x00 wd -> stored w wd O s -> O o -> plain_object o -> object_path wd o = Ok p -> names w p rp ->
  same_else rp w w' -> look w' rp = option_map EFile new -> stored w' wd O (st_set s o new).
Proof.
  intros Nw H Oo Po E N [C F] L c Oc Pc.
  destruct (H o Oo Po) as (p1 & rp1 & E1 & N1 & D1 & L1).
  rewrite E in E1. injection E1 as <-.
  assert (rp1 = rp) as -> by (destruct N1 as [_ <-]; destruct N as [_ <-]; reflexivity).
  destruct (H c Oc Pc) as (q & rq & Eq & Nq & Dq & Lq).
  exists q, rq. split; [exact Eq|]. split.
  { destruct Nq as [A B]. split; [exact A|]. now rewrite C. }
  pose proof (object_names wd o p w rp Po Nw E N) as Rp.
  pose proof (object_names wd c q w rq Pc Nw Eq Nq) as Rq.
  assert (Dr : look w' (removelast rq) = look w (removelast rq)).
  { apply F. intros Q. unfold has_dir in Dq. rewrite Q, L1 in Dq. destruct (s o); discriminate. }
  split; [unfold has_dir in *; now rewrite Dr|].
  unfold st_set. destruct (object_eq_dec c o) as [->|Nc].
  - replace rq with rp; [exact L|]. congruence.
  - rewrite F; [exact Lq|]. intros Q. apply Nc. apply object_comps_inj; auto.
    rewrite Rp, Rq in Q. now apply app_inv_head in Q.
Qed.

Lemma mono_answer {A} (k : A -> answer) p : mono p -> mono (fun n => answer_with k (p n)).
Proof. intros M. unfold answer_with. apply mono_pbind; [exact M|]. intros a. apply mono_const. Qed.
Lemma mono_open {A} size (decode : bytes -> outcome A) strict closes (o : outcome bytes) :
  mono (fun n => pbind (lift o) (fun p => open_records size decode strict closes n p)).
Proof.
  apply (mono_pbind (fun _ => lift o)); [apply mono_const|]. intros p.
  intros fuel fuel' w w' a. apply open_records_mono.
Qed.
Lemma mono_call cd wd c : mono (call_prog cd wd c).
Proof.
  destruct c; cbn [call_prog]; try apply mono_const.
  - apply (mono_answer Files _ (mono_list_board cd wd b)).
  - exact (mono_answer Files (fun n => ReadBoardTreasureRecordsFile cd n wd b path) (mono_open _ _ _ _ _)).
  - exact (mono_answer BoardList (fun n => ReadBoardRecords cd n wd) (mono_open _ _ _ _ _)).
  - exact (mono_answer UserList (fun n => ReadUserRecords cd n wd) (mono_open _ _ _ _ _)).
Qed.

Lemma calls_run cd wd O cs s w :
  ~ In x00 wd -> sane w -> stored w wd O s -> Forall call_ok cs -> Forall (fun c => O (call_object c)) cs ->
  exists w' rs, cexec cd wd cs w w' rs.
Proof.
  intros Nw S H F. revert s w S H. induction F as [|c cs Hc Hcs IH]; intros s w S H FO.
  - exists w, []. constructor.
  - inversion FO as [|? ? Oc FO']. subst.
    destruct (H (call_object c) Oc (proj1 Hc)) as (p & rp & E & N & D & L).
    destruct (call_step cd wd c w p rp (s (call_object c)) S Hc E N D L) as (w1 & r & new & R & S1 & B & L1 & _).
    destruct (IH (st_set s (call_object c) new) w1 S1) as (w' & rs & X).
    { eapply stored_step; eauto. apply Hc. }
    { exact FO'. }
    exists w', (r :: rs). econstructor; eauto.
Qed.

Lemma calls_refine cd wd O cs s w w' rs :
  ~ In x00 wd -> sane w -> stored w wd O s -> Forall call_ok cs -> Forall (fun c => O (call_object c)) cs ->
  cexec cd wd cs w w' rs ->
  exists s', history_meets cd cs s s' rs /\ stored w' wd O s' /\ sane w'.
Proof.
  intros Nw S H F FO X. revert s S H F FO. induction X as [w|c cs w w1 w2 r rs R X IH]; intros s S H F FO.
  - exists s. split; [constructor|]. auto.
  - inversion F as [|? ? Hc Hcs]. inversion FO as [|? ? Oc FO']. subst.
    destruct (H (call_object c) Oc (proj1 Hc)) as (p & rp & E & N & D & L).
    destruct (call_step cd wd c w p rp (s (call_object c)) S Hc E N D L) as (w1' & r' & new & R' & S1 & B & L1 & M).
    destruct (returns_unique _ _ _ _ _ _ (mono_call cd wd c) R R') as [-> ->].
    destruct (IH (st_set s (call_object c) new) S1) as (s' & HM & ST & SW); auto.
    { eapply stored_step; eauto. apply Hc. }
    exists s'. split; [|auto]. apply hm_cons with (s1 := st_set s (call_object c) new).
    + unfold st_set. destruct object_eq_dec; [exact M|contradiction].
    + intros o No. unfold st_set. destruct object_eq_dec; [contradiction|reflexivity].
    + exact HM.
Qed.
