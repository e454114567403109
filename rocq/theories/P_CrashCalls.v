(** * Crashes of library calls and of sequences of them *)
From Coq Require Import Lia ZifyBool ZifyNat ZifyN.
From Verif Require Import M_Base M_Sys M_Path M_File M_Board M_Userec M_FileOps M_DB.
From Verif Require Import S_World S_Path S_Layout S_File S_Board S_Userec S_BoardList S_Store S_Pool S_Crash.
From Verif Require Import P_Base P_Layout P_Records P_Sys P_Read P_Path P_FileOps P_BoardList P_Store P_Crash P_BbsTool.
Open Scope N_scope.

(** ** No system call breaks the file system *)
Lemma exec_sane {R} (c : sys R) w : sane w -> sane (fst (exec c w)).
Proof.
  intros S.
  assert (FB : forall fd o, w_fds w fd = Some o -> fd < w_nextfd w).
  { intros fd o F. destruct (N.lt_ge_cases fd (w_nextfd w)) as [H|H]; auto. apply (sane_fd w S) in H. congruence. }
  destruct c as [p fl|fd n|fd|fd d|fd off|fd|fd n|fd|p|p| |n]; cbn [exec].
  - unfold sys_open. destruct (has_nul p); [exact S|]. destruct (beqb p []); [exact S|]. cbv zeta.
    destruct (is_dir w _) eqn:D.
    + destruct (_ && _)%bool; [exact S|]. destruct (_ || _)%bool; [exact S|]. apply sane_new_fd; [exact S|]. discriminate.
    + destruct (w_tree w _) as [[|i]|] eqn:T.
      * destruct (_ && _)%bool; [exact S|]. destruct (_ || _)%bool; [exact S|]. apply sane_new_fd; [exact S|]. discriminate.
      * destruct (_ && _)%bool; [exact S|]. pose proof (sane_ino w S _ _ T) as L. destruct (o_trunc fl).
        -- apply (sane_new_fd (set_data w i [])); [now apply sane_set_data|]. intros j [= <-]. exact L.
        -- apply sane_new_fd; [exact S|]. intros j [= <-]. exact L.
      * destruct (o_creat fl); [|exact S]. destruct (is_dir w (parent _)) eqn:DP; [|exact S].
        set (rp := resolve (w_cwd w) p) in *.
        apply (sane_new_fd (bump_ino (set_data (set_tree w rp (Some (NFile (w_nexti w)))) (w_nexti w) []))).
        -- apply sane_create; auto; [intros Q; rewrite Q in D; discriminate|]. now apply is_dir_look.
        -- cbn. intros j [= <-]. lia.
  - unfold sys_read. destruct (w_fds w fd) as [o|] eqn:F; [|exact S]. destruct (of_ino o) as [i|] eqn:I; [|exact S]. destruct (of_rd o); [|exact S].
    apply sane_set_fd; [exact S|exact (FB _ _ F)|]. intros q j [= <-] [= <-]. exact (sane_fdi w S _ _ _ F I).
  - unfold sys_read_all. destruct (w_fds w fd) as [o|] eqn:F; [|exact S]. destruct (of_ino o) as [i|] eqn:I; [|exact S]. destruct (of_rd o); [|exact S].
    apply sane_set_fd; [exact S|exact (FB _ _ F)|]. intros q j [= <-] [= <-]. exact (sane_fdi w S _ _ _ F I).
  - unfold sys_write. destruct (w_fds w fd) as [o|] eqn:F; [|exact S]. destruct (of_ino o) as [i|] eqn:I; [|exact S]. destruct (of_wr o); [|exact S].
    cbv zeta. cbn [fst].
    apply sane_set_fd; [now apply sane_set_data|exact (FB _ _ F)|]. intros q j [= <-] [= <-]. exact (sane_fdi w S _ _ _ F I).
  - unfold sys_seek_set. destruct (w_fds w fd) as [o|] eqn:F; [|exact S]. destruct (off <? 0)%Z; [exact S|].
    apply sane_set_fd; [exact S|exact (FB _ _ F)|]. intros q j [= <-] I. exact (sane_fdi w S _ _ _ F I).
  - unfold sys_seek_cur0. destruct (w_fds w fd); exact S.
  - unfold sys_ftruncate. destruct (w_fds w fd) as [o|] eqn:F; [|exact S]. destruct (of_ino o) as [i|] eqn:I; [|exact S]. destruct (of_wr o); [|exact S].
    now apply sane_set_data.
  - now apply sane_close.
  - unfold sys_stat. destruct (has_nul p); [exact S|]. destruct (beqb p []); [exact S|]. cbv zeta. destruct is_dir; [exact S|].
    destruct (w_tree w _) as [[|i]|]; exact S.
  - unfold sys_unlink. destruct (has_nul p); [exact S|]. destruct (beqb p []); [exact S|]. cbv zeta.
    destruct (is_dir w _) eqn:D; [exact S|]. destruct (w_tree w _) as [[|i]|] eqn:T; [exact S| |exact S].
    eapply sane_unlink; eauto. intros Q. rewrite Q in D. discriminate.
  - now apply sane_tick.
  - now apply sane_rtick.
Qed.
Lemma run_sane {A} (p : prog A) : forall w, sane w -> sane (fst (run p w)).
Proof.
  induction p as [a|R c k IH]; intros w S; [exact S|]. cbn [run]. pose proof (exec_sane c w S) as S1.
  destruct (exec c w) as [w1 r]. now apply IH.
Qed.
Lemma crash_sane {A} (p : prog A) : forall w w', sane w -> crash p w w' -> sane w'.
Proof.
  induction p as [a|R c k IH]; intros w w' S C; cbn [crash] in C; destruct C as [->|C]; auto; [contradiction|].
  destruct C as [C|C].
  - destruct c; try contradiction. destruct C as (n & ->). exact (exec_sane (Write fd (firstn n d)) w S).
  - pose proof (exec_sane c w S) as S1. destruct (exec c w) as [w1 r]. exact (IH r w1 w' S1 C).
Qed.

(** a crash of a sequence happens in the first part or after it *)
Lemma crash_bind {A B} (p : prog A) (f : A -> prog B) : forall w w', crash (bind p f) w w' ->
  crash p w w' \/ crash (f (snd (run p w))) (fst (run p w)) w'.
Proof.
  induction p as [a|R c k IH]; intros w w' C; [now right|].
  cbn [bind crash] in C. destruct C as [->|[C|C]]; [left; now left|left; right; now left|].
  cbn [run crash]. destruct (exec c w) as [w1 r]. destruct (IH r w1 w' C) as [H|H]; [left; right; now right|now right].
Qed.
(** and everything the first part can leave behind is one *)
Lemma crash_bind_first {A B} (p : prog A) (f : A -> prog B) : forall w w', crash p w w' -> crash (bind p f) w w'.
Proof.
  induction p as [a|R c k IH]; intros w w' C; cbn [crash] in C.
  - destruct C as [->|[]]. apply crash_refl.
  - cbn [bind crash]. destruct C as [->|[C|C]]; [now left|right; now left|]. right. right. destruct (exec c w) as [w1 r]. now apply IH.
Qed.
Lemma crash_bind_second {A B} (p : prog A) (f : A -> prog B) : forall w w', crash (f (snd (run p w))) (fst (run p w)) w' -> crash (bind p f) w w'.
Proof.
  induction p as [a|R c k IH]; intros w w' C; [exact C|].
  cbn [bind crash run] in *. right. right. destruct (exec c w) as [w1 r]. now apply IH.
Qed.

(** ** The calls that only read *)
Definition reads_only (c : call) : bool :=
  match c with
  | ListRecords _ | ListTreasures _ _ | ReadArticle _ _ | ReadTreasure _ _ _ | ReadDraft _ _ | ListBoards | ListUsers => true
  | _ => false
  end.
Lemma reader_answer {A} (k : A -> answer) p : reader p -> reader (answer_with k p).
Proof. intros H. apply reader_pbind; [exact H|]. intros a. exact I. Qed.
Lemma reader_call cd wd c fuel : reads_only c = true -> reader (call_prog cd wd c fuel).
Proof.
  intros H. destruct c; try discriminate H; cbn [call_prog]; apply reader_answer.
  - apply reader_index.
  - unfold ReadBoardTreasureRecordsFile. apply reader_pbind; [apply reader_lift|]. intros a. apply reader_open_records.
  - apply reader_article.
  - unfold ReadBoardTreasureFile. apply reader_pbind; [apply reader_lift|]. intros a. apply reader_read_all.
  - unfold GetUserDrafts. apply reader_pbind; [apply reader_lift|]. intros a. unfold ReadUserDraft. split; [exact I|].
    intros [x|e]; [apply reader_read_all|]. destruct e; exact I.
  - apply reader_boards.
  - apply reader_users.
Qed.
Lemma reads_only_meets cd c old new r : reads_only c = true -> call_meets cd c old new r -> new = old.
Proof. intros H M. destruct c; try discriminate H; cbn [call_meets] in M; tauto. Qed.
Lemma call_const cd wd c n m : reads_only c = false -> call_prog cd wd c n = call_prog cd wd c m.
Proof. intros H. destruct c; try discriminate H; reflexivity. Qed.

(** What a call does to the files, for every fuel. *)
Lemma call_run cd wd c w p rp old fuel :
  sane w -> call_ok c -> object_path wd (call_object c) = Ok p -> names w p rp -> has_dir w rp ->
  look w rp = option_map EFile old ->
  exists new r, same_else rp w (fst (run (call_prog cd wd c fuel) w)) /\
    look (fst (run (call_prog cd wd c fuel) w)) rp = option_map EFile new /\ call_meets cd c old new r.
Proof.
  intros S K E N H L. destruct (call_step cd wd c w p rp old S K E N H L) as (w' & r & new & (ND & n & R) & _ & B & L' & M).
  exists new, r. destruct (reads_only c) eqn:RO.
  - pose proof (reader_run _ (reader_call cd wd c fuel RO) w) as SF. pose proof (reads_only_meets _ _ _ _ _ RO M) as ->.
    split; [now apply same_files_else|]. split; [|exact M]. destruct SF as [_ SF]. now rewrite SF.
  - rewrite (call_const cd wd c fuel n RO), R. cbn [fst]. auto.
Qed.

(** ** The call that is interrupted *)
Lemma firstn_eq {A} n (l : list A) : firstn n l = firstn (min n (length l)) l.
Proof. revert l. induction n as [|n IH]; intros [|x l]; try reflexivity. cbn. now rewrite <- IH. Qed.

Lemma overwritten_at_0 v old : overwritten v old (write_at 0 v (old_or_empty old)).
Proof.
  rewrite write_at_0. exists (skipn (length v) (old_or_empty old)). split; [reflexivity|].
  destruct (Nat.le_gt_cases (length (old_or_empty old)) (length v)) as [Q|Q].
  - left. split; [now apply skipn_all2|exact Q].
  - right. destruct old as [d|]; cbn [old_or_empty] in *; [|cbn in Q; lia].
    exists (firstn (length v) d). split; [now rewrite firstn_skipn|]. rewrite firstn_length. lia.
Qed.

Lemma update_crash cd p i f w rp old w' :
  i < 2 ^ 56 -> sane w -> names w p rp -> look w rp = option_map EFile old ->
  crash (UpdateFileHeaderFileRecord cd p i f) w w' ->
  same_else rp w w' /\
  (look w' rp = look w rp \/
   exists d n, old = Some d /\ (0 < n)%nat /\ look w' rp = Some (EFile (write_at (i * 128) (firstn n (MarshalToByte cd f)) d))).
Proof.
  intros Hi S N L C. unfold UpdateFileHeaderFileRecord in C. cbn [crash] in C.
  destruct C as [->|[[]|C]]; [split; [apply same_else_refl|now left]|].
  destruct old as [d|]; cbn [option_map] in L.
  2:{ rewrite (open_missing w p O_WRONLY rp N L) in C by (now left). cbn [crash] in C. destruct C as [->|[]]. split; [apply same_else_refl|now left]. }
  destruct (open_existing w p O_WRONLY rp d N L eq_refl) as (j & T & D & E).
  pose proof (look_file _ _ _ L) as (_ & _ & _ & Nn).
  rewrite E in C. cbn [O_WRONLY o_trunc o_append o_rd o_wr] in C.
  rewrite update_offset in C by exact Hi.
  assert (I0 : j < w_nexti w) by (eapply sane_ino; eauto).
  set (w1 := bump_fd _) in C.
  assert (S1 : sane w1) by (apply sane_new_fd; auto; cbn; intros k [= <-]; exact I0).
  cbn [crash] in C. destruct C as [->|[[]|C]]; [split; [split; [reflexivity|auto]|now left]|].
  cbn [exec] in C. unfold sys_seek_set in C.
  assert (G0 : w_fds w1 (w_nextfd w) = Some (OFile (Some j) 0 false false true)). { cbn. now destruct N.eq_dec. }
  rewrite G0 in C. assert ((Z.of_N (i * 128) <? 0)%Z = false) as G1 by lia. rewrite G1, N2Z.id in C.
  cbn [of_ino of_append of_rd of_wr] in C.
  set (w2 := set_fd w1 _ _) in C.
  assert (S2 : sane w2). { apply sane_set_fd; auto; [cbn; lia|]. intros q k [= <-] [= <-]. exact I0. }
  assert (G : w_fds w2 (w_nextfd w) = Some (OFile (Some j) (i * 128) false false true)). { cbn. now destruct N.eq_dec. }
  apply crash_write_close with (o := OFile (Some j) (i * 128) false false true) (i := j) in C; auto.
  2:{ intros [x|e]; eauto. }
  destruct C as (n & _ & Cw & Lk). cbn [of_append of_pos] in Lk.
  assert (w_data w2 j = d) as Dj by exact D. rewrite Dj in Lk.
  split.
  - split; [exact Cw|]. intros q Hq. rewrite Lk. rewrite look_set_data_other with (rp := rp); auto.
  - rewrite Lk, look_set_data by auto. destruct n as [|n]; [left; rewrite L; reflexivity|].
    right. exists d, (Datatypes.S n). split; [reflexivity|]. split; [lia|reflexivity].
Qed.

Lemma call_crash cd wd c w w' p rp old fuel :
  sane w -> call_ok c -> object_path wd (call_object c) = Ok p -> names w p rp -> has_dir w rp ->
  look w rp = option_map EFile old -> crash (call_prog cd wd c fuel) w w' ->
  same_else rp w w' /\ exists now, look w' rp = option_map EFile now /\ torn cd c old now.
Proof.
  intros S [P Hi] E N H L C. destruct (reads_only c) eqn:RO.
  { pose proof (reader_crash _ (reader_call cd wd c fuel RO) w w' C) as SF. split; [now apply same_files_else|].
    exists old. destruct SF as [_ SF]. rewrite SF. split; [exact L|now left]. }
  destruct c; try discriminate RO; cbn [call_prog] in C; apply crash_answer in C; cbn [call_object object_path] in E; cbn [torn].
  - (* AddRecord *)
    unfold AddArticleRecordFileRecord in C. rewrite E in C. apply crash_lift_pbind in C.
    change (crash (AppendFileHeaderFileRecord cd p f) w w') in C. rewrite append_record_shape in C.
    destruct (open_write_crash O_APPEND_CREATE_WRONLY p (MarshalToByte cd f) w rp old w') as (_ & B & Q); auto. split; [exact B|].
    destruct Q as [Q|(_ & n & Q)]; [exists old; split; [congruence|now left]|].
    unfold written in Q. cbn [o_trunc O_APPEND_CREATE_WRONLY o_append] in Q. rewrite write_at_end in Q.
    eexists (Some _). split; [exact Q|]. right. exists (MarshalToByte cd f), n. split; [apply file_encode|reflexivity].
  - (* UpdateRecord *)
    unfold UpdateArticleRecord in C. rewrite E in C. apply crash_lift_pbind in C.
    change (crash (UpdateFileHeaderFileRecord cd p i f) w w') in C.
    destruct (update_crash cd p i f w rp old w') as (B & Q); auto. split; [exact B|].
    destruct Q as [Q|(d & n & -> & Hn & Q)]; [exists old; split; [congruence|now left]|].
    exists (Some (write_at (i * 128) (firstn n (MarshalToByte cd f)) d)). split; [exact Q|]. right.
    exists d, (MarshalToByte cd f), n, (write_at (i * 128) (firstn n (MarshalToByte cd f)) d).
    split; [reflexivity|]. split; [apply file_encode|]. split; [exact Hn|]. split; [|reflexivity].
    apply write_patched. pose proof (marshal_length cd f) as X. intros Q0. apply (f_equal (@length byte)) in Q0.
    rewrite firstn_length in Q0. change (length (@nil byte)) with 0%nat in Q0. unfold lenN in X. lia.
  - (* WriteArticle *)
    unfold DB_WriteBoardArticleFile in C. rewrite E in C. apply crash_lift_pbind in C.
    change (crash (WriteBoardArticleFile p c) w w') in C. rewrite write_article_shape in C.
    destruct (open_write_crash O_WRONLY_CREATE p c w rp old w') as (_ & B & Q); auto. split; [exact B|].
    destruct Q as [Q|(_ & n & Q)]; [exists old; split; [congruence|now left]|].
    unfold written in Q. cbn [o_trunc O_WRONLY_CREATE o_append] in Q.
    eexists (Some _). split; [exact Q|]. right. exists n. eexists. split; [|reflexivity]. apply overwritten_at_0.
  - (* AppendArticle *)
    unfold DB_AppendBoardArticleFile in C. rewrite E in C. apply crash_lift_pbind in C.
    change (crash (AppendBoardArticleFile p c) w w') in C. rewrite append_article_shape in C.
    destruct (open_write_crash O_APPEND_WRONLY p c w rp old w') as (_ & B & Q); auto. split; [exact B|].
    destruct Q as [Q|(O & n & Q)]; [exists old; split; [congruence|now left]|].
    unfold written in Q. cbn [o_trunc O_APPEND_WRONLY o_append] in Q. rewrite write_at_end in Q.
    destruct old as [d|]; [|destruct O as [O|O]; [discriminate O|now contradiction O]]. cbn [old_or_empty] in Q.
    exists (Some (d ++ firstn n c)). split; [exact Q|]. right. exists d, n. auto.
  - (* WriteDraft *)
    unfold DB_WriteUserDraft in C. rewrite E in C. apply crash_lift_pbind in C.
    change (crash (WriteUserDraft p c) w w') in C. rewrite write_draft_shape in C.
    destruct (open_write_crash O_WRONLY_CREATE_TRUNC p c w rp old w') as (_ & B & Q); auto. split; [exact B|].
    destruct Q as [Q|(_ & n & Q)]; [exists old; split; [congruence|now left]|].
    exists (Some (firstn n c)). split; [|right; now exists n]. rewrite Q. cbn [option_map]. f_equal. f_equal.
    unfold written. cbn [o_trunc O_WRONLY_CREATE_TRUNC o_append]. rewrite write_at_0.
    destruct (length (firstn n c)); cbn; now rewrite app_nil_r.
  - (* DeleteDraft *)
    unfold DB_DeleteUserDraft in C. rewrite E in C. apply crash_lift_pbind in C. unfold DeleteUserDraft in C.
    cbn [crash] in C. destruct C as [->|[[]|C]]; [split; [apply same_else_refl|]; exists old; split; [exact L|now left]|].
    destruct old as [d'|]; cbn [option_map] in L.
    + destruct (unlink_file p w rp d' S N L) as (U & S' & L' & B). rewrite U in C. cbn [crash] in C. destruct C as [->|[]].
      split; [now apply same_but_else|]. exists None. split; [exact L'|now right].
    + rewrite (unlink_missing p w rp N L) in C. cbn [crash] in C. destruct C as [->|[]]. split; [apply same_else_refl|]. exists None. split; [exact L|now left].
  - (* AddBoard *)
    unfold AddBoardRecord in C. rewrite E in C. apply crash_lift_pbind in C.
    change (crash (AppendBoardHeaderFileRecord cd p h) w w') in C. rewrite append_board_shape in C.
    destruct (open_write_crash O_APPEND_CREATE_WRONLY p (BoardHeader_MarshalBinary cd h) w rp old w') as (_ & B & Q); auto. split; [exact B|].
    destruct Q as [Q|(_ & n & Q)]; [exists old; split; [congruence|now left]|].
    unfold written in Q. cbn [o_trunc O_APPEND_CREATE_WRONLY o_append] in Q. rewrite write_at_end in Q.
    eexists (Some _). split; [exact Q|]. right. exists (BoardHeader_MarshalBinary cd h), n. split; [apply board_encode|reflexivity].
Qed.

(** ** Sequences of calls *)
Lemma elsewhere_refl wd O w : elsewhere wd O w w.
Proof. split; auto. Qed.
Lemma names_cwd w w' p q : w_cwd w' = w_cwd w -> names w' p q -> names w p q.
Proof. intros C [A B]. split; [exact A|]. now rewrite <- C. Qed.
Lemma elsewhere_trans wd O w1 w2 w3 : elsewhere wd O w1 w2 -> elsewhere wd O w2 w3 -> elsewhere wd O w1 w3.
Proof.
  intros [C1 F1] [C2 F2]. split; [congruence|]. intros q Hq. rewrite F2, F1; auto.
  intros o p Oo Po E N. apply (Hq o p Oo Po E). now apply (names_cwd w1 w2).
Qed.
Lemma elsewhere_else wd (O : object -> Prop) o p rp w w' : O o -> plain_object o -> object_path wd o = Ok p -> names w p rp ->
  same_else rp w w' -> elsewhere wd O w w'.
Proof.
  intros Oo Po E N [C F]. split; [exact C|]. intros q Hq. apply F. intros ->. exact (Hq o p Oo Po E N).
Qed.
Lemma stored_ext w wd O s s' : (forall o, s' o = s o) -> stored w wd O s -> stored w wd O s'.
Proof. intros Q H o Oo Po. destruct (H o Oo Po) as (p & rp & E & N & D & L). exists p, rp. rewrite Q. auto. Qed.

Lemma client_crash cd wd fuel O : ~ In x00 wd -> forall cs got s w w',
  sane w -> stored w wd O s -> Forall call_ok cs -> Forall (fun c => O (call_object c)) cs ->
  crash (client_from cd wd fuel cs got) w w' ->
  exists s', interrupted cd cs s s' /\ stored w' wd O s' /\ elsewhere wd O w w'.
Proof.
  intros Nw. induction cs as [|c cs IH]; intros got s w w' S H K KO C; cbn [client_from] in C.
  - cbn [crash] in C. destruct C as [->|[]]. exists s. split; [|split; [exact H|apply elsewhere_refl]].
    exists [], [], s, []. split; [reflexivity|]. split; [constructor|]. reflexivity.
  - inversion K as [|? ? Hc Hcs]. inversion KO as [|? ? Oc KO']. subst.
    destruct (H (call_object c) Oc (proj1 Hc)) as (p & rp & E & N & D & L).
    apply crash_bind in C. destruct C as [C|C].
    + destruct (call_crash cd wd c w w' p rp (s (call_object c)) fuel S Hc E N D L C) as (B & now & L' & T).
      exists (st_set s (call_object c) now). split; [|split].
      * exists [], (c :: cs), s, []. split; [reflexivity|]. split; [constructor|]. unfold st_set. split.
        -- destruct object_eq_dec; [exact T|contradiction].
        -- intros o No. destruct object_eq_dec; [contradiction|reflexivity].
      * eapply stored_step; eauto. apply Hc.
      * eapply elsewhere_else; eauto. apply Hc.
    + destruct (call_run cd wd c w p rp (s (call_object c)) fuel S Hc E N D L) as (new & r & B & L1 & M).
      pose proof (run_sane (call_prog cd wd c fuel) w S) as S1. set (w1 := fst (run (call_prog cd wd c fuel) w)) in *.
      assert (H1 : stored w1 wd O (st_set s (call_object c) new)) by (eapply stored_step; eauto; apply Hc).
      destruct (IH _ _ w1 w' S1 H1 Hcs KO' C) as (s' & (dn & rest & s1 & rs & -> & HM & T) & ST & EL).
      exists s'. split; [|split; [exact ST|]].
      * exists (c :: dn), rest, s1, (r :: rs). split; [reflexivity|]. split; [|exact T].
        apply hm_cons with (s1 := st_set s (call_object c) new); [| |exact HM]; unfold st_set.
        -- destruct object_eq_dec; [exact M|contradiction].
        -- intros o No. destruct object_eq_dec; [contradiction|reflexivity].
      * apply (elsewhere_trans _ _ _ w1); [|exact EL]. eapply elsewhere_else; eauto. apply Hc.
Qed.
