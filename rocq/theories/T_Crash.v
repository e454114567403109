(** * Property theorems about crashes while a record is added: C07 *)
From Coq Require Import Lia.
From Verif Require Import M_Base M_Sys M_Path M_File M_Board M_FileOps M_DB.
From Verif Require Import S_World S_Path S_Layout S_File S_BoardList S_Store S_Example S_ExWorld.
From Verif Require Import P_Base P_Layout P_Records P_Sys P_Read P_Path P_FileOps P_BoardList P_Store P_Crash.
From Verif Require Import T_Records T_Path T_BoardList T_Store.
Open Scope N_scope.

Lemma holds_step_else cd wd B s b l w w' p rp recs :
  ~ In x00 wd -> ident b -> holds cd w wd B s ->
  object_path wd (Index b) = Ok p -> names w p rp -> has_dir w rp -> same_else rp w w' ->
  look w' rp = Some (EFile (concat recs)) -> Forall2 (is_rec cd) recs l ->
  holds cd w' wd B (bs_set s b l).
Proof.
  intros Nw I H P N D [C F] L R.
  pose (w0 := World (w_cwd w) (w_tree w) (w_data w) (w_nexti w) (w_fds w') (w_nextfd w) (w_clock w) (w_rand w) (w_tick w) (w_rtick w)).
  apply (holds_step cd wd B s b l w0 w' p rp recs); auto.
split; [exact C|]. split; [|intros fd; reflexivity]. intros q Hq. rewrite (F q Hq). reflexivity.
Qed.

(** What is left of the index file after a crash: the old content, or the old
    content followed by the first [n] bytes of the new record. *)
Theorem C07_crash_content : forall cd wd w w' b f rp old,
  sane w -> ident b -> holds_file w wd (Index b) rp old ->
  crash (AddArticleRecordFileRecord cd wd b f) w w' ->
  sane w' /\ (forall q, q <> rp -> look w' q = look w q) /\
  (look w' rp = look w rp \/
   exists v n, file_encoded cd f v /\ look w' rp = Some (EFile (old_or_empty old ++ firstn n v))).
Proof.
  intros cd wd w w' b f rp old S I (p & E & N & H & L) C.
  destruct (index_path wd b I) as (p' & E' & G). rewrite E in E'. injection E' as <-.
  unfold AddArticleRecordFileRecord in C. rewrite G in C. apply crash_lift_pbind in C.
  change (crash (AppendFileHeaderFileRecord cd p f) w w') in C. rewrite append_record_shape in C.
  destruct (open_write_crash O_APPEND_CREATE_WRONLY p (MarshalToByte cd f) w rp old w') as (S' & [_ B] & Q); auto.
  split; [exact S'|]. split; [exact B|]. destruct Q as [Q|(_ & n & Q)]; [now left|]. right.
  exists (MarshalToByte cd f), n. split; [apply file_encode|]. rewrite Q. f_equal. f_equal.
  unfold written. cbn [o_trunc O_APPEND_CREATE_WRONLY o_append]. apply write_at_end.
Qed.
Print Assumptions C07_crash_content.

Lemma cut_short size d : 0 < size -> lenN d <= size -> (length (cut size d) <= 1)%nat.
Proof.
  intros P L. destruct d as [|b d]; [rewrite cut_nil; cbn; lia|].
  rewrite cut_step by (auto; discriminate). rewrite skipn_all2 by (unfold lenN in L; lia). rewrite cut_nil. cbn. lia.
Qed.

(** All earlier records are still listed, at most one more appears, and no other
    board is affected. *)
Theorem C07_earlier_records_survive : forall cd wd (B : bytes -> Prop) s w w' b f,
  ~ In x00 wd -> sane w -> ident b -> B b -> holds cd w wd B s ->
  crash (AddArticleRecordFileRecord cd wd b f) w w' ->
  sane w' /\ holds cd w' wd (fun c => B c /\ c <> b) s /\
  exists more w2, (length more <= 1)%nat /\
    returns (fun n => ReadBoardArticleRecordsFile cd n wd b) w' w2 (Ok (bs_list s b ++ more)).
Proof.
  intros cd wd B s w w' b f Nw S I Bb H C.
  destruct (H b Bb I) as (p & rp & P & N & D & L).
  destruct (index_path wd b I) as (p' & P' & G). rewrite P in P'. injection P' as <-.
  pose proof C as C0. unfold AddArticleRecordFileRecord in C0. rewrite G in C0. apply crash_lift_pbind in C0.
  change (crash (AppendFileHeaderFileRecord cd p f) w w') in C0. rewrite append_record_shape in C0.
  pose (old := match look w rp with Some (EFile d) => Some d | _ => None end).
  assert (Lo : look w rp = option_map EFile old).
  { unfold old. destruct (bs_exists s b); [destruct L as (recs & -> & _)|destruct L as (-> & _)]; reflexivity. }
  destruct (open_write_crash O_APPEND_CREATE_WRONLY p (MarshalToByte cd f) w rp old w') as (S' & SE & Q); auto.
  split; [exact S'|]. split.
  { intros c [Bc Nb] J. pose (w0 := World (w_cwd w) (w_tree w) (w_data w) (w_nexti w) (w_fds w') (w_nextfd w) (w_clock w) (w_rand w) (w_tick w) (w_rtick w)).
    assert (E : rp = index_rp (w_cwd w) wd b) by (eapply index_names; eauto; apply N).
    apply (frame_board cd wd b s w0 w' c); auto.
    destruct SE as [C1 F1]. split; [exact C1|]. split; [|intros fd; reflexivity]. intros q Hq. rewrite F1; [reflexivity|].
      rewrite E. exact Hq. }
  assert (Nf : names w' p rp) by (eapply names_same; [apply SE|exact N]).
  assert (Nr : rp <> []) by (assert (rp = index_rp (w_cwd w) wd b) as -> by (eapply index_names; eauto; apply N); apply index_rp_nonempty).
  assert (Df : has_dir w' rp). { unfold has_dir. destruct SE as [_ ->]; [exact D|now apply removelast_snoc_neq]. }
  (* the content is the old records followed by at most one more *)
  assert (K : (look w' rp = None /\ bs_list s b = []) \/
    exists recs t, look w' rp = Some (EFile (concat recs ++ t)) /\ lenN t <= 128 /\ Forall2 (is_rec cd) recs (bs_list s b)).
  { destruct (bs_exists s b).
    - destruct L as (recs & L & F). right. destruct Q as [Q|(_ & n & Q)].
      + exists recs, []. rewrite app_nil_r. split; [congruence|]. split; [cbn; lia|exact F].
      + exists recs, (firstn n (MarshalToByte cd f)). rewrite Q. unfold old. rewrite L. cbn [old_or_empty].
        unfold written. cbn [o_trunc O_APPEND_CREATE_WRONLY o_append]. rewrite write_at_end.
        split; [reflexivity|]. split; [|exact F]. pose proof (marshal_length cd f) as ML. unfold lenN in *. rewrite firstn_length. lia.
    - destruct L as (L & El). destruct Q as [Q|(_ & n & Q)]; [left; split; congruence|]. right.
      exists [], (firstn n (MarshalToByte cd f)). rewrite Q. unfold old. rewrite L. cbn [old_or_empty].
      unfold written. cbn [o_trunc O_APPEND_CREATE_WRONLY o_append]. rewrite write_at_end.
      split; [reflexivity|]. split; [pose proof (marshal_length cd f) as ML; unfold lenN in *; rewrite firstn_length; lia|].
      rewrite El. constructor. }
  destruct K as [(K & ->)|(recs & t & K & Lt & F)].
  - exists [], w'. split; [cbn; lia|]. split; [discriminate|]. exists 0%nat. eapply list_board_missing; eauto.
  - destruct (open_records_file 128 (NewFileHeaderWithByte cd) false true (Datatypes.S (length (concat recs ++ t))) w' p rp (concat recs ++ t))
      as (w2 & l' & R & Gl & _); auto; [reflexivity|apply header_decodes|].
    rewrite cut_app in Gl by (reflexivity || eapply recs_lenN; eauto).
    apply Forall2_app_inv_l in Gl. destruct Gl as (l1 & l2 & G1 & G2 & ->).
    rewrite (recs_decode _ _ _ _ F G1) in *. exists l2, w2. split.
    + assert (length (cut 128 t) = length l2) as <- by (clear -G2; induction G2; cbn; congruence). now apply cut_short.
    + split; [discriminate|]. eexists. unfold ReadBoardArticleRecordsFile. rewrite run_pbind. unfold lift. rewrite G. cbn [run].
      rewrite run_bind. unfold OpenFileHeaderFile. rewrite R. reflexivity.
Qed.
Print Assumptions C07_earlier_records_survive.

(** If the crash left a whole number of records, the board is a list of records
    again, so everything proved about histories (C03) holds from there on; in
    particular later additions are listed intact. *)
Definition later_additions_statement : Prop := forall cd wd (B : bytes -> Prop) s w w' b f,
  ~ In x00 wd -> sane w -> ident b -> B b -> holds cd w wd B s -> file_fits cd f ->
  crash (AddArticleRecordFileRecord cd wd b f) w w' ->
  exists s', (s' = s \/ exists more, (length more <= 1)%nat /\ s' = bs_set s b (bs_list s b ++ more)) /\ holds cd w' wd B s'.
Theorem C07_recovery_partial : forall cd wd (B : bytes -> Prop) s w w' b f,
  ~ In x00 wd -> sane w -> ident b -> B b -> holds cd w wd B s -> file_fits cd f ->
  crash (AddArticleRecordFileRecord cd wd b f) w w' ->
  (forall rp d, holds_file w' wd (Index b) rp (Some d) -> exists k, length d = (128 * k)%nat) ->
  exists s', (s' = s \/ s' = bs_set s b (bs_list s b) \/ s' = bs_set s b (bs_list s b ++ [file_image f])) /\ holds cd w' wd B s'.
Proof.
  intros cd wd B s w w' b f Nw S I Bb H Ff C Wh.
  destruct (H b Bb I) as (p & rp & P & N & D & L).
  destruct (index_path wd b I) as (p' & P' & G). rewrite P in P'. injection P' as <-.
  pose proof C as C0. unfold AddArticleRecordFileRecord in C0. rewrite G in C0. apply crash_lift_pbind in C0.
  change (crash (AppendFileHeaderFileRecord cd p f) w w') in C0. rewrite append_record_shape in C0.
  pose (old := match look w rp with Some (EFile d) => Some d | _ => None end).
  assert (Lo : look w rp = option_map EFile old).
  { unfold old. destruct (bs_exists s b); [destruct L as (recs & -> & _)|destruct L as (-> & _)]; reflexivity. }
  destruct (open_write_crash O_APPEND_CREATE_WRONLY p (MarshalToByte cd f) w rp old w') as (S' & SE & Q); auto.
  assert (Nf : names w' p rp) by (eapply names_same; [apply SE|exact N]).
  assert (Nr : rp <> []) by (assert (rp = index_rp (w_cwd w) wd b) as -> by (eapply index_names; eauto; apply N); apply index_rp_nonempty).
  assert (Df : has_dir w' rp). { unfold has_dir. destruct SE as [_ ->]; [exact D|now apply removelast_snoc_neq]. }
  destruct Q as [Q|(_ & n & Q)].
  { exists s. split; [now left|]. intros c Bc J.
    destruct (H c Bc J) as (p2 & rp2 & P2 & N2 & D2 & L2). exists p2, rp2. split; [exact P2|].
    split; [eapply names_same; [apply SE|exact N2]|].
    assert (LE : forall q, look w' q = look w q). { intros q. destruct (rp_eq_dec q rp) as [->|Nq]; [exact Q|now apply SE]. }
    unfold has_dir. rewrite !LE. auto. }
  unfold written in Q. cbn [o_trunc O_APPEND_CREATE_WRONLY o_append] in Q. rewrite write_at_end in Q.
  assert (K : exists recs, old_or_empty old = concat recs /\ Forall2 (is_rec cd) recs (bs_list s b)).
  { unfold old. destruct (bs_exists s b).
    - destruct L as (recs & -> & F). exists recs. auto.
    - destruct L as (-> & ->). exists []. split; [reflexivity|constructor]. }
  destruct K as (recs & Ko & F). rewrite Ko in Q.
  destruct (Wh rp (concat recs ++ firstn n (MarshalToByte cd f))) as (k & Hk).
  { exists p. split; [exact P|]. split; [exact Nf|]. split; [exact Df|exact Q]. }
  pose proof (marshal_length cd f) as ML. unfold lenN in ML.
  rewrite app_length, (concat_length 128 recs (recs_length _ _ _ F)), firstn_length in Hk.
  assert (Hn : Nat.min n (length (MarshalToByte cd f)) = 0%nat \/ Nat.min n (length (MarshalToByte cd f)) = 128%nat) by lia.
  destruct Hn as [Hn|Hn].
  - exists (bs_set s b (bs_list s b)). split; [auto|].
    assert (E0 : firstn n (MarshalToByte cd f) = []) by (apply length_zero_iff_nil; rewrite firstn_length; lia).
    rewrite E0, app_nil_r in Q. eapply holds_step_else; eauto.
  - exists (bs_set s b (bs_list s b ++ [file_image f])). split; [auto|].
    rewrite firstn_all2 in Q by lia.
    eapply (holds_step_else cd wd B s b _ w w' p rp (recs ++ [MarshalToByte cd f])); eauto.
    + rewrite Q. f_equal. f_equal. symmetry. apply concat_snoc.
    + apply Forall2_app; [exact F|]. constructor; [now apply is_rec_marshal|constructor].
Qed.
Print Assumptions C07_recovery_partial.

(** After a crash that transferred one byte, a record added later is not listed
    as it was added. *)
Definition sysop_index : rpath := rp ["bbs"; "boards"; "S"; "SYSOP"; ".DIR"]%string.
Theorem C07_later_addition_damaged_refuted : exists w' l,
  crash (AddArticleRecordFileRecord id_codec sample_wd (str "SYSOP") sample_file) sample_world w' /\
  snd (run (AddArticleRecordFileRecord id_codec sample_wd (str "SYSOP") sample_file) w') = Ok tt /\
  snd (run (ReadBoardArticleRecordsFile id_codec 1000 sample_wd (str "SYSOP"))
    (fst (run (AddArticleRecordFileRecord id_codec sample_wd (str "SYSOP") sample_file) w'))) = Ok l /\
  length l = 4%nat /\ nth 3 l sample_file <> sample_file /\ nth 2 l sample_file <> sample_file.
Proof.
  eexists _, _. split; [exact (crash_at_crash 1 1 _ _)|]. split; [vm_compute; reflexivity|]. split; [vm_compute; reflexivity|].
  split; [reflexivity|]. split; intros Q; apply (f_equal fh_filename) in Q; vm_compute in Q; discriminate.
Qed.
Print Assumptions C07_later_addition_damaged_refuted.
Theorem C07_later_additions_refuted : ~ later_additions_statement.
Proof.
  intros H. pose (p0 := AddArticleRecordFileRecord id_codec sample_wd (str "SYSOP") sample_file).
  destruct (H id_codec sample_wd sample_boards sample_state sample_world (crash_at 1 1 p0 sample_world) (str "SYSOP") sample_file)
    as (s' & _ & Hs).
  - exact sample_wd_ok.
  - exact sample_sane.
  - exact sysop_ident.
  - now left.
  - exact sample_holds.
  - exact C01_nonvacuous.
  - apply crash_at_crash.
  - destruct (Hs (str "SYSOP") (or_introl eq_refl) sysop_ident) as (p & rp & P & N & D & L).
    assert (rp = sysop_index) as ->.
    { cbn in P. injection P as <-. destruct N as [_ <-]. vm_compute. reflexivity. }
    assert (LL : option_map (fun e => match e with EFile d => length d | EDir => 0%nat end) (look (crash_at 1 1 p0 sample_world) sysop_index) = Some 257%nat)
      by (vm_compute; reflexivity).
    destruct (bs_exists s' (str "SYSOP")).
    + destruct L as (recs & L & F). rewrite L in LL. cbn [option_map] in LL. injection LL as LL.
      rewrite (concat_length 128 recs) in LL; [lia|]. eapply recs_length; eauto.
    + destruct L as (L & _). rewrite L in LL. discriminate.
Qed.
Print Assumptions C07_later_additions_refuted.
Example C07_nonvacuous : exists w',
  crash (AddArticleRecordFileRecord id_codec sample_wd (str "SYSOP") sample_file) sample_world w' /\
  look w' sysop_index <> look sample_world sysop_index /\
  holds id_codec sample_world sample_wd sample_boards sample_state /\ length (bs_list sample_state (str "SYSOP")) = 2%nat.
Proof.
  eexists. split; [exact (crash_at_crash 1 77 _ _)|]. split; [vm_compute; discriminate|]. split; [exact sample_holds|reflexivity].
Qed.
