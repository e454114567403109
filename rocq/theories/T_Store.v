(** * Property theorems about single files: C10, C11, C13, C26, C42, C47, C51 *)
From Coq Require Import Lia.
From Verif Require Import M_Base M_Sys M_Path M_File M_Board M_Formosa M_FileOps M_DB.
From Verif Require Import S_World S_Path S_Layout S_File S_Board S_Formosa S_BoardList S_Store S_Example S_ExWorld.
From Verif Require Import P_Base P_Layout P_Records P_Sys P_Read P_Path P_FileOps P_BoardList P_Store P_Crash.
From Verif Require Import T_Records T_Path T_BoardList.
Open Scope N_scope.

(** ** C51: the whole BBS is a map of independent files *)
Theorem C51_histories_terminate : forall cd wd O cs s w,
  ~ In x00 wd -> sane w -> stored w wd O s -> Forall call_ok cs -> Forall (fun c => O (call_object c)) cs ->
  exists w' rs, cexec cd wd cs w w' rs.
Proof. exact calls_run. Qed.
Print Assumptions C51_histories_terminate.
Theorem C51_histories_refine_map : forall cd wd O cs s w w' rs,
  ~ In x00 wd -> sane w -> stored w wd O s -> Forall call_ok cs -> Forall (fun c => O (call_object c)) cs ->
  cexec cd wd cs w w' rs ->
  exists s', history_meets cd cs s s' rs /\ stored w' wd O s' /\ sane w'.
Proof. exact calls_refine. Qed.
Print Assumptions C51_histories_refine_map.

Ltac no_nul := let Q := fresh in intros Q; vm_compute in Q; repeat destruct Q as [Q|Q]; discriminate || contradiction.
Lemma sample_wd_ok : ~ In x00 sample_wd.
Proof. no_nul. Qed.
Lemma pichu_ident : ident (str "pichu").
Proof. solve_ident. Qed.
Lemma m1_component : component (str "M.1.A.001").
Proof. unfold component. repeat split; try discriminate; no_nul. Qed.

Definition sample_objects (o : object) : Prop :=
  In o [Index (str "SYSOP"); Index (str "test"); Article (str "SYSOP") (str "M.1.A.001"); Article (str "test") (str "M.1.A.001");
        Draft (str "pichu") (str "0"); Draft (str "pichu") (str "1"); Boards].
Definition sample_store : store := fun o =>
  match object_path sample_wd o with
  | Ok p => content sample_world p
  | _ => None
  end.
Lemma sample_stored : stored sample_world sample_wd sample_objects sample_store.
Proof.
  intros o Ho _. unfold sample_store.
  repeat destruct Ho as [<-|Ho]; try contradiction;
  (eexists _, _; split; [reflexivity|]; split; [split; [split; [discriminate|no_nul]|reflexivity]|];
   split; [vm_compute; reflexivity|vm_compute; reflexivity]).
Qed.
Definition sample_calls : list call :=
  [WriteDraft (str "pichu") (str "1") (str "abc"); AddRecord (str "test") sample_file; AppendArticle (str "SYSOP") (str "M.1.A.001") (str "!");
   DeleteDraft (str "pichu") (str "0"); AddBoard sample_board; ReadDraft (str "pichu") (str "1"); ReadArticle (str "SYSOP") (str "M.1.A.001");
   ReadArticle (str "test") (str "M.1.A.001")].
Example C51_nonvacuous :
  ~ In x00 sample_wd /\ sane sample_world /\ stored sample_world sample_wd sample_objects sample_store /\
  Forall call_ok sample_calls /\ Forall (fun c => sample_objects (call_object c)) sample_calls.
Proof.
  split; [exact sample_wd_ok|]. split; [exact sample_sane|]. split; [exact sample_stored|]. split.
  - pose proof sysop_ident. pose proof test_ident. pose proof pichu_ident. pose proof m1_component.
    unfold sample_calls. repeat apply Forall_cons; try apply Forall_nil; (split; [cbn [call_object plain_object]|exact I]);
    auto; try (split; [assumption|]); try (split; [no_nul|no_nul]); (split; [assumption|split; discriminate]).
  - unfold sample_calls, sample_objects. repeat apply Forall_cons; try apply Forall_nil; cbn; tauto.
Qed.

(** ** from answers back to the library calls *)
Lemma returns_done (p : prog (outcome unit)) w w' :
  returns (fun _ => answer_with (fun _ => Done) p) w w' (Ok Done) -> run p w = (w', Ok tt).
Proof.
  intros (_ & n & R). rewrite run_answer in R. destruct (run p w) as [w1 [[]|e| |]]; cbn in R; congruence.
Qed.
Lemma returns_bytes (p : prog (outcome bytes)) w w' d :
  returns (fun _ => answer_with Bytes p) w w' (Ok (Bytes d)) -> run p w = (w', Ok d).
Proof.
  intros (_ & n & R). rewrite run_answer in R. destruct (run p w) as [w1 [x|e| |]]; cbn in R; congruence.
Qed.
Lemma returns_err {A} (k : A -> answer) (p : prog (outcome A)) w w' e :
  returns (fun _ => answer_with k p) w w' (Err e) -> run p w = (w', Err e).
Proof.
  intros (_ & n & R). rewrite run_answer in R. destruct (run p w) as [w1 [x|e'| |]]; cbn in R; congruence.
Qed.
Lemma same_else_names rp w w' p rq : same_else rp w w' -> names w p rq -> names w' p rq.
Proof. intros [C _] [P R]. split; [exact P|]. now rewrite C. Qed.
Lemma same_else_dir rp w w' : same_else rp w w' -> rp <> [] -> has_dir w rp -> has_dir w' rp.
Proof. intros [_ F] N D. unfold has_dir in *. rewrite F; [exact D|]. now apply removelast_snoc_neq. Qed.
Lemma file_nonroot w rp old : look w rp = option_map EFile old -> rp <> [].
Proof. intros L ->. destruct old; discriminate. Qed.

(** ** C10: writing an article *)
Definition C10_statement : Prop :=
  forall wd w b f rp old c, sane w -> plain_object (Article b f) -> holds_file w wd (Article b f) rp old ->
  exists w1 w2, run (DB_WriteBoardArticleFile wd b f c) w = (w1, Ok tt) /\
    run (DB_ReadBoardArticleFile wd b f) w1 = (w2, Ok c).

(** What holds: the new content followed by what the old one had beyond it; no
    other file changes. *)
Theorem C10_write_then_read_partial : forall wd w b f rp old c,
  sane w -> plain_object (Article b f) -> holds_file w wd (Article b f) rp old ->
  exists w1 w2 rest,
    run (DB_WriteBoardArticleFile wd b f c) w = (w1, Ok tt) /\
    run (DB_ReadBoardArticleFile wd b f) w1 = (w2, Ok (c ++ rest)) /\
    ((rest = [] /\ (length (old_or_empty old) <= length c)%nat) \/
     exists a, old = Some (a ++ rest) /\ length a = length c) /\
    (forall q, q <> rp -> look w1 q = look w q) /\ same_files w1 w2.
Proof.
  intros wd w b f rp old c S P (p & E & N & H & L).
  destruct (call_step id_codec wd (WriteArticle b f c) w p rp old S (conj P I) E N H L)
    as (w1 & r & new & R & S1 & B & L1 & (rest & -> & Q) & ->).
  destruct (call_step id_codec wd (ReadArticle b f) w1 p rp (Some (c ++ rest)) S1 (conj P I) E) as (w2 & r & new & R2 & S2 & B2 & L2 & -> & ->).
  { eapply same_else_names; eauto. }
  { eapply same_else_dir; eauto. eapply file_nonroot; eauto. }
  { exact L1. }
  exists w1, w2, rest. split; [now apply returns_done|]. split; [now apply returns_bytes|]. split; [exact Q|].
  split; [apply B|]. destruct B2 as [C2 F2]. split; [exact C2|].
  intros q. destruct (rp_eq_dec q rp) as [->|Nq]; [congruence|]. now apply F2.
Qed.
Print Assumptions C10_write_then_read_partial.
Corollary C10_exact_when_not_longer : forall wd w b f rp old c,
  sane w -> plain_object (Article b f) -> holds_file w wd (Article b f) rp old ->
  (length (old_or_empty old) <= length c)%nat ->
  exists w1 w2, run (DB_WriteBoardArticleFile wd b f c) w = (w1, Ok tt) /\
    run (DB_ReadBoardArticleFile wd b f) w1 = (w2, Ok c).
Proof.
  intros wd w b f rp old c S P H Q.
  destruct (C10_write_then_read_partial wd w b f rp old c S P H) as (w1 & w2 & rest & R1 & R2 & K & _).
  exists w1, w2. split; [exact R1|].
  destruct K as [[-> _]|(a & -> & La)]; [now rewrite app_nil_r in R2|].
  cbn in Q. rewrite app_length in Q. destruct rest; [now rewrite app_nil_r in R2|cbn in Q; lia].
Qed.
Print Assumptions C10_exact_when_not_longer.
Theorem C10_old_tail_remains_refuted : ~ C10_statement.
Proof.
  intros H.
  destruct (H sample_wd sample_world (str "SYSOP") (str "M.1.A.001") (rp ["bbs"; "boards"; "S"; "SYSOP"; "M.1.A.001"]%string)
     (Some (str "hello")) (str "x")) as (w1 & w2 & R1 & R2).
  - exact sample_sane.
  - split; [exact sysop_ident|]. split; [exact m1_component|]. split; discriminate.
  - eexists. split; [reflexivity|]. split; [split; [split; [discriminate|no_nul]|vm_compute; reflexivity]|].
    split; vm_compute; reflexivity.
  - assert (W : w1 = fst (run (DB_WriteBoardArticleFile sample_wd (str "SYSOP") (str "M.1.A.001") (str "x")) sample_world)) by (now rewrite R1).
    assert (Q : snd (run (DB_ReadBoardArticleFile sample_wd (str "SYSOP") (str "M.1.A.001")) w1) = Ok (str "x")) by (now rewrite R2).
    rewrite W in Q. vm_compute in Q. discriminate.
Qed.
Print Assumptions C10_old_tail_remains_refuted.
Example C10_nonvacuous :
  plain_object (Article (str "SYSOP") (str "M.1.A.001")) /\
  holds_file sample_world sample_wd (Article (str "SYSOP") (str "M.1.A.001"))
    (rp ["bbs"; "boards"; "S"; "SYSOP"; "M.1.A.001"]%string) (Some (str "hello")).
Proof.
  split; [split; [exact sysop_ident|]; split; [exact m1_component|]; split; discriminate|].
  eexists. split; [reflexivity|]. split; [split; [split; [discriminate|no_nul]|vm_compute; reflexivity]|].
  split; vm_compute; reflexivity.
Qed.

(** ** C11: appending to an article (sequential part) *)
Theorem C11_append_extends : forall wd w b f rp d c,
  sane w -> plain_object (Article b f) -> holds_file w wd (Article b f) rp (Some d) ->
  exists w1 w2,
    run (DB_AppendBoardArticleFile wd b f c) w = (w1, Ok tt) /\
    run (DB_ReadBoardArticleFile wd b f) w1 = (w2, Ok (d ++ c)) /\
    (forall q, q <> rp -> look w1 q = look w q).
Proof.
  intros wd w b f rp d c S P (p & E & N & H & L).
  destruct (call_step id_codec wd (AppendArticle b f c) w p rp (Some d) S (conj P I) E N H L)
    as (w1 & r & new & R & S1 & B & L1 & -> & ->).
  destruct (call_step id_codec wd (ReadArticle b f) w1 p rp (Some (d ++ c)) S1 (conj P I) E) as (w2 & r & new & R2 & S2 & B2 & L2 & -> & ->).
  { eapply same_else_names; eauto. }
  { eapply same_else_dir; eauto. apply (file_nonroot w rp (Some d)). exact L. }
  { exact L1. }
  exists w1, w2. split; [now apply returns_done|]. split; [now apply returns_bytes|]. apply B.
Qed.
Print Assumptions C11_append_extends.
Theorem C11_append_to_missing_fails : forall wd w b f rp c,
  sane w -> plain_object (Article b f) -> holds_file w wd (Article b f) rp None ->
  run (DB_AppendBoardArticleFile wd b f c) w = (w, Err (ESys ENOENT)).
Proof.
  intros wd w b f rp c S P (p & E & N & H & L).
  unfold DB_AppendBoardArticleFile. rewrite run_pbind. unfold lift. cbn [object_path] in E. rewrite E. cbn [run].
  rewrite append_article_shape, (open_write_missing O_APPEND_WRONLY p c w rp N L) by (now left).
  now rewrite (missing_enoent w rp S H).
Qed.
Print Assumptions C11_append_to_missing_fails.
Example C11_nonvacuous :
  holds_file sample_world sample_wd (Article (str "SYSOP") (str "M.1.A.001"))
    (rp ["bbs"; "boards"; "S"; "SYSOP"; "M.1.A.001"]%string) (Some (str "hello")) /\
  holds_file sample_world sample_wd (Article (str "test") (str "M.1.A.001"))
    (rp ["bbs"; "boards"; "t"; "test"; "M.1.A.001"]%string) None.
Proof.
  split; (eexists; split; [reflexivity|]; split; [split; [split; [discriminate|no_nul]|vm_compute; reflexivity]|];
  split; vm_compute; reflexivity).
Qed.

(** ** C26: drafts *)
Lemma draft_frame cd cs s s' rs u d : history_meets cd cs s s' rs ->
  s' (Draft u d) = draft_after u d cs (s (Draft u d)).
Proof.
  induction 1 as [s|c cs s s1 s2 r rs M F X IH]; [reflexivity|].
  rewrite IH. unfold draft_after. cbn [fold_left]. f_equal.
  destruct c; cbn [call_object] in *; try (apply F; congruence).
  - destruct (beqb u u0) eqn:Eu; [apply beqb_eq in Eu; subst; destruct (beqb d d0) eqn:Ed|]; cbn [andb].
    + apply beqb_eq in Ed. subst. now destruct M.
    + apply beqb_neq in Ed. apply F. congruence.
    + apply beqb_neq in Eu. apply F. congruence.
  - destruct (beqb u u0) eqn:Eu; [apply beqb_eq in Eu; subst; destruct (beqb d d0) eqn:Ed|]; cbn [andb].
    + apply beqb_eq in Ed. subst. now destruct M.
    + apply beqb_neq in Ed. apply F. congruence.
    + apply beqb_neq in Eu. apply F. congruence.
  - destruct (object_eq_dec (Draft u d) (Draft u0 d0)) as [Q|Q]; [injection Q as -> ->; now destruct M|now apply F].
Qed.

(** Reading a draft after any history of calls of any kind returns what was last
    written to it. *)
Theorem C26_draft_reads_last_write : forall cd wd O cs s w w' rs u d,
  ~ In x00 wd -> sane w -> stored w wd O s -> Forall call_ok cs -> Forall (fun c => O (call_object c)) cs ->
  O (Draft u d) -> plain_object (Draft u d) -> cexec cd wd cs w w' rs ->
  exists w'', run (GetUserDrafts wd u d) w' = (w'', Ok (old_or_empty (draft_after u d cs (s (Draft u d))))).
Proof.
  intros cd wd O cs s w w' rs u d Nw S H F FO Od Pd X.
  destruct (calls_refine cd wd O cs s w w' rs Nw S H F FO X) as (s' & HM & ST & SW).
  destruct (ST _ Od Pd) as (p & rp & E & N & D & L).
  destruct (call_step cd wd (ReadDraft u d) w' p rp _ SW (conj Pd I) E N D L) as (w2 & r & new & R2 & S2 & B2 & L2 & -> & ->).
  exists w2. rewrite <- (draft_frame _ _ _ _ _ u d HM). now apply returns_bytes.
Qed.
Print Assumptions C26_draft_reads_last_write.
(** Deleting a missing draft fails and changes nothing. *)
Theorem C26_delete_missing_fails : forall wd w u d rp,
  sane w -> holds_file w wd (Draft u d) rp None ->
  run (DB_DeleteUserDraft wd u d) w = (w, Err (ESys ENOENT)).
Proof.
  intros wd w u d rp S (p & E & N & H & L).
  unfold DB_DeleteUserDraft. rewrite run_pbind. unfold lift. cbn [object_path] in E. rewrite E. cbn [run].
  unfold DeleteUserDraft. cbn [run]. rewrite (unlink_missing p w rp N L). now rewrite (missing_enoent w rp S H).
Qed.
Print Assumptions C26_delete_missing_fails.
(** A crash while writing. *)
Definition C26_crash_statement : Prop :=
  forall wd w w' u d rp old c, sane w -> plain_object (Draft u d) -> holds_file w wd (Draft u d) rp old ->
  crash (DB_WriteUserDraft wd u d c) w w' ->
  look w' rp = option_map EFile old \/ look w' rp = Some (EFile c).
Theorem C26_crash_leaves_prefix_partial : forall wd w w' u d rp old c,
  sane w -> plain_object (Draft u d) -> holds_file w wd (Draft u d) rp old ->
  crash (DB_WriteUserDraft wd u d c) w w' ->
  (look w' rp = option_map EFile old \/ exists n, look w' rp = Some (EFile (firstn n c))) /\
  (forall q, q <> rp -> look w' q = look w q).
Proof.
  intros wd w w' u d rp old c S P (p & E & N & H & L) C.
  unfold DB_WriteUserDraft in C. cbn [object_path] in E. rewrite E in C. apply crash_lift_pbind in C.
  change (crash (WriteUserDraft p c) w w') in C. rewrite write_draft_shape in C.
  destruct (open_write_crash O_WRONLY_CREATE_TRUNC p c w rp old w') as (S' & B & Q); auto.
  split; [|apply B]. destruct Q as [Q|(_ & n & Q)]; [left; congruence|]. right. exists n. rewrite Q. f_equal. f_equal.
  unfold written. cbn [o_trunc O_WRONLY_CREATE_TRUNC o_append]. rewrite write_at_0.
  destruct (length (firstn n c)); cbn; now rewrite app_nil_r.
Qed.
Print Assumptions C26_crash_leaves_prefix_partial.
Theorem C26_crash_loses_draft_refuted : ~ C26_crash_statement.
Proof.
  intros H.
  set (w' := fst (exec (Open (str "/bbs/home/p/pichu/buf.0") O_WRONLY_CREATE_TRUNC) sample_world)).
  assert (Q : look w' (rp ["bbs"; "home"; "p"; "pichu"; "buf.0"]%string) = Some (EFile [])) by (vm_compute; reflexivity).
  destruct (H sample_wd sample_world w' (str "pichu") (str "0") (rp ["bbs"; "home"; "p"; "pichu"; "buf.0"]%string)
     (Some (str "draft text")) (str "new")) as [X|X].
  - exact sample_sane.
  - split; [exact pichu_ident|]. split; no_nul.
  - eexists. split; [reflexivity|]. split; [split; [split; [discriminate|no_nul]|vm_compute; reflexivity]|].
    split; vm_compute; reflexivity.
  - subst w'. unfold DB_WriteUserDraft, WriteUserDraft, write_file.
    change (GetUserDraftPath sample_wd (str "pichu") (str "0")) with (Ok (str "/bbs/home/p/pichu/buf.0")).
    apply crash_lift_pbind. right. right.
    destruct (exec (Open (str "/bbs/home/p/pichu/buf.0") O_WRONLY_CREATE_TRUNC) sample_world) as [w1 [fd|e]] eqn:Ex; now left.
  - rewrite Q in X. discriminate.
  - rewrite Q in X. discriminate.
Qed.
Print Assumptions C26_crash_loses_draft_refuted.
Example C26_nonvacuous :
  sample_objects (Draft (str "pichu") (str "1")) /\ plain_object (Draft (str "pichu") (str "1")) /\
  draft_after (str "pichu") (str "1") sample_calls (sample_store (Draft (str "pichu") (str "1"))) = Some (str "abc") /\
  draft_after (str "pichu") (str "0") sample_calls (sample_store (Draft (str "pichu") (str "0"))) = None /\
  holds_file sample_world sample_wd (Draft (str "pichu") (str "1")) (rp ["bbs"; "home"; "p"; "pichu"; "buf.1"]%string) None.
Proof.
  split; [unfold sample_objects; cbn; tauto|]. split; [split; [exact pichu_ident|split; no_nul]|].
  split; [reflexivity|]. split; [reflexivity|].
  eexists. split; [reflexivity|]. split; [split; [split; [discriminate|no_nul]|vm_compute; reflexivity]|].
  split; vm_compute; reflexivity.
Qed.

(** ** C13: the board list *)
Definition board_file (cd : codec) (old : option bytes) (bs : option (list BoardHeader)) : Prop :=
  match old, bs with
  | None, None => True
  | Some d, Some l => exists recs, d = concat recs /\
      Forall2 (fun r h => length r = 256%nat /\ UnmarshalBoardHeader cd r = Ok h) recs l
  | _, _ => False
  end.

Lemma board_marshal_length cd h : length (BoardHeader_MarshalBinary cd h) = 256%nat.
Proof. pose proof (board_encode cd h) as [L _]. lia. Qed.

Lemma concat_snoc (l : list bytes) x : concat (l ++ [x]) = concat l ++ x.
Proof. rewrite concat_app. cbn. now rewrite app_nil_r. Qed.

Theorem C13_board_list_refines : forall cd wd cs w w' rs rp old bs,
  sane w -> holds_file w wd Boards rp old -> board_file cd old bs ->
  Forall (fun o => match o with Some h => board_fits cd h | None => True end) cs ->
  cexec cd wd (map board_call cs) w w' rs ->
  rs = board_answers cs bs.
Proof.
  intros cd wd cs w w' rs rp old bs S H B F. revert w w' rs old bs S H B.
  induction F as [|c cs Hc Hcs IH]; intros w w' rs old bs S (p & E & N & D & L) B X; cbn [map] in X; inversion X as [|c0 cs0 w0 w1 w2 r rs' R X']; subst.
  - reflexivity.
  - destruct c as [h|]; cbn [board_call board_answers] in *.
    + (* add *)
      assert (R' : exists w1', run (AppendBoardHeaderFileRecord cd p h) w = (w1', Ok tt) /\ sane w1' /\ same_but rp w w1' /\
        look w1' rp = Some (EFile (old_or_empty old ++ BoardHeader_MarshalBinary cd h))).
      { rewrite append_board_shape. destruct old as [d|]; cbn [option_map] in L.
        - destruct (open_write_file O_APPEND_CREATE_WRONLY p (BoardHeader_MarshalBinary cd h) w rp d) as (w1' & R' & S' & B' & L'); auto.
          exists w1'. split; [exact R'|]. split; [exact S'|]. split; [exact B'|]. rewrite L'. unfold written. cbn [o_trunc O_APPEND_CREATE_WRONLY o_append]. now rewrite write_at_end.
        - destruct (open_write_create O_APPEND_CREATE_WRONLY p (BoardHeader_MarshalBinary cd h) w rp) as (w1' & R' & S' & B' & L'); auto.
          exists w1'. split; [exact R'|]. split; [exact S'|]. split; [exact B'|]. rewrite L'. unfold written. cbn [o_trunc O_APPEND_CREATE_WRONLY o_append]. now rewrite write_at_end. }
      destruct R' as (w1' & R' & S' & B' & L').
      destruct R as (_ & n & R). cbn [call_prog] in R. rewrite run_answer in R.
      unfold AddBoardRecord in R. rewrite run_pbind in R. unfold lift in R. cbn [object_path] in E. rewrite E in R. cbn [run] in R.
      rewrite R' in R. cbn [fst snd] in R. injection R as <- <-. f_equal.
      apply (IH w1' w' rs' (Some (old_or_empty old ++ BoardHeader_MarshalBinary cd h))); auto.
      * exists p. split; [exact E|]. apply same_but_else in B'. split; [eapply same_else_names; eauto|].
        split; [eapply same_else_dir; eauto; eapply file_nonroot; eauto|exact L'].
      * cbn [board_file].
        destruct old as [d|], bs as [l|]; cbn [board_file old_or_empty] in *; try contradiction.
        -- destruct B as (recs & -> & F2). exists (recs ++ [BoardHeader_MarshalBinary cd h]).
           split; [symmetry; apply concat_snoc|].
           apply Forall2_app; [exact F2|]. constructor; [|constructor]. split; [apply board_marshal_length|now apply board_roundtrip].
        -- exists [BoardHeader_MarshalBinary cd h]. split; [symmetry; exact (concat_snoc [] _)|]. constructor; [|constructor].
           split; [apply board_marshal_length|now apply board_roundtrip].
    + (* list *)
      destruct (call_step cd wd ListBoards w p rp old S (conj I I) E N D L) as (w1' & r' & new & R' & S1 & B1 & L1 & -> & M).
      assert (Q : w1 = w1' /\ r = r') by (exact (returns_unique _ _ _ _ _ _ (mono_call cd wd ListBoards) R R')).
      destruct Q as [-> ->].
      assert (HF : holds_file w1' wd Boards rp old).
      { exists p. split; [exact E|]. split; [eapply same_else_names; eauto|].
        split; [eapply same_else_dir; eauto; eapply file_nonroot; eauto|exact L1]. }
      f_equal; [|eapply IH; eauto].
      destruct old as [d|], bs as [l|]; cbn [board_file] in B; try contradiction.
      * destruct B as (recs & -> & F2).
        assert (FL : Forall (fun s => lenN s = 256) recs).
        { clear -F2. induction F2 as [|? ? ? ? [Q _]]; constructor; auto. unfold lenN. now rewrite Q. }
        (* the functional listing *)
        destruct (open_records_file 256 (UnmarshalBoardHeader cd) false false (Datatypes.S (length (concat recs))) w p rp (concat recs))
          as (w3 & l3 & R3 & G & _); auto; [reflexivity| |].
        { intros b Lb. destruct (board_decode cd b) as (x & E' & _); [lia|eauto]. }
        assert (R4 : returns (call_prog cd wd ListBoards) w w3 (Ok (BoardList l3))).
        { split; [discriminate|]. exists (Datatypes.S (length (concat recs))). cbn [call_prog]. rewrite run_answer.
          unfold ReadBoardRecords. rewrite run_pbind. unfold lift. cbn [object_path] in E. rewrite E. cbn [run].
          unfold OpenBoardHeaderFile. change BoardHeaderRecordLength with 256. rewrite R3. reflexivity. }
        destruct (returns_unique _ _ _ _ _ _ (mono_call cd wd ListBoards) R' R4) as [_ ->].
        f_equal. f_equal. rewrite cut_concat in G by (auto; reflexivity).
        clear -F2 G. revert l3 G. induction F2 as [|x y xs ys [_ Q] F2 IH]; intros l3 G; inversion G; subst; auto.
        f_equal; [congruence|auto].
      * exact M.
Qed.
Print Assumptions C13_board_list_refines.
(** Any regular file can be listed. *)
Theorem C13_any_board_file_is_listed : forall cd w wd rp d fuel,
  sane w -> holds_file w wd Boards rp (Some d) -> (length d < fuel)%nat ->
  exists w' l ss,
    run (ReadBoardRecords cd fuel wd) w = (w', Ok l) /\
    slots 256 d ss /\ Forall2 (board_decoded cd) ss l /\ same_files w w'.
Proof.
  intros cd w wd rp d fuel S (p & E & N & D & L) Hf.
  destruct (open_records_file 256 (UnmarshalBoardHeader cd) false false fuel w p rp d)
    as (w' & l & R & G & S' & SF & FD); auto; [reflexivity| |].
  { intros b Lb. destruct (board_decode cd b) as (x & E' & _); [lia|eauto]. }
  exists w', l, (cut 256 d). split; [|split; [|split; [|exact SF]]].
  - unfold ReadBoardRecords. rewrite run_pbind. unfold lift. cbn [object_path] in E. rewrite E. cbn [run].
    unfold OpenBoardHeaderFile. change BoardHeaderRecordLength with 256. exact R.
  - exact (cut_slots 256 d eq_refl).
  - apply (decode_slots _ (UnmarshalBoardHeader cd)); [reflexivity| |exact G]. intros s Ls. apply board_decode. unfold lenN. lia.
Qed.
Print Assumptions C13_any_board_file_is_listed.
Example C13_nonvacuous : exists d,
  holds_file sample_world sample_wd Boards (rp ["bbs"; ".BRD"]%string) (Some d) /\
  board_file id_codec (Some d) (Some [sample_board; sample_board]) /\
  board_answers [None; Some sample_board; None] (Some [sample_board; sample_board]) =
    [Ok (BoardList [sample_board; sample_board]); Ok Done; Ok (BoardList [sample_board; sample_board; sample_board])].
Proof.
  exists (concat [BoardHeader_MarshalBinary id_codec sample_board; BoardHeader_MarshalBinary id_codec sample_board]). split; [|split].
  - eexists. split; [reflexivity|]. split; [split; [split; [discriminate|no_nul]|vm_compute; reflexivity]|].
    split; [vm_compute; reflexivity|]. vm_compute. reflexivity.
  - exists [BoardHeader_MarshalBinary id_codec sample_board; BoardHeader_MarshalBinary id_codec sample_board].
    split; [reflexivity|]. pose proof (C12_nonvacuous) as F.
    constructor; [|constructor; [|constructor]]; (split; [apply board_marshal_length|now apply board_roundtrip]).
  - reflexivity.
Qed.

(** ** C42: Formosa indexes *)
Theorem C42_any_formosa_index_is_listed : forall cd w path rp d fuel,
  sane w -> names w path rp -> look w rp = Some (EFile d) -> (length d < fuel)%nat ->
  exists w' l ss,
    run (OpenFormosaBBSFileHeaderFile cd fuel path) w = (w', Ok l) /\
    slots 248 d ss /\ Forall2 (formosa_decoded cd) ss l /\ same_files w w'.
Proof.
  intros cd w path rp d fuel S N L Hf.
  destruct (open_records_file 248 (NewFormosaHeaderWithByte cd) false false fuel w path rp d)
    as (w' & l & R & G & S' & SF & FD); auto; [reflexivity| |].
  { intros b Lb. destruct (formosa_decode cd b) as (x & E' & _); [lia|eauto]. }
  exists w', l, (cut 248 d). split; [exact R|]. split; [exact (cut_slots 248 d eq_refl)|]. split; [|exact SF].
  apply (decode_slots _ (NewFormosaHeaderWithByte cd)); [reflexivity| |exact G]. intros s Ls. apply formosa_decode. unfold lenN. lia.
Qed.
Print Assumptions C42_any_formosa_index_is_listed.
Example C42_file_nonvacuous : exists d,
  look sample_world (rp ["bbs"; ".BRD"]%string) = Some (EFile d) /\ length d = 512%nat /\ names sample_world (str "/bbs/.BRD") (rp ["bbs"; ".BRD"]%string).
Proof.
  eexists. split; [vm_compute; reflexivity|]. split; [vm_compute; reflexivity|].
  split; [split; [discriminate|no_nul]|vm_compute; reflexivity].
Qed.

(** ** C47: the time of a new article *)
Lemma at_off_fun d off len v v' : at_off d off len v -> at_off d off len v' -> v = v'.
Proof.
  intros (a & b & E & La & Lv) (a' & b' & E' & La' & Lv'). rewrite E in E'.
  apply app_inv_len in E'; [|lia]. destruct E' as [_ E']. apply app_inv_len in E'; [|lia]. tauto.
Qed.
Lemma f_num_fun d off k n n' : f_num d off k n -> f_num d off k n' -> n = n'.
Proof. intros (v & A & ->) (v' & A' & ->). now rewrite (at_off_fun _ _ _ _ _ A A'). Qed.

(** The record made for a new article carries the zero time of Go ... *)
Theorem C47_created_record_time : forall fuel wd b owner date title w w' f,
  run (CreateArticleRecord fuel wd b owner date title) w = (w', Ok f) -> fh_modified f = (-62135596800)%Z.
Proof.
  intros fuel wd b owner date title w w' f R. unfold CreateArticleRecord in R. rewrite run_pbind in R.
  destruct (run (CreateBoardArticleFilename fuel wd b) w) as [w1 [n|e| |]]; cbn in R; try discriminate.
  now injection R as _ <-.
Qed.
Print Assumptions C47_created_record_time.
(** ... which is listed as 2288912640 (July 2042). *)
Definition C47_statement : Prop :=
  forall cd wd w w1 w2 b rp recs f l g, sane w -> plain_object (Index b) -> holds_file w wd (Index b) rp (Some (concat recs)) ->
  Forall (fun r => length r = 128%nat) recs -> fh_modified f = (-62135596800)%Z ->
  run (AddArticleRecordFileRecord cd wd b f) w = (w1, Ok tt) ->
  returns (fun n => ReadBoardArticleRecordsFile cd n wd b) w1 w2 (Ok (l ++ [g])) ->
  fh_modified g = 0%Z \/ (0 <= fh_modified g <= w_clock w (w_tick w))%Z.
Theorem C47_listed_time : forall cd wd w b rp recs f,
  sane w -> plain_object (Index b) -> holds_file w wd (Index b) rp (Some (concat recs)) ->
  Forall (fun r => length r = 128%nat) recs -> fh_modified f = (-62135596800)%Z ->
  exists w1 w2 l g,
    run (AddArticleRecordFileRecord cd wd b f) w = (w1, Ok tt) /\
    returns (fun n => ReadBoardArticleRecordsFile cd n wd b) w1 w2 (Ok (l ++ [g])) /\
    length l = length recs /\ fh_modified g = 2288912640%Z.
Proof.
  intros cd wd w b rp recs f S P (p & E & N & H & L) FR Ft.
  destruct (call_step cd wd (AddRecord b f) w p rp _ S (conj P I) E N H L)
    as (w1 & r & new & R & S1 & B & L1 & (v & Ev & -> & ->)).
  destruct (call_step cd wd (ListRecords b) w1 p rp (Some (concat recs ++ v)) S1 (conj P I) E) as (w2 & r & new & R2 & S2 & B2 & L2 & -> & (ss & l & SL & F2 & ->)).
  { eapply same_else_names; eauto. }
  { eapply same_else_dir; eauto. apply (file_nonroot w rp (Some (concat recs))). exact L. }
  { exact L1. }
  cbn [old_or_empty] in SL.
  assert (ss = recs ++ [v]) as ->.
  { apply (slots_unique 128 (concat recs ++ v)); [lia|exact SL|]. split.
    - apply Forall_app. split; [exact FR|]. constructor; [|constructor]. destruct Ev as [Lv _]. lia.
    - exists 0%nat. rewrite concat_app. cbn. rewrite !app_nil_r. split; [reflexivity|lia]. }
  apply Forall2_app_inv_l in F2. destruct F2 as (l1 & l2 & F1 & F2 & ->).
  inversion F2 as [|? g ? ? G F3]. subst. inversion F3. subst.
  exists w1, w2, l1, g. split; [now apply returns_done|]. split.
  { destruct R2 as (_ & n & R2). split; [discriminate|]. exists n. cbn [call_prog] in R2. rewrite run_answer in R2.
    destruct (run (ReadBoardArticleRecordsFile cd n wd b) w1) as [w3 [x|e| |]]; cbn in R2; congruence. }
  split; [clear -F1; induction F1; cbn; congruence|].
  destruct G as (_ & (n & G & ->) & _). destruct Ev as (_ & _ & Em & _). unfold e_int in Em. rewrite Ft in Em.
  rewrite (f_num_fun _ _ _ _ _ G Em). reflexivity.
Qed.
Print Assumptions C47_listed_time.
Example C47_nonvacuous :
  match run (CreateArticleRecord 100 sample_wd (str "SYSOP") (str "SYSOP") (str " 1/01") (str "t")) sample_world with
  | (w, Ok f) => fh_modified f = (-62135596800)%Z /\ snd (run (AddArticleRecordFileRecord id_codec sample_wd (str "SYSOP") f) w) = Ok tt
  | _ => False
  end.
Proof. vm_compute. repeat split. Qed.
Theorem C47_statement_refuted : ~ C47_statement.
Proof.
  intros H.
  set (f := NewArticleRecord (str "M.1.A.002") (str "SYSOP") (str " 1/01") (str "t")).
  set (recs := [MarshalToByte id_codec sample_file; moded_file]).
  assert (HF : holds_file sample_world sample_wd (Index (str "SYSOP")) (rp ["bbs"; "boards"; "S"; "SYSOP"; ".DIR"]%string) (Some (concat recs))).
  { eexists. split; [reflexivity|]. split; [split; [split; [discriminate|no_nul]|vm_compute; reflexivity]|].
    split; [vm_compute; reflexivity|]. vm_compute. reflexivity. }
  assert (FR : Forall (fun r => length r = 128%nat) recs) by (repeat constructor).
  destruct (C47_listed_time id_codec sample_wd sample_world (str "SYSOP") _ recs f sample_sane sysop_ident HF FR eq_refl)
    as (w1 & w2 & l & g & R1 & R2 & _ & T).
  destruct (H _ _ _ _ _ _ _ _ _ _ _ sample_sane sysop_ident HF FR (eq_refl : fh_modified f = _) R1 R2) as [X|X]; rewrite T in X.
  - discriminate.
  - change (w_clock sample_world (w_tick sample_world)) with 1600000000%Z in X. lia.
Qed.
Print Assumptions C47_statement_refuted.
