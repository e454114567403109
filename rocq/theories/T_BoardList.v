(** * Property theorems about board indexes: C01-C05 *)
From Coq Require Import Lia.
From Verif Require Import M_Base M_Sys M_Path M_File M_Board M_FileOps M_DB.
From Verif Require Import S_World S_Path S_Layout S_File S_BoardList S_Example S_ExWorld.
From Verif Require Import P_Base P_Layout P_Records P_Sys P_Read P_Path P_FileOps P_BoardList T_Records T_Path.
Open Scope N_scope.

(** ** C03: histories of adding, updating and listing refine lists *)

(** Every history runs to its end ... *)
Theorem C03_histories_terminate : forall cd wd B os s w,
  ~ In x00 wd -> sane w -> holds cd w wd B s ->
  Forall (bop_ok cd) os -> Forall (fun o => B (bop_board o)) os ->
  exists w' rs, bexec cd wd os w w' rs.
Proof. exact history_runs. Qed.
Print Assumptions C03_histories_terminate.

(** ... and gives exactly the answers and the final lists of the specification.
    A board whose list the specification does not change keeps its list, so
    operations on one board never affect another. *)
Theorem C03_histories_refine_lists : forall cd wd B os s w w' rs,
  ~ In x00 wd -> sane w -> holds cd w wd B s ->
  Forall (bop_ok cd) os -> Forall (fun o => B (bop_board o)) os ->
  bexec cd wd os w w' rs ->
  rs = snd (bops_spec cd os s) /\ holds cd w' wd B (fst (bops_spec cd os s)) /\ sane w' /\ same_fds w w'.
Proof. exact history_refines. Qed.
Print Assumptions C03_histories_refine_lists.

(** What an update does to a list: only the record at its index changes. *)
Theorem C03_update_is_local : forall (g x : FileHeader) l i j,
  (i < length l)%nat ->
  length (set_at g i x l) = length l /\
  nth_error (set_at g i x l) i = Some x /\
  (j <> i -> nth_error (set_at g i x l) j = nth_error l j).
Proof.
  intros g x l i j. revert i j. induction l as [|y l IH]; intros i j H; [cbn in H; lia|].
  destruct i as [|i]; cbn [set_at length].
  - split; [reflexivity|]. split; [reflexivity|]. intros N. destruct j; [contradiction|reflexivity].
  - cbn in H. destruct (IH i (pred j) ltac:(lia)) as (E1 & E2 & E3).
    split; [now rewrite E1|]. split; [exact E2|]. intros N. destruct j as [|j]; [reflexivity|]. cbn. apply E3.
    cbn. lia.
Qed.
Print Assumptions C03_update_is_local.
Theorem C03_update_past_end : forall (g x : FileHeader) l k,
  set_at g (length l + k) x l = l ++ repeat g k ++ [x].
Proof.
  intros g x l k. induction l as [|y l IH]; cbn; [|now rewrite IH].
  induction k as [|k IH]; cbn; [reflexivity|now rewrite IH].
Qed.
Print Assumptions C03_update_past_end.

(** The sample world holds a state with a two-record board and an empty one. *)
Definition sample_state : bstate :=
  BState (fun b => if beqb b (str "SYSOP") then
            match NewFileHeaderWithByte id_codec moded_file with Ok f => [sample_file; f] | _ => [] end else [])
         (fun b => beqb b (str "SYSOP")).
Definition sample_boards (b : bytes) : Prop := b = str "SYSOP" \/ b = str "test".
Lemma sample_holds : holds id_codec sample_world sample_wd sample_boards sample_state.
Proof.
  intros b [->| ->] _.
  - eexists _, _. split; [reflexivity|]. split; [split; [split; [discriminate|]|reflexivity]|].
    { intros Q. vm_compute in Q. repeat destruct Q as [Q|Q]; discriminate || contradiction. }
    split; [vm_compute; reflexivity|].
    change (bs_exists sample_state (str "SYSOP")) with true. cbv iota.
    exists [MarshalToByte id_codec sample_file; moded_file]. split; [vm_compute; reflexivity|].
    change (bs_list sample_state (str "SYSOP")) with
      (match NewFileHeaderWithByte id_codec moded_file with Ok f => [sample_file; f] | _ => [] end).
    destruct (NewFileHeaderWithByte id_codec moded_file) as [f|e| |] eqn:E; try (vm_compute in E; discriminate).
    constructor; [split; vm_compute; reflexivity|]. constructor; [|constructor].
    split; [vm_compute; reflexivity|exact E].
  - eexists _, _. split; [reflexivity|]. split; [split; [split; [discriminate|]|reflexivity]|].
    { intros Q. vm_compute in Q. repeat destruct Q as [Q|Q]; discriminate || contradiction. }
    split; [vm_compute; reflexivity|]. split; vm_compute; reflexivity.
Qed.
Ltac solve_ident := unfold ident, component; repeat split; try discriminate; vm_compute; intros Q;
  repeat destruct Q as [Q|Q]; discriminate || contradiction.
Lemma test_ident : ident (str "test").
Proof. solve_ident. Qed.
Lemma sysop_ident : ident (str "SYSOP").
Proof. solve_ident. Qed.
Definition sample_history : list bop :=
  [Add (str "test") sample_file; Update (str "SYSOP") 1 sample_file; List_ (str "test"); List_ (str "SYSOP")].
Example C03_nonvacuous :
  ~ In x00 sample_wd /\ sane sample_world /\ holds id_codec sample_world sample_wd sample_boards sample_state /\
  Forall (bop_ok id_codec) sample_history /\ Forall (fun o => sample_boards (bop_board o)) sample_history /\
  nth_error (snd (bops_spec id_codec sample_history sample_state)) 3 = Some (Ok [sample_file; sample_file]).
Proof.
  split; [intros Q; vm_compute in Q; repeat destruct Q as [Q|Q]; discriminate || contradiction|].
  split; [exact sample_sane|]. split; [exact sample_holds|]. split; [|split].
  - assert (F : file_fits id_codec sample_file) by exact C01_nonvacuous.
    unfold sample_history.
    apply Forall_cons; [split; [exact test_ident|exact F]|].
    apply Forall_cons; [split; [exact sysop_ident|split; [exact F|reflexivity]]|].
    apply Forall_cons; [split; [exact test_ident|exact I]|].
    apply Forall_cons; [split; [exact sysop_ident|exact I]|]. constructor.
  - repeat constructor; (now left) || (now right).
  - vm_compute. reflexivity.
Qed.

(** An index so large that 128 times it exceeds 64 bits changes another record:
    2^57 addresses record 0.  (A uint is 64 bits wide.) *)
Theorem C03_huge_index_refuted : exists i w' d d',
  i < 2 ^ 64 /\ run (UpdateArticleRecord id_codec sample_wd (str "SYSOP") i (blank id_codec)) sample_world = (w', Ok tt) /\
  content sample_world (str "/bbs/boards/S/SYSOP/.DIR") = Some d /\
  content w' (str "/bbs/boards/S/SYSOP/.DIR") = Some d' /\
  i <> 0 /\ sub 0 128 d' <> sub 0 128 d.
Proof.
  exists (2 ^ 57).
  destruct (run (UpdateArticleRecord id_codec sample_wd (str "SYSOP") (2 ^ 57) (blank id_codec)) sample_world) as [w' o] eqn:E.
  assert (O : o = snd (run (UpdateArticleRecord id_codec sample_wd (str "SYSOP") (2 ^ 57) (blank id_codec)) sample_world)) by (now rewrite E).
  assert (W : w' = fst (run (UpdateArticleRecord id_codec sample_wd (str "SYSOP") (2 ^ 57) (blank id_codec)) sample_world)) by (now rewrite E).
  clear E. subst w' o.
  eexists _, _, _. split; [reflexivity|]. split; [f_equal; vm_compute; reflexivity|].
  split; [vm_compute; reflexivity|]. split; [vm_compute; reflexivity|].
  split; [discriminate|]. vm_compute. discriminate.
Qed.
Print Assumptions C03_huge_index_refuted.

(** ** C01: a record added is the last one listed *)
Theorem C01_added_record_is_listed : forall cd wd w b s f,
  ~ In x00 wd -> sane w -> ident b -> holds cd w wd (eq b) s -> file_fits cd f ->
  exists w1 w2,
    run (AddArticleRecordFileRecord cd wd b f) w = (w1, Ok tt) /\
    returns (fun n => ReadBoardArticleRecordsFile cd n wd b) w1 w2 (Ok (bs_list s b ++ [file_image f])).
Proof.
  intros cd wd w b s f Nw S I H F.
  destruct (bop_step cd wd (eq b) s (Add b f) w) as (w1 & (Na & n & R) & S1 & H1 & _); auto.
  { split; assumption. }
  cbn [bop_prog bop_spec fst snd] in *.
  destruct (bop_step cd wd (eq b) _ (List_ b) w1 Nw S1 H1) as (w2 & R2 & _); [split; cbn; auto|reflexivity|].
  cbn [bop_spec snd bs_set bs_list] in R2. rewrite beqb_refl in R2.
  exists w1, w2. split; [|exact R2].
  rewrite run_pbind in R. destruct (run (AddArticleRecordFileRecord cd wd b f) w) as [w' [[]|e| |]];
  cbn in R; try (injection R as <- E; discriminate). injection R as <-. reflexivity.
Qed.
Print Assumptions C01_added_record_is_listed.
(** the six fields of the record survive *)
Theorem C01_image_keeps_fields : forall f,
  fh_filename (file_image f) = fh_filename f /\ fh_owner (file_image f) = fh_owner f /\
  fh_date (file_image f) = fh_date f /\ fh_title (file_image f) = fh_title f /\
  fh_recommend (file_image f) = fh_recommend f /\ fh_modified (file_image f) = fh_modified f.
Proof. intros f. repeat split. Qed.
Print Assumptions C01_image_keeps_fields.

(** ** C02: writing a record back *)

(** The full statement: rewriting a listed record in place changes no list. *)
Definition C02_statement : Prop :=
  forall cd wd w b s i f,
  ~ In x00 wd -> sane w -> ident b -> holds cd w wd (eq b) s -> bs_exists s b = true ->
  nth_error (bs_list s b) i = Some f -> big5_text_fits cd 65 (fh_title f) ->
  exists w1 w2, run (UpdateArticleRecord cd wd b (N.of_nat i) f) w = (w1, Ok tt) /\
    returns (fun n => ReadBoardArticleRecordsFile cd n wd b) w1 w2 (Ok (bs_list s b)).

(** A decoded record always fits, apart from its title. *)
Lemma decoded_fits cd r f : lenN r = 128 -> NewFileHeaderWithByte cd r = Ok f ->
  big5_text_fits cd 65 (fh_title f) -> file_fits cd f.
Proof.
  intros L E T. destruct (file_decode cd r) as (f' & E' & D); [lia|].
  rewrite E in E'. injection E' as <-.
  destruct D as (D1 & D2 & D3 & D4 & D5 & _).
  assert (TF : forall off n s, f_trim r off n s -> text_fits n s).
  { intros off n s (v & A & (i & j & Ev & H1 & H2)).
    destruct A as (x & y & _ & _ & Lv). split; [|split; auto].
    rewrite <- Lv, Ev, !app_length. lia. }
  split; [eapply TF; eauto|]. split.
  { destruct D2 as (n & (v & A & ->) & ->). rewrite le_num_dec. destruct A as (x & y & _ & _ & Lv).
    pose proof (le_dec_bound v) as Q. unfold lenN in Q. rewrite Lv in Q. unfold time_fits. change (256 ^ 4) with 4294967296 in Q. lia. }
  split.
  { destruct D3 as (n & (v & A & ->) & Q). rewrite le_num_dec in Q. destruct A as (x & y & _ & _ & Lv).
    pose proof (le_dec_bound v) as Q'. unfold lenN in Q'. rewrite Lv in Q'. change (256 ^ 1) with 256 in Q'.
    unfold int_fits. change (2 ^ (8 * 1)) with 256 in Q. change (2 ^ Z.of_N (8 * 1))%Z with 256%Z in Q.
    change (2 ^ (8 * Z.of_N 1 - 1))%Z with 128%Z. lia. }
  split; [eapply TF; eauto|]. split; [eapply TF; eauto|exact T].
Qed.

Lemma nth_Forall2 {A B} (R : A -> B -> Prop) l l' i b : Forall2 R l l' -> nth_error l' i = Some b ->
  exists a, nth_error l i = Some a /\ R a b.
Proof.
  intros F. revert i. induction F; intros [|i] E; try discriminate; cbn in *.
  - injection E as <-. eauto.
  - eauto.
Qed.

(** What holds: exactly the money, announcement id, vote limits and mode of that
    one record become zero. *)
Theorem C02_update_image_partial : forall cd wd w b s i f,
  ~ In x00 wd -> sane w -> ident b -> holds cd w wd (eq b) s -> bs_exists s b = true ->
  (i < 2 ^ 55)%Z -> (0 <= i)%Z ->
  nth_error (bs_list s b) (Z.to_nat i) = Some f -> big5_text_fits cd 65 (fh_title f) ->
  exists w1 w2, run (UpdateArticleRecord cd wd b (Z.to_N i) f) w = (w1, Ok tt) /\
    returns (fun n => ReadBoardArticleRecordsFile cd n wd b) w1 w2
      (Ok (set_at (blank cd) (Z.to_nat i) (file_image f) (bs_list s b))).
Proof.
  intros cd wd w b s i f Nw S I H Ex Hi H0 Nf T.
  assert (F : file_fits cd f).
  { destruct (H b eq_refl I) as (p & rp & _ & _ & _ & L). rewrite Ex in L. destruct L as (recs & _ & Fr).
    destruct (nth_Forall2 _ _ _ _ _ Fr Nf) as (r & _ & Lr & E). eapply decoded_fits; eauto.
    unfold lenN. now rewrite Lr. }
  destruct (bop_step cd wd (eq b) s (Update b (Z.to_N i) f) w) as (w1 & (Na & n & R) & S1 & H1 & _); auto.
  { split; [exact I|]. split; [exact F|]. change (2 ^ 56) with 72057594037927936. lia. }
  cbn [bop_prog bop_spec fst snd] in *. rewrite Ex in *. cbn [fst snd] in *.
  destruct (bop_step cd wd (eq b) _ (List_ b) w1 Nw S1 H1) as (w2 & R2 & _); [split; cbn; auto|reflexivity|].
  cbn [bop_spec snd bs_set bs_list] in R2. rewrite beqb_refl in R2.
  exists w1, w2. split.
  - rewrite run_pbind in R. destruct (run (UpdateArticleRecord cd wd b (Z.to_N i) f) w) as [w' [[]|e| |]];
    cbn in R; try (injection R as <- E; discriminate). injection R as <-. reflexivity.
  - replace (N.to_nat (Z.to_N i)) with (Z.to_nat i) in R2 by lia. exact R2.
Qed.
Print Assumptions C02_update_image_partial.

(** The image is the record itself exactly when the lost fields are zero. *)
Theorem C02_image_unchanged_iff : forall f,
  file_image f = f <->
  fh_money f = 0%Z /\ fh_annouid f = 0%Z /\ fh_vposts f = 0 /\ fh_vlogins f = 0 /\ fh_vregtime f = 0 /\
  fh_vbadpost f = 0 /\ fh_filemode f = 0.
Proof.
  intros [fn mo re ow da ti mn an vp vl vr vb md]. unfold file_image. cbn. split.
  - intros E. injection E. intros. subst. repeat split; reflexivity.
  - intros (-> & -> & -> & -> & -> & -> & ->). reflexivity.
Qed.
Print Assumptions C02_image_unchanged_iff.

Theorem C02_money_and_mode_lost_refuted : ~ C02_statement.
Proof.
  intros H.
  destruct (NewFileHeaderWithByte id_codec moded_file) as [f|e| |] eqn:E; try (vm_compute in E; discriminate).
  assert (T : big5_text_fits id_codec 65 (fh_title f)).
  { vm_compute in E. injection E as <-. fits. }
  assert (H0 : holds id_codec sample_world sample_wd (eq (str "SYSOP")) sample_state).
  { intros b <-. apply sample_holds. now left. }
  assert (Nw : ~ In x00 sample_wd).
  { intros Q; vm_compute in Q; repeat destruct Q as [Q|Q]; discriminate || contradiction. }
  assert (Nf : nth_error (bs_list sample_state (str "SYSOP")) 1 = Some f).
  { change (bs_list sample_state (str "SYSOP")) with
      (match NewFileHeaderWithByte id_codec moded_file with Ok f => [sample_file; f] | _ => [] end).
    rewrite E. reflexivity. }
  destruct (H id_codec sample_wd sample_world (str "SYSOP") sample_state 1%nat f Nw sample_sane sysop_ident H0 eq_refl Nf T)
    as (w1 & w2 & R & Q).
  destruct (C02_update_image_partial id_codec sample_wd sample_world (str "SYSOP") sample_state 1 f Nw sample_sane sysop_ident H0 eq_refl
     ltac:(reflexivity) ltac:(discriminate) Nf T) as (w1' & w2' & R' & Q').
  change (N.of_nat 1) with (Z.to_N 1) in R. rewrite R in R'. injection R' as <-.
  destruct (returns_unique _ _ _ _ _ _ (mono_list_board id_codec sample_wd (str "SYSOP")) Q Q') as [_ X].
  assert (X' : bs_list sample_state (str "SYSOP") =
     set_at (blank id_codec) 1 (file_image f) (bs_list sample_state (str "SYSOP"))).
  { revert X. generalize (bs_list sample_state (str "SYSOP")) (file_image f) (blank id_codec). intros l g k X.
    change (Z.to_nat 1) with 1%nat in X. exact (f_equal (fun o => match o with Ok l => l | _ => [] end) X). }
  clear X. apply (f_equal (fun l => nth_error l 1)) in X'. rewrite Nf in X'.
  assert (Y : file_image f <> f) by (vm_compute in E; injection E as <-; discriminate).
  apply Y. revert X'. change (bs_list sample_state (str "SYSOP")) with
      (match NewFileHeaderWithByte id_codec moded_file with Ok f => [sample_file; f] | _ => [] end).
  rewrite E. cbn [set_at nth_error]. congruence.
Qed.
Print Assumptions C02_money_and_mode_lost_refuted.
Example C02_nonvacuous : exists f, nth_error (bs_list sample_state (str "SYSOP")) 1 = Some f /\
  fh_money f = 5%Z /\ fh_filemode f = 1 /\ file_image f <> f.
Proof. eexists. split; [vm_compute; reflexivity|]. repeat split; try discriminate. Qed.

(** ** C04: every regular file can be listed, slot by slot *)
Theorem C04_any_index_is_listed : forall cd w wd b p rp d fuel,
  sane w -> GetBoardArticlesDirectoryPath wd b = Ok p -> names w p rp -> look w rp = Some (EFile d) ->
  (length d < fuel)%nat ->
  exists w' l ss,
    run (ReadBoardArticleRecordsFile cd fuel wd b) w = (w', Ok l) /\
    slots 128 d ss /\ Forall2 (file_decoded cd) ss l /\
    same_files w w' /\ same_fds w w'.
Proof.
  intros cd w wd b p rp d fuel S P N L Hf.
  destruct (open_records_file 128 (NewFileHeaderWithByte cd) false true fuel w p rp d)
    as (w' & l & R & G & S' & SF & FD); auto; [reflexivity|apply header_decodes|].
  exists w', l, (cut 128 d). split; [|split; [|split; [|split; assumption]]].
  - unfold ReadBoardArticleRecordsFile. rewrite run_pbind. unfold lift. rewrite P. cbn [run].
    rewrite run_bind. unfold OpenFileHeaderFile. rewrite R. reflexivity.
  - exact (cut_slots 128 d eq_refl).
  - pose proof (cut_slots 128 d eq_refl) as [LS _]. revert LS. clear -G.
    induction G as [|s f ss l E G IH]; intros LS; constructor.
    + inversion LS as [|? ? Ls]. subst.
      destruct (file_decode cd s) as (f' & E' & D); [unfold lenN; lia|]. rewrite E in E'. now injection E' as <-.
    + apply IH. now inversion LS.
Qed.
Print Assumptions C04_any_index_is_listed.
(** the slots of a file are determined by its content; their number is its
    length divided by 128, rounded up *)
Theorem C04_slots_determined : forall d l l', slots 128 d l -> slots 128 d l' -> l = l'.
Proof. intros d l l'. apply slots_unique. lia. Qed.
Print Assumptions C04_slots_determined.
Theorem C04_slot_count : forall d l, slots 128 d l ->
  (128 * (Z.of_nat (length l) - 1) < Z.of_nat (length d) <= 128 * Z.of_nat (length l))%Z.
Proof.
  intros d l [F (k & C & K)]. apply concat_length in F. rewrite C, app_length, repeat_length in F. lia.
Qed.
Print Assumptions C04_slot_count.
Example C04_nonvacuous : exists d,
  look sample_world (rp ["bbs"; "boards"; "S"; "SYSOP"; ".DIR"]%string) = Some (EFile d) /\ length d = 256%nat /\
  names sample_world (str "/bbs/boards/S/SYSOP/.DIR") (rp ["bbs"; "boards"; "S"; "SYSOP"; ".DIR"]%string).
Proof.
  eexists. split; [vm_compute; reflexivity|]. split; [vm_compute; reflexivity|].
  split; [|vm_compute; reflexivity]. split; [discriminate|].
  intros Q; vm_compute in Q; repeat destruct Q as [Q|Q]; discriminate || contradiction.
Qed.

(** ** C05: termination of listing *)
Definition C05_statement : Prop :=
  forall cd w path, sane w -> exists fuel, snd (run (OpenFileHeaderFile cd fuel path) w) <> Diverge.

Theorem C05_terminates_unless_directory_partial : forall cd w path fuel,
  sane w ->
  (proper path -> look w (resolve (w_cwd w) path) <> Some EDir) ->
  (forall d, look w (resolve (w_cwd w) path) = Some (EFile d) -> (length d < fuel)%nat) ->
  (exists w' l, run (OpenFileHeaderFile cd fuel path) w = (w', Ok l)) \/
  (exists e, run (OpenFileHeaderFile cd fuel path) w = (w, Err (ESys e))).
Proof.
  intros cd w path fuel S ND Hf. unfold OpenFileHeaderFile.
  assert (DP : proper path \/ ~ proper path).
  { unfold proper. destruct (list_eq_dec Byte.byte_eq_dec path []); [right; tauto|].
    destruct (in_dec Byte.byte_eq_dec x00 path); [right; tauto|left; tauto]. }
  destruct DP as [P|P].
  - set (rp := resolve (w_cwd w) path) in *.
    assert (N : names w path rp) by (split; [exact P|reflexivity]).
    destruct (look w rp) as [[|d]|] eqn:L.
    + exfalso. now apply ND.
    + left. destruct (open_records_file 128 (NewFileHeaderWithByte cd) false true fuel w path rp d)
        as (w' & l & R & _); auto; [reflexivity|apply header_decodes|]. eauto.
    + right. eexists. now apply open_records_missing.
  - right. eexists. now apply open_records_improper.
Qed.
Print Assumptions C05_terminates_unless_directory_partial.

Example C05_nonvacuous :
  (proper (str "/bbs/boards/S/SYSOP/.DIR") -> look sample_world (resolve (w_cwd sample_world) (str "/bbs/boards/S/SYSOP/.DIR")) <> Some EDir) /\
  match snd (run (OpenFileHeaderFile id_codec 600 (str "/bbs/boards/S/SYSOP/.DIR")) sample_world) with Ok l => length l = 2%nat | _ => False end /\
  match snd (run (OpenFileHeaderFile id_codec 600 (str "/bbs/nowhere")) sample_world) with Err (ESys _) => True | _ => False end.
Proof. split; [intros _; vm_compute; discriminate|]. split; vm_compute; reflexivity. Qed.
Theorem C05_directory_never_ends_refuted : forall cd w path rp fuel,
  names w path rp -> look w rp = Some EDir ->
  snd (run (OpenFileHeaderFile cd fuel path) w) = Diverge.
Proof.
  intros cd w path rp fuel N L. unfold OpenFileHeaderFile.
  destruct (open_records_dir 128 (NewFileHeaderWithByte cd) true fuel w path rp (header_decodes cd) N L) as (w' & ->).
  reflexivity.
Qed.
Print Assumptions C05_directory_never_ends_refuted.
Theorem C05_statement_refuted : ~ C05_statement.
Proof.
  intros H. destruct (H id_codec sample_world (str "/bbs/boards") sample_sane) as (fuel & Q). apply Q.
  apply C05_directory_never_ends_refuted with (rp := rp ["bbs"; "boards"]%string); [|vm_compute; reflexivity].
  split; [|vm_compute; reflexivity]. split; [discriminate|].
  intros X; vm_compute in X; repeat destruct X as [X|X]; discriminate || contradiction.
Qed.
Print Assumptions C05_statement_refuted.
(** The same loop shape in the user list, the board list and the Formosa index. *)
Theorem C05_other_lists_never_end_refuted : forall cd w path rp fuel,
  names w path rp -> look w rp = Some EDir ->
  snd (run (OpenBoardHeaderFile cd fuel path) w) = Diverge /\
  snd (run (OpenUserecFile cd fuel path) w) = Diverge /\
  snd (run (OpenFormosaBBSFileHeaderFile cd fuel path) w) = Diverge.
Proof.
  intros cd w path rp fuel N L.
  unfold OpenBoardHeaderFile, OpenUserecFile, OpenFormosaBBSFileHeaderFile. repeat split.
  - destruct (open_records_dir BoardHeaderRecordLength (UnmarshalBoardHeader cd) false fuel w path rp) as (w' & ->); auto.
    intros b Lb. destruct (board_decode cd b) as (x & E & _); [unfold BoardHeaderRecordLength in Lb; lia|eauto].
  - destruct (open_records_dir 512 (M_Userec.UnmarshalUserec cd) false fuel w path rp) as (w' & ->); auto.
    intros b Lb. destruct (userec_decode cd b) as (x & E & _); [lia|eauto].
  - destruct (open_records_dir 248 (M_Formosa.NewFormosaHeaderWithByte cd) false fuel w path rp) as (w' & ->); auto.
    intros b Lb. destruct (formosa_decode cd b) as (x & E & _); [lia|eauto].
Qed.
Print Assumptions C05_other_lists_never_end_refuted.
