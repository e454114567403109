(** * Property theorems about calls on a disk that fails: C68 *)
From Coq Require Import Lia ZifyBool ZifyNat ZifyN.
From Verif Require Import M_Base M_Sys M_Path M_File M_Board M_Userec M_FileOps M_DB M_Fault.
From Verif Require Import S_World S_Path S_Layout S_File S_Board S_Userec S_BoardList S_Store S_Pool S_Create S_Crash S_Fault S_Example S_ExWorld.
From Verif Require Import P_Base P_Layout P_Records P_Sys P_Read P_Path P_FileOps P_BoardList P_Store P_Crash P_Scan P_Create P_Remove P_BbsTool P_CrashCalls P_Fault.
From Verif Require Import T_Records T_Path T_BoardList T_Store T_Remove T_Create.
Open Scope N_scope.

(** ** Any sequence of calls *)

(** Every call either does what it says (C51), or it has met an error: then the callers
    that change something report it and leave what an interruption would leave (C58),
    and a listing is complete but may hold further, empty records.  Nothing else
    changes, and the calls after an error behave as after any other call. *)
Theorem C68_histories : forall cd wd O cs s w w' rs,
  ~ In x00 wd -> sane w -> stored w wd O s -> Forall call_ok cs -> Forall (fun c => O (call_object c)) cs ->
  fexec cd wd cs w w' rs ->
  exists s', faulty_history cd wd cs s s' rs /\ stored w' wd O s' /\ sane w' /\ elsewhere wd O w w'.
Proof.
  intros cd wd O cs s w w' rs Nw S H F FO X. revert s S H F FO. induction X as [w|c cs w w1 w2 r rs fuel R ND X IH]; intros s S H F FO.
  - exists s. split; [constructor|]. split; [exact H|]. split; [exact S|apply elsewhere_refl].
  - inversion F as [|? ? Hc Hcs]. inversion FO as [|? ? Oc FO']. subst.
    destruct (H (call_object c) Oc (proj1 Hc)) as (p & rp & E & N & D & L).
    destruct (call_frun cd wd c w w1 r p rp (s (call_object c)) fuel S Hc E N D L R ND) as (new & B & L1 & M).
    pose proof (frun_sane _ _ _ _ S R) as S1.
    destruct (IH (st_set s (call_object c) new) S1) as (s' & HM & ST & SW & EL); auto.
    { eapply stored_step; eauto. apply Hc. }
    exists s'. split; [|split; [exact ST|split; [exact SW|]]].
    + apply fh_cons with (s1 := st_set s (call_object c) new); [| |exact HM]; unfold st_set.
      * destruct object_eq_dec; [exact M|contradiction].
      * intros o No. destruct object_eq_dec; [contradiction|reflexivity].
    + apply (elsewhere_trans _ _ _ w1); [|exact EL]. eapply elsewhere_else; eauto. apply Hc.
Qed.
Print Assumptions C68_histories.

(** ** A reported success *)

(** "A call that reports success has done what it says" *)
Definition C68_success_statement (careful : call -> Prop) : Prop := forall cd wd c w w' p rp old fuel a,
  sane w -> call_ok c -> careful c -> object_path wd (call_object c) = Ok p -> names w p rp -> has_dir w rp ->
  look w rp = option_map EFile old -> frun (call_prog cd wd c fuel) w w' (Ok a) ->
  exists new, look w' rp = option_map EFile new /\ call_meets cd c old new (Ok a).
Theorem C68_success_means_done_partial : C68_success_statement
  (fun c => match c with ListRecords _ | ListTreasures _ _ | ReadDraft _ _ | ListBoards | ListUsers => False | _ => True end).
Proof.
  intros cd wd c w w' p rp old fuel a S K Cc E N D L H.
  assert (Nc : notices c = true) by (destruct c; try contradiction; reflexivity).
  destruct (checked_frun _ (checked_call cd wd c fuel Nc) _ _ _ H) as [R|[R _]]; [|discriminate R].
  destruct (call_run cd wd c w p rp old fuel S K E N D L) as (new & r & B & L1 & M).
  destruct (call_step cd wd c w p rp old S K E N D L) as (w1 & r1 & new1 & (ND & f1 & R1) & S1 & B1 & L1' & M1).
  assert (R2 : run (call_prog cd wd c fuel) w = (w1, r1)).
  { destruct c; try contradiction; exact R1. }
  rewrite R in R2. injection R2 as -> <-. exists new1. now split.
Qed.
Print Assumptions C68_success_means_done_partial.

(** Computing one particular run: the list says which calls fail, and after how many
    bytes of a write. *)
Fixpoint fault_at {A} (plan : list (option nat)) (p : prog A) (w : world) : world * A :=
  match p with
  | Ret a => (w, a)
  | Call c k =>
      let ok (_ : unit) := let '(w1, r) := exec c w in fault_at (tl plan) (k r) w1 in
      match plan with
      | Some n :: plan' =>
          match c in sys R return (R -> prog A) -> (unit -> world * A) -> world * A with
          | Open _ _ => fun k _ => fault_at plan' (k (RErr EIO)) w
          | Read _ _ => fun k _ => fault_at plan' (k (RErr EIO)) w
          | ReadAll _ => fun k _ => fault_at plan' (k (RErr EIO)) w
          | Write fd d => fun k _ => fault_at plan' (k (RErr EIO)) (fst (sys_write fd (firstn n d) w))
          | SeekSet _ _ => fun k _ => fault_at plan' (k (RErr EIO)) w
          | SeekCur0 _ => fun k _ => fault_at plan' (k (RErr EIO)) w
          | Ftruncate _ _ => fun k _ => fault_at plan' (k (RErr EIO)) w
          | Stat _ => fun k _ => fault_at plan' (k (RErr EIO)) w
          | Unlink _ => fun k _ => fault_at plan' (k (RErr EIO)) w
          | Close _ => fun _ ok => ok tt
          | Now => fun _ ok => ok tt
          | Rand _ => fun _ ok => ok tt
          end k ok
      | _ => ok tt
      end
  end.
Lemma fault_at_frun {A} (p : prog A) : forall plan w, frun p w (fst (fault_at plan p w)) (snd (fault_at plan p w)).
Proof.
  induction p as [a|R c k IH]; intros plan w; cbn [fault_at frun]; [now split|].
  assert (OK : exists w1 r, (exec c w = (w1, r) \/ fails c w w1 r) /\
    frun (k r) w1 (fst (let '(w1, r) := exec c w in fault_at (tl plan) (k r) w1)) (snd (let '(w1, r) := exec c w in fault_at (tl plan) (k r) w1))).
  { destruct (exec c w) as [w1 r]. exists w1, r. split; [now left|apply IH]. }
  destruct plan as [|[n|] plan]; try exact OK.
  destruct c; try exact OK; clear OK; (eexists _, _; split; [right; cbn [fails]; split; [|reflexivity]; first [reflexivity|eexists; reflexivity]|apply IH]).
Qed.
Lemma bind_frun {A B} (p : prog A) (f : A -> prog B) : forall w w1 w' a b, frun p w w1 a -> frun (f a) w1 w' b -> frun (bind p f) w w' b.
Proof.
  induction p as [x|R c k IH]; intros w w1 w' a b H1 H2; cbn [frun bind] in *; [destruct H1 as [-> ->]; exact H2|].
  destruct H1 as (w2 & r & X & H1). exists w2, r. split; [exact X|]. now apply (IH r _ w1 _ a).
Qed.
Lemma fault_frun {A} plan (p : prog A) w a : snd (fault_at plan p w) = a -> frun p w (fst (fault_at plan p w)) a.
Proof. intros <-. apply fault_at_frun. Qed.

(** False for all calls: reading a draft whose size cannot be found out gives an empty
    draft, without an error. *)
Theorem C68_unreadable_draft_refuted : ~ C68_success_statement (fun _ => True).
Proof.
  intros H. pose (c := ReadDraft (str "pichu") (str "0")).
  pose (plan := [Some 0%nat]).
  destruct (H id_codec sample_wd c sample_world (fst (fault_at plan (call_prog id_codec sample_wd c 0) sample_world)) (str "/bbs/home/p/pichu/buf.0")
    (rp ["bbs"; "home"; "p"; "pichu"; "buf.0"]%string) (Some (str "draft text")) 0%nat (Bytes [])) as (new & L & M).
  - exact sample_sane.
  - split; [|exact Logic.I]. split; [exact pichu_ident|split; no_nul].
  - exact Logic.I.
  - reflexivity.
  - split; [split; [discriminate|no_nul]|vm_compute; reflexivity].
  - vm_compute. reflexivity.
  - vm_compute. reflexivity.
  - apply fault_frun. vm_compute. reflexivity.
  - cbn [call_meets c] in M. destruct M as [_ M]. discriminate M.
Qed.
Print Assumptions C68_unreadable_draft_refuted.

(** ... and a listing of the boards during which one read has failed shows a board that
    does not exist. *)
Definition C68_listed_boards_statement : Prop := forall cd wd w w' p rp recs fuel l,
  sane w -> object_path wd Boards = Ok p -> names w p rp -> has_dir w rp -> board_recs recs -> look w rp = Some (EFile (concat recs)) ->
  frun (ReadBoardRecords cd fuel wd) w w' (Ok l) -> length l = length recs.
Theorem C68_made_up_board_refuted : ~ C68_listed_boards_statement.
Proof.
  intros H. pose (plan := [None; None; Some 0%nat]).
  pose (x := fault_at plan (ReadBoardRecords id_codec 1000 sample_wd) sample_world).
  assert (E0 : match snd x with Ok l => length l | _ => 0%nat end = 3%nat) by (vm_compute; reflexivity).
  destruct (snd x) as [l| | |] eqn:E; try discriminate E0. rename E0 into LL.
  assert (Q : length l = length two_boards).
  { apply (H id_codec sample_wd sample_world (fst x) brd_path brd two_boards 1000%nat l).
    - exact sample_sane.
    - reflexivity.
    - now apply brd_names.
    - vm_compute. reflexivity.
    - exact two_boards_recs.
    - exact brd_look.
    - now apply fault_frun. }
  rewrite LL in Q. discriminate Q.
Qed.
Print Assumptions C68_made_up_board_refuted.

(** ** A reported failure *)

(** "A call that reports failure has changed nothing" is false: a draft is emptied
    before its new text is written. *)
Definition C68_failure_statement : Prop := forall cd wd c w w' p rp old fuel e,
  sane w -> call_ok c -> object_path wd (call_object c) = Ok p -> names w p rp -> has_dir w rp ->
  look w rp = option_map EFile old -> frun (call_prog cd wd c fuel) w w' (Err e) -> look w' rp = look w rp.
Theorem C68_failed_draft_refuted : ~ C68_failure_statement.
Proof.
  intros H. pose (c := WriteDraft (str "pichu") (str "0") (str "new text")).
  pose (plan := [None; Some 0%nat]). pose (q := rp ["bbs"; "home"; "p"; "pichu"; "buf.0"]%string).
  pose (x := fault_at plan (call_prog id_codec sample_wd c 0) sample_world).
  assert (E : look (fst x) q = look sample_world q).
  { apply (H id_codec sample_wd c sample_world (fst x) (str "/bbs/home/p/pichu/buf.0") q (Some (str "draft text")) 0%nat (ESys EIO)).
    - exact sample_sane.
    - split; [|exact Logic.I]. split; [exact pichu_ident|split; no_nul].
    - reflexivity.
    - split; [split; [discriminate|no_nul]|vm_compute; reflexivity].
    - vm_compute. reflexivity.
    - vm_compute. reflexivity.
    - apply fault_frun. vm_compute. reflexivity. }
  vm_compute in E. discriminate E.
Qed.
Print Assumptions C68_failed_draft_refuted.

(** "A record whose addition is reported as done is in the listing" is false after an
    addition that has failed: the bytes it has left shift the records that follow. *)
Definition C68_later_addition_statement : Prop := forall cd wd O b f g s w w' e l,
  ~ In x00 wd -> sane w -> stored w wd O s -> ident b -> O (Index b) -> file_fits cd f -> file_fits cd g ->
  fexec cd wd [AddRecord b f; AddRecord b g; ListRecords b] w w' [Err e; Ok Done; Ok (Files l)] ->
  In (file_image g) l.
Definition other_file : FileHeader :=
  MkFileHeader (str "M.1600000000.A.ABC") 1600000000 5 (str "lex") (str " 9/13") (str "another") 0 0 0 0 0 0 0.
Lemma other_fits : file_fits id_codec other_file.
Proof. unfold file_fits. fits. Qed.
Theorem C68_later_addition_refuted : ~ C68_later_addition_statement.
Proof.
  intros H. pose (b := str "SYSOP").
  pose (x1 := fault_at [None; Some 1%nat] (call_prog id_codec sample_wd (AddRecord b sample_file) 0) sample_world).
  pose (x2 := fault_at [] (call_prog id_codec sample_wd (AddRecord b other_file) 0) (fst x1)).
  pose (x3 := fault_at [] (ReadBoardArticleRecordsFile id_codec 1000 sample_wd b) (fst x2)).
  assert (E3 : match snd x3 with Ok l => existsb (fun h => beqb (fh_filename h) (fh_filename other_file)) l | _ => true end = false) by (vm_compute; reflexivity).
  destruct (snd x3) as [l| | |] eqn:E; try discriminate E3.
  assert (I : In (file_image other_file) l).
  { apply (H id_codec sample_wd sample_objects b sample_file other_file sample_store sample_world (fst x3) (ESys EIO)).
    - exact sample_wd_ok.
    - exact sample_sane.
    - exact sample_stored.
    - exact sysop_ident.
    - left. reflexivity.
    - exact C01_nonvacuous.
    - exact other_fits.
    - apply (fexec_cons _ _ _ _ _ (fst x1) _ _ _ 0); [apply fault_frun; vm_compute; reflexivity|discriminate|].
      apply (fexec_cons _ _ _ _ _ (fst x2) _ _ _ 0); [apply fault_frun; vm_compute; reflexivity|discriminate|].
      apply (fexec_cons _ _ _ _ _ (fst x3) _ _ _ 1000); [|discriminate|apply fexec_nil].
      cbn [call_prog]. unfold answer_with, pbind. apply (bind_frun _ _ _ (fst x3) _ (Ok l)); [apply fault_frun; exact E|]. now split. }
  assert (T : existsb (fun h => beqb (fh_filename h) (fh_filename other_file)) l = true).
  { apply existsb_exists. exists (file_image other_file). split; [exact I|]. vm_compute. reflexivity. }
  congruence.
Qed.
Print Assumptions C68_later_addition_refuted.

(** ** Removing a board *)

(** Whatever fails, the other records stay, as after a crash (C15); and a removal that
    reports success has removed the record, or the file could not be cut and the last
    record stands twice. *)
Lemma frun_remove chunk w path rp d (i : N) fuel w' :
  sane w -> names w path rp -> look w rp = Some (EFile d) -> (i + 1) * 256 <= lenN d -> lenN d < 2 ^ 62 -> (length d < fuel)%nat ->
  frun (RemoveBoardHeaderFileRecord chunk fuel path (Z.of_N i)) w w' (Ok tt) ->
  look w' rp = Some (EFile (removed i d)) \/ look w' rp = Some (EFile (shifted (i * 256) ((i + 1) * 256) (lenN d - (i + 1) * 256) d)).
Proof.
  intros S N L Hi HL Hf H. destruct (look_file _ _ _ L) as (ino & T & D & Nr).
  destruct (remove_opened w path rp d ino S N L T) as (w1 & w2 & E1 & FS1 & E2 & CS2).
  set (fi := w_nextfd w) in *. set (fo := N.succ fi) in *.
  assert (NE : fi <> fo) by (subst fo; lia).
  assert (Ni : w_fds w fi = None) by (apply (sane_fd w S); subst fi; lia).
  assert (No : w_fds w fo = None) by (apply (sane_fd w S); subst fo fi; lia).
  destruct (index_offsets i ltac:(lia)) as [O1 O2].
  assert (CB : forall fo fi e w w', ~ frun (Call (Close fo) (fun _ => Call (Close fi) (fun _ => Ret (@Err unit e)))) w w' (Ok tt)).
  { intros fo' fi' e v v' X. cbn [frun] in X. destruct X as (? & ? & _ & ? & ? & _ & _ & X). discriminate X. }
  unfold RemoveBoardHeaderFileRecord in H. cbv zeta in H. cbn [frun] in H.
  destruct H as (v1 & r & [X|[_ ->]] & H); [|cbn [frun] in H; destruct H as [_ H]; discriminate H].
  rewrite E1 in X. injection X as <- <-. cbn [frun] in H.
  destruct H as (v2 & r & [X|[_ ->]] & H); [|cbn [frun] in H; destruct H as (? & ? & _ & _ & H); discriminate H].
  rewrite E2 in X. injection X as <- <-. cbn [frun] in H. rewrite O1, O2 in H.
  destruct (cs_seek_i _ _ _ _ _ _ _ _ (Z.of_N ((i + 1) * 256)) NE CS2) as (w3 & E3 & CS3); [lia|].
  destruct H as (v3 & r & [X|[_ ->]] & H); [|now apply CB in H]. rewrite E3 in X. injection X as <- <-. cbn [frun] in H.
  destruct (cs_seek_o _ _ _ _ _ _ _ _ (Z.of_N (i * 256)) NE CS3) as (w4 & E4 & CS4); [lia|].
  destruct H as (v4 & r & [X|[_ ->]] & H); [|now apply CB in H]. rewrite E4 in X. injection X as <- <-.
  rewrite !N2Z.id in CS4. apply frun_bind in H. destruct H as (v5 & o & H5 & H).
  destruct (checked_frun _ (settles_copy chunk fuel fi fo 0) _ _ _ H5) as [R5|[-> _]]; [|now apply CB in H].
  destruct (copy_loop_run chunk w ino fi fo (i * 256) ((i + 1) * 256) d NE ltac:(lia) fuel 0 0 w4) as (w5 & R5' & CS5).
  { lia. } { unfold lenN in *. lia. } { rewrite shifted_0, !N.add_0_r. exact CS4. }
  rewrite R5 in R5'. injection R5' as -> ->. cbn [frun] in H.
  pose proof CS5 as [[S5 C5 T5 O5 DD5] Fi5 Fo5 Fd5].
  destruct H as (v6 & r & [X|[_ ->]] & H); [|now apply CB in H].
  cbn [exec] in X. unfold sys_seek_cur0 in X. rewrite Fo5 in X. injection X as <- <-. cbn [frun of_pos] in H.
  destruct H as (v7 & r & X & v8 & r8 & [X8|[]] & v9 & r9 & [X9|[]] & -> & _). cbn [exec] in X8, X9. injection X8 as <- _. injection X9 as <- _.
  destruct X as [X|[-> _]].
  - left. destruct (cs_tail w ino fi fo _ _ _ w5 S NE Ni No CS5) as (w6 & R6 & FS6 & _).
    cbn [run exec] in R6. unfold sys_seek_cur0 in R6. rewrite Fo5 in R6. cbn [run of_pos] in R6. rewrite X in R6. cbn [run exec] in R6. injection R6 as <-.
    rewrite shifted_end in FS6 by lia. destruct (fs_look w ino _ _ rp S T Nr FS6) as [-> _].
    unfold removed. destruct (N.leb_spec ((i + 1) * 256) (lenN d)); [reflexivity|lia].
  - right. destruct (cs_close w ino fi fo _ _ _ w5 S Ni No CS5) as [FS _]. now destruct (fs_look w ino _ _ rp S T Nr FS) as [-> _].
Qed.
Lemma shifted_all recs i : board_recs recs -> (i < length recs)%nat ->
  shifted (N.of_nat i * 256) ((N.of_nat i + 1) * 256) (lenN (concat recs) - (N.of_nat i + 1) * 256) (concat recs) = concat (remove_at i recs ++ [last recs []]).
Proof.
  intros R Hi. pose proof (lenN_concat recs R) as LC. unfold shifted, sub, remove_at.
  replace (N.to_nat (N.of_nat i * 256)) with (256 * i)%nat by lia.
  replace (N.to_nat ((N.of_nat i + 1) * 256)) with (256 * Datatypes.S i)%nat by lia.
  replace (N.to_nat (N.of_nat i * 256 + (lenN (concat recs) - (N.of_nat i + 1) * 256))) with (256 * (length recs - 1))%nat by lia.
  rewrite (firstn_concat 256), !(skipn_concat 256) by exact R. rewrite !concat_app, <- app_assoc. f_equal. f_equal.
  - apply firstn_all2. rewrite (concat_length 256) by (now apply Forall_skipn). rewrite skipn_length. lia.
  - f_equal. destruct recs as [|r0 recs0] using rev_ind; [cbn in Hi; lia|]. rewrite last_last, app_length. cbn [length].
    replace (length recs0 + 1 - 1)%nat with (length recs0) by lia. rewrite skipn_app, skipn_all, Nat.sub_diag. reflexivity.
Qed.
Theorem C68_removal : forall chunk w path rp recs i fuel w' o,
  sane w -> names w path rp -> board_recs recs -> look w rp = Some (EFile (concat recs)) ->
  (i < length recs)%nat -> N.of_nat (length recs) < 2 ^ 54 -> (length (concat recs) < fuel)%nat ->
  frun (RemoveBoardHeaderFileRecord chunk fuel path (Z.of_nat i)) w w' o ->
  sane w' /\ same_else rp w w' /\
  (o = Err (ESys EIO) /\
   (look w' rp = Some (EFile (concat (remove_at i recs))) \/
    exists a x b m y z, look w' rp = Some (EFile (concat (a ++ [x] ++ b))) /\
      a ++ b = remove_at i recs /\ length x = 256%nat /\
      x = firstn m y ++ skipn m z /\ In y recs /\ In z recs /\ (m < 256)%nat) \/
   o = Ok tt /\
   (look w' rp = Some (EFile (concat (remove_at i recs))) \/
    look w' rp = Some (EFile (concat (remove_at i recs ++ [last recs []]))))).
Proof.
  intros chunk w path rp recs i fuel w' o S N R L Hi Hl Hf H.
  pose proof (lenN_concat recs R) as LC.
  split; [now apply (frun_sane _ _ _ _ S H)|].
  assert (OK : o = Ok tt -> look w' rp = Some (EFile (concat (remove_at i recs))) \/ look w' rp = Some (EFile (concat (remove_at i recs ++ [last recs []])))).
  { intros ->. pose proof H as H0. rewrite <- nat_N_Z in H0.
    destruct (frun_remove chunk w path rp (concat recs) (N.of_nat i) fuel w') as [Q|Q]; auto; [lia|lia| |].
    - left. rewrite Q. unfold removed. destruct (N.leb_spec ((N.of_nat i + 1) * 256) (lenN (concat recs))); [|lia].
      do 2 f_equal. unfold remove_at. rewrite concat_app, <- (firstn_concat 256), <- (skipn_concat 256) by exact R. f_equal; f_equal; lia.
    - right. rewrite Q. now rewrite shifted_all. }
  destruct (settles_frun _ _ (settles_remove chunk fuel path (Z.of_nat i)) _ _ _ H) as [E|(Q & w1 & C & SF)].
  - destruct (C14_removes_exactly_one_partial chunk w path rp recs [] i fuel) as (w2 & E2 & _ & (B1 & B2 & _) & _); auto; try lia.
    { now rewrite app_nil_r. } { now rewrite app_nil_r. }
    rewrite E in E2. injection E2 as -> ->. split; [now split|]. right. split; [reflexivity|now apply OK].
  - destruct (C15_crash_keeps_other_boards chunk w path rp recs i fuel w1 S N R L Hi Hl Hf C) as (_ & [SE1 SE2] & D).
    destruct SF as [SF1 SF2]. split; [split; [congruence|]; intros q Hq; rewrite SF2; now apply SE2|].
    destruct Q as [->| ->]; [left; split; [reflexivity|]; rewrite SF2; exact D|right; split; [reflexivity|now apply OK]].
Qed.
Print Assumptions C68_removal.

(** "A removal that reports success has removed the record" is false. *)
Definition C68_removal_statement : Prop := forall chunk w path rp recs i fuel w',
  sane w -> names w path rp -> board_recs recs -> look w rp = Some (EFile (concat recs)) ->
  (i < length recs)%nat -> N.of_nat (length recs) < 2 ^ 54 -> (length (concat recs) < fuel)%nat ->
  frun (RemoveBoardHeaderFileRecord chunk fuel path (Z.of_nat i)) w w' (Ok tt) ->
  look w' rp = Some (EFile (concat (remove_at i recs))).
Theorem C68_removal_refuted : ~ C68_removal_statement.
Proof.
  intros H. pose (x := fault_at (repeat None 6 ++ [Some 0%nat]) (RemoveBoardHeaderFileRecord (fun _ => 99) 600 brd_path (Z.of_nat 1)) sample_world).
  assert (E : look (fst x) brd = Some (EFile (concat (remove_at 1 two_boards)))).
  { apply (H (fun _ => 99) sample_world brd_path brd two_boards 1%nat 600%nat (fst x)).
    - exact sample_sane.
    - now apply brd_names.
    - exact two_boards_recs.
    - exact brd_look.
    - cbn. lia.
    - cbn. lia.
    - rewrite (concat_length 256 _ two_boards_recs). cbn. lia.
    - apply fault_frun. vm_compute. reflexivity. }
  apply (f_equal (fun o => match o with Some (EFile d) => length d | _ => 0%nat end)) in E. cbv beta iota in E.
  rewrite (concat_length 256) in E by (apply remove_at_recs, two_boards_recs). vm_compute in E. discriminate E.
Qed.
Print Assumptions C68_removal_refuted.

(** ** Creating an article *)

(** A creation that reports success has made a new file with the right text; one that
    reports an error has left a new file behind, with a part of the text, of which
    nobody knows the name. *)
Theorem C68_creation : forall wd c fuel w w' r,
  ident (ccmd_board c) -> ~ In x00 wd -> sane w -> frun (ccmd_prog fuel wd c) w w' r ->
  match r with
  | Ok f => f = ccmd_record c (fh_filename f) /\ fresh_name (fh_filename f) /\
      let e := board_entry w wd (ccmd_board c) (fh_filename f) in
      look w e = None /\ look w' e = Some (EFile (ccmd_text c)) /\ forall q, q <> e -> look w' q = look w q
  | Err x => x = ESys EIO /\ exists n k, fresh_name n /\
      let e := board_entry w wd (ccmd_board c) n in
      look w e = None /\ look w' e = Some (EFile (firstn k (ccmd_text c))) /\ forall q, q <> e -> look w' q = look w q
  | Panic => False
  | Diverge => forall q, look w' q = look w q
  end.
Proof.
  intros wd c fuel w w' r Ib Nw S H. pose proof (frun_ccmd wd c fuel w w' r Ib Nw S H) as X. destruct r as [f|e| |].
  - destruct X as (E & F & L & L' & _ & Q). cbv zeta. auto.
  - destruct X as (E & n & k & F & L & L' & _ & Q). split; [exact E|]. exists n, k. cbv zeta. auto.
  - exact X.
  - apply X.
Qed.
Print Assumptions C68_creation.

(** ** Examples *)
Definition faulty_calls : list call :=
  [AppendArticle (str "SYSOP") (str "M.1.A.001") (str "!"); AddRecord (str "test") sample_file; WriteDraft (str "pichu") (str "1") (str "abc");
   ReadDraft (str "pichu") (str "1")].
(** the record is torn after five bytes; the calls after it succeed *)
Example C68_nonvacuous :
  ~ In x00 sample_wd /\ sane sample_world /\ stored sample_world sample_wd sample_objects sample_store /\
  Forall call_ok faulty_calls /\ Forall (fun c => sample_objects (call_object c)) faulty_calls /\
  exists w', fexec id_codec sample_wd faulty_calls sample_world w' [Ok Done; Err (ESys EIO); Ok Done; Ok (Bytes (str "abc"))] /\
    look w' (rp ["bbs"; "boards"; "t"; "test"; ".DIR"]%string) = Some (EFile (firstn 5 (MarshalToByte id_codec sample_file))).
Proof.
  split; [exact sample_wd_ok|]. split; [exact sample_sane|]. split; [exact sample_stored|]. split; [|split].
  - pose proof sysop_ident. pose proof test_ident. pose proof pichu_ident. pose proof m1_component.
    unfold faulty_calls. repeat apply Forall_cons; try apply Forall_nil; (split; [cbn [call_object plain_object]|exact Logic.I]);
    auto; try (split; [assumption|]); try (split; [no_nul|no_nul]); (split; [assumption|split; discriminate]).
  - unfold faulty_calls, sample_objects. repeat apply Forall_cons; try apply Forall_nil; cbn; tauto.
  - pose (x1 := fault_at [] (call_prog id_codec sample_wd (AppendArticle (str "SYSOP") (str "M.1.A.001") (str "!")) 0) sample_world).
    pose (x2 := fault_at [None; Some 5%nat] (call_prog id_codec sample_wd (AddRecord (str "test") sample_file) 0) (fst x1)).
    pose (x3 := fault_at [] (call_prog id_codec sample_wd (WriteDraft (str "pichu") (str "1") (str "abc")) 0) (fst x2)).
    pose (x4 := fault_at [] (call_prog id_codec sample_wd (ReadDraft (str "pichu") (str "1")) 0) (fst x3)).
    exists (fst x4). split; [|vm_compute; reflexivity].
    apply (fexec_cons _ _ _ _ _ (fst x1) _ _ _ 0); [apply fault_frun; vm_compute; reflexivity|discriminate|].
    apply (fexec_cons _ _ _ _ _ (fst x2) _ _ _ 0); [apply fault_frun; vm_compute; reflexivity|discriminate|].
    apply (fexec_cons _ _ _ _ _ (fst x3) _ _ _ 0); [apply fault_frun; vm_compute; reflexivity|discriminate|].
    apply (fexec_cons _ _ _ _ _ (fst x4) _ _ _ 0); [apply fault_frun; vm_compute; reflexivity|discriminate|].
    apply fexec_nil.
Qed.
(** a header that cannot be written *)
Example C68_nonvacuous_creation : exists w' n,
  frun (ccmd_prog 5 sample_wd (NewHeaded (str "test") (str "lex") (str " 1/01") (str "three"))) crowded w' (Err (ESys EIO)) /\
  look w' (board_entry crowded sample_wd (str "test") n) = Some (EFile (firstn 7 (ccmd_text (NewHeaded (str "test") (str "lex") (str " 1/01") (str "three"))))).
Proof.
  exists (fst (fault_at (repeat None 5 ++ [Some 7%nat]) (ccmd_prog 5 sample_wd (NewHeaded (str "test") (str "lex") (str " 1/01") (str "three"))) crowded)), (str "M.1600000000.A.008").
  split; [apply fault_frun; vm_compute; reflexivity|vm_compute; reflexivity].
Qed.
