(** * Property theorems about removing a board record: C14, C15, C16 *)
From Coq Require Import Lia ZifyBool ZifyNat ZifyN.
From Verif Require Import M_Base M_Sys M_Path M_File M_Board M_FileOps M_DB.
From Verif Require Import S_World S_Path S_Board S_BoardList S_Store S_Example S_ExWorld.
From Verif Require Import P_Base P_Sys P_Read P_FileOps P_Store P_Crash P_Remove P_Records P_BoardList T_Records T_BoardList T_Store.
Open Scope N_scope.

(** The list without its [i]-th element. *)
Definition remove_at {A} (i : nat) (l : list A) : list A := firstn i l ++ skipn (S i) l.

Definition board_recs (recs : list bytes) : Prop := Forall (fun r => length r = 256%nat) recs.

Lemma firstn_concat n (l : list bytes) : Forall (fun r => length r = n) l ->
  forall i, firstn (n * i) (concat l) = concat (firstn i l).
Proof.
  induction 1 as [|r l Hr Hl IH]; intros [|i].
  - now rewrite firstn_nil.
  - now rewrite firstn_nil.
  - now rewrite Nat.mul_0_r.
  - cbn [concat firstn]. rewrite firstn_app, firstn_all2 by lia. f_equal. rewrite <- IH. f_equal. lia.
Qed.
Lemma skipn_concat n (l : list bytes) : Forall (fun r => length r = n) l ->
  forall i, skipn (n * i) (concat l) = concat (skipn i l).
Proof.
  induction 1 as [|r l Hr Hl IH]; intros [|i].
  - now rewrite skipn_nil.
  - now rewrite skipn_nil.
  - now rewrite Nat.mul_0_r.
  - cbn [concat skipn]. rewrite skipn_app, skipn_all2 by lia. cbn [app]. rewrite <- IH. f_equal. lia.
Qed.
Lemma lenN_concat l : board_recs l -> lenN (concat l) = 256 * N.of_nat (length l).
Proof. intros H. unfold lenN. rewrite (concat_length 256 l H). lia. Qed.
Lemma Forall_firstn {A} (P : A -> Prop) n l : Forall P l -> Forall P (firstn n l).
Proof. intros H. rewrite Forall_forall in *. intros x Hx. apply H. rewrite <- (firstn_skipn n l). apply in_or_app. now left. Qed.
Lemma Forall_skipn {A} (P : A -> Prop) n l : Forall P l -> Forall P (skipn n l).
Proof. intros H. rewrite Forall_forall in *. intros x Hx. apply H. rewrite <- (firstn_skipn n l). apply in_or_app. now right. Qed.

(** ** C14 *)
Definition C14_statement : Prop := forall chunk w path rp recs (i : Z),
  sane w -> names w path rp -> board_recs recs -> look w rp = Some (EFile (concat recs)) ->
  exists w' r, returns (fun fuel => RemoveBoardHeaderFileRecord chunk fuel path i) w w' r /\
    look w' rp = Some (EFile (concat (if (0 <=? i)%Z && (i <? Z.of_nat (length recs))%Z then remove_at (Z.to_nat i) recs else recs))).

(** In range: exactly that record goes, whatever the chunk sizes; [tail] is a
    partial record at the end of the file, it stays. *)
Theorem C14_removes_exactly_one_partial : forall chunk w path rp recs tail i fuel,
  sane w -> names w path rp -> board_recs recs -> look w rp = Some (EFile (concat recs ++ tail)) ->
  (i < length recs)%nat -> N.of_nat i < 2 ^ 54 -> (length (concat recs ++ tail) < fuel)%nat ->
  exists w', run (RemoveBoardHeaderFileRecord chunk fuel path (Z.of_nat i)) w = (w', Ok tt) /\
    sane w' /\ same_but rp w w' /\ look w' rp = Some (EFile (concat (remove_at i recs) ++ tail)).
Proof.
  intros chunk w path rp recs tail i fuel S N R L Hi Hi' Hf.
  destruct (remove_run chunk w path rp _ (N.of_nat i) fuel S N L Hi' Hf) as (w' & E & S' & B & L').
  exists w'. rewrite nat_N_Z in E. split; [exact E|]. split; [exact S'|]. split; [exact B|]. rewrite L'. do 2 f_equal.
  pose proof (lenN_concat recs R) as LC. pose proof (concat_length 256 recs R) as LC'.
  unfold removed. destruct (N.leb_spec ((N.of_nat i + 1) * 256) (lenN (concat recs ++ tail))) as [Q|Q].
  - replace (N.to_nat (N.of_nat i * 256)) with (256 * i)%nat by lia.
    replace (N.to_nat ((N.of_nat i + 1) * 256)) with (256 * Datatypes.S i)%nat by lia.
    rewrite firstn_app, skipn_app. rewrite (firstn_concat 256 recs R), (skipn_concat 256 recs R).
    replace (256 * i - length (concat recs))%nat with 0%nat by lia.
    replace (256 * Datatypes.S i - length (concat recs))%nat with 0%nat by lia.
    cbn [firstn skipn]. rewrite app_nil_r. unfold remove_at. now rewrite concat_app, <- app_assoc.
  - exfalso. rewrite lenN_app, LC in Q. lia.
Qed.
Print Assumptions C14_removes_exactly_one_partial.

(** What the callers see: the board list without that board. *)
Lemma list_boards_run cd w wd rp p recs fuel :
  sane w -> object_path wd Boards = Ok p -> names w p rp -> look w rp = Some (EFile (concat recs)) ->
  board_recs recs -> (length (concat recs) < fuel)%nat ->
  exists w' l, run (ReadBoardRecords cd fuel wd) w = (w', Ok l) /\
    Forall2 (fun s a => UnmarshalBoardHeader cd s = Ok a) recs l /\ same_files w w'.
Proof.
  intros S E N L R Hf.
  destruct (open_records_file 256 (UnmarshalBoardHeader cd) false false fuel w p rp (concat recs))
    as (w' & l & R' & G & S' & SF & _); auto; [reflexivity| |].
  { intros b Lb. destruct (board_decode cd b) as (x & E' & _); [lia|eauto]. }
  exists w', l. split; [|split; [|exact SF]].
  - unfold ReadBoardRecords. rewrite run_pbind. unfold lift. cbn [object_path] in E. rewrite E. cbn [run].
    unfold OpenBoardHeaderFile. change BoardHeaderRecordLength with 256. exact R'.
  - rewrite cut_concat in G; [exact G|reflexivity|]. eapply Forall_impl; [|exact R]. intros r Hr. unfold lenN. cbn in Hr. now rewrite Hr.
Qed.
Lemma remove_at_Forall2 {A B} (P : A -> B -> Prop) l l' i : Forall2 P l l' -> Forall2 P (remove_at i l) (remove_at i l').
Proof.
  intros F. unfold remove_at. apply Forall2_app.
  - revert i. induction F; intros [|i]; cbn; constructor; auto.
  - revert i. induction F as [|x y l l' H F IH]; intros i; [constructor|]. destruct i as [|i]; [exact F|exact (IH i)].
Qed.
Lemma remove_at_recs i recs : board_recs recs -> board_recs (remove_at i recs).
Proof. intros R. apply Forall_app. split; [now apply Forall_firstn|now apply Forall_skipn]. Qed.
Lemma decoded_fun {A} (f : bytes -> outcome A) rs l l' :
  Forall2 (fun s a => f s = Ok a) rs l -> Forall2 (fun s a => f s = Ok a) rs l' -> l = l'.
Proof.
  intros F. revert l'. induction F as [|r x rs l H F IH]; intros l' F'; inversion F'; subst; auto. f_equal; [congruence|auto].
Qed.
Lemma remove_at_length i (recs : list bytes) : (length (concat (remove_at i recs)) <= length (concat recs))%nat.
Proof.
  unfold remove_at. rewrite <- (firstn_skipn i recs) at 3. rewrite !concat_app, !app_length.
  assert (length (concat (skipn (Datatypes.S i) recs)) <= length (concat (skipn i recs)))%nat; [|lia].
  revert recs. induction i as [|i IH]; intros [|r recs]; try apply IH; cbn; auto. rewrite app_length. lia.
Qed.

Theorem C14_removed_from_the_listing : forall cd chunk w wd rp p recs i fuel w0 l,
  sane w -> object_path wd Boards = Ok p -> names w p rp ->
  look w rp = Some (EFile (concat recs)) -> board_recs recs -> (length (concat recs) < fuel)%nat ->
  run (ReadBoardRecords cd fuel wd) w = (w0, Ok l) ->
  (i < length l)%nat -> N.of_nat i < 2 ^ 54 ->
  exists w1 w2, run (RemoveBoardHeaderFileRecord chunk fuel p (Z.of_nat i)) w = (w1, Ok tt) /\
    run (ReadBoardRecords cd fuel wd) w1 = (w2, Ok (remove_at i l)) /\ same_but rp w w1.
Proof.
  intros cd chunk w wd rp p recs i fuel w0 l S E N L R Hf E0 Hi Hi'.
  destruct (list_boards_run cd w wd rp p recs fuel) as (w0' & l0 & E0' & F0 & _); auto.
  rewrite E0 in E0'. injection E0' as <- <-.
  assert (LL : length recs = length l). { clear -F0. induction F0; cbn; congruence. }
  destruct (C14_removes_exactly_one_partial chunk w p rp recs [] i fuel) as (w1 & E1 & S1 & B1 & L1); auto.
  { now rewrite app_nil_r. } { lia. } { now rewrite app_nil_r. }
  rewrite app_nil_r in L1.
  destruct (list_boards_run cd w1 wd rp p (remove_at i recs) fuel) as (w2 & l2 & E2 & F2 & _); auto.
  { destruct B1 as (C & _ & _). split; [apply N|rewrite C; apply N]. }
  { now apply remove_at_recs. }
  { pose proof (remove_at_length i recs). lia. }
  exists w1, w2. split; [exact E1|]. split; [|exact B1]. rewrite E2. do 2 f_equal.
  eapply decoded_fun; [exact F2|]. now apply remove_at_Forall2.
Qed.
Print Assumptions C14_removed_from_the_listing.

(** Negative indices are refused and nothing changes. *)
Theorem C14_negative_fails : forall chunk w path rp d i fuel,
  sane w -> names w path rp -> look w rp = Some (EFile d) -> (- 2 ^ 55 <= i < 0)%Z ->
  exists w', run (RemoveBoardHeaderFileRecord chunk fuel path i) w = (w', Err (ESys EINVAL)) /\
    sane w' /\ same_but rp w w' /\ look w' rp = Some (EFile d).
Proof. intros. now apply remove_negative. Qed.
Print Assumptions C14_negative_fails.

(** Exactly one past the end: nothing happens. *)
Theorem C14_at_the_end : forall chunk w path rp recs fuel,
  sane w -> names w path rp -> board_recs recs -> look w rp = Some (EFile (concat recs)) ->
  N.of_nat (length recs) < 2 ^ 54 -> (length (concat recs) < fuel)%nat ->
  exists w', run (RemoveBoardHeaderFileRecord chunk fuel path (Z.of_nat (length recs))) w = (w', Ok tt) /\
    same_but rp w w' /\ look w' rp = Some (EFile (concat recs)).
Proof.
  intros chunk w path rp recs fuel S N R L Hi' Hf.
  destruct (remove_run chunk w path rp _ (N.of_nat (length recs)) fuel S N L Hi' Hf) as (w' & E & S' & B & L').
  exists w'. rewrite nat_N_Z in E. split; [exact E|]. split; [exact B|]. rewrite L'. do 2 f_equal.
  pose proof (lenN_concat recs R) as LC.
  unfold removed. destruct (N.leb_spec ((N.of_nat (length recs) + 1) * 256) (lenN (concat recs))) as [Q|Q]; [lia|].
  unfold truncate_to. rewrite LC. replace (N.of_nat (length recs) * 256 - 256 * N.of_nat (length recs)) with 0 by lia.
  cbn. rewrite app_nil_r. apply firstn_all2. rewrite (concat_length 256 recs R). lia.
Qed.
Print Assumptions C14_at_the_end.

(** Further beyond the end the file grows by zero records. *)
Theorem C14_beyond_the_end : forall chunk w path rp recs i fuel,
  sane w -> names w path rp -> board_recs recs -> look w rp = Some (EFile (concat recs)) ->
  (length recs <= i)%nat -> N.of_nat i < 2 ^ 54 -> (length (concat recs) < fuel)%nat ->
  exists w', run (RemoveBoardHeaderFileRecord chunk fuel path (Z.of_nat i)) w = (w', Ok tt) /\
    same_but rp w w' /\
    look w' rp = Some (EFile (concat recs ++ repeat x00 (256 * (i - length recs)))).
Proof.
  intros chunk w path rp recs i fuel S N R L Hi Hi' Hf.
  destruct (remove_run chunk w path rp _ (N.of_nat i) fuel S N L Hi' Hf) as (w' & E & S' & B & L').
  exists w'. rewrite nat_N_Z in E. split; [exact E|]. split; [exact B|]. rewrite L'. do 2 f_equal.
  pose proof (lenN_concat recs R) as LC.
  unfold removed. destruct (N.leb_spec ((N.of_nat i + 1) * 256) (lenN (concat recs))) as [Q|Q]; [lia|].
  unfold truncate_to. rewrite LC. f_equal.
  - apply firstn_all2. rewrite (concat_length 256 recs R). lia.
  - unfold zeros. f_equal. lia.
Qed.
Print Assumptions C14_beyond_the_end.

Definition brd_path : bytes := str "/bbs/.BRD".
Definition brd : rpath := rp ["bbs"; ".BRD"]%string.
Definition two_boards : list bytes := [BoardHeader_MarshalBinary id_codec sample_board; BoardHeader_MarshalBinary id_codec sample_board].
Lemma two_boards_recs : board_recs two_boards.
Proof. repeat constructor; apply board_marshal_length. Qed.
Lemma brd_names w : w_cwd w = [] -> names w brd_path brd.
Proof. intros C. split; [split; [discriminate|no_nul]|]. rewrite C. vm_compute. reflexivity. Qed.
Lemma brd_look : look sample_world brd = Some (EFile (concat two_boards)).
Proof. vm_compute. reflexivity. Qed.

Example C14_nonvacuous : exists w', run (RemoveBoardHeaderFileRecord (fun _ => 99) 600 brd_path 1) sample_world = (w', Ok tt) /\
  look w' brd = Some (EFile (BoardHeader_MarshalBinary id_codec sample_board)).
Proof.
  destruct (C14_removes_exactly_one_partial (fun _ => 99) sample_world brd_path brd two_boards [] 1 600) as (w' & E & _ & _ & L).
  - exact sample_sane.
  - now apply brd_names.
  - exact two_boards_recs.
  - rewrite app_nil_r. exact brd_look.
  - cbn. lia.
  - cbn. lia.
  - rewrite app_nil_r, (concat_length 256 _ two_boards_recs). cbn. lia.
  - exists w'. split; [exact E|]. rewrite L. unfold remove_at, two_boards. cbn [firstn skipn app concat].
    now rewrite !app_nil_r.
Qed.

(** Removing record 3 of a two-record file adds a zero record. *)
Theorem C14_statement_refuted : ~ C14_statement.
Proof.
  intros H. destruct (H (fun _ => 255) sample_world brd_path brd two_boards 3%Z) as (w' & r & (Nd & fuel & E) & L).
  - exact sample_sane.
  - now apply brd_names.
  - exact two_boards_recs.
  - exact brd_look.
  - change ((0 <=? 3)%Z && (3 <? Z.of_nat (length two_boards))%Z) with false in L. cbv iota in L.
    apply (f_equal (fun o => match o with Some (EFile d) => length d | _ => 0%nat end)) in L. cbv beta iota in L.
    rewrite (concat_length 256 _ two_boards_recs) in L.
    apply (f_equal (fun x => (match look (fst x) brd with Some (EFile d) => length d | _ => 0%nat end, snd x))) in E.
    cbn [fst snd] in E. rewrite L in E. destruct fuel as [|fuel].
    + apply (f_equal snd) in E. vm_compute in E. congruence.
    + apply (f_equal fst) in E. vm_compute in E. discriminate.
Qed.
Print Assumptions C14_statement_refuted.
(** A hugely negative index wraps round and removes the first board. *)
Theorem C14_negative_wraps_refuted :
  let x := run (RemoveBoardHeaderFileRecord (fun _ => 255) 600 brd_path (- 2 ^ 56)) sample_world in
  snd x = Ok tt /\
  option_map (fun e => match e with EFile d => length d | EDir => 0%nat end) (look (fst x) brd) = Some 256%nat.
Proof. split; vm_compute; reflexivity. Qed.
Print Assumptions C14_negative_wraps_refuted.

(** ** C15 *)

Lemma shifted_slots recs i c : board_recs recs -> (i < length recs)%nat -> (N.of_nat i + 1) * 256 + c <= lenN (concat recs) ->
  exists a x b m y z, shifted (N.of_nat i * 256) ((N.of_nat i + 1) * 256) c (concat recs) = concat (a ++ [x] ++ b) /\
     a ++ b = remove_at i recs /\ length x = 256%nat /\
     x = firstn m y ++ skipn m z /\ In y recs /\ In z recs /\ (m < 256)%nat.
Proof.
  intros R Hi Hc. pose proof (lenN_concat recs R) as LC. pose proof (concat_length 256 recs R) as LC'.
  set (k := N.to_nat (c / 256)). set (m := N.to_nat (c mod 256)).
  assert (Hm : (m < 256)%nat) by lia.
  assert (Hck : N.to_nat c = (256 * k + m)%nat) by lia.
  assert (Hk : (Datatypes.S i + k <= length recs)%nat) by lia.
  assert (Hkm : m <> 0%nat -> (Datatypes.S i + k < length recs)%nat) by lia.
  set (y := nth (Datatypes.S i + k) recs (nth (i + k) recs [])). set (z := nth (i + k) recs []).
  exists (firstn i recs ++ firstn k (skipn (Datatypes.S i) recs)), (firstn m y ++ skipn m z), (skipn (Datatypes.S i + k) recs), m, y, z.
  assert (Iz : In z recs) by (apply nth_In; lia).
  assert (Iy : In y recs).
  { destruct (Nat.lt_ge_cases (Datatypes.S i + k) (length recs)) as [Q|Q]; [apply nth_In; lia|]. unfold y. now rewrite nth_overflow by lia. }
  assert (LR : forall r, In r recs -> length r = 256%nat) by (apply Forall_forall; exact R).
  split; [|split; [|split; [|now auto]]].
  - unfold shifted, sub.
    replace (N.to_nat (N.of_nat i * 256)) with (256 * i)%nat by lia.
    replace (N.to_nat ((N.of_nat i + 1) * 256)) with (256 * Datatypes.S i)%nat by lia.
    replace (N.to_nat (N.of_nat i * 256 + c)) with (m + 256 * (i + k))%nat by lia.
    rewrite Hck. rewrite <- skipn_skipn. rewrite !(firstn_concat 256), !(skipn_concat 256) by exact R.
    rewrite !concat_app, <- !app_assoc. f_equal.
    assert (SK : skipn (i + k) recs = z :: skipn (Datatypes.S i + k) recs).
    { clear -Hk. unfold z. replace (Datatypes.S i + k)%nat with (Datatypes.S (i + k)) in * by lia.
      revert Hk. generalize (i + k)%nat. clear. intros n. revert recs. induction n as [|n IH]; intros [|r recs] H; cbn in *; try lia; auto.
      apply IH. lia. }
    rewrite SK. cbn [concat]. rewrite skipn_app, (LR z Iz). replace (m - 256)%nat with 0%nat by lia. rewrite skipn_O.
    rewrite app_nil_r.
    assert (FK : firstn (256 * k + m) (concat (skipn (Datatypes.S i) recs)) = concat (firstn k (skipn (Datatypes.S i) recs)) ++ firstn m y).
    { pose proof (Forall_skipn _ (Datatypes.S i) _ R) as R'.
      rewrite <- (firstn_skipn (256 * k) (firstn _ _)). rewrite firstn_firstn, Nat.min_l by lia.
      rewrite (firstn_concat 256) by exact R'. f_equal. rewrite skipn_firstn_comm.
      replace (256 * k + m - 256 * k)%nat with m by lia. rewrite (skipn_concat 256) by exact R'. rewrite skipn_skipn.
      destruct (Nat.eq_dec m 0) as [->|Hm0]; [now rewrite !firstn_O|].
      specialize (Hkm Hm0). unfold y. replace (k + Datatypes.S i)%nat with (Datatypes.S i + k)%nat by lia.
      assert (SK2 : skipn (Datatypes.S i + k) recs = nth (Datatypes.S i + k) recs (nth (i + k) recs []) :: skipn (Datatypes.S (Datatypes.S i + k)) recs).
      { revert Hkm. generalize (Datatypes.S i + k)%nat. intros n. generalize (nth (i + k) recs []). clear. intros dft. revert recs.
        induction n as [|n IH]; intros [|r recs] H; cbn in *; try lia; auto. apply IH. lia. }
      rewrite SK2 at 1. cbn [concat]. rewrite firstn_app.
      replace (m - length _)%nat with 0%nat by (pose proof (LR y Iy) as Q; unfold y in Q; lia). cbn [firstn]. now rewrite app_nil_r. }
    rewrite FK. now rewrite <- !app_assoc.
  - unfold remove_at. rewrite <- app_assoc. f_equal. replace (Datatypes.S i + k)%nat with (k + Datatypes.S i)%nat by lia.
    rewrite <- skipn_skipn. apply firstn_skipn.
  - rewrite app_length, firstn_length, skipn_length, (LR y Iy), (LR z Iz). lia.
Qed.

(** After a crash the file holds all other records, in order and whole, with at
    most one further slot between them; that slot consists of the beginning of
    one old record and the end of another. *)
Theorem C15_crash_keeps_other_boards : forall chunk w path rp recs i fuel w',
  sane w -> names w path rp -> board_recs recs -> look w rp = Some (EFile (concat recs)) ->
  (i < length recs)%nat -> N.of_nat (length recs) < 2 ^ 54 -> (length (concat recs) < fuel)%nat ->
  crash (RemoveBoardHeaderFileRecord chunk fuel path (Z.of_nat i)) w w' ->
  sane w' /\ same_else rp w w' /\
  (look w' rp = Some (EFile (concat (remove_at i recs))) \/
   exists a x b m y z, look w' rp = Some (EFile (concat (a ++ [x] ++ b))) /\
     a ++ b = remove_at i recs /\ length x = 256%nat /\
     x = firstn m y ++ skipn m z /\ In y recs /\ In z recs /\ (m < 256)%nat).
Proof.
  intros chunk w path rp recs i fuel w' S N R L Hi Hl Hf C.
  pose proof (lenN_concat recs R) as LC. pose proof (concat_length 256 recs R) as LC'.
  replace (Z.of_nat i) with (Z.of_N (N.of_nat i)) in C by lia.
  destruct (remove_crash chunk w path rp (concat recs) (N.of_nat i) fuel w') as (S' & SE & D); auto; [lia|lia|].
  split; [exact S'|]. split; [exact SE|]. destruct D as [(c & Hc & D)|D].
  2:{ left. rewrite D. unfold removed. destruct (N.leb_spec ((N.of_nat i + 1) * 256) (lenN (concat recs))); [|lia].
      do 2 f_equal. unfold remove_at. rewrite concat_app, <- (firstn_concat 256), <- (skipn_concat 256) by exact R.
      f_equal; f_equal; lia. }
  right. destruct (shifted_slots recs i c R Hi Hc) as (a & x & b & m & y & z & E & Q). exists a, x, b, m, y, z. rewrite D, E. auto.
Qed.
Print Assumptions C15_crash_keeps_other_boards.
(** A crash after 100 bytes of the copy while the first of two records is being
    removed: both halves are there. *)
Definition two_different : list bytes := [repeat x41 256; repeat x42 256].
Definition torn_world : world :=
  world_of [(rp [".BRD"]%string, NFile 0)] [concat two_different].
Example C15_nonvacuous : exists w',
  crash (RemoveBoardHeaderFileRecord (fun _ => 255) 600 (str "/.BRD") 0) torn_world w' /\
  look w' (rp [".BRD"]%string) = Some (EFile (repeat x42 100 ++ repeat x41 156 ++ repeat x42 256)).
Proof.
  eexists. split; [exact (crash_at_crash 5 100 _ _)|]. vm_compute. reflexivity.
Qed.
(** The other hypotheses of the theorem hold here. *)
Example C15_nonvacuous_hypotheses :
  sane torn_world /\ names torn_world (str "/.BRD") (rp [".BRD"]%string) /\ board_recs two_different /\
  look torn_world (rp [".BRD"]%string) = Some (EFile (concat two_different)).
Proof.
  split; [apply saneb_sane; vm_compute; reflexivity|]. split; [split; [split; [discriminate|no_nul]|vm_compute; reflexivity]|].
  split; [repeat constructor|vm_compute; reflexivity].
Qed.

(** ** C16 *)
Definition C16_statement : Prop := forall cd wd w rp p d chunk fuel i h sched w' r1 r2,
  sane w -> object_path wd Boards = Ok p -> names w p rp -> look w rp = Some (EFile d) ->
  run_pool sched w [RemoveBoardHeaderFileRecord chunk fuel p i; AddBoardRecord cd wd h] = (w', [Ret r1; Ret r2]) ->
  r1 <> Diverge -> r2 = Ok tt ->
  exists d1 d2, look w' rp = Some (EFile (d1 ++ BoardHeader_MarshalBinary cd h ++ d2)).

(** The remover has copied everything; the other caller appends its record; the
    remover truncates it away. *)
Definition C16_schedule : list nat := repeat 0%nat 8 ++ repeat 1%nat 3 ++ repeat 0%nat 3.
Definition marked_board : BoardHeader :=
  MkBoardHeader (str "lost") (str "a board") [] 0 0 0 [] 0%Z 0 0 0 0%Z 0 0%Z 0%Z [0%Z; 0%Z] [0%Z; 0%Z] 0%Z 0%Z 0%Z 0%Z 0%Z [] [] 0 0 0 0%Z.
Theorem C16_added_board_is_lost_refuted : ~ C16_statement.
Proof.
  intros H.
  pose (x := run_pool C16_schedule sample_world
    [RemoveBoardHeaderFileRecord (fun _ => 255) 5 brd_path 0; AddBoardRecord id_codec sample_wd marked_board]).
  assert (E : snd x = [Ret (Ok tt); Ret (Ok tt)]) by (vm_compute; reflexivity).
  assert (L : look (fst x) brd = Some (EFile (BoardHeader_MarshalBinary id_codec sample_board))) by (vm_compute; reflexivity).
  destruct (H id_codec sample_wd sample_world brd brd_path (concat two_boards) (fun _ => 255) 5%nat 0%Z marked_board C16_schedule (fst x) (Ok tt) (Ok tt)) as (d1 & d2 & Q).
  - exact sample_sane.
  - reflexivity.
  - now apply brd_names.
  - exact brd_look.
  - fold x. rewrite <- E. apply surjective_pairing.
  - discriminate.
  - reflexivity.
  - rewrite L in Q. apply (f_equal (fun o => match o with Some (EFile d) => d | _ => [] end)) in Q. cbv beta iota in Q.
    pose proof (f_equal (@length byte) Q) as QL. rewrite !app_length, !board_marshal_length in QL.
    destruct d1; cbn [length] in QL; [|lia]. destruct d2; cbn [length] in QL; [|lia].
    apply (f_equal (firstn 4)) in Q. vm_compute in Q. discriminate.
Qed.
Print Assumptions C16_added_board_is_lost_refuted.
