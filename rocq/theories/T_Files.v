(** * Property theorems about the five readers of record files: C64 *)
From Coq Require Import Lia ZifyBool ZifyNat ZifyN.
From Verif Require Import M_Base M_Sys M_Path M_File M_Board M_Userec M_UserInfo M_Formosa M_FileOps M_DB.
From Verif Require Import S_World S_Path S_Layout S_File S_Board S_Userec S_UserInfo S_Formosa S_BoardList S_Store S_Example S_ExWorld.
From Verif Require Import P_Base P_Sys P_Read P_FileOps P_Records P_UserInfo T_Records.
Open Scope N_scope.

(** ** C64 *)

(** A reader of files of [size]-byte records, the meaning of one slot, and
    whether the reader closes the file. *)
Definition reads_slots {A} (read : nat -> bytes -> prog (outcome (list A))) (size : nat) (meaning : bytes -> A -> Prop) (closes : bool) : Prop :=
  forall w p rp d, sane w -> names w p rp -> look w rp = Some (EFile d) ->
  exists w' ss l, slots size d ss /\ Forall2 meaning ss l /\ same_files w w' /\
    (forall fuel, (length d < fuel)%nat -> run (read fuel p) w = (w', Ok l)) /\
    (if closes then same_fds w w' else exists o, w_fds w' (w_nextfd w) = Some o /\ forall f, f <> w_nextfd w -> w_fds w' f = w_fds w f).
(** Where there is no file the reader says so, whatever its fuel. *)
Definition misses {A} (read : nat -> bytes -> prog (outcome (list A))) : Prop :=
  forall w p rp, names w p rp -> look w rp = None -> forall fuel, exists e, run (read fuel p) w = (w, Err (ESys e)).

Lemma reader_reads {A} size (decode : bytes -> outcome A) strict closes meaning : 0 < size ->
  (forall s, length s = N.to_nat size -> exists a, decode s = Ok a /\ meaning s a) ->
  reads_slots (open_records size decode strict closes) (N.to_nat size) meaning closes.
Proof.
  intros P D w p rp d S N L.
  destruct (open_records_file size decode strict closes (Datatypes.S (length d)) w p rp d) as (w' & l & E & F & S' & SF & C); auto; [|].
  { intros b Lb. destruct (D b) as (a & Ea & _); [unfold lenN in *; lia|eauto]. }
  exists w', (cut size d), l. pose proof (cut_slots size d P) as Sl. split; [exact Sl|].
  split; [|split; [exact SF|split; [|exact C]]].
  - destruct Sl as [Sl _]. clear -D F Sl. induction F as [|s a ss l E F IH]; [constructor|]. inversion Sl; subst. constructor; [|now apply IH].
    destruct (D s) as (a' & Ea & M); [assumption|]. rewrite E in Ea. injection Ea as ->. exact M.
  - intros fuel Hf. apply (open_records_mono size decode strict closes (Datatypes.S (length d)) fuel); [lia|exact E|discriminate].
Qed.
Lemma reader_misses {A} size (decode : bytes -> outcome A) strict closes : misses (open_records size decode strict closes).
Proof. intros w p rp N L fuel. eexists. exact (open_records_missing _ _ _ _ _ _ _ rp N L). Qed.

Theorem C64_article_index_file : forall cd, reads_slots (OpenFileHeaderFile cd) 128 (file_decoded cd) true /\ misses (OpenFileHeaderFile cd).
Proof. intros cd. split; [|apply reader_misses]. apply (reader_reads 128 (NewFileHeaderWithByte cd) false true); [reflexivity|]. intros s L. apply file_decode. unfold lenN. rewrite L, N2Nat.id. lia. Qed.
Print Assumptions C64_article_index_file.
Theorem C64_board_file : forall cd, reads_slots (OpenBoardHeaderFile cd) 256 (board_decoded cd) false /\ misses (OpenBoardHeaderFile cd).
Proof. intros cd. split; [|apply reader_misses]. apply (reader_reads 256 (UnmarshalBoardHeader cd) false false); [reflexivity|]. intros s L. apply board_decode. unfold lenN. rewrite L, N2Nat.id. lia. Qed.
Print Assumptions C64_board_file.
Theorem C64_user_file : forall cd, reads_slots (OpenUserecFile cd) 512 (userec_decoded cd) false /\ misses (OpenUserecFile cd).
Proof. intros cd. split; [|apply reader_misses]. apply (reader_reads 512 (UnmarshalUserec cd) false false); [reflexivity|]. intros s L. apply userec_decode. unfold lenN. rewrite L, N2Nat.id. lia. Qed.
Print Assumptions C64_user_file.
Theorem C64_online_user_file : forall cd, reads_slots (OpenUserInfoCache cd) (N.to_nat 3484) (userinfo_decoded cd) false /\ misses (OpenUserInfoCache cd).
Proof. intros cd. split; [|apply reader_misses]. apply (reader_reads 3484 (UnmarshalUserInfo cd) true false); [reflexivity|]. intros s L. apply userinfo_decode. unfold lenN. rewrite L, N2Nat.id. lia. Qed.
Print Assumptions C64_online_user_file.
Theorem C64_formosa_index_file : forall cd, reads_slots (OpenFormosaBBSFileHeaderFile cd) 248 (formosa_decoded cd) false /\ misses (OpenFormosaBBSFileHeaderFile cd).
Proof. intros cd. split; [|apply reader_misses]. apply (reader_reads 248 (NewFormosaHeaderWithByte cd) false false); [reflexivity|]. intros s L. apply formosa_decode. unfold lenN. rewrite L, N2Nat.id. lia. Qed.
Print Assumptions C64_formosa_index_file.

(** A directory in the place of the file: the reader of online users says so, ... *)
Lemma open_directory w p rp : names w p rp -> look w rp = Some EDir ->
  exec (Open p O_RDONLY) w = (bump_fd (set_fd w (w_nextfd w) (Some (OFile None 0 false true false))), ROk (w_nextfd w)).
Proof.
  intros [P R] L. cbn [exec]. unfold sys_open. destruct (proper_tests p P) as [-> ->]. rewrite R.
  assert (is_dir w rp = true) as -> by (apply is_dir_look; exact L). reflexivity.
Qed.
Theorem C64_online_users_in_a_directory : forall cd fuel w p rp, names w p rp -> look w rp = Some EDir -> (0 < fuel)%nat ->
  snd (run (OpenUserInfoCache cd fuel p) w) = Err (ESys EISDIR).
Proof.
  intros cd fuel w p rp N L Hf. unfold OpenUserInfoCache, open_records. cbn [run]. rewrite (open_directory w p rp N L).
  destruct fuel as [|fuel]; [lia|]. cbn [read_loop run exec]. unfold sys_read. cbn. destruct N.eq_dec; [reflexivity|contradiction].
Qed.
Print Assumptions C64_online_users_in_a_directory.
(** ... the four others never return. *)
Definition never_returns {A} (read : nat -> prog (outcome A)) (w : world) : Prop := forall fuel, snd (run (read fuel) w) = Diverge.
Lemma directory_loop {A} size (decode : bytes -> outcome A) closes fd a : decode (fill size []) = Ok a ->
  forall fuel w o acc, w_fds w fd = Some o -> of_ino o = None -> snd (run (read_loop size decode false closes fuel fd acc) w) = Diverge.
Proof.
  intros D. induction fuel as [|fuel IH]; intros w o acc E I0; [reflexivity|].
  cbn [read_loop run exec]. unfold sys_read. rewrite E, I0. cbn [run]. rewrite D. exact (IH w o (a :: acc) E I0).
Qed.
Lemma directory_never {A} size (decode : bytes -> outcome A) closes w p rp a : names w p rp -> look w rp = Some EDir -> decode (fill size []) = Ok a ->
  never_returns (fun fuel => open_records size decode false closes fuel p) w.
Proof.
  intros N L D fuel. unfold open_records. cbn [run]. rewrite (open_directory w p rp N L).
  apply (directory_loop size decode closes _ a D fuel _ (OFile None 0 false true false)); [|reflexivity]. cbn. now destruct N.eq_dec.
Qed.
Theorem C64_directories_are_never_read : forall cd w p rp, names w p rp -> look w rp = Some EDir ->
  never_returns (fun fuel => OpenFileHeaderFile cd fuel p) w /\ never_returns (fun fuel => OpenBoardHeaderFile cd fuel p) w /\
  never_returns (fun fuel => OpenUserecFile cd fuel p) w /\ never_returns (fun fuel => OpenFormosaBBSFileHeaderFile cd fuel p) w.
Proof.
  intros cd w p rp N L.
  destruct (file_decode cd (fill 128 [])) as (a1 & D1 & _); [rewrite lenN_fill; lia|].
  destruct (board_decode cd (fill 256 [])) as (a2 & D2 & _); [rewrite lenN_fill; lia|].
  destruct (userec_decode cd (fill 512 [])) as (a3 & D3 & _); [rewrite lenN_fill; lia|].
  destruct (formosa_decode cd (fill 248 [])) as (a4 & D4 & _); [rewrite lenN_fill; lia|].
  split; [|split; [|split]].
  - exact (directory_never 128 _ true w p rp a1 N L D1).
  - exact (directory_never 256 _ false w p rp a2 N L D2).
  - exact (directory_never 512 _ false w p rp a3 N L D3).
  - exact (directory_never 248 _ false w p rp a4 N L D4).
Qed.
Print Assumptions C64_directories_are_never_read.

(** The statement with the clause about directories. *)
Definition C64_statement : Prop := forall cd w p rp, names w p rp -> look w rp = Some EDir ->
  exists w' r, returns (fun fuel => OpenBoardHeaderFile cd fuel p) w w' r.
Theorem C64_board_directory_refuted : ~ C64_statement.
Proof.
  intros H. assert (N : names sample_world (str "/") []) by (split; [split; [discriminate|vm_compute; intuition discriminate]|vm_compute; reflexivity]).
  destruct (H id_codec sample_world (str "/") [] N eq_refl) as (w' & r & Nd & fuel & E).
  destruct (C64_directories_are_never_read id_codec sample_world (str "/") [] N eq_refl) as (_ & B & _). specialize (B fuel). cbv beta in B. rewrite E in B. exact (Nd B).
Qed.
Print Assumptions C64_board_directory_refuted.

(** A file of one and a half online-user records is read as two records, the
    second filled up with zeros. *)
Definition online_path : bytes := str "/online".
Definition half_read : bytes := UserInfo_MarshalBinary id_codec sample_info ++ firstn (N.to_nat 1700) (UserInfo_MarshalBinary id_codec sample_info).
Definition online_world : world := world_of [(rp ["online"]%string, NFile 0)] [half_read].
Example C64_nonvacuous : sane online_world /\ names online_world online_path (rp ["online"]%string) /\
  look online_world (rp ["online"]%string) = Some (EFile half_read) /\
  match snd (run (OpenUserInfoCache id_codec 5 online_path) online_world) with Ok l => length l = 2%nat | _ => False end.
Proof.
  split; [apply saneb_sane; vm_compute; reflexivity|]. split; [split; [split; [discriminate|vm_compute; intuition discriminate]|vm_compute; reflexivity]|].
  split; vm_compute; reflexivity.
Qed.
