(** * Property theorems about open files: C40 *)
From Coq Require Import Lia ZifyBool ZifyNat ZifyN.
From Verif Require Import M_Base M_Sys M_Path M_File M_Board M_Userec M_UserInfo M_Formosa M_FileOps M_DB.
From Verif Require Import S_World S_Path S_BoardList S_Store S_Example S_ExWorld.
From Verif Require Import P_Base P_Sys P_Read P_Records P_Fds T_Records T_BoardList T_Store.
Open Scope N_scope.

(** A table of descriptors in which numbers not given out yet are not open. *)
Definition C40_statement : Prop := forall cd wd c fuel w w' r,
  fresh_fds w -> run (call_prog cd wd c fuel) w = (w', r) -> r <> Diverge -> same_fds w w'.

(** Every call but the listings of boards and users leaves exactly the
    descriptors open that were open, in every file system, whether it succeeds,
    fails or panics. *)
Theorem C40_calls_close_partial : forall cd wd c fuel w w' r,
  c <> ListBoards -> c <> ListUsers ->
  fresh_fds w -> run (call_prog cd wd c fuel) w = (w', r) -> r <> Diverge -> same_fds w w'.
Proof.
  intros cd wd c fuel w w' r N1 N2 F R D. eapply (tidy_run diverges); [|exact F|exact R|exact D].
  apply tidy_call. intros [H|H]; contradiction.
Qed.
Print Assumptions C40_calls_close_partial.
Theorem C40_creating_closes : forall wd b owner date title fuel w w' r,
  fresh_fds w -> run (CreateArticleRecord fuel wd b owner date title) w = (w', r) -> r <> Diverge -> same_fds w w'.
Proof.
  intros. eapply (tidy_run diverges); eauto. unfold CreateArticleRecord. apply tidy_pbind; [apply tidy_create|]. intros a. constructor.
Qed.
Print Assumptions C40_creating_closes.
Theorem C40_creating_with_map_closes : forall fuel wd o d t b w w' r,
  fresh_fds w -> run (NewArticleRecordWithMap fuel wd o d t b) w = (w', r) -> r <> Diverge -> same_fds w w'.
Proof. intros. eapply (tidy_run diverges); eauto. apply tidy_new_with_map. Qed.
Print Assumptions C40_creating_with_map_closes.
Theorem C40_removing_closes : forall chunk fuel p i w w' r,
  fresh_fds w -> run (RemoveBoardHeaderFileRecord chunk fuel p i) w = (w', r) -> r <> Diverge -> same_fds w w'.
Proof. intros. eapply (tidy_run diverges); eauto. apply tidy_remove. Qed.
Print Assumptions C40_removing_closes.

(** Each listing of an existing board (or user) file leaves one more descriptor
    open: after [n] listings there are [n] of them. *)
Inductive times {A} (p : prog (outcome A)) : nat -> world -> world -> Prop :=
| times_0 w : times p 0 w w
| times_S n w w1 w2 a : run p w = (w1, Ok a) -> times p n w1 w2 -> times p (S n) w w2.

Lemma listing_leaks {A} size (decode : bytes -> outcome A) strict fuel p rp d :
  0 < size -> decodes size decode -> (length d < fuel)%nat ->
  forall n w w', sane w -> names w p rp -> look w rp = Some (EFile d) ->
  times (open_records size decode strict false fuel p) n w w' ->
  forall k, (k < n)%nat -> w_fds w' (w_nextfd w + N.of_nat k) <> None.
Proof.
  intros P D Hf n. induction n as [|n IH]; intros w w' S N L T k Hk; [lia|].
  inversion T as [|? ? w1 ? a R T']; subst.
  destruct (open_records_file size decode strict false fuel w p rp d) as (w1' & l & R' & G & S' & SF & o & Fo & Ff); auto.
  rewrite R in R'. injection R' as <- <-.
  assert (Nx : w_nextfd w1 = N.succ (w_nextfd w)).
  { clear -R. unfold open_records in R. cbn [run] in R.
    destruct (open_fds p O_RDONLY w) as [(e & E)|(w2 & E & N1 & _)]; rewrite E in R; [discriminate|].
    rewrite <- N1. clear E N1. revert w2 R. generalize (@nil A). generalize (w_nextfd w). intros fd.
    induction fuel as [|fuel IH]; intros acc w2 R; cbn [read_loop run] in R; [discriminate|].
    destruct (plain_fds (Read fd size) w2 I) as [Q _]. destruct (exec (Read fd size) w2) as [w3 r]. cbn [fst] in Q.
    rewrite <- Q. unfold close_if in R. destruct r as [[|x d]|e].
    - cbn [run] in R. injection R as <- _. reflexivity.
    - destruct (decode _); try discriminate. eauto.
    - destruct strict; [discriminate|]. destruct (decode _); try discriminate. eauto. }
  destruct SF as [C F].
  assert (Keep : forall m v v', times (open_records size decode strict false fuel p) m v v' -> forall f, w_fds v f <> None -> sane v -> names v p rp ->
     look v rp = Some (EFile d) -> w_fds v' f <> None).
  { clear - P D Hf. induction 1 as [v|m v v1 v2 a0 R0 T0 IH0]; intros f Hfd S N L; [exact Hfd|].
    destruct (open_records_file size decode strict false fuel v p rp d) as (v1' & l & R' & G & S' & [C F] & o & Fo & Ff); auto.
    rewrite R0 in R'. injection R' as <- <-. apply IH0; auto.
    - destruct (N.eq_dec f (w_nextfd v)) as [->|Q]; [congruence|]. now rewrite Ff.
    - split; [apply N|rewrite C; apply N].
    - now rewrite F. }
  destruct k as [|k].
  - rewrite N.add_0_r. eapply Keep; eauto; [congruence| |].
    + split; [apply N|rewrite C; apply N].
    + now rewrite F.
  - replace (w_nextfd w + N.of_nat (Datatypes.S k)) with (w_nextfd w1 + N.of_nat k) by lia.
    eapply IH; eauto; [|now rewrite F|lia]. split; [apply N|rewrite C; apply N].
Qed.
Theorem C40_board_listings_leak_refuted : forall cd wd rp p d fuel n w w' k,
  sane w -> object_path wd Boards = Ok p -> names w p rp -> look w rp = Some (EFile d) -> (length d < fuel)%nat ->
  times (ReadBoardRecords cd fuel wd) n w w' -> (k < n)%nat ->
  w_fds w (w_nextfd w + N.of_nat k) = None /\ w_fds w' (w_nextfd w + N.of_nat k) <> None.
Proof.
  intros cd wd rp p d fuel n w w' k S E N L Hf T Hk. split; [apply (sane_fd w S); lia|].
  eapply (listing_leaks 256 (UnmarshalBoardHeader cd) false fuel p rp d); eauto; [reflexivity| |].
  - intros b Lb. destruct (board_decode cd b) as (x & E' & _); [lia|eauto].
  - clear -T E. cbn [object_path] in E. unfold ReadBoardRecords in T. rewrite E in T.
    induction T as [|m v v1 v2 a R T IH]; [constructor|]. apply times_S with v1 a; [|exact IH]. exact R.
Qed.
Print Assumptions C40_board_listings_leak_refuted.
Theorem C40_user_listings_leak_refuted : forall cd wd rp p d fuel n w w' k,
  sane w -> object_path wd Passwds = Ok p -> names w p rp -> look w rp = Some (EFile d) -> (length d < fuel)%nat ->
  times (ReadUserRecords cd fuel wd) n w w' -> (k < n)%nat ->
  w_fds w (w_nextfd w + N.of_nat k) = None /\ w_fds w' (w_nextfd w + N.of_nat k) <> None.
Proof.
  intros cd wd rp p d fuel n w w' k S E N L Hf T Hk. split; [apply (sane_fd w S); lia|].
  eapply (listing_leaks 512 (UnmarshalUserec cd) false fuel p rp d); eauto; [reflexivity| |].
  - intros b Lb. destruct (userec_decode cd b) as (x & E' & _); [lia|eauto].
  - clear -T E. cbn [object_path] in E. unfold ReadUserRecords in T. rewrite E in T.
    induction T as [|m v v1 v2 a R T IH]; [constructor|]. apply times_S with v1 a; [|exact IH]. exact R.
Qed.
Print Assumptions C40_user_listings_leak_refuted.
Theorem C40_statement_refuted : ~ C40_statement.
Proof.
  intros H. pose (x := run (call_prog id_codec sample_wd ListBoards 600) sample_world).
  assert (Q : same_fds sample_world (fst x)).
  { apply (H id_codec sample_wd ListBoards 600%nat sample_world (fst x) (snd x)).
    - intros fd _. reflexivity.
    - exact (surjective_pairing x).
    - vm_compute. discriminate. }
  specialize (Q 3). vm_compute in Q. discriminate.
Qed.
Print Assumptions C40_statement_refuted.
Example C40_nonvacuous :
  fresh_fds sample_world /\
  snd (run (call_prog id_codec sample_wd (ListRecords (str "SYSOP")) 600) sample_world) <> Diverge /\
  (exists w', times (ReadBoardRecords id_codec 600 sample_wd) 2 sample_world w' /\ w_fds w' 4 <> None).
Proof.
  split; [intros fd _; reflexivity|]. split; [vm_compute; discriminate|].
  pose (x1 := run (ReadBoardRecords id_codec 600 sample_wd) sample_world).
  pose (x2 := run (ReadBoardRecords id_codec 600 sample_wd) (fst x1)).
  assert (O1 : exists a, snd x1 = Ok a).
  { assert (Q : match snd x1 with Ok _ => true | _ => false end = true) by (vm_compute; reflexivity).
    destruct (snd x1); try discriminate. eauto. }
  assert (O2 : exists a, snd x2 = Ok a).
  { assert (Q : match snd x2 with Ok _ => true | _ => false end = true) by (vm_compute; reflexivity).
    destruct (snd x2); try discriminate. eauto. }
  destruct O1 as (a1 & O1), O2 as (a2 & O2).
  exists (fst x2). split.
  - apply times_S with (fst x1) a1; [rewrite <- O1; exact (surjective_pairing x1)|].
    apply times_S with (fst x2) a2; [rewrite <- O2; exact (surjective_pairing x2)|]. constructor.
  - vm_compute. discriminate.
Qed.
