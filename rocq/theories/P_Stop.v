(** * Proofs about processes that are stopped while the disk fails *)
From Coq Require Import Lia ZifyBool ZifyNat ZifyN.
From Verif Require Import M_Base M_Sys M_Path M_File M_Board M_FileOps M_DB M_BbsTool M_Fault M_Stop.
From Verif Require Import S_World S_Path S_File S_Store S_Create S_Crash S_Fault S_Post S_PostFault S_Stop.
From Verif Require Import P_Base P_Sys P_Store P_Scan P_BbsTool P_CrashCalls P_Fault.
Open Scope N_scope.

Lemma write_nothing fd w : same_files w (fst (sys_write fd [] w)).
Proof.
  unfold sys_write. destruct (w_fds w fd) as [o|]; [|apply same_files_refl]. destruct (of_ino o) as [i|]; [|apply same_files_refl].
  destruct (of_wr o); [|apply same_files_refl]. cbv zeta. cbn [fst write_at]. split; [reflexivity|]. intros q. unfold look. cbn.
  destruct q; [reflexivity|]. destruct (w_tree w _) as [[|j]|]; try reflexivity. destruct (N.eq_dec j i) as [->|]; reflexivity.
Qed.
(** From now on every call of the system fails. *)
Lemma give_up {A} (p : prog A) : forall w, exists w' a, frun p w w' a /\ same_files w w'.
Proof.
  induction p as [a|R c k IH]; intros w; [exists w, a; split; [now split|apply same_files_refl]|].
  assert (X : exists w1 r, (exec c w = (w1, r) \/ fails c w w1 r) /\ same_files w w1).
  { destruct c as [p fl|fd n|fd|fd d|fd off|fd|fd n|fd|p|p| |n].
    all: try (exists w, (RErr EIO); split; [right; split; reflexivity|apply same_files_refl]).
    - exists (fst (sys_write fd [] w)), (RErr EIO). split; [right; split; [now exists 0%nat|reflexivity]|apply write_nothing].
    - exists (set_fd w fd None), tt. split; [now left|now apply same_files_intro].
    - eexists _, _. split; [left; reflexivity|now apply same_files_intro].
    - eexists _, _. split; [left; reflexivity|now apply same_files_intro]. }
  destruct X as (w1 & r & X & SF). destruct (IH r w1) as (w' & a & F & SF'). exists w', a. split; [exists w1, r; now split|now apply (same_files_trans _ w1)].
Qed.
Lemma fstop_frun {A} (p : prog A) : forall w w', fstop p w w' -> exists w2 a, frun p w w2 a /\ same_files w' w2.
Proof.
  induction p as [a|R c k IH]; intros w w' H; cbn [fstop] in H.
  - destruct H as [->|[]]. exists w, a. split; [now split|apply same_files_refl].
  - destruct H as [->|(w1 & r & X & H)]; [apply give_up|]. destruct (IH r w1 w' H) as (w2 & a & F & SF). exists w2, a. split; [exists w1, r; now split|exact SF].
Qed.
Lemma fstop_sane {A} (p : prog A) : forall w w', sane w -> fstop p w w' -> sane w'.
Proof.
  induction p as [a|R c k IH]; intros w w' S H; cbn [fstop] in H.
  - now destruct H as [->|[]].
  - destruct H as [->|(w1 & r & [E|E] & H)]; [exact S| |].
    + pose proof (exec_sane c w S) as S1. rewrite E in S1. eapply IH; eauto.
    + eapply IH; [eapply fails_sane; eassumption|exact H].
Qed.
Lemma crash_fstop {A} (p : prog A) : forall w w', crash p w w' -> fstop p w w'.
Proof.
  induction p as [a|R c k IH]; intros w w' H; cbn [crash fstop] in *; [exact H|]. destruct H as [H|[H|H]]; [now left| |].
  - right. destruct c; try contradiction. exists w', (RErr EIO). split; [right; split; [exact H|reflexivity]|]. destruct (k (RErr EIO)); now left.
  - right. destruct (exec c w) as [w1 r]. exists w1, r. split; [now left|]. now apply IH.
Qed.

(** ** One call *)
Lemma run_crash {A} (p : prog A) : forall w w' a, run p w = (w', a) -> crash p w w'.
Proof.
  induction p as [b|R c k IH]; intros w w' a H; cbn [run crash] in *; [left; congruence|]. right. right. destruct (exec c w) as [w1 r]. now apply (IH r w1 w' a).
Qed.
Lemma call_fstop cd wd c w w' p rp old fuel :
  sane w -> call_ok c -> object_path wd (call_object c) = Ok p -> names w p rp -> has_dir w rp ->
  look w rp = option_map EFile old -> fstop (call_prog cd wd c fuel) w w' ->
  same_else rp w w' /\ exists now, look w' rp = option_map EFile now /\ torn cd c old now.
Proof.
  intros S K E N HD L H. destruct (fstop_frun _ _ _ H) as (w2 & r & F & SF).
  assert (G : exists w1, crash (call_prog cd wd c fuel) w w1 /\ same_files w1 w2).
  { destruct (notices c) eqn:NC.
    - destruct (checked_frun _ (checked_call cd wd c fuel NC) _ _ _ F) as [R|(_ & w1 & C & SF1)]; [|now exists w1].
      exists w2. split; [exact (run_crash _ _ _ _ R)|apply same_files_refl].
    - exists w. split; [destruct (call_prog cd wd c fuel); now left|].
      exact (frun_reader _ (reader_call cd wd c fuel ltac:(destruct c; try discriminate NC; reflexivity)) _ _ _ F). }
  destruct G as (w1 & C & SF1). destruct (call_crash cd wd c w w1 p rp old fuel S K E N HD L C) as ([B1 B2] & now & L1 & T).
  destruct SF as [Q1 Q2], SF1 as [Q3 Q4]. split.
  - split; [congruence|]. intros q Hq. rewrite <- Q2, Q4. now apply B2.
  - exists now. split; [|exact T]. now rewrite <- Q2, Q4.
Qed.
