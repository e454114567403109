(** * Programs on a disk that fails *)
From Coq Require Import Lia ZifyBool ZifyNat ZifyN.
From Verif Require Import M_Base M_Sys M_Path M_File M_Board M_Userec M_FileOps M_DB M_Fault.
From Verif Require Import S_World S_Path S_Layout S_File S_Board S_Userec S_BoardList S_Store S_Pool S_Create S_Crash S_Fault.
From Verif Require Import P_Base P_Layout P_Records P_Sys P_Read P_Path P_FileOps P_BoardList P_Store P_Crash P_Scan P_Create P_BbsTool P_CrashCalls.
Open Scope N_scope.

(** ** Composition *)
Lemma frun_run {A} (p : prog A) : forall w, frun p w (fst (run p w)) (snd (run p w)).
Proof.
  induction p as [a|R c k IH]; intros w; cbn [frun run]; [now split|]. destruct (exec c w) as [w1 r] eqn:E. exists w1, r. split; [now left|apply IH].
Qed.
Lemma frun_bind {A B} (p : prog A) (f : A -> prog B) : forall w w' b, frun (bind p f) w w' b -> exists w1 a, frun p w w1 a /\ frun (f a) w1 w' b.
Proof.
  induction p as [a|R c k IH]; intros w w' b H; cbn [bind] in H; [exists w, a; now split|]. cbn [frun] in H. destruct H as (w1 & r & X & H).
  destruct (IH r _ _ _ H) as (w2 & a & H1 & H2). exists w2, a. split; [|exact H2]. exists w1, r. now split.
Qed.
Lemma fails_sane {R} (c : sys R) w w' r : sane w -> fails c w w' r -> sane w'.
Proof. intros S F. destruct c; cbn [fails] in F; try contradiction; destruct F as [F _]; try (rewrite F; exact S). destruct F as (n & ->). exact (exec_sane (Write fd (firstn n d)) w S). Qed.
Lemma frun_sane {A} (p : prog A) : forall w w' a, sane w -> frun p w w' a -> sane w'.
Proof.
  induction p as [b|R c k IH]; intros w w' a S H; cbn [frun] in H; [now destruct H as [-> _]|]. destruct H as (w1 & r & [E|E] & H).
  - pose proof (exec_sane c w S) as S1. rewrite E in S1. eapply IH; eauto.
  - eapply IH; [eapply fails_sane; eassumption|exact H].
Qed.
Lemma frun_reader {A} (p : prog A) : reader p -> forall w w' a, frun p w w' a -> same_files w w'.
Proof.
  induction p as [b|R c k IH]; intros Rp w w' a H; cbn [frun] in H; [destruct H as [-> _]; apply same_files_refl|]. destruct Rp as [Rc Rk]. destruct H as (w1 & r & X & H).
  apply (same_files_trans _ w1); [|now apply (IH r (Rk r) _ _ a)]. destruct X as [E|F].
  - pose proof (reads_same c w Rc) as Q. now rewrite E in Q.
  - destruct c; cbn [fails] in F; try contradiction; destruct F as [F _]; try (rewrite F; apply same_files_refl); destruct Rc.
Qed.

(** ** Programs that give up at the first error *)
Definition closing {R} (c : sys R) : Prop := match c with Close _ => True | _ => False end.
Fixpoint ends_with {A} (Q : A -> Prop) (p : prog A) : Prop :=
  match p with
  | Ret o => Q o
  | Call c k => closing c /\ forall r, ends_with Q (k r)
  end.
Fixpoint settles {A} (Q : A -> Prop) (p : prog A) : Prop :=
  match p with
  | Ret _ => True
  | Call c k => (forall r, settles Q (k r)) /\ forall w w' r, fails c w w' r -> ends_with Q (k r)
  end.
Definition gives_up {A} (p : prog (outcome A)) : Prop := ends_with (fun o => o = Err (ESys EIO)) p.
Definition checked {A} (p : prog (outcome A)) : Prop := settles (fun o => o = Err (ESys EIO)) p.
Lemma ends_frun {A} Q (p : prog A) : ends_with Q p -> forall w w' o, frun p w w' o -> Q o /\ same_files w w'.
Proof.
  induction p as [b|R c k IH]; intros G w w' o H; cbn [frun ends_with] in *; [destruct H as [-> ->]; split; [exact G|apply same_files_refl]|].
  destruct G as [C G]. destruct H as (w1 & r & X & H). destruct (IH r (G r) _ _ _ H) as [E SF]. split; [exact E|]. apply (same_files_trans _ w1); [|exact SF].
  destruct c; try contradiction. destruct X as [X|[]]. cbn [exec] in X. injection X as <- _. apply same_files_intro; reflexivity.
Qed.
Lemma settles_frun {A} Q (p : prog A) : settles Q p -> forall w w' o, frun p w w' o ->
  run p w = (w', o) \/ (Q o /\ exists w1, crash p w w1 /\ same_files w1 w').
Proof.
  induction p as [b|R c k IH]; intros K w w' o H; cbn [frun settles run crash] in *; [destruct H as [-> ->]; now left|].
  destruct K as [K G]. destruct H as (w1 & r & [E|F] & H).
  - rewrite E. destruct (IH r (K r) _ _ _ H) as [X|(X & w2 & C & SF)]; [now left|]. right. split; [exact X|]. exists w2. split; [|exact SF]. right. now right.
  - destruct (ends_frun _ _ (G _ _ _ F) _ _ _ H) as [X SF]. right. split; [exact X|]. exists w1. split; [|exact SF].
    destruct c; cbn [fails] in F; try contradiction; destruct F as [F _]; try (left; exact F). right. left. exact F.
Qed.
Lemma checked_frun {A} (p : prog (outcome A)) : checked p -> forall w w' o, frun p w w' o ->
  run p w = (w', o) \/ (o = Err (ESys EIO) /\ exists w1, crash p w w1 /\ same_files w1 w').
Proof. exact (settles_frun _ p). Qed.
Lemma gives_up_bind {A B} (p : prog (outcome A)) (f : A -> prog (outcome B)) : gives_up p -> gives_up (pbind p f).
Proof.
  unfold pbind, gives_up. induction p as [b|R c k IH]; cbn [ends_with bind]; [intros ->; reflexivity|]. intros [C G]. split; [exact C|]. intros r. now apply IH.
Qed.
Lemma checked_pbind {A B} (p : prog (outcome A)) (f : A -> prog (outcome B)) : checked p -> (forall a, checked (f a)) -> checked (pbind p f).
Proof.
  intros K F. unfold pbind, checked in *. induction p as [b|R c k IH]; cbn [settles bind] in *; [destruct b; cbn [settles]; auto; apply F|]. destruct K as [K G]. split; [intros r; now apply IH|].
  intros w w' r X. now apply gives_up_bind, (G w w').
Qed.
Ltac faulted := let w := fresh in let w' := fresh in let r := fresh in let F := fresh in intros w w' r F; cbn [fails] in F; try contradiction; destruct F as [_ ->].
Lemma checked_open_write fl p d : checked (open_write fl p d).
Proof.
  unfold checked, open_write. cbn [settles]. split; [|faulted; reflexivity]. intros [fd|e]; [|exact I]. cbn [settles]. split.
  - intros r. split; [intros _; destruct r; exact I|faulted].
  - faulted. split; [exact I|]. reflexivity.
Qed.
Lemma checked_open_read_all p : checked (open_read_all p).
Proof.
  unfold checked, open_read_all. cbn [settles]. split; [|faulted; reflexivity]. intros [fd|e]; [|exact I]. cbn [settles]. split.
  - intros r. split; [intros _; destruct r; exact I|faulted].
  - faulted. split; [exact I|]. reflexivity.
Qed.
Lemma checked_update cd p i f : checked (UpdateFileHeaderFileRecord cd p i f).
Proof.
  unfold checked, UpdateFileHeaderFileRecord. cbn [settles]. split; [|faulted; reflexivity]. intros [fd|e]; [|exact I]. cbn [settles]. split.
  - intros [x|e]; [|split; [intros _; exact I|faulted]]. split.
    + intros r. split; [intros _; destruct r; exact I|faulted].
    + faulted. split; [exact I|]. reflexivity.
  - faulted. split; [exact I|]. reflexivity.
Qed.
Lemma checked_delete p : checked (DeleteUserDraft p).
Proof. unfold checked, DeleteUserDraft. cbn [settles]. split; [intros [x|e]; exact I|faulted; reflexivity]. Qed.

(** The calls that notice every error. *)
Definition notices (c : call) : bool :=
  match c with ListRecords _ | ListTreasures _ _ | ReadDraft _ _ | ListBoards | ListUsers => false | _ => true end.
Lemma checked_call cd wd c fuel : notices c = true -> checked (call_prog cd wd c fuel).
Proof.
  intros H. destruct c; try discriminate H; cbn [call_prog]; unfold answer_with; (apply checked_pbind; [|intros a; exact I]);
    (apply checked_pbind; [exact I|]); intros p; first [apply checked_open_write|apply checked_open_read_all|apply checked_update|apply checked_delete].
Qed.

(** ** The loop over the records *)
Lemma fill_nil size : fill size [] = zeros size.
Proof. rewrite fill_pad, firstn_nil. cbn [app]. f_equal. unfold lenN. cbn. lia. Qed.
Lemma frun_read_loop {A} size (decode : bytes -> outcome A) closes :
  0 < size -> decodes size decode ->
  forall fuel d w fd i app wr pos acc w' r,
  w_fds w fd = Some (OFile (Some i) pos app true wr) -> skipn (N.to_nat pos) (w_data w i) = d ->
  frun (read_loop size decode false closes fuel fd acc) w w' r -> r <> Diverge ->
  exists ss l, r = Ok (rev acc ++ l) /\ padded (zeros size) (cut size d) ss /\ Forall2 (fun s a => decode s = Ok a) ss l.
Proof.
  intros P D. induction fuel as [|fuel IH]; intros d w fd i app wr pos acc w' r Hfd Hd H ND; cbn [read_loop frun] in H; [destruct H as [_ ->]; contradiction|].
  destruct H as (w1 & x & [E|F] & H).
  - rewrite (exec_read w fd _ i size Hfd eq_refl eq_refl) in E. cbn [of_pos of_append of_rd of_wr] in E. injection E as <- <-.
    assert (Hs : sub pos size (w_data w i) = sub 0 size d) by (unfold sub; now rewrite Hd). rewrite Hs in H.
    destruct d as [|b d].
    + assert (Z : sub 0 size [] = []) by (unfold sub; now rewrite skipn_nil, firstn_nil). rewrite Z in H.
      exists [], []. rewrite app_nil_r. split; [|split; [|constructor]].
      * destruct closes; cbn [close_if frun] in H; [destruct H as (? & ? & _ & _ & H); exact H|apply H].
      * rewrite cut_nil. constructor.
    + set (DD := b :: d) in *. destruct (sub 0 size DD) as [|c t] eqn:Es.
      { exfalso. apply (f_equal (@length byte)) in Es. unfold sub in Es. cbn [N.to_nat skipn] in Es.
        rewrite firstn_length in Es. unfold DD in Es. cbn [length] in Es. lia. }
      rewrite <- Es in H. destruct (D (fill size (sub 0 size DD)) (lenN_fill _ _)) as (a & Ea). rewrite Es in H. cbv iota beta in H. rewrite <- Es in H. rewrite Ea in H.
      set (w1 := set_fd w fd _) in H.
      assert (Hsk : skipn (N.to_nat (pos + lenN (sub 0 size DD))) (w_data w1 i) = skipn (N.to_nat size) DD).
      { unfold w1. cbn [w_data set_fd].
        assert (LS : lenN (sub 0 size DD) = N.min size (lenN DD)) by (unfold sub; rewrite lenN_firstn; reflexivity).
        rewrite LS. generalize (f_equal (@length byte) Hd). rewrite skipn_length. intros HL.
        generalize (lenN DD) (eq_refl : lenN DD = N.of_nat (length DD)). intros ld Eld.
        rewrite <- Hd, skipn_skipn. destruct (N.le_gt_cases size ld) as [G|G]; [f_equal; lia|rewrite !skipn_all2; [reflexivity|lia|lia]]. }
      assert (Hw1 : w_fds w1 fd = Some (OFile (Some i) (pos + lenN (sub 0 size DD)) app true wr)) by (unfold w1; cbn; destruct N.eq_dec; [reflexivity|contradiction]).
      destruct (IH _ w1 fd i app wr _ (a :: acc) w' r Hw1 Hsk H ND) as (ss & l & -> & Pd & F2).
      exists (fill size (sub 0 size DD) :: ss), (a :: l). split; [|split].
      * cbn [rev]. now rewrite <- app_assoc.
      * rewrite cut_step by (auto; discriminate). now constructor.
      * now constructor.
  - cbn [fails] in F. destruct F as [-> ->]. cbv iota beta in H. rewrite fill_nil in H. destruct (D (zeros size)) as (a & Ea); [apply lenN_zeros|]. rewrite Ea in H.
    destruct (IH _ w fd i app wr pos (a :: acc) w' r Hfd Hd H ND) as (ss & l & -> & Pd & F2).
    exists (zeros size :: ss), (a :: l). split; [cbn [rev]; now rewrite <- app_assoc|]. split; [now apply padded_add|now constructor].
Qed.

Lemma frun_open_records {A} size (decode : bytes -> outcome A) closes fuel p w w' r rp old :
  0 < size -> decodes size decode -> sane w -> names w p rp -> look w rp = option_map EFile old -> has_dir w rp ->
  frun (open_records size decode false closes fuel p) w w' r -> r <> Diverge ->
  match old with
  | Some d => r = Err (ESys EIO) \/ exists ss l, r = Ok l /\ padded (zeros size) (cut size d) ss /\ Forall2 (fun s a => decode s = Ok a) ss l
  | None => r = Err (ESys EIO) \/ r = Err (ESys ENOENT)
  end.
Proof.
  intros P D S N L HD H ND. unfold open_records in H. cbn [frun] in H. destruct H as (w1 & x & [E|F] & H).
  - destruct old as [d|]; cbn [option_map] in L.
    + destruct (open_existing w p O_RDONLY rp d N L eq_refl) as (i & T & Dd & E'). rewrite E' in E. cbn [O_RDONLY o_trunc o_append o_rd o_wr] in E. injection E as <- <-.
      right. eapply (frun_read_loop size decode closes P D fuel d _ _ i false false 0 []) in H; [|cbn; destruct N.eq_dec; [reflexivity|contradiction]|exact Dd|exact ND].
      destruct H as (ss & l & -> & Q). exists ss, l. split; [reflexivity|exact Q].
    + rewrite (open_missing w p O_RDONLY rp N L) in E by (now left). injection E as <- <-. cbn [frun] in H. destruct H as [_ ->]. right. now rewrite (missing_enoent w rp S HD).
  - cbn [fails] in F. destruct F as [-> ->]. cbn [frun] in H. destruct H as [_ ->]. destruct old; now left.
Qed.

Lemma padded_length size z ss ss' : length z = size -> Forall (fun s : bytes => length s = size) ss -> padded z ss ss' -> Forall (fun s : bytes => length s = size) ss'.
Proof. intros Z F H. induction H as [|s ss ss' H IH|ss ss' H IH]; [constructor|inversion F; constructor; auto|constructor; auto]. Qed.
Lemma padded_decoded {A} (Dd : bytes -> A -> Prop) (decode : bytes -> outcome A) size d ss l :
  0 < size -> (forall s, N.of_nat (length s) = size -> exists a, decode s = Ok a /\ Dd s a) ->
  padded (zeros size) (cut size d) ss -> Forall2 (fun s a => decode s = Ok a) ss l -> padded_list Dd (N.to_nat size) d l.
Proof.
  intros P H Pd G. destruct (cut_slots size d P) as [LS C].
  pose proof (padded_length (N.to_nat size) (zeros size) _ _ (zeros_length size) LS Pd) as LS'.
  exists (cut size d), ss. split; [now split|]. split; [exact Pd|]. clear Pd. revert LS'. induction G as [|s f ss l E G IH]; intros LS'; constructor.
  - inversion LS' as [|? ? Ls]. subst. destruct (H s) as (a & E' & Q); [lia|]. rewrite E in E'. injection E' as <-. exact Q.
  - apply IH. now inversion LS'.
Qed.

Lemma contains_occurs t : forall s, contains t s = true -> occurs_in t s.
Proof.
  assert (HP : forall t s, has_prefix t s = true -> exists z, s = t ++ z).
  { induction t0 as [|a t0 IH]; intros s H; [now exists s|]. destruct s as [|b s]; [discriminate H|]. cbn [has_prefix] in H. apply andb_true_iff in H. destruct H as [H1 H2].
    apply Byte.byte_dec_bl in H1. subst b. destruct (IH _ H2) as (z & ->). now exists z. }
  induction s as [|b s IH]; cbn [contains]; intros H; apply orb_true_iff in H; destruct H as [H|H].
  - destruct (HP _ _ H) as (z & ->). now exists [], z.
  - discriminate H.
  - destruct (HP _ _ H) as (z & ->). now exists [], z.
  - destruct (IH H) as (a & z & ->). now exists (b :: a), z.
Qed.

Lemma frun_answer {A} (k : A -> answer) p w w' r : frun (answer_with k p) w w' r -> exists o, frun p w w' o /\
  r = match o with Ok a => Ok (k a) | Err e => Err e | Panic => Panic | Diverge => Diverge end.
Proof.
  unfold answer_with, pbind. intros H. apply frun_bind in H. destruct H as (w1 & o & H & H'). exists o. destruct o; cbn [frun] in H'; destruct H' as [-> ->]; now split.
Qed.

Lemma frun_delete p w w' o rp old : sane w -> names w p rp -> has_dir w rp -> look w rp = option_map EFile old -> frun (DeleteUserDraft p) w w' o ->
  (w' = w /\ o = Err (ESys EIO)) \/ run (DeleteUserDraft p) w = (w', o).
Proof.
  intros S N HD L H. unfold DeleteUserDraft in *. cbn [frun run] in *. destruct H as (w1 & r & [E|F] & H).
  - right. rewrite E. destruct r; cbn [frun] in H; destruct H as [-> ->]; reflexivity.
  - left. cbn [fails] in F. destruct F as [-> ->]. exact H.
Qed.
Lemma lookup_listing {A} (Dd : bytes -> A -> Prop) (decode : bytes -> outcome A) (k : list A -> answer) size closes fuel p w w' o rp old :
  0 < size -> (forall s, N.of_nat (length s) = size -> exists a, decode s = Ok a /\ Dd s a) -> sane w -> names w p rp -> look w rp = option_map EFile old -> has_dir w rp ->
  frun (open_records size decode false closes fuel p) w w' o -> o <> Diverge ->
  (old = None /\ o = Err (ESys ENOENT)) \/ o = Err (ESys EIO) \/ exists d l, old = Some d /\ padded_list Dd (N.to_nat size) d l /\ o = Ok l.
Proof.
  intros P H S N L HD F ND.
  assert (D : decodes size decode) by (intros b Lb; destruct (H b Lb) as (a & E & _); eauto).
  pose proof (frun_open_records size decode closes fuel p w w' o rp old P D S N L HD F ND) as X. destruct old as [d|].
  - destruct X as [X|(ss & l & -> & Pd & F2)]; [tauto|]. right. right. exists d, l. split; [reflexivity|]. split; [|reflexivity]. eapply padded_decoded; eauto.
  - destruct X; tauto.
Qed.

(** What one call does to its object. *)
Lemma call_frun cd wd c w w' r p rp old fuel :
  sane w -> call_ok c -> object_path wd (call_object c) = Ok p -> names w p rp -> has_dir w rp ->
  look w rp = option_map EFile old -> frun (call_prog cd wd c fuel) w w' r -> r <> Diverge ->
  exists new, same_else rp w w' /\ look w' rp = option_map EFile new /\
    (call_meets cd c old new r \/ call_fails cd wd c old new r).
Proof.
  intros S K E N HD L H ND.
  assert (RUN : notices c = true -> run (call_prog cd wd c fuel) w = (w', r) -> exists new, same_else rp w w' /\ look w' rp = option_map EFile new /\ (call_meets cd c old new r \/ call_fails cd wd c old new r)).
  { intros NC R. destruct (call_step cd wd c w p rp old S K E N HD L) as (w2 & r2 & new & (ND2 & n & R2) & S2 & B & L2 & M).
    assert (X : (w', r) = (w2, r2)).
    { rewrite <- R, <- R2. destruct (reads_only c) eqn:RO; [|now rewrite (call_const cd wd c fuel n RO)]. destruct c; try discriminate NC; try discriminate RO; reflexivity. }
    injection X as -> ->. exists new. auto. }
  destruct (notices c) eqn:NC.
  - destruct (checked_frun _ (checked_call cd wd c fuel NC) _ _ _ H) as [R|(-> & w1 & C & SF)]; [now apply RUN|].
    destruct (call_crash cd wd c w w1 p rp old fuel S K E N HD L C) as (B & now & L1 & T).
    assert (Q : same_else rp w w' /\ look w' rp = look w1 rp).
    { destruct B as [B1 B2], SF as [F1 F2]. split; [|apply F2]. split; [congruence|]. intros q Hq. rewrite F2. now apply B2. }
    destruct Q as [Q1 Q2].
    destruct c; try discriminate NC; cbn [call_fails];
      try (exists now; split; [exact Q1|]; split; [congruence|]; right; split; [exact T|reflexivity]).
    + exists old. split; [exact Q1|]. destruct T as [->|[]]. split; [congruence|]. right. now split.
    + exists old. split; [exact Q1|]. destruct T as [->|[]]. split; [congruence|]. right. now split.
    + cbn [call_prog] in H. apply frun_answer in H. destruct H as (o & H & Er). cbn [call_object object_path] in E. unfold DB_DeleteUserDraft in H. rewrite E in H.
      change (frun (DeleteUserDraft p) w w' o) in H. destruct (frun_delete p w w' o rp old S N HD L H) as [[-> ->]|R].
      * exists old. split; [apply same_else_refl|]. split; [exact L|]. right. now split.
      * apply RUN; [reflexivity|]. cbn [call_prog]. unfold DB_DeleteUserDraft. rewrite E. rewrite run_answer. change (run (pbind (lift (Ok p)) (fun path => DeleteUserDraft path)) w) with (run (DeleteUserDraft p) w).
        rewrite R. cbn [fst snd]. now rewrite Er.
  - pose proof (frun_reader _ (reader_call cd wd c fuel ltac:(destruct c; try discriminate NC; reflexivity)) _ _ _ H) as SF.
    exists old. split; [now apply same_files_else|]. split; [destruct SF as [_ SF]; now rewrite SF|].
    destruct c; try discriminate NC; cbn [call_prog] in H; apply frun_answer in H; destruct H as (o & H & ->); cbn [call_object object_path] in E; cbn [call_meets call_fails].
    + unfold ReadBoardArticleRecordsFile in H. rewrite E in H. change (frun (bind (OpenFileHeaderFile cd fuel p) (fun o => match o with Err e => if says_no_such_file p e then Ret (Ok []) else Ret (Err e) | _ => Ret o end)) w w' o) in H.
      apply frun_bind in H. destruct H as (w1 & o1 & H & H').
      assert (ND1 : o1 <> Diverge). { intros ->. cbn [frun] in H'. destruct H' as [_ ->]. now apply ND. }
      assert (DD : forall s, N.of_nat (length s) = 128 -> exists a, NewFileHeaderWithByte cd s = Ok a /\ file_decoded cd s a) by (intros s Ls; apply file_decode; unfold lenN; lia).
      destruct (lookup_listing (file_decoded cd) _ Files 128 true fuel p w w1 o1 rp old eq_refl DD S N L HD H ND1) as [[-> ->]|[->|(d & l & -> & Pd & ->)]].
      * cbn [says_no_such_file frun] in H'. destruct H' as [_ ->]. left. split; [reflexivity|]. exists [], []. split; [|split; [constructor|reflexivity]].
        split; [constructor|]. exists 0%nat. split; [reflexivity|lia].
      * right. split; [reflexivity|]. cbn [says_no_such_file] in H'. destruct (contains noent_text p) eqn:Cn; cbn [frun] in H'; destruct H' as [_ ->].
        -- right. left. exists p. split; [exact E|]. split; [now apply contains_occurs|reflexivity].
        -- now left.
      * cbn [frun] in H'. destruct H' as [_ ->]. right. split; [reflexivity|]. right. right. exists d, l. auto.
    + unfold ReadBoardTreasureRecordsFile in H. rewrite E in H. change (frun (OpenFileHeaderFile cd fuel p) w w' o) in H.
      assert (ND1 : o <> Diverge) by (intros ->; now apply ND).
      assert (DD : forall s, N.of_nat (length s) = 128 -> exists a, NewFileHeaderWithByte cd s = Ok a /\ file_decoded cd s a) by (intros s Ls; apply file_decode; unfold lenN; lia).
      destruct (lookup_listing (file_decoded cd) _ Files 128 true fuel p w w' o rp old eq_refl DD S N L HD H ND1) as [[-> ->]|[->|(d & l & -> & Pd & ->)]].
      * left. now split.
      * right. split; [reflexivity|now left].
      * right. split; [reflexivity|]. right. exists d, l. auto.
    + unfold GetUserDrafts in H. rewrite E in H. change (frun (ReadUserDraft p) w w' o) in H. unfold ReadUserDraft in H. cbn [frun] in H.
      destruct H as (w1 & x & [Ex|F] & H).
      * destruct old as [d0|]; cbn [option_map] in L.
        -- rewrite (stat_file p w rp d0 N L) in Ex. injection Ex as <- <-. rewrite read_file_shape in H.
           destruct (checked_frun _ (checked_open_read_all p) _ _ _ H) as [R|(-> & _)]; [|right; split; [reflexivity|now left]].
           destruct (open_read_all_file p w rp d0 S N L) as (w2 & R2 & _). rewrite R in R2. injection R2 as _ ->. left. now split.
        -- rewrite (stat_missing p w rp N L) in Ex. injection Ex as <- <-. cbn [frun] in H. destruct H as [_ ->]. left. now split.
      * cbn [fails] in F. destruct F as [-> ->]. cbn [frun] in H. destruct H as [_ ->]. right. split; [reflexivity|now right].
    + unfold ReadBoardRecords in H. rewrite E in H. change (frun (OpenBoardHeaderFile cd fuel p) w w' o) in H.
      assert (ND1 : o <> Diverge) by (intros ->; now apply ND).
      assert (DD : forall s, N.of_nat (length s) = 256 -> exists a, UnmarshalBoardHeader cd s = Ok a /\ board_decoded cd s a) by (intros s Ls; apply board_decode; unfold lenN; lia).
      destruct (lookup_listing (board_decoded cd) _ BoardList 256 false fuel p w w' o rp old eq_refl DD S N L HD H ND1) as [[-> ->]|[->|(d & l & -> & Pd & ->)]].
      * left. now split.
      * right. split; [reflexivity|now left].
      * right. split; [reflexivity|]. right. exists d, l. auto.
    + unfold ReadUserRecords in H. rewrite E in H. change (frun (OpenUserecFile cd fuel p) w w' o) in H.
      assert (ND1 : o <> Diverge) by (intros ->; now apply ND).
      assert (DD : forall s, N.of_nat (length s) = 512 -> exists a, UnmarshalUserec cd s = Ok a /\ userec_decoded cd s a) by (intros s Ls; apply userec_decode; unfold lenN; lia).
      destruct (lookup_listing (userec_decoded cd) _ UserList 512 false fuel p w w' o rp old eq_refl DD S N L HD H ND1) as [[-> ->]|[->|(d & l & -> & Pd & ->)]].
      * left. now split.
      * right. split; [reflexivity|now left].
      * right. split; [reflexivity|]. right. exists d, l. auto.
Qed.

(** ** Removing a board *)
Definition remove_ends (o : outcome unit) : Prop := o = Err (ESys EIO) \/ o = Ok tt.
Lemma settles_bind {A B} (Q : A -> Prop) (Q' : B -> Prop) (p : prog A) (f : A -> prog B) :
  settles Q p -> (forall a, settles Q' (f a)) -> (forall a, Q a -> ends_with Q' (f a)) -> settles Q' (bind p f).
Proof.
  intros K F G.
  assert (EB : forall p, ends_with Q p -> ends_with Q' (bind p f)).
  { induction p0 as [b|R c k IH]; cbn [ends_with bind]; [apply G|]. intros [C E]. split; [exact C|]. intros r. now apply IH. }
  induction p as [b|R c k IH]; cbn [settles bind] in *; [apply F|]. destruct K as [K E]. split; [intros r; now apply IH|]. intros w w' r X. now apply EB, (E w w').
Qed.
Lemma settles_copy chunk fuel fi fo : forall k, checked (copy_loop chunk fuel k fi fo).
Proof.
  unfold checked. induction fuel as [|fuel IH]; intros k; cbn [copy_loop settles]; [exact I|]. split; [|faulted; reflexivity].
  intros [[|b d]|e]; try exact I. cbn [settles]. split; [|faulted; reflexivity]. intros [n|e]; [apply IH|exact I].
Qed.
Lemma settles_remove chunk fuel path i : settles remove_ends (RemoveBoardHeaderFileRecord chunk fuel path i).
Proof.
  assert (CB : forall fo fi o, settles remove_ends (Call (Close fo) (fun _ => Call (Close fi) (fun _ => Ret o)))).
  { intros fo fi o. cbn [settles]. split; [|faulted]. intros _. split; [intros _; exact I|faulted]. }
  assert (CE : forall fo fi o, remove_ends o -> ends_with remove_ends (Call (Close fo) (fun _ => Call (Close fi) (fun _ => Ret o)))).
  { intros fo fi o H. cbn [ends_with]. split; [exact I|]. intros _. split; [exact I|]. intros _. exact H. }
  assert (EE : remove_ends (Err (ESys EIO))) by (now left). assert (EO : remove_ends (Ok tt)) by (now right).
  unfold RemoveBoardHeaderFileRecord. cbv zeta. cbn [settles]. split; [|faulted; exact EE]. intros [fi|e]; [|exact I].
  cbn [settles]. split; [|faulted; cbn [ends_with]; split; [exact I|intros _; exact EE]]. intros [fo|e]; [|split; [intros _; exact I|faulted]].
  cbn [settles]. split; [|faulted; now apply CE]. intros [x|e]; [|apply CB].
  cbn [settles]. split; [|faulted; now apply CE]. intros [y|e]; [|apply CB].
  apply (settles_bind (fun o => o = Err (ESys EIO))); [apply settles_copy| |].
  - intros [[]|e| |]; try exact I; [|apply CB]. cbn [settles]. split; [|faulted; now apply CE]. intros [size|e]; [|apply CB].
    cbn [settles]. split; [intros _; apply CB|]. faulted. now apply CE.
  - intros o ->. now apply CE.
Qed.

(** ** Creating an article *)
Lemma excl_open w p rp w1 x : sane w -> names w p rp -> exec (Open p O_WRONLY_CREATE_EXCL) w = (w1, x) ->
  match x with
  | RErr _ => w1 = w
  | ROk fd => look w rp = None /\ w_cwd w1 = w_cwd w /\ (forall q, q <> rp -> look w1 q = look w q) /\
      exists i, w_tree w1 rp = Some (NFile i) /\ rp <> [] /\ w_data w1 i = [] /\ w_fds w1 fd = Some (OFile (Some i) 0 false false true)
  end.
Proof.
  intros S N E. destruct (look w rp) as [e|] eqn:L.
  - destruct N as [P R]. cbn [exec] in E. unfold sys_open in E. destruct (proper_tests p P) as [Q1 Q2]. rewrite Q1, Q2, R in E.
    unfold look in L. destruct (is_dir w rp) eqn:Ed; [cbn in E; injection E as <- <-; reflexivity|].
    destruct rp as [|a b]; [discriminate Ed|]. destruct (w_tree w (a :: b)) as [[|j]|]; try discriminate L; cbn in E; injection E as <- <-; reflexivity.
  - destruct (is_dir w (parent rp)) eqn:Ed.
    + assert (HD : has_dir w rp) by (apply is_dir_look; exact Ed). rewrite (open_create w p O_WRONLY_CREATE_EXCL rp N L eq_refl HD) in E. injection E as <- <-.
      split; [reflexivity|]. split; [reflexivity|]. split; [intros q Hq; rewrite look_bump_fd, look_set_fd; now apply look_create_other|].
      exists (w_nexti w). split; [cbn; now destruct rp_eq_dec|]. split; [now apply (look_none w rp)|]. split; cbn; now destruct N.eq_dec.
    + rewrite (open_missing w p _ rp N L) in E by (right; apply is_dir_look_false; exact Ed). injection E as <- <-. reflexivity.
Qed.
Lemma bumped w q : look (bump_rtick (bump_tick w)) q = look w q.
Proof. reflexivity. Qed.

(** What an attempt to create leaves: nothing, or one new file. *)
Definition new_file (w w' : world) (wd b n text : bytes) : Prop :=
  fresh_name n /\ look w (board_entry w wd b n) = None /\ look w' (board_entry w wd b n) = Some (EFile text) /\
  w_cwd w' = w_cwd w /\ forall q, q <> board_entry w wd b n -> look w' q = look w q.
Lemma frun_filename wd b : ident b -> ~ In x00 wd -> forall fuel w w' r, sane w -> frun (CreateBoardArticleFilename fuel wd b) w w' r ->
  match r with Ok n => new_file w w' wd b n [] | _ => r = Diverge /\ same_files w w' end.
Proof.
  intros Ib Nw. induction fuel as [|fuel IH]; intros w w' r S H; cbn [CreateBoardArticleFilename frun] in H.
  { destruct H as [-> ->]. split; [reflexivity|apply same_files_refl]. }
  destruct H as (w1 & t & [E|[]] & w2 & x & [E2|[]] & H). cbn [exec] in E, E2. injection E as <- <-. injection E2 as <- <-.
  set (w0 := bump_rtick (bump_tick w)) in *. set (t := w_clock w (w_tick w)) in *. cbn [w_rand w_rtick bump_tick] in H. set (x := w_rand w (w_rtick w) mod 4096) in *.
  destruct (article_path wd w Nw b t x Ib) as (p & Ep). rewrite Ep in H. pose proof (article_names wd w0 b t x p Ib Nw Ep) as Nm.
  assert (S0 : sane w0) by (unfold w0; now apply sane_rtick, sane_tick).
  assert (Hx : x < 4096) by (apply N.mod_lt; discriminate).
  cbn [frun] in H. destruct H as (w3 & y & X & H).
  assert (AGAIN : w3 = w0 -> frun (CreateBoardArticleFilename fuel wd b) w3 w' r -> match r with Ok n => new_file w w' wd b n [] | _ => r = Diverge /\ same_files w w' end).
  { intros -> HH. exact (IH w0 w' r S0 HH). }
  destruct y as [fd|e].
  - destruct X as [X|[_ X]]; [|discriminate X]. pose proof (excl_open w0 p _ w3 (ROk fd) S0 Nm X) as (L & C & O & i & T & Nr & D & F).
    cbn [frun] in H. destruct H as (w4 & z & [E|[]] & H). cbn [exec] in E. injection E as <- _. cbn [frun] in H. destruct H as [-> ->].
    split; [now apply article_name_fresh|]. split; [exact L|]. split; [|split; [exact C|]].
    + rewrite look_set_fd. unfold look. change (board_entry w wd b (article_name t x)) with (board_entry w0 wd b (article_name t x)).
      destruct (board_entry w0 wd b (article_name t x)) eqn:Q; [contradiction|]. now rewrite T, D.
    + intros q Hq. rewrite look_set_fd. now apply O.
  - apply AGAIN; [|exact H]. destruct X as [X|[X _]]; [|exact X]. exact (excl_open w0 p _ w3 (RErr e) S0 Nm X).
Qed.
Lemma frun_fixed wd b t : ident b -> ~ In x00 wd -> forall fuel w w' r, sane w -> frun (create_fixed_time fuel wd b t) w w' r ->
  match r with
  | Ok (n, fd) => new_file w w' wd b n [] /\ exists i, w_tree w' (board_entry w wd b n) = Some (NFile i) /\ w_data w' i = [] /\ w_fds w' fd = Some (OFile (Some i) 0 false false true)
  | _ => r = Diverge /\ same_files w w'
  end.
Proof.
  intros Ib Nw. induction fuel as [|fuel IH]; intros w w' r S H; cbn [create_fixed_time frun] in H.
  { destruct H as [-> ->]. split; [reflexivity|apply same_files_refl]. }
  destruct H as (w2 & x & [E2|[]] & H). cbn [exec] in E2. injection E2 as <- <-.
  set (w0 := bump_rtick w) in *. set (x := w_rand w (w_rtick w) mod 4096) in *.
  destruct (article_path wd w Nw b t x Ib) as (p & Ep). rewrite Ep in H. pose proof (article_names wd w0 b t x p Ib Nw Ep) as Nm.
  assert (S0 : sane w0) by (unfold w0; now apply sane_rtick).
  assert (Hx : x < 4096) by (apply N.mod_lt; discriminate).
  cbn [frun] in H. destruct H as (w3 & y & X & H). destruct y as [fd|e].
  - destruct X as [X|[_ X]]; [|discriminate X]. pose proof (excl_open w0 p _ w3 (ROk fd) S0 Nm X) as (L & C & O & i & T & Nr & D & F).
    cbn [frun] in H. destruct H as [-> ->]. split; [|exists i; auto].
    split; [now apply article_name_fresh|]. split; [exact L|]. split; [|split; [exact C|]].
    + unfold look. change (board_entry w wd b (article_name t x)) with (board_entry w0 wd b (article_name t x)).
      destruct (board_entry w0 wd b (article_name t x)) eqn:Q; [contradiction|]. now rewrite T, D.
    + intros q Hq. now apply O.
  - assert (w3 = w0) as ->. { destruct X as [X|[X _]]; [|exact X]. exact (excl_open w0 p _ w3 (RErr e) S0 Nm X). } exact (IH w0 w' r S0 H).
Qed.
Lemma frun_ccmd wd c fuel w w' r : ident (ccmd_board c) -> ~ In x00 wd -> sane w -> frun (ccmd_prog fuel wd c) w w' r ->
  match r with
  | Ok f => f = ccmd_record c (fh_filename f) /\ new_file w w' wd (ccmd_board c) (fh_filename f) (ccmd_text c)
  | Err e => e = ESys EIO /\ exists n k, new_file w w' wd (ccmd_board c) n (firstn k (ccmd_text c))
  | Panic => False
  | Diverge => same_files w w'
  end.
Proof.
  intros Ib Nw S H. destruct c as [b owner date title|b owner date title]; cbn [ccmd_prog ccmd_board] in *.
  - unfold CreateArticleRecord, pbind in H. apply frun_bind in H. destruct H as (w1 & o & H & H'). pose proof (frun_filename wd b Ib Nw fuel w w1 o S H) as X.
    destruct o as [n|e| |]; cbn [frun] in H'; destruct H' as [-> ->]; [|now destruct X|now destruct X|apply X]. split; [reflexivity|exact X].
  - unfold NewArticleRecordWithMap in H. cbn [frun] in H. destruct H as (w0 & t & [E|[]] & H). cbn [exec] in E. injection E as <- <-.
    assert (S0 : sane (bump_tick w)) by (now apply sane_tick). unfold pbind in H. apply frun_bind in H. destruct H as (w1 & o & H & H').
    pose proof (frun_fixed wd b _ Ib Nw fuel _ w1 o S0 H) as X.
    destruct o as [[n fd]|e| |]; [|destruct X as [X _]; discriminate X|destruct X as [X _]; discriminate X|cbn [frun] in H'; destruct H' as [-> ->]; apply X].
    destruct X as ((Fr & L0 & L1 & C1 & O1) & i & T & D & F). pose proof (frun_sane _ _ _ _ S0 H) as S1.
    change (board_entry (bump_tick w) wd b n) with (board_entry w wd b n) in *.
    assert (Nr : board_entry w wd b n <> []) by (intros Q; rewrite Q in L0; discriminate L0).
    cbn [frun] in H'. destruct H' as (w2 & y & X & w3 & z & [E|[]] & H'). cbn [exec] in E. injection E as <- _.
    assert (W : forall d, look (fst (sys_write fd d w1)) (board_entry w wd b n) = Some (EFile d) /\ w_cwd (fst (sys_write fd d w1)) = w_cwd w /\ forall q, q <> board_entry w wd b n -> look (fst (sys_write fd d w1)) q = look w q).
    { intros d. pose proof (exec_write w1 fd _ i d F eq_refl eq_refl) as Y. cbn [exec of_append of_pos of_rd of_wr] in Y. rewrite Y. cbn [fst]. split; [|split].
      - rewrite look_set_fd, (look_set_data w1 _ i _ T Nr). rewrite D. destruct d as [|a d]; [reflexivity|]. f_equal. f_equal. cbn. now rewrite app_nil_r.
      - exact C1.
      - intros q Hq. rewrite look_set_fd, (look_set_data_other w1 _ i _ q S1 T Hq). now apply O1. }
    destruct X as [X|[(k & ->) ->]].
    + cbn [exec] in X. destruct (W (article_head owner b title date)) as (W1 & W2 & W3). rewrite X in W1, W2, W3. cbn [fst] in W1, W2, W3.
      assert (y = ROk (lenN (article_head owner b title date))) as ->.
      { pose proof (exec_write w1 fd _ i (article_head owner b title date) F eq_refl eq_refl) as Y. cbn [exec] in Y. rewrite X in Y. now injection Y. }
      cbn [frun] in H'. destruct H' as [-> ->]. split; [reflexivity|]. rewrite article_head_text in W1. split; [exact Fr|]. split; [exact L0|]. split; [exact W1|]. now split.
    + cbn [frun] in H'. destruct H' as [-> ->]. split; [reflexivity|]. exists n, k. destruct (W (firstn k (article_head owner b title date))) as (W1 & W2 & W3).
      rewrite article_head_text in *. split; [exact Fr|]. split; [exact L0|]. split; [exact W1|]. now split.
Qed.
