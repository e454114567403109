(** * Property theorems about processes that are stopped while the disk fails: C75 *)
From Coq Require Import Lia ZifyBool ZifyNat ZifyN.
From Verif Require Import M_Base M_Sys M_Path M_File M_Board M_FileOps M_DB M_BbsTool M_Fault M_Stop.
From Verif Require Import S_World S_Path S_File S_Board S_BoardList S_Store S_Create S_Scan S_Crash S_Fault S_Tool S_BbsTool S_Post S_PostFault S_Stop S_ExWorld S_Example.
From Verif Require Import P_Base P_Sys P_Path P_Records P_Read P_Store P_BoardList P_Create P_Remove P_Scan P_BbsTool P_Post P_CrashCalls P_Fault P_Stop.
From Verif Require Import P_PoolList T_Records T_Store T_BoardList T_Create T_Remove T_BbsTool T_Post T_Fault T_PostFault.
Open Scope N_scope.

(** ** Stopping and failing *)

(** Stopping covers the interruptions of C58, where nothing fails before. *)
Theorem C75_covers_crashes : forall A (p : prog A) w w', crash p w w' -> fstop p w w'.
Proof. intros A p. exact (crash_fstop p). Qed.
Print Assumptions C75_covers_crashes.

(** Whatever program is stopped, the files are as if from then on the disk had failed
    and the program had come to its end. *)
Theorem C75_like_a_failing_disk : forall A (p : prog A) w w', sane w -> fstop p w w' ->
  sane w' /\ exists w2 a, frun p w w2 a /\ same_files w' w2.
Proof. intros A p w w' S H. split; [exact (fstop_sane p w w' S H)|exact (fstop_frun p w w' H)]. Qed.
Print Assumptions C75_like_a_failing_disk.

(** ** Calls of the library *)
Theorem C75_calls : forall cd wd O l s w w',
  ~ In x00 wd -> sane w -> stored w wd O s -> Forall (fun a => call_ok (fst a) /\ O (call_object (fst a))) l ->
  lives cd wd l w w' ->
  exists s', lives_meet cd wd l s s' /\ stored w' wd O s' /\ sane w' /\ elsewhere wd O w w'.
Proof.
  intros cd wd O l s w w' Nw S H F X. revert s S H F.
  induction X as [w|c r l w w1 w2 fuel R ND X IH|c l w w1 w2 fuel R X IH]; intros s S H F.
  - exists s. split; [constructor|]. split; [exact H|]. split; [exact S|apply elsewhere_refl].
  - inversion F as [|? ? [Hc Oc] F']. subst. cbn [fst] in Hc, Oc.
    destruct (H (call_object c) Oc (proj1 Hc)) as (p & rp & E & N & D & L).
    destruct (call_frun cd wd c w w1 r p rp (s (call_object c)) fuel S Hc E N D L R ND) as (new & B & L1 & M).
    pose proof (frun_sane _ _ _ _ S R) as S1.
    destruct (IH (st_set s (call_object c) new) S1) as (s' & HM & ST & SW & EL); auto.
    { eapply stored_step; eauto. apply Hc. }
    exists s'. split; [|split; [exact ST|split; [exact SW|]]].
    + apply lm_cons with (s1 := st_set s (call_object c) new); [| |exact HM]; unfold st_set.
      * destruct object_eq_dec; [exact M|contradiction].
      * intros o No. destruct object_eq_dec; [contradiction|reflexivity].
    + apply (elsewhere_trans _ _ _ w1); [|exact EL]. eapply elsewhere_else; eauto. apply Hc.
  - inversion F as [|? ? [Hc Oc] F']. subst. cbn [fst] in Hc, Oc.
    destruct (H (call_object c) Oc (proj1 Hc)) as (p & rp & E & N & D & L).
    destruct (call_fstop cd wd c w w1 p rp (s (call_object c)) fuel S Hc E N D L R) as (B & new & L1 & M).
    pose proof (fstop_sane _ _ _ S R) as S1.
    destruct (IH (st_set s (call_object c) new) S1) as (s' & HM & ST & SW & EL); auto.
    { eapply stored_step; eauto. apply Hc. }
    exists s'. split; [|split; [exact ST|split; [exact SW|]]].
    + apply lm_cons with (s1 := st_set s (call_object c) new); [| |exact HM]; unfold st_set.
      * destruct object_eq_dec; [exact M|contradiction].
      * intros o No. destruct object_eq_dec; [contradiction|reflexivity].
    + apply (elsewhere_trans _ _ _ w1); [|exact EL]. eapply elsewhere_else; eauto. apply Hc.
Qed.
Print Assumptions C75_calls.

(** ** Removing a board *)
Theorem C75_removal : forall chunk w path rp recs i fuel w',
  sane w -> names w path rp -> board_recs recs -> look w rp = Some (EFile (concat recs)) ->
  (i < length recs)%nat -> N.of_nat (length recs) < 2 ^ 54 -> (length (concat recs) < fuel)%nat ->
  fstop (RemoveBoardHeaderFileRecord chunk fuel path (Z.of_nat i)) w w' ->
  sane w' /\ same_else rp w w' /\
  (look w' rp = Some (EFile (concat (remove_at i recs))) \/
   look w' rp = Some (EFile (concat (remove_at i recs ++ [last recs []]))) \/
   exists a x b m y z, look w' rp = Some (EFile (concat (a ++ [x] ++ b))) /\
     a ++ b = remove_at i recs /\ length x = 256%nat /\
     x = firstn m y ++ skipn m z /\ In y recs /\ In z recs /\ (m < 256)%nat).
Proof.
  intros chunk w path rp recs i fuel w' S N R L Hi Hl Hf H. split; [exact (fstop_sane _ _ _ S H)|].
  destruct (fstop_frun _ _ _ H) as (w2 & o & F & [Q1 Q2]).
  destruct (C68_removal chunk w path rp recs i fuel w2 o S N R L Hi Hl Hf F) as (_ & [B1 B2] & X). split.
  - split; [congruence|]. intros q Hq. rewrite <- Q2. now apply B2.
  - rewrite <- Q2. destruct X as [[_ [X|X]]|[_ [X|X]]]; auto.
Qed.
Print Assumptions C75_removal.

(** ** Posts *)
Lemma post_fstop cd fuel wd m w w' : sane w -> ~ In x00 wd -> ident (m_board m) -> index_fine w wd (m_board m) ->
  fstop (post_message cd fuel wd m) w w' -> exists d, d_msg d = m /\ deed_ok cd d /\ post_effect wd w w' d.
Proof.
  intros S Nw Ib Fi H. destruct (fstop_frun _ _ _ H) as (w2 & r & F & [Q1 Q2]).
  destruct (post_frun cd fuel wd m w w2 r S Nw Ib Fi F) as (pc & fl & D & E1 & E2 & E3 & E4 & E5 & E6).
  exists (Deed m r pc fl). split; [reflexivity|]. split; [exact D|]. unfold post_effect. cbn [d_msg d_piece d_file] in *.
  split; [congruence|]. split; [intros q Q; rewrite <- Q2; now apply E2|]. split; [|split; [|split]].
  - unfold index_fine in *. rewrite <- Q2. now rewrite (same_cwd_index w2 w' wd (m_board m)) in * by congruence.
  - rewrite <- E4. unfold text_at. now rewrite Q2.
  - intros n t Ef. rewrite <- Q2. now apply E5.
  - intros q P1 P2. rewrite <- Q2. now apply E6.
Qed.
(** Deeds one after the other. *)
Inductive chain (cd : codec) (wd : bytes) : list attempt -> list deed -> world -> world -> Prop :=
| chain_nil w : chain cd wd [] [] w w
| chain_cons a d l ds w w1 w2 : deed_of cd a d -> post_effect wd w w1 d -> sane w1 -> chain cd wd l ds w1 w2 -> chain cd wd (a :: l) (d :: ds) w w2.
Lemma attempts_chain cd wd l w w' : ~ In x00 wd -> sane w -> (forall a, In a l -> ident (m_board (fst a)) /\ index_fine w wd (m_board (fst a))) ->
  attempts cd wd l w w' -> exists ds, chain cd wd l ds w w'.
Proof.
  intros Nw S Fine X. revert S Fine. induction X as [w|m r l w w1 w2 fuel R X IH|m l w w1 w2 fuel R X IH]; intros S Fine.
  - exists []. constructor.
  - destruct (Fine _ (or_introl eq_refl)) as [Ib Fi]. cbn [fst] in *. destruct (post_frun cd fuel wd m w w1 r S Nw Ib Fi R) as (pc & fl & D & E).
    pose proof (frun_sane _ _ _ _ S R) as S1. destruct (IH S1) as (ds & C).
    { intros a I. destruct (Fine a (or_intror I)) as [I1 I2]. split; [exact I1|]. now apply (effect_index wd w w1 _ _ E). }
    exists (Deed m r pc fl :: ds). apply (chain_cons cd wd _ _ _ _ w w1); auto. split; [reflexivity|]. split; [exact D|]. intros r' Q. now injection Q as ->.
  - destruct (Fine _ (or_introl eq_refl)) as [Ib Fi]. cbn [fst] in *. destruct (post_fstop cd fuel wd m w w1 S Nw Ib Fi R) as (d & Dm & D & E).
    pose proof (fstop_sane _ _ _ S R) as S1. destruct (IH S1) as (ds & C).
    { intros a I. destruct (Fine a (or_intror I)) as [I1 I2]. split; [exact I1|]. now apply (effect_index wd w w1 _ _ E). }
    exists (d :: ds). apply (chain_cons cd wd _ _ _ _ w w1); auto. split; [exact Dm|]. split; [exact D|]. intros r' Q. discriminate Q.
Qed.
Lemma chain_effect cd wd l ds w w' : chain cd wd l ds w w' -> sane w ->
  sane w' /\ w_cwd w' = w_cwd w /\ (forall q, look w q <> None -> look w' q <> None) /\ (forall b, index_fine w wd b -> index_fine w' wd b) /\
  Forall2 (deed_of cd) l ds /\
  (forall b, text_at w' (index_entry w wd b) = text_at w (index_entry w wd b) ++ pieces_of b ds) /\
  NoDup (map fst (files_of ds)) /\
  (forall b n t, In (b, n, t) (files_of ds) ->
     fresh_name n /\ look w (board_entry w wd b n) = None /\ look w' (board_entry w wd b n) = Some (EFile t)) /\
  (forall q, (forall a, In a l -> q <> index_entry w wd (m_board (fst a))) ->
     (forall b n t, In (b, n, t) (files_of ds) -> q <> board_entry w wd b n) -> look w' q = look w q).
Proof.
  induction 1 as [w|a d l ds w w1 w2 D E S1 X IH]; intros S.
  { split; [exact S|]. split; [reflexivity|]. split; [auto|]. split; [auto|]. split; [constructor|]. split; [intros b; unfold pieces_of; cbn; now rewrite app_nil_r|].
    split; [constructor|]. split; [intros b n t []|]. reflexivity. }
  destruct (IH S1) as (S' & C' & Ex' & Ix' & Ok & Tx & ND & Fs & Os). clear IH. pose proof E as (C & Ex & _ & _ & F & O).
  assert (Dm : d_msg d = fst a) by apply D.
  assert (Be : forall b n, board_entry w1 wd b n = board_entry w wd b n) by (intros b n; now apply same_cwd_entry).
  assert (Bi : forall b, index_entry w1 wd b = index_entry w wd b) by (intros b; apply Be).
  assert (New : forall n t b n' t', d_file d = Some (n, t) -> In (b, n', t') (files_of ds) -> (b, n') <> (m_board (d_msg d), n)).
  { intros n t b n' t' Ef I Q. injection Q as -> ->. destruct (F n t Ef) as (_ & _ & L). destruct (Fs _ _ _ I) as (_ & L' & _). rewrite <- Be in L. congruence. }
  split; [exact S'|]. split; [congruence|]. split; [intros q Q; apply Ex', Ex, Q|]. split; [intros b Q; apply Ix'; now apply (effect_index wd w w1 d b E)|].
  split; [now constructor|]. split; [|split; [|split]].
  - intros b. rewrite <- (Bi b), Tx, Bi. destruct (effect_index wd w w1 d b E) as [T _]. rewrite T, <- app_assoc. f_equal.
    unfold pieces_of. cbn [filter]. destruct (beqb (m_board (d_msg d)) b); reflexivity.
  - cbn [files_of flat_map]. fold (files_of ds). destruct (d_file d) as [[n t]|] eqn:Ef; [|exact ND]. cbn [app map fst]. constructor; [|exact ND].
    intros I. apply in_map_iff in I. destruct I as ([[b' n'] t'] & Q & I). cbn [fst] in Q. now apply (New n t b' n' t' eq_refl I).
  - intros b n t I. cbn [files_of flat_map] in I. fold (files_of ds) in I. apply in_app_or in I. destruct I as [I|I].
    + destruct (d_file d) as [[n0 t0]|] eqn:Ef; [|contradiction]. destruct I as [Q|[]]. injection Q as <- <- <-.
      destruct (F n0 t0 eq_refl) as (Fr & L & L1). split; [exact Fr|]. split; [exact L|]. rewrite <- L1. apply Os.
      * intros m' _ Q. rewrite Bi in Q. apply entry_inj in Q. now apply (fresh_not_index n0 Fr).
      * intros b' n' t' I Q. rewrite Be in Q. apply entry_inj in Q. destruct Q as [<- <-]. now apply (New n0 t0 _ _ t' eq_refl I).
    + destruct (Fs _ _ _ I) as (Fr & L & L1). rewrite Be in L, L1. split; [exact Fr|]. split; [|exact L1]. rewrite <- L. symmetry. apply O.
      * intros Q. apply entry_inj in Q. now apply (fresh_not_index n Fr).
      * intros n0 t0 Ef Q. apply entry_inj in Q. destruct Q as [-> ->]. now apply (New n0 t0 _ _ t Ef I).
  - intros q Q1 Q2. rewrite Os.
    + apply O; [rewrite Dm; now apply (Q1 a); left|]. intros n t Ef. apply (Q2 _ n t). cbn [files_of flat_map]. rewrite Ef. now left.
    + intros m' I. rewrite Bi. apply Q1. now right.
    + intros b n t I. rewrite Be. apply (Q2 b n t). cbn [files_of flat_map]. apply in_or_app. now right.
Qed.

(** Whatever fails and whenever the processes are stopped: every attempt to post has one
    of the four results of C71, and when it has said something, the one that goes with
    it.  Every new file has a name nobody used before and keeps its text to the end; the
    indexes have grown by what the attempts added, in their order; nothing else
    changed. *)
Theorem C75_posts : forall cd wd l w w',
  sane w -> ~ In x00 wd -> (forall a, In a l -> ident (m_board (fst a)) /\ index_fine w wd (m_board (fst a))) ->
  attempts cd wd l w w' ->
  sane w' /\ w_cwd w' = w_cwd w /\ exists ds, Forall2 (deed_of cd) l ds /\
    (forall b, text_at w' (index_entry w wd b) = text_at w (index_entry w wd b) ++ pieces_of b ds) /\
    NoDup (map fst (files_of ds)) /\
    (forall b n t, In (b, n, t) (files_of ds) ->
       fresh_name n /\ look w (board_entry w wd b n) = None /\ look w' (board_entry w wd b n) = Some (EFile t)) /\
    (forall q, (forall a, In a l -> q <> index_entry w wd (m_board (fst a))) ->
       (forall b n t, In (b, n, t) (files_of ds) -> q <> board_entry w wd b n) -> look w' q = look w q).
Proof.
  intros cd wd l w w' S Nw Fine X. destruct (attempts_chain cd wd l w w' Nw S Fine X) as (ds & C).
  destruct (chain_effect cd wd l ds w w' C S) as (S' & C' & _ & _ & Ok & Tx & ND & Fs & Os).
  split; [exact S'|]. split; [exact C'|]. exists ds. auto.
Qed.
Print Assumptions C75_posts.

(** A post that is reported as done keeps its text, however often later posts fail or are
    stopped. *)
Lemma deed_file cd l ds m n : Forall2 (deed_of cd) l ds -> In (m, Some (said_posted n)) l -> In (m_board m, n, enc cd (m_text m)) (files_of ds).
Proof.
  induction 1 as [|a d l ds (Dm & Dk & Ds) X IH]; intros I; [destruct I|]. cbn [files_of flat_map]. apply in_or_app. destruct I as [->|I]; [left|right; now apply IH].
  cbn [fst snd] in *. specialize (Ds _ eq_refl). destruct Dk as [m0 n0 v Ev|m0 n0 v k Ev|m0 n0 v k Ev|m0]; cbn [d_msg d_said d_file] in *; try discriminate Ds.
  subst m0. assert (n0 = n) as -> by now injection Ds. now left.
Qed.
Theorem C75_reported_is_written : forall cd wd l w w' m n,
  sane w -> ~ In x00 wd -> (forall a, In a l -> ident (m_board (fst a)) /\ index_fine w wd (m_board (fst a))) ->
  attempts cd wd l w w' -> In (m, Some (said_posted n)) l ->
  look w (board_entry w wd (m_board m) n) = None /\ look w' (board_entry w wd (m_board m) n) = Some (EFile (enc cd (m_text m))).
Proof.
  intros cd wd l w w' m n S Nw Fine X I. destruct (C75_posts cd wd l w w' S Nw Fine X) as (_ & _ & ds & Ok & _ & _ & Fs & _).
  destruct (Fs _ _ _ (deed_file cd l ds m n Ok I)) as (_ & A & B). now split.
Qed.
Print Assumptions C75_reported_is_written.

(** ** The listing of a board *)
Lemma index_after cd wd l ds w w' b old : ~ In x00 wd -> ident b -> sane w -> chain cd wd l ds w w' -> content_of w wd (Index b) old ->
  exists new, content_of w' wd (Index b) new /\ old_or_empty new = old_or_empty old ++ pieces_of b ds.
Proof.
  intros Nw Ib S X (p & rp & Ep & Np & Lo & Pre).
  destruct (chain_effect cd wd l ds w w' X S) as (S' & C & Ex & Ix & _ & Tx & _ & Fl & Os).
  destruct (index_names w wd b Nw Ib) as (p' & Ep' & Np'). cbn [object_path] in Ep. rewrite Ep in Ep'. injection Ep' as <-.
  assert (rp = index_entry w wd b) as ->. { destruct Np as [_ A], Np' as [_ A']. congruence. }
  set (i := index_entry w wd b) in *.
  assert (T0 : text_at w i = old_or_empty old) by (unfold text_at; rewrite Lo; now destruct old).
  assert (exists new, look w' i = option_map EFile new) as [new Ln].
  { assert (Q : index_fine w' wd b) by (apply Ix; unfold index_fine; fold i; rewrite Lo; now destruct old).
    unfold index_fine in Q. rewrite (same_cwd_index w w' wd b C) in Q. fold i in Q. destruct (look w' i) as [[|d]|]; [contradiction|now exists (Some d)|now exists None]. }
  exists new. split.
  - exists p, i. split; [exact Ep|]. split; [destruct Np as [A B]; split; [exact A|now rewrite C]|]. split; [exact Ln|].
    intros -> k d L. cbn [option_map] in Ln.
    assert (old = None) as O0. { destruct old as [o|]; [|reflexivity]. exfalso. apply (Ex i); [rewrite Lo; discriminate|exact Ln]. }
    destruct (le_lt_dec (length i) k) as [K|K]; [rewrite firstn_all2 in L by exact K; congruence|].
    assert (Len : forall b' n, length (board_entry w wd b' n) = length i).
    { intros b' n. unfold i, index_entry, board_entry, S_Create.board_dir. rewrite !app_length. reflexivity. }
    assert (Q : forall b' n, firstn k i <> board_entry w wd b' n).
    { intros b' n Q. apply (f_equal (@length bytes)) in Q. rewrite Len, firstn_length in Q. lia. }
    rewrite Os in L; [|intros m _; apply Q|intros b' n t _; apply Q]. now apply (Pre O0 k d).
  - specialize (Tx b). fold i in Tx. rewrite T0 in Tx. rewrite <- Tx. unfold text_at. rewrite Ln. now destruct new.
Qed.

(** What a board lists stays listed, in its place, whatever happens to later posts. *)
Theorem C75_listed_stays : forall cd wd l w w' b old ss recs,
  sane w -> ~ In x00 wd -> (forall a, In a l -> ident (m_board (fst a)) /\ index_fine w wd (m_board (fst a))) ->
  attempts cd wd l w w' ->
  ident b -> content_of w wd (Index b) old -> old_or_empty old = concat ss -> Forall (fun s => length s = 128%nat) ss -> Forall2 (file_decoded cd) ss recs ->
  exists more, articles_are cd w' wd b (recs ++ more).
Proof.
  intros cd wd l w w' b old ss recs S Nw Fine X Ib Co Eo Fs Fd. destruct (attempts_chain cd wd l w w' Nw S Fine X) as (ds & C).
  destruct (index_after cd wd l ds w w' b old Nw Ib S C Co) as (new & Cn & En).
  destruct (cut_slots 128 (pieces_of b ds) eq_refl) as (Lc & k & Ec & Kk). change (N.to_nat 128) with 128%nat in *.
  assert (Dc : exists more, Forall2 (file_decoded cd) (cut 128 (pieces_of b ds)) more).
  { revert Lc. generalize (cut 128 (pieces_of b ds)). clear. induction l as [|s l IH]; intros H; [exists []; constructor|]. inversion H. subst.
    destruct (file_decode cd s) as (f & _ & D); [unfold lenN; lia|]. destruct (IH H3) as (m & M). exists (f :: m). now constructor. }
  destruct Dc as (more & Dc). exists more, new, (ss ++ cut 128 (pieces_of b ds)). split; [exact Cn|]. split; [|now apply Forall2_app].
  split; [apply Forall_app; now split|]. exists k. split; [|exact Kk]. rewrite concat_app, Ec, En, Eo. now rewrite app_assoc.
Qed.
Print Assumptions C75_listed_stays.

(** As long as no post to the board was stopped or failed to add its record, the listing
    holds all that was there before and then all that was reported as posted. *)
Lemma chain_told cd b l ds : Forall2 (deed_of cd) l ds -> (forall m r, In (m, r) l -> r = None \/ r = Some said_not_added -> m_board m <> b) ->
  (forall d, In d ds -> d_said d = said_not_added -> m_board (d_msg d) <> b \/ exists m, In (m, None) l /\ m_board m <> b /\ d_msg d = m) /\
  Forall (deed_ok cd) ds /\ (forall d, In d ds -> exists r, In (d_msg d, r) l) /\
  (forall m n, In (m, Some (said_posted n)) l -> In (m, said_posted n) (map told ds)).
Proof.
  induction 1 as [|a d l ds (Dm & Dk & Ds) X IH]; intros Na.
  { split; [intros d []|]. split; [constructor|]. split; [intros d []|intros m n []]. }
  destruct IH as (A & B & C & D); [intros m r I; apply Na; now right|]. destruct a as [m0 r0]. cbn [fst snd] in *. split; [|split; [now constructor|split]].
  - intros d' [<-|I] Sd.
    + left. rewrite Dm. apply (Na m0 r0); [now left|]. destruct r0 as [r|]; [right; now rewrite <- (Ds r eq_refl), Sd|now left].
    + destruct (A d' I Sd) as [Q|(m & I' & Q)]; [now left|]. right. exists m. split; [now right|exact Q].
  - intros d' [<-|I]; [exists r0; left; now rewrite Dm|]. destruct (C d' I) as (r & I'). exists r. now right.
  - intros m n [Q|I]; [|right; now apply D]. injection Q as -> ->. left. unfold told. now rewrite Dm, (Ds _ eq_refl).
Qed.
Theorem C75_reported_is_listed : forall cd wd l w w' b old ss recs,
  sane w -> ~ In x00 wd -> (forall a, In a l -> ident (m_board (fst a)) /\ index_fine w wd (m_board (fst a))) ->
  attempts cd wd l w w' ->
  ident b -> content_of w wd (Index b) old -> old_or_empty old = concat ss -> Forall (fun s => length s = 128%nat) ss -> Forall2 (file_decoded cd) ss recs ->
  (forall m r, In (m, r) l -> r = None \/ r = Some said_not_added -> m_board m <> b) ->
  exists log more, articles_are cd w' wd b (recs ++ more) /\
    Forall2 (fun e f => file_fits cd (listed (fst e) (snd e)) -> f = listed (fst e) (snd e)) log more /\
    (forall m n, In (m, n) log -> m_board m = b /\ exists r, In (m, r) l) /\
    (forall m n, m_board m = b -> In (m, Some (said_posted n)) l -> In (m, n) log).
Proof.
  intros cd wd l w w' b old ss recs S Nw Fine X Ib Co Eo Fs Fd Na. destruct (attempts_chain cd wd l w w' Nw S Fine X) as (ds & C).
  destruct (chain_effect cd wd l ds w w' C S) as (_ & _ & _ & _ & Ok & _). destruct (chain_told cd b l ds Ok Na) as (A & B & Ms & T).
  destruct (index_after cd wd l ds w w' b old Nw Ib S C Co) as (new & Cn & En).
  destruct (pieces_read cd b ds B) as (log & vs & more & Epc & Lv & Dv & Fv & In1 & In2).
  { intros d I Sd. destruct (A d I Sd) as [Q|(m & _ & Q & ->)]; exact Q. }
  exists log, more. split; [|split; [exact Fv|split]].
  - exists new, (ss ++ vs). split; [exact Cn|]. split; [|now apply Forall2_app]. split; [apply Forall_app; now split|]. exists 0%nat. split; [|lia].
    cbn [repeat]. now rewrite app_nil_r, concat_app, En, Eo, Epc.
  - intros m n I. destruct (In1 m n I) as (Hb & d & Id & Hd). split; [exact Hb|]. destruct (Ms d Id) as (r & I'). exists r. now rewrite <- Hd.
  - intros m n Hb I. apply (In2 m n Hb). now apply T.
Qed.
Print Assumptions C75_reported_is_listed.

(** ** Examples *)
(** Running until the plan is at its end; opening and writing fail where it says so. *)
Fixpoint stop_at {A} (plan : list (option nat)) (p : prog A) (w : world) : world :=
  match plan, p with
  | [], _ | _, Ret _ => w
  | x :: plan', Call c k =>
      let ok (_ : unit) := let '(w1, r) := exec c w in stop_at plan' (k r) w1 in
      match x with
      | None => ok tt
      | Some n =>
          match c in sys R return (R -> prog A) -> world with
          | Open _ _ => fun k => stop_at plan' (k (RErr EIO)) w
          | Write fd d => fun k => stop_at plan' (k (RErr EIO)) (fst (sys_write fd (firstn n d) w))
          | _ => fun _ => ok tt
          end k
      end
  end.
Lemma stop_at_fstop {A} plan : forall (p : prog A) w, fstop p w (stop_at plan p w).
Proof.
  induction plan as [|x plan IH]; intros p w; [destruct p; now left|]. destruct p as [a|R c k]; [now left|]. cbn [stop_at fstop]. right.
  assert (OK : exists w1 r, (exec c w = (w1, r) \/ fails c w w1 r) /\ fstop (k r) w1 (let '(w1, r) := exec c w in stop_at plan (k r) w1)).
  { destruct (exec c w) as [w1 r]. exists w1, r. split; [now left|apply IH]. }
  destruct x as [n|]; [|exact OK]. destruct c; try exact OK; clear OK.
  - exists w, (RErr EIO). split; [right; now split|apply IH].
  - exists (fst (sys_write fd (firstn n d) w)), (RErr EIO). split; [right; split; [now exists n|reflexivity]|apply IH].
Qed.

(** The text of the first post cannot be written after two bytes.  The second post finds
    no room for its first name, and is stopped when it has written three bytes of its
    text.  The third is posted. *)
Definition stopped_posts : list attempt :=
  [(hi, Some said_not_written); (example_message "SYSOP" "Two" "second", None);
   (example_message "test" "Three" "third", Some (said_posted (str "M.1600000001.A.007")))].
Example C75_nonvacuous :
  sane crowded /\ ~ In x00 sample_wd /\
  (forall a, In a stopped_posts -> ident (m_board (fst a)) /\ index_fine crowded sample_wd (m_board (fst a))) /\
  (forall m r, In (m, r) stopped_posts -> r = None \/ r = Some said_not_added -> m_board m <> str "test") /\
  exists w' n, attempts id_codec sample_wd stopped_posts crowded w' /\
    look w' (board_entry crowded sample_wd (str "test") (str "M.1600000000.A.008")) = Some (EFile (str "te")) /\
    look w' (board_entry crowded sample_wd (str "SYSOP") n) = Some (EFile (str "sec")) /\
    look w' (board_entry crowded sample_wd (str "test") (str "M.1600000001.A.007")) = Some (EFile (str "third")).
Proof.
  split; [exact crowded_sane|]. split; [no_nul|]. split.
  { intros a [<-|[<-|[<-|[]]]]; (split; [first [exact test_ident|exact sysop_ident]|intros Q; vm_compute in Q; discriminate Q]). }
  split. { intros m r [Q|[Q|[Q|[]]]]; injection Q as <- <-; intros [Q|Q]; first [discriminate Q|injection Q as Q; discriminate Q|discriminate]. }
  pose (x1 := fault_at (repeat None 11 ++ [Some 2%nat]) (post_message id_codec 20 sample_wd hi) crowded).
  pose (w2 := stop_at [None; None; Some 0%nat; None; None; None; None; None; None; None; None; Some 3%nat] (post_message id_codec 20 sample_wd (example_message "SYSOP" "Two" "second")) (fst x1)).
  pose (x3 := fault_at [] (post_message id_codec 20 sample_wd (example_message "test" "Three" "third")) w2).
  exists (fst x3), (str "M.1600000000.A.008"). split; [|split; [|split]].
  - apply (att_told id_codec sample_wd hi said_not_written _ crowded (fst x1) (fst x3) 20); [apply fault_frun; vm_compute; reflexivity|].
    apply (att_stopped id_codec sample_wd _ _ (fst x1) w2 (fst x3) 20); [apply stop_at_fstop|].
    apply (att_told id_codec sample_wd _ _ _ w2 (fst x3) (fst x3) 20); [apply fault_frun; vm_compute; reflexivity|]. apply att_nil.
  - vm_compute. reflexivity.
  - vm_compute. reflexivity.
  - vm_compute. reflexivity.
Qed.
(** A record is torn by the disk after five bytes; the next process is stopped while it
    writes a draft; the one after it reads what is there. *)
Definition stopped_calls : list attempted :=
  [(AddRecord (str "test") sample_file, Some (Err (ESys EIO))); (WriteDraft (str "pichu") (str "1") (str "abc"), None);
   (ReadDraft (str "pichu") (str "1"), Some (Ok (Bytes (str "ab"))))].
Example C75_nonvacuous_calls :
  ~ In x00 sample_wd /\ sane sample_world /\ stored sample_world sample_wd sample_objects sample_store /\
  Forall (fun a => call_ok (fst a) /\ sample_objects (call_object (fst a))) stopped_calls /\
  exists w', lives id_codec sample_wd stopped_calls sample_world w'.
Proof.
  split; [exact sample_wd_ok|]. split; [exact sample_sane|]. split; [exact sample_stored|]. split.
  - pose proof test_ident. pose proof pichu_ident. unfold stopped_calls.
    repeat apply Forall_cons; try apply Forall_nil; (split; [split; [cbn [fst call_object plain_object]; auto|exact Logic.I]|unfold sample_objects; cbn; tauto]).
    all: split; [assumption|]; split; no_nul.
  - pose (x1 := fault_at [None; Some 5%nat] (call_prog id_codec sample_wd (AddRecord (str "test") sample_file) 0) sample_world).
    pose (w2 := stop_at [None; Some 2%nat] (call_prog id_codec sample_wd (WriteDraft (str "pichu") (str "1") (str "abc")) 0) (fst x1)).
    pose (x3 := fault_at [] (call_prog id_codec sample_wd (ReadDraft (str "pichu") (str "1")) 0) w2).
    exists (fst x3). apply (lives_answered _ _ _ _ _ _ (fst x1) _ 0); [apply fault_frun; vm_compute; reflexivity|discriminate|].
    apply (lives_stopped _ _ _ _ _ w2 _ 0); [apply stop_at_fstop|].
    apply (lives_answered _ _ _ _ _ _ (fst x3) _ 0); [apply fault_frun; vm_compute; reflexivity|discriminate|]. apply lives_nil.
Qed.
