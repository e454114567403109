(** * Refinement of board histories to lists of records *)
From Coq Require Import Lia ZifyBool ZifyNat ZifyN.
From Verif Require Import M_Base M_Sys M_Path M_File M_Board M_FileOps M_DB.
From Verif Require Import S_World S_Path S_Layout S_File S_BoardList.
From Verif Require Import P_Base P_Layout P_Records P_Sys P_Read P_Path P_FileOps.
Open Scope N_scope.

Definition is_rec (cd : codec) (r : bytes) (f : FileHeader) : Prop :=
  length r = 128%nat /\ NewFileHeaderWithByte cd r = Ok f.

Lemma is_rec_marshal cd f : file_fits cd f -> is_rec cd (MarshalToByte cd f) (file_image f).
Proof.
  intros H. split; [|now apply file_roundtrip]. pose proof (marshal_length cd f) as L. unfold lenN in L. lia.
Qed.
Lemma is_rec_blank cd : is_rec cd (zeros 128) (blank cd).
Proof. split; reflexivity. Qed.

Lemma set_at_rec cd : forall i r f recs l,
  is_rec cd r f -> Forall2 (is_rec cd) recs l ->
  Forall2 (is_rec cd) (set_at (zeros 128) i r recs) (set_at (blank cd) i f l).
Proof.
  intros i r f recs l H F. revert i. induction F as [|r' f' recs l Hr Hl IH]; intros i.
  - induction i as [|i IH]; cbn; constructor; auto using is_rec_blank.
  - destruct i; cbn; constructor; auto.
Qed.

Lemma recs_length cd recs l : Forall2 (is_rec cd) recs l -> Forall (fun s => length s = 128%nat) recs.
Proof. induction 1 as [|? ? ? ? [H _]]; constructor; auto. Qed.
Lemma recs_lenN cd recs l : Forall2 (is_rec cd) recs l -> Forall (fun s => lenN s = 128) recs.
Proof. induction 1 as [|? ? ? ? [H _]]; constructor; auto. unfold lenN. now rewrite H. Qed.
Lemma recs_decode cd recs l l' : Forall2 (is_rec cd) recs l ->
  Forall2 (fun s a => NewFileHeaderWithByte cd s = Ok a) recs l' -> l' = l.
Proof.
  intros F. revert l'. induction F as [|r f recs l [_ E] Hl IH]; intros l' F'; inversion F' as [|? ? ? ? E']; subst; auto.
  rewrite E in E'. injection E' as <-. f_equal. now apply IH.
Qed.

Lemma header_decodes cd : decodes 128 (NewFileHeaderWithByte cd).
Proof. intros b L. destruct (file_decode cd b) as (f & E & _); [lia|]. eauto. Qed.

Lemma index_path wd b : ident b -> exists p, object_path wd (Index b) = Ok p /\ GetBoardArticlesDirectoryPath wd b = Ok p.
Proof.
  intros I. pose proof (ident_nonempty _ I). destruct b as [|c b]; [contradiction|]. eexists. split; reflexivity.
Qed.

Lemma names_same w w' p rp : w_cwd w' = w_cwd w -> names w p rp -> names w' p rp.
Proof. intros C [P R]. split; [exact P|]. now rewrite C. Qed.

(** the fixed place of a board index *)
Definition index_rp (cwd : rpath) (wd b : bytes) : rpath := home_dir cwd wd ++ object_comps (Index b).

Lemma index_names cwd wd b p rp : ident b -> ~ In x00 wd -> object_path wd (Index b) = Ok p -> resolve cwd p = rp ->
  rp = index_rp cwd wd b.
Proof.
  intros I N P R. destruct (object_resolves cwd wd (Index b) I N) as (q & Q & _ & E).
  rewrite P in Q. injection Q as <-. unfold index_rp. congruence.
Qed.
Lemma index_rp_inj cwd wd b c : ident b -> ident c -> index_rp cwd wd b = index_rp cwd wd c -> b = c.
Proof.
  intros I J E. apply app_inv_head in E.
  pose proof (object_comps_inj (Index b) (Index c) I J E) as H. congruence.
Qed.

(** no board directory is the index file of another board *)
Lemma removelast_snoc_neq {A} (l : list A) : l <> [] -> removelast l <> l.
Proof.
  intros N E. apply (f_equal (@length A)) in E. destruct (exists_last N) as (p & c & ->).
  rewrite removelast_last, app_length in E. cbn in E. lia.
Qed.
Lemma index_dir_neq cwd wd b c : ident b -> ident c -> removelast (index_rp cwd wd c) <> index_rp cwd wd b.
Proof.
  intros I J E. pose proof (ident_nonempty _ I). pose proof (ident_nonempty _ J).
  destruct b as [|x b]; [contradiction|]. destruct c as [|y c]; [contradiction|].
  apply (f_equal (@length bytes)) in E. unfold index_rp in E.
  cbn [object_comps id_dirs app] in E. 
  rewrite removelast_app in E by discriminate. rewrite !app_length in E. cbn in E. lia.
Qed.

Lemma frame_board cd wd b s0 w w' c :
  ident b -> ident c -> b <> c -> ~ In x00 wd -> same_but (index_rp (w_cwd w) wd b) w w' ->
  (exists p rp, object_path wd (Index c) = Ok p /\ names w p rp /\ has_dir w rp /\
    if bs_exists s0 c then
      exists recs, look w rp = Some (EFile (concat recs)) /\ Forall2 (is_rec cd) recs (bs_list s0 c)
    else look w rp = None /\ bs_list s0 c = []) ->
  exists p rp, object_path wd (Index c) = Ok p /\ names w' p rp /\ has_dir w' rp /\
    if bs_exists s0 c then
      exists recs, look w' rp = Some (EFile (concat recs)) /\ Forall2 (is_rec cd) recs (bs_list s0 c)
    else look w' rp = None /\ bs_list s0 c = [].
Proof.
  intros I J Nb Nw (C & F & _) (p & rp & P & N & D & L).
  assert (E : rp = index_rp (w_cwd w) wd c) by (eapply index_names; eauto; apply N).
  exists p, rp. split; [exact P|]. split; [eapply names_same; eauto|].
  assert (Nrp : rp <> index_rp (w_cwd w) wd b) by (subst rp; intros Q; apply index_rp_inj in Q; congruence).
  split.
  - unfold has_dir in *. rewrite F; [exact D|]. subst rp. now apply index_dir_neq.
  - rewrite (F rp Nrp). exact L.
Qed.

Lemma has_dir_frame w w' rp rq : same_but rq w w' -> rp <> [] -> rq = rp -> has_dir w rp -> has_dir w' rp.
Proof.
  intros (_ & F & _) N -> D. unfold has_dir in *. rewrite F; [exact D|]. now apply removelast_snoc_neq.
Qed.

Lemma index_rp_nonempty cwd wd b : index_rp cwd wd b <> [].
Proof. unfold index_rp. destruct (home_dir cwd wd); [|discriminate]. destruct b; discriminate. Qed.

Definition board_holds (cd : codec) (w : world) (wd b : bytes) (s : bstate) : Prop :=
  exists p rp, object_path wd (Index b) = Ok p /\ names w p rp /\ has_dir w rp /\
  if bs_exists s b then
    exists recs, look w rp = Some (EFile (concat recs)) /\ Forall2 (is_rec cd) recs (bs_list s b)
  else look w rp = None /\ bs_list s b = [].

(** after an operation that changed only the index of [b] *)
Lemma holds_step cd wd B s b l w w' p rp recs :
  ~ In x00 wd -> ident b -> holds cd w wd B s ->
  object_path wd (Index b) = Ok p -> names w p rp -> has_dir w rp -> same_but rp w w' ->
  look w' rp = Some (EFile (concat recs)) -> Forall2 (is_rec cd) recs l ->
  holds cd w' wd B (bs_set s b l).
Proof.
  intros Nw I H P N D SB L F c Bc J.
  assert (E : rp = index_rp (w_cwd w) wd b) by (eapply index_names; eauto; apply N).
  destruct (list_eq_dec Byte.byte_eq_dec c b) as [->|Nb].
  - exists p, rp. split; [exact P|]. split; [eapply names_same; [apply SB|exact N]|].
    split; [eapply has_dir_frame; eauto; subst rp; apply index_rp_nonempty|].
    cbn. rewrite beqb_refl. exists recs. split; [exact L|exact F].
  - cbn. assert (beqb c b = false) as -> by now apply beqb_neq.
    subst rp. eapply (frame_board cd wd b s w w' c); eauto.
Qed.

Lemma holds_same_files cd wd B s w w' : same_files w w' -> holds cd w wd B s -> holds cd w' wd B s.
Proof.
  intros [C F] H b Bb I. destruct (H b Bb I) as (p & rp & P & N & D & L).
  exists p, rp. split; [exact P|]. split; [eapply names_same; eauto|]. unfold has_dir in *. rewrite !F. auto.
Qed.

(** listing a board *)
Lemma list_board_ok cd w wd b p rp fuel recs l :
  sane w -> GetBoardArticlesDirectoryPath wd b = Ok p -> names w p rp ->
  look w rp = Some (EFile (concat recs)) -> Forall2 (is_rec cd) recs l -> (length (concat recs) < fuel)%nat ->
  exists w', run (ReadBoardArticleRecordsFile cd fuel wd b) w = (w', Ok l) /\ sane w' /\ same_files w w' /\ same_fds w w'.
Proof.
  intros S P N L F Hf. unfold ReadBoardArticleRecordsFile. rewrite run_pbind. unfold lift. rewrite P. cbn [run].
  rewrite run_bind. unfold OpenFileHeaderFile.
  destruct (open_records_file 128 (NewFileHeaderWithByte cd) false true fuel w p rp (concat recs))
    as (w' & l' & R & G & S' & SF & FD); auto; [reflexivity|apply header_decodes|].
  rewrite R. rewrite cut_concat in G; [|reflexivity|eapply recs_lenN; eauto].
  rewrite (recs_decode _ _ _ _ F G). cbn. eauto.
Qed.
Lemma list_board_missing cd w wd b p rp fuel :
  sane w -> GetBoardArticlesDirectoryPath wd b = Ok p -> names w p rp -> has_dir w rp ->
  look w rp = None -> run (ReadBoardArticleRecordsFile cd fuel wd b) w = (w, Ok []).
Proof.
  intros S P N D L. unfold ReadBoardArticleRecordsFile. rewrite run_pbind. unfold lift. rewrite P. cbn [run].
  rewrite run_bind. unfold OpenFileHeaderFile. rewrite (open_records_missing _ _ _ _ _ _ _ rp N L).
  rewrite (missing_enoent w rp S D). reflexivity.
Qed.

(** one operation *)
Lemma bop_step cd wd B s o w :
  ~ In x00 wd -> sane w -> holds cd w wd B s -> bop_ok cd o -> B (bop_board o) ->
  exists w', returns (bop_prog cd wd o) w w' (snd (bop_spec cd o s)) /\ sane w' /\
    holds cd w' wd B (fst (bop_spec cd o s)) /\ same_fds w w'.
Proof.
  intros Nw S H [I K] Bo. destruct (H _ Bo I) as (p & rp & P & N & D & L).
  destruct (index_path wd _ I) as (p' & P' & G). rewrite P in P'. injection P' as <-.
  destruct o as [b f|b i f|b]; cbn [bop_board bop_spec fst snd bop_prog] in *.
  - (* add *)
    assert (X : exists w', run (AppendFileHeaderFileRecord cd p f) w = (w', Ok tt) /\ sane w' /\ same_but rp w w' /\
              exists recs, look w' rp = Some (EFile (concat recs)) /\ Forall2 (is_rec cd) recs (bs_list s b ++ [file_image f])).
    { rewrite append_record_shape. destruct (bs_exists s b).
      - destruct L as (recs & L & F).
        destruct (open_write_file O_APPEND_CREATE_WRONLY p (MarshalToByte cd f) w rp (concat recs)) as (w' & R & S' & SB & L'); auto.
        exists w'. split; [exact R|]. split; [exact S'|]. split; [exact SB|].
        exists (recs ++ [MarshalToByte cd f]). split.
        + rewrite L'. f_equal. f_equal. unfold written. cbn [o_trunc o_append O_APPEND_CREATE_WRONLY].
          rewrite write_at_end, concat_app. cbn. now rewrite app_nil_r.
        + apply Forall2_app; [exact F|]. constructor; [now apply is_rec_marshal|constructor].
      - destruct L as (L & ->).
        destruct (open_write_create O_APPEND_CREATE_WRONLY p (MarshalToByte cd f) w rp) as (w' & R & S' & SB & L'); auto.
        exists w'. split; [exact R|]. split; [exact S'|]. split; [exact SB|].
        exists [MarshalToByte cd f]. split.
        + rewrite L'. f_equal. f_equal. unfold written. cbn [o_trunc o_append O_APPEND_CREATE_WRONLY].
          rewrite write_at_end. cbn. now rewrite app_nil_r.
        + constructor; [now apply is_rec_marshal|constructor]. }
    destruct X as (w' & R & S' & SB & recs & L' & F').
    exists w'. split; [|split; [exact S'|split; [|apply SB]]].
    + split; [discriminate|]. exists 0%nat. cbn [bop_prog]. unfold AddArticleRecordFileRecord.
      rewrite !run_pbind. unfold lift. rewrite G. cbn [run]. rewrite R. reflexivity.
    + eapply holds_step; eauto.
  - (* update *)
    destruct K as [K Hi]. destruct (bs_exists s b) eqn:Ex; cbn [fst snd].
    + destruct L as (recs & L & F).
      destruct (update_file cd p i f w rp (concat recs)) as (w' & R & S' & SB & L'); auto.
      exists w'. split; [|split; [exact S'|split; [|apply SB]]].
      * split; [discriminate|]. exists 0%nat. cbn [bop_prog]. unfold UpdateArticleRecord.
        rewrite !run_pbind. unfold lift. rewrite G. cbn [run]. rewrite R. reflexivity.
      * apply holds_step with (w := w) (p := p) (rp := rp) (recs := set_at (zeros 128) (N.to_nat i) (MarshalToByte cd f) recs); auto.
        -- rewrite L'. f_equal. f_equal.
           rewrite <- (N2Nat.id i) at 1. apply write_at_slot; [eapply recs_length; eauto|].
           pose proof (marshal_length cd f) as Q. unfold lenN in Q. lia.
        -- apply set_at_rec; [now apply is_rec_marshal|exact F].
    + destruct L as (L & El). exists w. split; [|split; [exact S|split; [exact H|intros fd; reflexivity]]].
      split; [discriminate|]. exists 0%nat. cbn [bop_prog]. unfold UpdateArticleRecord.
      rewrite !run_pbind. unfold lift. rewrite G. cbn [run]. rewrite (update_missing cd p i f w rp N L).
      rewrite (missing_enoent w rp S D). reflexivity.
  - (* list *)
    destruct (bs_exists s b) eqn:Ex.
    + destruct L as (recs & L & F).
      destruct (list_board_ok cd w wd b p rp (1 + length (concat recs)) recs (bs_list s b)) as (w' & R & S' & SF & FD); auto.
      exists w'. split; [|split; [exact S'|split; [eapply holds_same_files; eauto|exact FD]]].
      split; [discriminate|]. eexists. cbn [bop_prog]. exact R.
    + destruct L as (L & ->). exists w. split; [|split; [exact S|split; [exact H|intros fd; reflexivity]]].
      split; [discriminate|]. exists 0%nat. eapply list_board_missing; eauto.
Qed.

Lemma mono_bop cd wd o : mono (bop_prog cd wd o).
Proof. destruct o; cbn [bop_prog]; try apply mono_const. apply mono_list_board. Qed.

(** histories: they always run to the end ... *)
Lemma history_runs cd wd B os s w :
  ~ In x00 wd -> sane w -> holds cd w wd B s -> Forall (bop_ok cd) os -> Forall (fun o => B (bop_board o)) os ->
  exists w' rs, bexec cd wd os w w' rs.
Proof.
  intros Nw S H F. revert s w S H. induction F as [|o os Ho Hos IH]; intros s w S H FB.
  - eexists _, _. constructor.
  - inversion FB as [|? ? Bo FB']. subst.
    destruct (bop_step cd wd B s o w Nw S H Ho Bo) as (w1 & R & S1 & H1 & _).
    destruct (IH _ _ S1 H1 FB') as (w2 & rs & X). eexists _, _. econstructor; eauto.
Qed.
(** ... and every run agrees with the lists *)
Lemma history_refines cd wd B os s w w' rs :
  ~ In x00 wd -> sane w -> holds cd w wd B s -> Forall (bop_ok cd) os -> Forall (fun o => B (bop_board o)) os ->
  bexec cd wd os w w' rs ->
  rs = snd (bops_spec cd os s) /\ holds cd w' wd B (fst (bops_spec cd os s)) /\ sane w' /\ same_fds w w'.
Proof.
  intros Nw S H F FB X. revert s S H F FB. induction X as [w|o os w w1 w2 r rs R X IH]; intros s S H F FB.
  - cbn. repeat split; auto; apply S.
  - inversion FB as [|? ? Bo FB']. inversion F as [|? ? Ho F']. subst.
    destruct (bop_step cd wd B s o w Nw S H Ho Bo) as (w1' & R' & S1 & H1 & FD).
    destruct (returns_unique _ _ _ _ _ _ (mono_bop cd wd o) R R') as [-> ->].
    destruct (IH _ S1 H1 F' FB') as (E & H2 & S2 & FD2).
    cbn [bops_spec]. destruct (bop_spec cd o s) as [s1 r1]. cbn [fst snd] in *.
    destruct (bops_spec cd os s1) as [s2 rs2]. cbn [fst snd] in *. subst rs.
    repeat split; auto; try apply S2. intros fd. rewrite FD2. apply FD.
Qed.
