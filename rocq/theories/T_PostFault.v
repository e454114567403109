(** * Property theorems about posting on a disk that fails: C71 *)
From Coq Require Import Lia ZifyBool ZifyNat ZifyN.
From Verif Require Import M_Base M_Sys M_Path M_File M_Board M_FileOps M_DB M_BbsTool M_Fault.
From Verif Require Import S_World S_Path S_File S_Store S_Create S_Scan S_Crash S_Fault S_Tool S_BbsTool S_Post S_PostFault S_ExWorld S_Example.
From Verif Require Import P_Base P_Sys P_Path P_Records P_Store P_BoardList P_Create P_Scan P_BbsTool P_Post P_CrashCalls P_Fault.
From Verif Require Import P_PoolList T_Records T_Store T_BoardList T_Create T_BbsTool T_Post T_Fault.
Open Scope N_scope.

(** ** Where things are *)
Lemma entry_inj w wd b n b' n' : board_entry w wd b n = board_entry w wd b' n' -> b = b' /\ n = n'.
Proof.
  unfold board_entry, S_Create.board_dir. intros E. apply app_inj_tail in E. destruct E as [E ->]. apply app_inv_head in E. injection E as _ E. now split.
Qed.
Lemma fresh_not_index n : fresh_name n -> n <> str ".DIR".
Proof. intros (t & r & ts & rs & _ & _ & _ & ->) E. discriminate E. Qed.
Lemma entry_dir w wd b n n' : sane w -> look w (board_entry w wd b n) <> None -> has_dir w (board_entry w wd b n').
Proof.
  intros S L. unfold has_dir. rewrite board_entry_parent.
  destruct (sane_tree _ S (S_Create.board_dir w wd b) n) as [X|X].
  - intros E. apply L. unfold look, board_entry. destruct (S_Create.board_dir w wd b ++ [n]) eqn:Q; [now apply app_eq_nil in Q|]. now rewrite E.
  - now apply app_eq_nil in X.
  - unfold look. rewrite X. now destruct (S_Create.board_dir w wd b).
Qed.

(** ** One attempt *)
Lemma open_write_ends fl p d w w' o : frun (open_write fl p d) w w' o -> o <> Diverge /\ o <> Panic.
Proof.
  unfold open_write. cbn [frun]. intros (w1 & [fd|e] & _ & H); [|destruct H as [_ ->]; split; discriminate]. cbn [frun] in H.
  destruct H as (w2 & r & _ & w3 & u & _ & H). destruct r; destruct H as [_ ->]; split; discriminate.
Qed.
Definition done_of {A} (o : outcome A) : outcome answer := match o with Ok _ => Ok Done | Err e => Err e | Panic => Panic | Diverge => Diverge end.
Lemma call_of_frun {A} (p : prog (outcome A)) w w' o : frun p w w' o -> frun (answer_with (fun _ => Done) p) w w' (done_of o).
Proof. intros H. unfold answer_with, pbind. apply (bind_frun _ _ _ w' _ o); [exact H|]. destruct o; now split. Qed.

Lemma add_frun cd wd b f w w' o : sane w -> ~ In x00 wd -> ident b -> has_dir w (index_entry w wd b) -> index_fine w wd b ->
  frun (AddArticleRecordFileRecord cd wd b f) w w' o ->
  same_else (index_entry w wd b) w w' /\ index_fine w' wd b /\ (look w (index_entry w wd b) <> None -> look w' (index_entry w wd b) <> None) /\
  exists v k, file_encoded cd f v /\
    (o = Ok tt /\ text_at w' (index_entry w wd b) = text_at w (index_entry w wd b) ++ v \/
     o = Err (ESys EIO) /\ text_at w' (index_entry w wd b) = text_at w (index_entry w wd b) ++ firstn k v).
Proof.
  intros S Nw Ib HD Fi H. destruct (index_names w wd b Nw Ib) as (p & Ep & Np).
  assert (Eo : o <> Diverge /\ o <> Panic).
  { unfold AddArticleRecordFileRecord in H. rewrite Ep in H. unfold pbind, lift in H. cbn [bind] in H. rewrite append_record_shape in H. now apply open_write_ends in H. }
  set (i := index_entry w wd b) in *.
  assert (exists old, look w i = option_map EFile old) as [old L].
  { unfold index_fine in Fi. fold i in Fi. destruct (look w i) as [[|d]|]; [contradiction|now exists (Some d)|now exists None]. }
  assert (To : text_at w i = old_or_empty old) by (unfold text_at; rewrite L; now destruct old).
  apply call_of_frun in H. destruct (call_frun cd wd (AddRecord b f) w w' (done_of o) p i old 0 S) with (6 := H) as (new & SE & L' & M); auto.
  { split; [exact Ib|exact Logic.I]. } { destruct o; try discriminate; now destruct Eo. }
  split; [exact SE|]. destruct SE as [C SE].
  assert (Ei : index_entry w' wd b = i) by (unfold i, index_entry, board_entry, S_Create.board_dir; now rewrite C).
  split; [unfold index_fine; rewrite Ei, L'; now destruct new|].
  cbn [call_meets call_fails torn] in M. split.
  { rewrite L, L'. destruct M as [(v & _ & -> & _)|[[->|(v & k & _ & ->)] _]]; cbn [option_map]; auto; discriminate. }
  destruct M as [(v & Ev & -> & E)|[T E]].
  - exists v, 0%nat. split; [exact Ev|]. left. split; [destruct o as [[]| | |]; try discriminate E; reflexivity|]. unfold text_at at 1. rewrite L'. cbn [option_map]. now rewrite To.
  - assert (o = Err (ESys EIO)) as -> by (destruct o; try discriminate E; now injection E as ->).
    destruct T as [->|(v & k & Ev & ->)].
    + exists (MarshalToByte cd f), 0%nat. split; [apply file_encode|]. right. split; [reflexivity|]. cbn [firstn]. rewrite app_nil_r. unfold text_at. now rewrite L', L.
    + exists v, k. split; [exact Ev|]. right. split; [reflexivity|]. unfold text_at at 1. rewrite L'. cbn [option_map]. now rewrite To.
Qed.
Lemma write_frun wd b n text w w' o : sane w -> ~ In x00 wd -> plain_object (Article b n) -> look w (board_entry w wd b n) = Some (EFile []) ->
  frun (DB_WriteBoardArticleFile wd b n text) w w' o ->
  same_else (board_entry w wd b n) w w' /\
  (o = Ok tt /\ look w' (board_entry w wd b n) = Some (EFile text) \/
   exists k, o = Err (ESys EIO) /\ look w' (board_entry w wd b n) = Some (EFile (firstn k text))).
Proof.
  intros S Nw Pl L H. destruct (entry_names w wd b n Nw Pl) as (p & Ep & Np).
  assert (Eo : o <> Diverge /\ o <> Panic).
  { unfold DB_WriteBoardArticleFile in H. rewrite Ep in H. unfold pbind, lift in H. cbn [bind] in H. rewrite write_article_shape in H. now apply open_write_ends in H. }
  set (i := board_entry w wd b n) in *.
  apply call_of_frun in H. destruct (call_frun id_codec wd (WriteArticle b n text) w w' (done_of o) p i (Some []) 0 S) with (6 := H) as (new & SE & L' & M); auto.
  { split; [exact Pl|exact Logic.I]. } { apply entry_dir with (n := n); [exact S|]. fold i. rewrite L. discriminate. } { destruct o; try discriminate; now destruct Eo. }
  split; [exact SE|]. cbn [call_meets call_fails torn] in M. destruct M as [[(rest & -> & R) E]|[T E]].
  - left. split; [destruct o as [[]| | |]; try discriminate E; reflexivity|]. rewrite L'. cbn [option_map]. do 2 f_equal.
    assert (rest = []) as -> by (destruct R as [[R _]|(a & R & _)]; [exact R|injection R as R; symmetry in R; now apply app_eq_nil in R]). apply app_nil_r.
  - right. assert (o = Err (ESys EIO)) as -> by (destruct o; try discriminate E; now injection E as ->).
    destruct T as [->|(k & d' & Ov & ->)].
    + exists 0%nat. split; [reflexivity|]. exact L'.
    + exists k. split; [reflexivity|]. rewrite L'. cbn [option_map]. do 2 f_equal. destruct Ov as (rest & -> & R).
      assert (rest = []) as -> by (destruct R as [[R _]|(a & R & _)]; [exact R|injection R as R; symmetry in R; now apply app_eq_nil in R]). apply app_nil_r.
Qed.

(** What one attempt leaves. *)
Definition post_effect (wd : bytes) (w w' : world) (d : deed) : Prop :=
  w_cwd w' = w_cwd w /\ (forall q, look w q <> None -> look w' q <> None) /\ index_fine w' wd (m_board (d_msg d)) /\
  text_at w' (index_entry w wd (m_board (d_msg d))) = text_at w (index_entry w wd (m_board (d_msg d))) ++ d_piece d /\
  (forall n t, d_file d = Some (n, t) -> fresh_name n /\ look w (board_entry w wd (m_board (d_msg d)) n) = None /\
     look w' (board_entry w wd (m_board (d_msg d)) n) = Some (EFile t)) /\
  (forall q, q <> index_entry w wd (m_board (d_msg d)) -> (forall n t, d_file d = Some (n, t) -> q <> board_entry w wd (m_board (d_msg d)) n) -> look w' q = look w q).
Lemma post_frun cd fuel wd m w w' r : sane w -> ~ In x00 wd -> ident (m_board m) -> index_fine w wd (m_board m) ->
  frun (post_message cd fuel wd m) w w' r -> exists piece file, deed_ok cd (Deed m r piece file) /\ post_effect wd w w' (Deed m r piece file).
Proof.
  intros S Nw Ib Fi H. unfold post_message, post, try, db_call in H. apply frun_bind in H. destruct H as (w1 & o & Hc & H).
  pose proof (frun_sane _ _ _ _ S Hc) as S1.
  unfold CreateArticleRecord, pbind in Hc. apply frun_bind in Hc. destruct Hc as (w0 & on & Hc & Ho).
  pose proof (frun_filename wd (m_board m) Ib Nw fuel w w0 on S Hc) as X.
  destruct on as [n|e| |]; cbn [frun] in Ho; destruct Ho as [-> ->]; [|now destruct X|now destruct X|].
  2:{ cbn [frun] in H. destruct H as [-> ->]. destruct X as [_ [C X]]. exists [], None. split; [constructor|]. unfold post_effect. cbn [d_msg d_piece d_file].
      split; [exact C|]. split; [intros q; now rewrite X|]. split; [|split; [|split; [discriminate|intros q _ _; apply X]]].
      - unfold index_fine, index_entry, board_entry, S_Create.board_dir in *. rewrite C, X. exact Fi.
      - rewrite app_nil_r. unfold text_at. now rewrite X. }
  destruct X as (Fr & L0 & L1 & C1 & O1). set (b := m_board m) in *.
  assert (Be : forall k, board_entry w0 wd b k = board_entry w wd b k) by (intros k; unfold board_entry, S_Create.board_dir; now rewrite C1).
  assert (NE : board_entry w wd b n <> index_entry w wd b) by (intros E; apply entry_inj in E; now apply (fresh_not_index n Fr)).
  assert (Li : look w0 (index_entry w wd b) = look w (index_entry w wd b)) by (apply O1; auto).
  assert (Ei : index_entry w0 wd b = index_entry w wd b) by apply Be.
  assert (Fi1 : index_fine w0 wd b) by (unfold index_fine; rewrite Ei, Li; exact Fi).
  assert (HD : has_dir w0 (index_entry w0 wd b)) by (apply entry_dir with (n := n); [exact S1|rewrite Be, L1; discriminate]).
  apply frun_bind in H. destruct H as (w2 & o & Ha & H). pose proof (frun_sane _ _ _ _ S1 Ha) as S2.
  destruct (add_frun cd wd b _ w0 w2 o S1 Nw Ib HD Fi1 Ha) as ([C2 SE2] & Fi2 & Ex2 & v & k & Ev & A). rewrite Ei in *.
  assert (Ev' : file_encoded cd (listed m n) v).
  { rewrite (file_encoded_unique cd _ _ _ Ev (file_encode cd _)). exact (rec_encoded cd m n). }
  clear Ev. rename Ev' into Ev.
  assert (Tx : text_at w0 (index_entry w wd b) = text_at w (index_entry w wd b)) by (unfold text_at; now rewrite Li).
  assert (Ex : forall q, look w q <> None -> look w2 q <> None).
  { intros q Q. assert (q <> board_entry w wd b n) as Qn by (intros ->; contradiction). destruct (rp_eq_dec q (index_entry w wd b)) as [->|Qi].
    - apply Ex2. now rewrite Li.
    - rewrite SE2 by exact Qi. now rewrite O1. }
  assert (L2 : look w2 (board_entry w wd b n) = Some (EFile [])) by (rewrite SE2 by exact NE; exact L1).
  destruct A as [[-> A]|[-> A]].
  2:{ cbn [frun] in H. destruct H as [-> ->]. exists (firstn k v), (Some (n, [])). split; [now apply deed_not_added|]. unfold post_effect. cbn [d_msg d_piece d_file]. fold b.
      split; [congruence|]. split; [exact Ex|]. split; [exact Fi2|]. split; [congruence|]. split.
      - intros n' t [= <- <-]. auto.
      - intros q Q1 Q2. rewrite SE2 by exact Q1. apply O1. now apply (Q2 n []). }
  apply frun_bind in H. destruct H as (w3 & o & Hw & H).
  assert (Be2 : board_entry w2 wd b n = board_entry w wd b n) by (rewrite <- Be; unfold board_entry, S_Create.board_dir; now rewrite C2).
  change (fh_filename (NewArticleRecord n (m_owner m) (m_date m) (m_title m))) with n in *.
  destruct (write_frun wd b n _ w2 w3 o S2 Nw (fresh_name_plain b n Ib Fr) ltac:(rewrite Be2; exact L2) Hw) as [[C3 SE3] B]. rewrite Be2 in *.
  assert (G : forall said t, deed_ok cd (Deed m said v (Some (n, t))) -> look w3 (board_entry w wd b n) = Some (EFile t) ->
    deed_ok cd (Deed m said v (Some (n, t))) /\ post_effect wd w w3 (Deed m said v (Some (n, t)))).
  { intros said t D L3. split; [exact D|]. unfold post_effect. cbn [d_msg d_piece d_file]. fold b. split; [congruence|].
    split; [intros q Q; destruct (rp_eq_dec q (board_entry w wd b n)) as [->|Qn]; [rewrite L3; discriminate|rewrite SE3 by exact Qn; now apply Ex]|].
    assert (Li3 : look w3 (index_entry w wd b) = look w2 (index_entry w wd b)) by (apply SE3; auto). split; [|split; [|split]].
    - assert (index_entry w3 wd b = index_entry w wd b) as E3 by (unfold index_entry, board_entry, S_Create.board_dir; congruence).
      assert (index_entry w2 wd b = index_entry w wd b) as E2 by (unfold index_entry, board_entry, S_Create.board_dir; congruence).
      unfold index_fine in *. rewrite E3, Li3. now rewrite E2 in Fi2.
    - rewrite <- Tx, <- A. unfold text_at. now rewrite Li3.
    - intros n' t' [= <- <-]. auto.
    - intros q Q1 Q2. pose proof (Q2 n t eq_refl) as Q3. rewrite SE3, SE2 by assumption. now apply O1. }
  destruct B as [[-> B]|(k' & -> & B)]; cbn [frun] in H; destruct H as [-> ->].
  - exists v, (Some (n, enc cd (m_text m))). apply G; [now apply (deed_posted cd m n v)|exact B].
  - exists v, (Some (n, firstn k' (enc cd (m_text m)))). apply G; [now apply deed_not_written|exact B].
Qed.


(** ** Any sequence of posts *)

Lemma same_cwd_entry w w1 wd b n : w_cwd w1 = w_cwd w -> board_entry w1 wd b n = board_entry w wd b n.
Proof. intros C. unfold board_entry, S_Create.board_dir. now rewrite C. Qed.
Lemma same_cwd_index w w1 wd b : w_cwd w1 = w_cwd w -> index_entry w1 wd b = index_entry w wd b.
Proof. apply same_cwd_entry. Qed.
Lemma effect_index wd w w1 d b : post_effect wd w w1 d ->
  text_at w1 (index_entry w wd b) = text_at w (index_entry w wd b) ++ (if beqb (m_board (d_msg d)) b then d_piece d else []) /\
  (index_fine w wd b -> index_fine w1 wd b).
Proof.
  intros (C & _ & Fi & T & F & O). destruct (beqb (m_board (d_msg d)) b) eqn:E; [apply beqb_eq in E; subst b; now split|].
  assert (Q : look w1 (index_entry w wd b) = look w (index_entry w wd b)).
  { apply O.
    - intros X. apply entry_inj in X. destruct X as [X _]. subst b. rewrite beqb_refl in E. discriminate E.
    - intros n t Ef X. apply entry_inj in X. destruct (F n t Ef) as (Fr & _). destruct X as [_ X]. now apply (fresh_not_index n Fr). }
  split; [unfold text_at; rewrite Q; now rewrite app_nil_r|]. unfold index_fine. now rewrite (same_cwd_index _ _ _ _ C), Q.
Qed.
Lemma posts_frun cd fuel wd : ~ In x00 wd -> forall ms got w w' rs, sane w ->
  (forall m, In m ms -> ident (m_board m) /\ index_fine w wd (m_board m)) ->
  frun (poster_from cd fuel wd ms got) w w' rs ->
  sane w' /\ w_cwd w' = w_cwd w /\ (forall q, look w q <> None -> look w' q <> None) /\ (forall b, index_fine w wd b -> index_fine w' wd b) /\ exists ds, rs = rev got ++ map told ds /\ map d_msg ds = ms /\ Forall (deed_ok cd) ds /\
    (forall b, text_at w' (index_entry w wd b) = text_at w (index_entry w wd b) ++ pieces_of b ds) /\
    NoDup (map fst (files_of ds)) /\
    (forall b n t, In (b, n, t) (files_of ds) ->
       fresh_name n /\ look w (board_entry w wd b n) = None /\ look w' (board_entry w wd b n) = Some (EFile t)) /\
    (forall q, (forall m, In m ms -> q <> index_entry w wd (m_board m)) ->
       (forall b n t, In (b, n, t) (files_of ds) -> q <> board_entry w wd b n) -> look w' q = look w q).
Proof.
  intros Nw. induction ms as [|m ms IH]; intros got w w' rs S Fine H.
  { cbn [poster_from frun] in H. destruct H as [-> ->]. split; [exact S|]. split; [reflexivity|]. split; [auto|]. split; [auto|]. exists []. cbn [map files_of flat_map]. rewrite app_nil_r.
    split; [reflexivity|]. split; [reflexivity|]. split; [constructor|]. split; [intros b; unfold pieces_of; cbn; now rewrite app_nil_r|].
    split; [constructor|]. split; [intros b n t []|]. reflexivity. }
  cbn [poster_from] in H. apply frun_bind in H. destruct H as (w1 & r & Hp & H).
  destruct (Fine m (or_introl eq_refl)) as [Ib Fi]. destruct (post_frun cd fuel wd m w w1 r S Nw Ib Fi Hp) as (pc & fl & D & E).
  set (d := Deed m r pc fl) in *. assert (Dm : d_msg d = m) by reflexivity.
  pose proof (frun_sane _ _ _ _ S Hp) as S1. pose proof E as (C & Ex & _ & _ & F & O).
  assert (Fine1 : forall m', In m' ms -> ident (m_board m') /\ index_fine w1 wd (m_board m')).
  { intros m' I. destruct (Fine m' (or_intror I)) as [I1 I2]. split; [exact I1|]. now apply (effect_index wd w w1 d _ E). }
  destruct (IH _ _ _ _ S1 Fine1 H) as (S' & C' & Ex' & Ix' & ds & Er & Em & Ok & Tx & ND & Fs & Os). clear IH.
  assert (Be : forall b n, board_entry w1 wd b n = board_entry w wd b n) by (intros b n; now apply same_cwd_entry).
  assert (Bi : forall b, index_entry w1 wd b = index_entry w wd b) by (intros b; apply Be).
  assert (New : forall n t b n' t', d_file d = Some (n, t) -> In (b, n', t') (files_of ds) -> (b, n') <> (m_board m, n)).
  { intros n t b n' t' Ef I Q. injection Q as -> ->. destruct (F n t Ef) as (_ & _ & L). destruct (Fs _ _ _ I) as (_ & L' & _). rewrite Dm, <- Be in L. congruence. }
  split; [exact S'|]. split; [congruence|]. split; [intros q Q; apply Ex', Ex, Q|]. split; [intros b Q; apply Ix'; now apply (effect_index wd w w1 d b E)|]. exists (d :: ds). split; [|split; [|split; [|split; [|split; [|split]]]]].
  - rewrite Er. cbn [rev map]. now rewrite <- app_assoc.
  - cbn [map]. now rewrite Em.
  - now constructor.
  - intros b. rewrite <- (Bi b), Tx, Bi. destruct (effect_index wd w w1 d b E) as [T _]. rewrite T, <- app_assoc. f_equal.
    unfold pieces_of. cbn [filter]. destruct (beqb (m_board (d_msg d)) b); reflexivity.
  - cbn [files_of flat_map]. fold (files_of ds). destruct (d_file d) as [[n t]|] eqn:Ef; [|exact ND]. cbn [app map fst]. constructor; [|exact ND].
    intros I. apply in_map_iff in I. destruct I as ([[b' n'] t'] & Q & I). cbn [fst] in Q. now apply (New n t b' n' t' eq_refl I).
  - intros b n t I. cbn [files_of flat_map] in I. fold (files_of ds) in I. apply in_app_or in I. destruct I as [I|I].
    + destruct (d_file d) as [[n0 t0]|] eqn:Ef; [|contradiction]. destruct I as [Q|[]]. injection Q as <- <- <-.
      destruct (F n0 t0 eq_refl) as (Fr & L & L1). split; [exact Fr|]. split; [exact L|]. rewrite <- L1, Dm. apply Os.
      * intros m' _ Q. rewrite Bi in Q. apply entry_inj in Q. now apply (fresh_not_index n0 Fr).
      * intros b' n' t' I Q. rewrite Be in Q. apply entry_inj in Q. destruct Q as [<- <-]. now apply (New n0 t0 _ _ t' eq_refl I).
    + destruct (Fs _ _ _ I) as (Fr & L & L1). rewrite Be in L, L1. split; [exact Fr|]. split; [|exact L1]. rewrite <- L. symmetry. apply O.
      * intros Q. apply entry_inj in Q. now apply (fresh_not_index n Fr).
      * intros n0 t0 Ef Q. apply entry_inj in Q. rewrite Dm in Q. destruct Q as [-> ->]. now apply (New n0 t0 _ _ t Ef I).
  - intros q Q1 Q2. rewrite Os.
    + apply O; [now apply (Q1 m); left|]. intros n t Ef. apply (Q2 _ n t). cbn [files_of flat_map]. rewrite Ef. now left.
    + intros m' I. rewrite Bi. apply Q1. now right.
    + intros b n t I. rewrite Be. apply (Q2 b n t). cbn [files_of flat_map]. apply in_or_app. now right.
Qed.

(** Whatever fails and whenever: every attempt to post has one of four results, which
    the caller is told (deed_ok).  A text that was reported as posted is there at the
    end, complete, under the name that was told; every new file has a name nobody used
    before; the indexes have grown by what the attempts added, in their order; and
    nothing else changed. *)
Theorem C71_posts : forall cd fuel wd ms w w' rs,
  sane w -> ~ In x00 wd -> (forall m, In m ms -> ident (m_board m) /\ index_fine w wd (m_board m)) ->
  frun (poster cd fuel wd ms) w w' rs ->
  sane w' /\ w_cwd w' = w_cwd w /\ (forall q, look w q <> None -> look w' q <> None) /\ (forall b, index_fine w wd b -> index_fine w' wd b) /\ exists ds, rs = map told ds /\ map d_msg ds = ms /\ Forall (deed_ok cd) ds /\
    (forall b, text_at w' (index_entry w wd b) = text_at w (index_entry w wd b) ++ pieces_of b ds) /\
    NoDup (map fst (files_of ds)) /\
    (forall b n t, In (b, n, t) (files_of ds) ->
       fresh_name n /\ look w (board_entry w wd b n) = None /\ look w' (board_entry w wd b n) = Some (EFile t)) /\
    (forall q, (forall m, In m ms -> q <> index_entry w wd (m_board m)) ->
       (forall b n t, In (b, n, t) (files_of ds) -> q <> board_entry w wd b n) -> look w' q = look w q).
Proof. intros cd fuel wd ms w w' rs S Nw Fine H. exact (posts_frun cd fuel wd Nw ms [] w w' rs S Fine H). Qed.
Print Assumptions C71_posts.

(** A post that is reported as done keeps its text, however many attempts follow and
    whatever goes wrong with them. *)
Theorem C71_reported_is_written : forall cd fuel wd ms w w' rs m n,
  sane w -> ~ In x00 wd -> (forall m, In m ms -> ident (m_board m) /\ index_fine w wd (m_board m)) ->
  frun (poster cd fuel wd ms) w w' rs -> In (m, said_posted n) rs ->
  look w (board_entry w wd (m_board m) n) = None /\ look w' (board_entry w wd (m_board m) n) = Some (EFile (enc cd (m_text m))).
Proof.
  intros cd fuel wd ms w w' rs m n S Nw Fine H I. destruct (C71_posts cd fuel wd ms w w' rs S Nw Fine H) as (_ & _ & _ & _ & ds & -> & _ & Ok & _ & _ & Fs & _).
  apply in_map_iff in I. destruct I as (d & E & I). rewrite Forall_forall in Ok. specialize (Ok d I).
  assert (I' : In (m_board m, n, enc cd (m_text m)) (files_of ds)).
  { unfold files_of. apply in_flat_map. exists d. split; [exact I|].
    destruct Ok as [m0 n0 v Ev|m0 n0 v k Ev|m0 n0 v k Ev|m0]; cbn [told d_msg d_said d_file] in *.
    - injection E as -> E. subst n0. now left.
    - discriminate E.
    - discriminate E.
    - discriminate E. }
  destruct (Fs _ _ _ I') as (_ & A & B). now split.
Qed.
Print Assumptions C71_reported_is_written.

(** As long as no addition to the index has failed, the listing of the board holds all
    that was there before and then all that was reported as posted, in order. *)
Lemma reads_back cd m n v : file_encoded cd (listed m n) v -> length v = 128%nat /\ exists f, file_decoded cd v f /\ (file_fits cd (listed m n) -> f = listed m n).
Proof.
  intros Ev. rewrite (file_encoded_unique cd _ _ _ Ev (file_encode cd (listed m n))). pose proof (marshal_length cd (listed m n)) as Ln.
  destruct (file_decode cd (MarshalToByte cd (listed m n))) as (g & Eg & Dg); [lia|]. split; [unfold lenN in Ln; lia|]. exists g. split; [exact Dg|].
  intros Ft. pose proof (is_rec_marshal cd (listed m n) Ft) as [_ Rd]. rewrite Rd in Eg. now injection Eg as <-.
Qed.
Lemma pieces_read cd b ds : Forall (deed_ok cd) ds -> (forall d, In d ds -> d_said d = said_not_added -> m_board (d_msg d) <> b) ->
  exists log vs l, pieces_of b ds = concat vs /\ Forall (fun v => length v = 128%nat) vs /\ Forall2 (file_decoded cd) vs l /\
    Forall2 (fun e f => file_fits cd (listed (fst e) (snd e)) -> f = listed (fst e) (snd e)) log l /\
    (forall m n, In (m, n) log -> m_board m = b /\ exists d, In d ds /\ d_msg d = m) /\
    (forall m n, m_board m = b -> In (m, said_posted n) (map told ds) -> In (m, n) log).
Proof.
  induction ds as [|d ds IH]; intros Ok Na.
  { exists [], [], []. split; [reflexivity|]. split; [constructor|]. split; [constructor|]. split; [constructor|]. split; [intros m n []|intros m n _ []]. }
  inversion Ok as [|? ? Od Ods]. subst. destruct (IH Ods) as (log & vs & l & Ep & Lv & Dv & Fv & In1 & In2). { intros d' I. apply Na. now right. }
  unfold pieces_of in *. cbn [filter]. destruct (beqb (m_board (d_msg d)) b) eqn:E.
  2:{ exists log, vs, l. split; [exact Ep|]. split; [exact Lv|]. split; [exact Dv|]. split; [exact Fv|]. split.
      - intros m n I. destruct (In1 m n I) as (H1 & d' & I' & H2). split; [exact H1|]. exists d'. split; [now right|exact H2].
      - intros m n Hb [I|I]; [|now apply In2]. unfold told in I. injection I as I _. subst m. rewrite Hb, beqb_refl in E. discriminate E. }
  apply beqb_eq in E. cbn [map concat]. rewrite Ep.
  assert (ONE : forall n v, file_encoded cd (listed (d_msg d) n) v -> d_piece d = v -> (forall n', d_said d = said_posted n' -> n' = n) ->
    exists log' vs' l', d_piece d ++ concat vs = concat vs' /\ Forall (fun v => length v = 128%nat) vs' /\ Forall2 (file_decoded cd) vs' l' /\
    Forall2 (fun e f => file_fits cd (listed (fst e) (snd e)) -> f = listed (fst e) (snd e)) log' l' /\
    (forall m n, In (m, n) log' -> m_board m = b /\ exists d', In d' (d :: ds) /\ d_msg d' = m) /\
    (forall m n, m_board m = b -> In (m, said_posted n) (map told (d :: ds)) -> In (m, n) log')).
  { intros n v Ev Pv Sn. destruct (reads_back cd _ _ _ Ev) as (Lnv & f & Df & Ff).
    exists ((d_msg d, n) :: log), (v :: vs), (f :: l). split; [cbn [concat]; now rewrite Pv|]. split; [now constructor|]. split; [now constructor|]. split; [now constructor|]. split.
    - intros m' n' [I|I].
      + injection I as <- <-. split; [exact E|]. exists d. split; [now left|reflexivity].
      + destruct (In1 m' n' I) as (H1 & d' & I' & H2). split; [exact H1|]. exists d'. split; [now right|exact H2].
    - intros m' n' Hb [I|I]; [|right; now apply In2]. left. unfold told in I. injection I as I1 I2. subst m'. now rewrite (Sn n' I2). }
  specialize (Na d (or_introl eq_refl)). destruct Od as [m n v Ev|m n v k Ev|m n v k Ev|m]; cbn [d_msg d_said d_piece d_file] in *.
  - apply (ONE n v Ev eq_refl). intros n' Q. now injection Q as ->.
  - now destruct (Na eq_refl).
  - apply (ONE n v Ev eq_refl). intros n' Q. discriminate Q.
  - exists log, vs, l. split; [reflexivity|]. split; [exact Lv|]. split; [exact Dv|]. split; [exact Fv|]. split.
    + intros m' n' I. destruct (In1 m' n' I) as (H1 & d' & I' & H2). split; [exact H1|]. exists d'. split; [now right|exact H2].
    + intros m' n' Hb [I|I]; [discriminate I|now apply In2].
Qed.
Theorem C71_reported_is_listed : forall cd fuel wd ms w w' rs b old ss recs,
  sane w -> ~ In x00 wd -> (forall m, In m ms -> ident (m_board m) /\ index_fine w wd (m_board m)) ->
  frun (poster cd fuel wd ms) w w' rs ->
  ident b -> content_of w wd (Index b) old -> old_or_empty old = concat ss -> Forall (fun s => length s = 128%nat) ss -> Forall2 (file_decoded cd) ss recs ->
  (forall m, In (m, said_not_added) rs -> m_board m <> b) ->
  exists log l, articles_are cd w' wd b (recs ++ l) /\
    Forall2 (fun e f => file_fits cd (listed (fst e) (snd e)) -> f = listed (fst e) (snd e)) log l /\
    (forall m n, In (m, n) log -> m_board m = b /\ In m ms) /\
    (forall m n, m_board m = b -> In (m, said_posted n) rs -> In (m, n) log).
Proof.
  intros cd fuel wd ms w w' rs b old ss recs S Nw Fine H Ib (p & rp & Ep & Np & Lo & Pre) Eo Fs Fd Na.
  destruct (C71_posts cd fuel wd ms w w' rs S Nw Fine H) as (S' & C & Ex & Ix & ds & -> & Em & Ok & Tx & _ & Fl & Os).
  destruct (index_names w wd b Nw Ib) as (p' & Ep' & Np'). cbn [object_path] in Ep. rewrite Ep in Ep'. injection Ep' as <-.
  assert (rp = index_entry w wd b) as ->. { destruct Np as [_ A], Np' as [_ A']. congruence. }
  set (i := index_entry w wd b) in *.
  assert (T0 : text_at w i = concat ss) by (rewrite <- Eo; unfold text_at; rewrite Lo; now destruct old).
  destruct (pieces_read cd b ds Ok) as (log & vs & l & Epc & Lv & Dv & Fv & In1 & In2).
  { intros d I Sd. apply Na. apply in_map_iff. exists d. split; [|exact I]. unfold told. now rewrite Sd. }
  assert (T1 : text_at w' i = concat (ss ++ vs)) by (rewrite concat_app, <- T0, <- Epc; apply Tx).
  assert (exists new, look w' i = option_map EFile new) as [new Ln].
  { assert (Q : index_fine w' wd b) by (apply Ix; unfold index_fine; fold i; rewrite Lo; now destruct old).
    unfold index_fine in Q. rewrite (same_cwd_index w w' wd b C) in Q. fold i in Q. destruct (look w' i) as [[|d]|]; [contradiction|now exists (Some d)|now exists None]. }
  exists log, l. split; [|split; [exact Fv|split; [|exact In2]]].
  - exists new, (ss ++ vs). split; [|split].
    + exists p, i. split; [exact Ep|]. split; [destruct Np as [A B]; split; [exact A|now rewrite C]|]. split; [exact Ln|].
      intros -> k d L. cbn [option_map] in Ln.
      assert (old = None) as O0. { destruct old as [o|]; [|reflexivity]. exfalso. apply (Ex i); [rewrite Lo; discriminate|exact Ln]. }
      destruct (le_lt_dec (length i) k) as [K|K]; [rewrite firstn_all2 in L by exact K; congruence|].
      assert (Len : forall b' n, length (board_entry w wd b' n) = length i).
      { intros b' n. unfold i, index_entry, board_entry, S_Create.board_dir. rewrite !app_length. reflexivity. }
      assert (Q : forall b' n, firstn k i <> board_entry w wd b' n).
      { intros b' n Q. apply (f_equal (@length bytes)) in Q. rewrite Len, firstn_length in Q. lia. }
      rewrite Os in L; [|intros m _; apply Q|intros b' n t _; apply Q]. now apply (Pre O0 k d).
    + split; [apply Forall_app; now split|]. exists 0%nat. split; [|lia]. cbn [repeat]. rewrite app_nil_r, <- T1. unfold text_at. rewrite Ln. now destruct new.
    + now apply Forall2_app.
  - intros m n I. destruct (In1 m n I) as (Hb & d & Id & Hd). split; [exact Hb|]. rewrite <- Em, <- Hd. now apply in_map.
Qed.
Print Assumptions C71_reported_is_listed.

(** ** What is not so *)

(** "A post that is reported as failed is not listed": false, the index is written
    before the text. *)
Definition C71_failed_is_not_listed_statement : Prop := forall cd fuel wd m w w' what e,
  sane w -> ~ In x00 wd -> ident (m_board m) -> index_fine w wd (m_board m) ->
  frun (post_message cd fuel wd m) w w' (Ok [OutErr what e]) ->
  text_at w' (index_entry w wd (m_board m)) = text_at w (index_entry w wd (m_board m)).
Theorem C71_failed_is_not_listed_refuted : ~ C71_failed_is_not_listed_statement.
Proof.
  intros H. pose (x := fault_at (repeat None 11 ++ [Some 0%nat]) (post_message id_codec 20 sample_wd hi) crowded).
  assert (E : text_at (fst x) (index_entry crowded sample_wd (str "test")) = text_at crowded (index_entry crowded sample_wd (str "test"))).
  { apply (H id_codec 20%nat sample_wd hi crowded (fst x) (str "WriteBoardArticleFile error:  ") (ESys EIO));
      [exact crowded_sane|no_nul|exact test_ident|exact crowded_index|]. apply fault_frun. vm_compute. reflexivity. }
  apply (f_equal (@length byte)) in E. vm_compute in E. discriminate E.
Qed.
Print Assumptions C71_failed_is_not_listed_refuted.

(** "A message that is posted again after a failure is listed once": false, it is listed
    twice, once with an empty article. *)
Definition C71_second_try_statement : Prop := forall cd fuel wd m w w' o n v,
  sane w -> ~ In x00 wd -> ident (m_board m) -> index_fine w wd (m_board m) ->
  frun (poster cd fuel wd [m; m]) w w' [(m, o); (m, said_posted n)] -> o <> said_posted n -> file_encoded cd (listed m n) v ->
  text_at w' (index_entry w wd (m_board m)) = text_at w (index_entry w wd (m_board m)) ++ v.
Theorem C71_second_try_refuted : ~ C71_second_try_statement.
Proof.
  intros H. pose (x := fault_at (repeat None 11 ++ [Some 0%nat]) (poster id_codec 20 sample_wd [hi; hi]) crowded).
  assert (E : text_at (fst x) (index_entry crowded sample_wd (str "test")) =
    text_at crowded (index_entry crowded sample_wd (str "test")) ++ MarshalToByte id_codec (listed hi (str "M.1600000001.A.007"))).
  { apply (H id_codec 20%nat sample_wd hi crowded (fst x) said_not_written (str "M.1600000001.A.007"));
      [exact crowded_sane|no_nul|exact test_ident|exact crowded_index| |discriminate|apply file_encode]. apply fault_frun. vm_compute. reflexivity. }
  apply (f_equal (@length byte)) in E. vm_compute in E. discriminate E.
Qed.
Print Assumptions C71_second_try_refuted.

(** "A post that is reported as done is listed": false after a record that was cut off;
    the listing shows something else from there on. *)
Definition C71_done_is_listed_statement : Prop := forall cd fuel wd ms w w' rs m n l,
  sane w -> ~ In x00 wd -> (forall m, In m ms -> ident (m_board m) /\ index_fine w wd (m_board m)) ->
  frun (poster cd fuel wd ms) w w' rs -> In (m, said_posted n) rs -> file_fits cd (listed m n) ->
  text_at w (index_entry w wd (m_board m)) = [] -> articles_are cd w' wd (m_board m) l -> In (listed m n) l.
Theorem C71_done_is_listed_refuted : ~ C71_done_is_listed_statement.
Proof.
  intros H. pose (x := fault_at (repeat None 8 ++ [Some 1%nat]) (poster id_codec 20 sample_wd [hi; hi]) crowded).
  pose (w' := fst x). pose (d := text_at w' (index_entry crowded sample_wd (str "test"))).
  assert (F : frun (poster id_codec 20 sample_wd [hi; hi]) crowded w' [(hi, said_not_added); (hi, said_posted (str "M.1600000001.A.007"))]).
  { apply fault_frun. vm_compute. reflexivity. }
  assert (Ld : look w' (index_entry crowded sample_wd (str "test")) = Some (EFile d)) by (vm_compute; reflexivity).
  pose (s1 := firstn 128 d). pose (s2 := skipn 128 d ++ repeat x00 127).
  assert (Ls1 : length s1 = 128%nat) by (vm_compute; reflexivity).
  assert (Ls2 : length s2 = 128%nat) by (vm_compute; reflexivity).
  assert (Es : concat [s1; s2] = d ++ repeat x00 127) by (unfold s1, s2; cbn [concat]; rewrite app_nil_r, app_assoc; now rewrite firstn_skipn).
  assert (Nm : forall s f, In s [s1; s2] -> NewFileHeaderWithByte id_codec s = Ok f -> beqb (fh_filename f) (str "M.1600000001.A.007") = false).
  { intros s f [<-|[<-|[]]] E.
    - assert (Q : match NewFileHeaderWithByte id_codec s1 with Ok f => beqb (fh_filename f) (str "M.1600000001.A.007") | _ => true end = false) by (vm_compute; reflexivity).
      rewrite E in Q. exact Q.
    - assert (Q : match NewFileHeaderWithByte id_codec s2 with Ok f => beqb (fh_filename f) (str "M.1600000001.A.007") | _ => true end = false) by (vm_compute; reflexivity).
      rewrite E in Q. exact Q. }
  assert (T0 : text_at crowded (index_entry crowded sample_wd (str "test")) = []) by (vm_compute; reflexivity).
  assert (C : w_cwd w' = w_cwd crowded) by (vm_compute; reflexivity).
  assert (Ft : file_fits id_codec (listed hi (str "M.1600000001.A.007"))) by (unfold file_fits; fits).
  clearbody s1 s2 d w'. clear x.
  destruct (file_decode id_codec s1) as (f1 & E1 & D1); [unfold lenN; lia|]. destruct (file_decode id_codec s2) as (f2 & E2 & D2); [unfold lenN; lia|].
  assert (I : In (listed hi (str "M.1600000001.A.007")) [f1; f2]).
  { refine (H id_codec 20%nat sample_wd [hi; hi] crowded w' _ hi (str "M.1600000001.A.007") [f1; f2] crowded_sane ltac:(no_nul) _ F _ Ft T0 _).
    - intros m [<-|[<-|[]]]; (split; [exact test_ident|exact crowded_index]).
    - right. left. reflexivity.
    - exists (Some d), [s1; s2]. split; [|split].
      + destruct (index_names w' sample_wd (str "test") ltac:(no_nul) test_ident) as (p & Ep & Np). exists p, (index_entry w' sample_wd (str "test")).
        split; [exact Ep|]. split; [exact Np|]. rewrite (same_cwd_index crowded w' _ _ C). split; [exact Ld|discriminate].
      + split; [apply Forall_cons; [exact Ls1|apply Forall_cons; [exact Ls2|apply Forall_nil]]|]. exists 127%nat. split; [exact Es|lia].
      + apply Forall2_cons; [exact D1|apply Forall2_cons; [exact D2|apply Forall2_nil]]. }
  assert (Q : exists s f, In s [s1; s2] /\ NewFileHeaderWithByte id_codec s = Ok f /\ f = listed hi (str "M.1600000001.A.007")).
  { destruct I as [I|[I|[]]]; [exists s1, f1|exists s2, f2]; (split; [cbn; auto|now split]). }
  destruct Q as (s & f & Is & Ef & Eq). specialize (Nm s f Is Ef). rewrite Eq in Nm. cbn [fh_filename listed] in Nm. rewrite beqb_refl in Nm. discriminate Nm.
Qed.
Print Assumptions C71_done_is_listed_refuted.

(** ** Examples *)
Definition three_posts : list message := [hi; example_message "SYSOP" "Two" "second"; example_message "test" "Three" "third"].
(** the text of the first is cut after two bytes; the others are posted *)
Example C71_nonvacuous :
  sane crowded /\ ~ In x00 sample_wd /\ (forall m, In m three_posts -> ident (m_board m) /\ index_fine crowded sample_wd (m_board m)) /\
  (exists p, object_path sample_wd (Index (str "test")) = Ok p /\ content_of crowded sample_wd (Index (str "test")) None) /\
  exists w', frun (poster id_codec 20 sample_wd three_posts) crowded w'
      [(hi, said_not_written); (example_message "SYSOP" "Two" "second", said_posted (str "M.1600000000.A.007"));
       (example_message "test" "Three" "third", said_posted (str "M.1600000001.A.007"))] /\
    look w' (board_entry crowded sample_wd (str "test") (str "M.1600000000.A.008")) = Some (EFile (str "te")) /\
    look w' (board_entry crowded sample_wd (str "test") (str "M.1600000001.A.007")) = Some (EFile (str "third")).
Proof.
  split; [exact crowded_sane|]. split; [no_nul|]. split.
  { intros m [<-|[<-|[<-|[]]]]; (split; [first [exact test_ident|exact sysop_ident]|intros Q; vm_compute in Q; discriminate Q]). }
  split. { exists (str "/bbs/boards/t/test/.DIR"). split; [vm_compute; reflexivity|].
    exists (str "/bbs/boards/t/test/.DIR"), (rp ["bbs"; "boards"; "t"; "test"; ".DIR"]%string). split; [vm_compute; reflexivity|]. split; [split; [split; [discriminate|no_nul]|vm_compute; reflexivity]|].
    split; [vm_compute; reflexivity|]. intros _ k d. do 6 (destruct k as [|k]; [vm_compute; discriminate|]). vm_compute. discriminate. }
  pose (x := fault_at (repeat None 11 ++ [Some 2%nat]) (poster id_codec 20 sample_wd three_posts) crowded).
  exists (fst x). split; [apply fault_frun; vm_compute; reflexivity|]. split; vm_compute; reflexivity.
Qed.
