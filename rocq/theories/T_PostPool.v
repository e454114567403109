(** * Property theorems about posting at the same time, on a disk that fails: C76 *)
From Coq Require Import Lia ZifyBool ZifyNat ZifyN.
From Verif Require Import M_Base M_Sys M_Path M_File M_Board M_FileOps M_DB M_BbsTool M_Fault M_Stop.
From Verif Require Import S_World S_Path S_File S_Store S_Create S_Scan S_Crash S_Fault S_Tool S_BbsTool S_Post S_PostFault S_Stop S_PostPool S_ExWorld S_Example.
From Verif Require Import P_Base P_Sys P_Path P_Records P_Read P_Store P_BoardList P_Pool P_Create P_Scan P_BbsTool P_Post P_CrashCalls P_Fault P_Stop P_PostPool.
From Verif Require Import P_PoolList T_Records T_Store T_BoardList T_Create T_BbsTool T_Post T_Fault T_PostFault T_Stop.
Open Scope N_scope.

(** ** The environment: it is that of C57 and that of C75 *)
Theorem C76_covers_schedules : forall A sched w (ps : list (prog A)) w' ps', run_pool sched w ps = (w', ps') -> fpool w ps w' ps'.
Proof.
  intros A. induction sched as [|i sched IH]; intros w ps w' ps' R; cbn [run_pool] in R; [injection R as <- <-; constructor|].
  destruct (nth_error ps i) as [[a|R0 c k]|] eqn:E; cbn [step1] in R.
  - rewrite upd_nth_id in R by exact E. now apply IH.
  - destruct (exec c w) as [w1 r] eqn:X. apply (fpool_step w ps i R0 c k w1 r); [exact E|now left|]. now apply IH.
  - now apply IH.
Qed.
Print Assumptions C76_covers_schedules.
Theorem C76_covers_stops : forall A (p : prog A) w w', fstop p w w' -> exists p', fpool w [p] w' [p'].
Proof.
  intros A. induction p as [a|R c k IH]; intros w w' H; cbn [fstop] in H.
  - destruct H as [->|[]]. exists (Ret a). constructor.
  - destruct H as [->|(w1 & r & X & H)]; [exists (Call c k); constructor|]. destruct (IH r w1 w' H) as (p' & F). exists p'.
    exact (fpool_step w [Call c k] 0 R c k w1 r w' [p'] eq_refl X F).
Qed.
Print Assumptions C76_covers_stops.

(** ** The deeds of an execution *)
Section Deeds.
Variables (cd : codec) (wd : bytes) (w0 w : world) (css : list (list message)) (made : posts_log) (log wrote : parts).
Hypothesis G : fw cd wd w0 css w made log wrote.
Definition pkey (x : nat * part) : nat * pst := (fst x, fst (snd x)).
Lemma key_dec : forall x y : nat * pst, {x = y} + {x <> y}.
Proof. decide equality; [apply pst_eq_dec|apply Nat.eq_dec]. Defined.
Definition pend : parts := map (fun x => (fst x, (snd x, (0%nat, false)))) (filter (fun x => if in_dec key_dec x (map pkey log) then false else true) made).
Definition alls : parts := log ++ pend.
Definition done_now (x : nat * part) : nat * deed := (fst x, deed_now cd (own (fst x) wrote) (snd x)).
Definition the_deeds : deeds := map done_now alls.
Lemma pend_in i e x : In (i, (e, x)) pend -> x = (0%nat, false) /\ In (i, e) made /\ ~ In (i, e) (map pkey log).
Proof.
  unfold pend. rewrite in_map_iff. intros ([j d] & E & H). cbn in E. apply filter_In in H as [H F]. destruct in_dec as [|N] in F; [discriminate|].
  injection E as -> -> <-. auto.
Qed.
Lemma alls_made i e x : In (i, (e, x)) alls -> In (i, e) made.
Proof. intros H. apply in_app_iff in H as [H|H]; [exact (f_log _ _ _ _ _ _ _ _ G _ _ _ H)|]. now apply pend_in in H. Qed.
Lemma NoDup_filter' {A} (f : A -> bool) l : NoDup l -> NoDup (filter f l).
Proof. induction 1 as [|a l N _ IH]; cbn; [constructor|]. destruct (f a); [|exact IH]. constructor; [|exact IH]. intros H. apply filter_In in H as [H _]. contradiction. Qed.
Lemma alls_keys : NoDup (map pkey alls).
Proof.
  unfold alls. rewrite map_app. assert (E : map pkey pend = filter (fun x => if in_dec key_dec x (map pkey log) then false else true) made).
  { unfold pend. rewrite map_map. rewrite <- map_id. apply map_ext. now intros []. }
  rewrite E. apply NoDup_app_intro.
  - exact (f_nodupl _ _ _ _ _ _ _ _ G).
  - apply NoDup_filter'. exact (NoDup_map_inv _ _ (f_nodup _ _ _ _ _ _ _ _ G)).
  - intros x H H'. apply filter_In in H' as [_ H']. now destruct in_dec.
Qed.
Lemma in_key i e l : In (i, e) (map pkey l) -> exists x, In (i, (e, x)) l.
Proof. intros H. apply in_map_iff in H as ([j [d x]] & E & H). injection E as -> ->. eauto. Qed.
Lemma key_in i e x l : In (i, (e, x)) l -> In (i, e) (map pkey l).
Proof. intros H. apply in_map_iff. now exists (i, (e, x)). Qed.
Lemma made_alls i e : In (i, e) made -> exists x, In (i, (e, x)) alls.
Proof.
  intros H. destruct (in_dec key_dec (i, e) (map pkey log)) as [J|J].
  - apply in_key in J as (x & J). exists x. apply in_app_iff. now left.
  - exists (0%nat, false). apply in_app_iff. right. unfold pend. apply in_map_iff. exists (i, e). split; [reflexivity|]. apply filter_In. split; [exact H|]. now destruct in_dec.
Qed.
(** a text is written only when the record is *)
Lemma wrote_added i e x y : In (i, (e, x)) alls -> find_part e (own i wrote) = Some y -> x = (0%nat, true).
Proof.
  intros H F. apply find_part_in, own_in in F. apply (f_wrote _ _ _ _ _ _ _ _ G) in F.
  assert (K : (i, (e, x)) = (i, (e, (0%nat, true)))); [|now injection K].
  apply (NoDup_map_same pkey alls); [exact alls_keys|exact H|apply in_app_iff; now left|reflexivity].
Qed.
Lemma deeds_ok i d : In (i, d) the_deeds -> deed_ok cd d /\ exists ms, nth_error css i = Some ms /\ In (d_msg d) ms.
Proof.
  intros H. apply in_map_iff in H as ([j [e x]] & E & H). injection E as -> <-. cbn [fst snd].
  split; [|exact (proj1 (f_in _ _ _ _ _ _ _ _ G _ _ (alls_made _ _ _ H)))].
  pose proof (rec_encoded cd (fst e) (snd e)) as Re. replace (fst e, snd e) with e in Re by now destruct e.
  pose proof (wrote_added i e x) as Q. specialize (fun y => Q y H).
  unfold deed_now, piece, text_now, cut_off. cbn [fst snd]. destruct (find_part e (own i wrote)) as [[k b]|].
  - rewrite (Q (k, b) eq_refl). cbn [fst snd]. destruct b; [now apply deed_posted|now apply deed_not_written].
  - destruct x as [k [|]]; cbn [fst snd]; [exact (deed_not_written cd (fst e) (snd e) _ 0 Re)|now apply deed_not_added].
Qed.
Lemma deeds_pieces b : pieces_of b (map snd the_deeds) = pieces_on cd b log.
Proof.
  assert (E : pieces_of b (map snd the_deeds) = pieces_on cd b alls).
  { unfold the_deeds. clear. induction alls as [|[i x] l IH]; [reflexivity|]. unfold pieces_of, pieces_on in *. cbn [map filter snd d_msg deed_now done_now].
    destruct beqb; cbn [map concat]; rewrite IH; reflexivity. }
  rewrite E. unfold alls, pieces_on. rewrite filter_app, map_app, concat_app.
  assert (forall x, In x pend -> piece cd (snd x) = []) as P. { intros [i [e x]] H. apply pend_in in H as [-> _]. reflexivity. }
  revert P. generalize pend. induction p as [|x p IH]; intros P; [apply app_nil_r|]. cbn [filter]. specialize (IH (fun y H => P y (or_intror H))).
  destruct beqb; [|exact IH]. cbn [map concat]. rewrite (P x (or_introl eq_refl)). exact IH.
Qed.
Lemma deeds_files : files_of (map snd the_deeds) = map (fun x => (m_board (fst (fst (snd x))), snd (fst (snd x)), text_now cd (own (fst x) wrote) (fst (snd x)))) alls.
Proof. unfold the_deeds. induction alls as [|x l IH]; [reflexivity|]. unfold files_of in *. cbn [map flat_map snd d_file d_msg deed_now done_now]. rewrite IH. reflexivity. Qed.
Lemma deeds_names : NoDup (map fst (files_of (map snd the_deeds))).
Proof.
  rewrite deeds_files, map_map. cbn [fst].
  assert (K : NoDup (map ekey (map pkey alls))).
  { pose proof alls_keys as N. assert (I : incl (map pkey alls) made). { intros [i e] H. apply in_key in H as (x & H). exact (alls_made _ _ _ H). }
    pose proof (f_nodup _ _ _ _ _ _ _ _ G) as D. revert N I. generalize (map pkey alls). induction l as [|a l IH]; intros N I; [constructor|]. apply NoDup_cons_iff in N as [N1 N2].
    cbn [map]. constructor; [|apply IH; [exact N2|intros y Hy; apply I; now right]]. intros Z. apply in_map_iff in Z as (y & E & Hy). apply N1. replace a with y; [exact Hy|].
    apply (NoDup_map_same ekey made); [exact D|apply I; now right|apply I; now left|exact E]. }
  rewrite map_map in K. exact K.
Qed.
Lemma deeds_own i : (forall e, In (i, e) made -> In e (map fst (own i log))) -> own i the_deeds = map (deed_now cd (own i wrote)) (own i log).
Proof.
  intros H. assert (E : forall l, own i (map done_now l) = map (deed_now cd (own i wrote)) (own i l)).
  { intros l. unfold own at 1 3. induction l as [|[j x] l IH]; [reflexivity|]. cbn [map filter done_now fst]. destruct (Nat.eqb_spec j i) as [->|]; [|exact IH]. cbn [map snd]. now rewrite IH. }
  unfold the_deeds. rewrite E. f_equal. unfold alls, own. rewrite filter_app, map_app.
  assert (forall x, In x pend -> fst x <> i) as P.
  { intros [j [e x]] J Z. cbn in Z. subst j. apply pend_in in J as (_ & J & N). apply H in J. apply in_map_iff in J as ([e' y] & Ee & J). cbn in Ee. subst e'. apply own_in in J. apply N. exact (key_in _ _ _ _ J). }
  revert P. generalize pend. induction p as [|x p IH]; intros P; [apply app_nil_r|]. cbn [filter]. specialize (IH (fun y H => P y (or_intror H))).
  destruct (Nat.eqb_spec (fst x) i) as [Z|_]; [destruct (P x (or_introl eq_refl) Z)|exact IH].
Qed.
End Deeds.

(** ** Any number of clients *)
Theorem C76_posts : forall cd fuel wd w css w' ps,
  sane w -> ~ In x00 wd ->
  (forall ms m, In ms css -> In m ms -> ident (m_board m) /\ index_fine w wd (m_board m)) ->
  fpool w (map (poster cd fuel wd) css) w' ps ->
  sane w' /\ w_cwd w' = w_cwd w /\ exists ds : deeds,
    (* every deed is that of a message of the client, with one of the results of C71 *)
    (forall i d, In (i, d) ds -> deed_ok cd d /\ exists ms, nth_error css i = Some ms /\ In (d_msg d) ms) /\
    (* the index of a board is the old one and then the pieces *)
    (forall b, text_at w' (index_entry w wd b) = text_at w (index_entry w wd b) ++ pieces_of b (map snd ds)) /\
    (* every post has a name of its own, that was free, and the file holds the text of the deed *)
    NoDup (map fst (files_of (map snd ds))) /\
    (forall b n t, In (b, n, t) (files_of (map snd ds)) ->
       fresh_name n /\ look w (board_entry w wd b n) = None /\ look w' (board_entry w wd b n) = Some (EFile t)) /\
    (* a client that has finished was told what it has done *)
    (forall i ms rs, nth_error css i = Some ms -> nth_error ps i = Some (Ret rs) -> map fst rs = ms /\ told_of rs (own i ds)) /\
    (* no file and no index is lost *)
    (forall q, look w q <> None -> look w' q <> None) /\ (forall b, index_fine w wd b -> index_fine w' wd b) /\
    (* nothing else has changed *)
    (forall q, (forall ms m, In ms css -> In m ms -> q <> index_entry w wd (m_board m)) ->
       (forall b n t, In (b, n, t) (files_of (map snd ds)) -> q <> board_entry w wd b n) -> look w' q = look w q).
Proof.
  intros cd fuel wd w css w' ps S Nw Fine R.
  destruct (fpool_run cd wd w css Nw Fine _ _ _ _ R _ _ _ _ (finv_start cd wd w css Nw Fine fuel S)) as (st & made & log & wrote & C).
  pose proof (q_fw _ _ _ _ _ _ _ _ _ _ C) as G. split; [apply G|]. split; [apply G|].
  set (ds := the_deeds cd made log wrote).
  assert (Fl : forall b n t, In (b, n, t) (files_of (map snd ds)) -> exists i e, In (i, e) made /\ b = m_board (fst e) /\ n = snd e /\ t = text_now cd (own i wrote) e).
  { intros b n t H. unfold ds in H. rewrite deeds_files in H. apply in_map_iff in H as ([i [e x]] & E & H). cbn [fst snd] in E. injection E as <- <- <-.
    exists i, e. split; [exact (alls_made _ _ _ _ _ _ _ _ G _ _ _ H)|auto]. }
  assert (Fe : forall i e, In (i, e) made -> eplace wd w e = board_entry w wd (m_board (fst e)) (snd e) /\ fresh_name (snd e)).
  { intros i e H. destruct (ffine cd wd w css Fine i e _ _ _ _ G H) as (I & _). split; [exact (eplace_entry wd w e I)|]. apply (f_in _ _ _ _ _ _ _ _ G i e H). }
  assert (Out : forall q, (forall ms m, In ms css -> In m ms -> q <> index_entry w wd (m_board m)) ->
       (forall b n t, In (b, n, t) (files_of (map snd ds)) -> q <> board_entry w wd b n) -> look w' q = look w q).
  { intros q H1 H2. apply (f_out _ _ _ _ _ _ _ _ G).
    - intros b (ms & m & A & B & <-). rewrite iplace_entry by now apply (Fine ms). now apply (H1 ms).
    - intros [i e] H. cbn [snd]. destruct (Fe i e H) as [-> _]. destruct (made_alls made log i e H) as (x & Hx).
      apply (H2 _ _ (text_now cd (own i wrote) e)). unfold ds. rewrite deeds_files. apply in_map_iff. exists (i, (e, x)). now split. }
  assert (Idx : forall ms m, In ms css -> In m ms ->
    look w' (index_entry w wd (m_board m)) = None /\ look w (index_entry w wd (m_board m)) = None /\ True \/ exists d, look w' (index_entry w wd (m_board m)) = Some (EFile d)).
  { intros ms m H1 H2. rewrite <- (iplace_entry wd w (m_board m)) by now apply (Fine ms).
    destruct (f_idx _ _ _ _ _ _ _ _ G (m_board m)) as [(A & B & _)|A]; [now exists ms, m|left; auto|right; eauto]. }
  exists ds. split; [|split; [|split; [|split; [|split; [|split; [|split]]]]]].
  - exact (deeds_ok cd wd w w' css made log wrote G).
  - intros b. unfold ds. rewrite deeds_pieces.
    destruct (in_dec (list_eq_dec byte_eq_dec) b (map m_board (concat css))) as [H|H].
    + apply in_map_iff in H as (m & Eb & H). apply in_concat in H as (ms & H1 & H2). assert (Po : posted_on css b) by now exists ms, m.
      rewrite <- (iplace_entry wd w b) by (rewrite <- Eb; now apply (Fine ms)).
      destruct (f_idx _ _ _ _ _ _ _ _ G b Po) as [(A & B & ->)|A].
      * rewrite app_nil_r. unfold text_at. now rewrite A, B.
      * unfold text_at at 1. now rewrite A.
    + assert (P0 : pieces_on cd b log = []).
      { assert (Q : forall x, In x log -> m_board (fst (fst (snd x))) <> b).
        { intros [i [e x]] Hx Z. apply H. apply (f_log _ _ _ _ _ _ _ _ G) in Hx. destruct (f_in _ _ _ _ _ _ _ _ G i e Hx) as ((ms & A & B) & _).
          apply in_map_iff. exists (fst e). split; [exact Z|]. apply in_concat. exists ms. split; [now apply nth_error_In in A|exact B]. }
        unfold pieces_on. clear -Q. induction log as [|x l IH]; [reflexivity|]. cbn [filter]. destruct (beqb _ b) eqn:E; [apply beqb_eq in E; now destruct (Q x (or_introl eq_refl))|].
        apply IH. intros y Hy. apply Q. now right. }
      rewrite P0, app_nil_r. unfold text_at. rewrite Out; [reflexivity| |].
      * intros ms m A B E. apply entry_inj in E as [E _]. apply H. apply in_map_iff. exists m. split; [now symmetry|]. apply in_concat. eauto.
      * intros b' n t A E. apply entry_inj in E as [_ E]. apply Fl in A as (i & e & A & _ & -> & _). destruct (Fe i e A) as [_ Fr]. exact (fresh_not_index _ Fr (eq_sym E)).
  - exact (deeds_names cd wd w w' css made log wrote G).
  - intros b n t H. apply Fl in H as (i & e & H & -> & -> & ->). destruct (Fe i e H) as [Ee Fr]. destruct (f_in _ _ _ _ _ _ _ _ G i e H) as (_ & _ & A & B). rewrite Ee in A, B. auto.
  - intros i ms rs Hm Hr. pose proof (q_ok _ _ _ _ _ _ _ _ _ _ C i _ ms Hr Hm) as K. cbn [fok] in K. destruct K as (_ & EM & E & T). split; [exact E|].
    unfold ds. rewrite deeds_own; [exact T|]. intros e He. rewrite <- EM. now apply own_in.
  - intros q Hq. destruct (in_dec rp_eq_dec q (map (fun m => index_entry w wd (m_board m)) (concat css))) as [H|H].
    + apply in_map_iff in H as (m & <- & H). apply in_concat in H as (ms & H1 & H2). pose proof (Idx ms m H1 H2) as [(A & B & _)|[d A]]; congruence.
    + destruct (in_dec rp_eq_dec q (map (fun x => eplace wd w (snd x)) made)) as [J|J].
      * apply in_map_iff in J as ([i e] & <- & J). cbn [snd]. destruct (f_in _ _ _ _ _ _ _ _ G i e J) as (_ & _ & _ & ->). discriminate.
      * rewrite (f_out _ _ _ _ _ _ _ _ G); [exact Hq| |intros x Hx Z; apply J; apply in_map_iff; now exists x].
        intros b (ms & m & A & B & <-) Z. apply H. apply in_map_iff. exists m. rewrite iplace_entry in Z by now apply (Fine ms). split; [now symmetry|]. apply in_concat. eauto.
  - intros b Hb. unfold index_fine in *. rewrite (same_cwd_index w w' wd b (f_cwd _ _ _ _ _ _ _ _ G)).
    destruct (in_dec (list_eq_dec byte_eq_dec) b (map m_board (concat css))) as [H|H].
    + apply in_map_iff in H as (m & <- & H). apply in_concat in H as (ms & H1 & H2). pose proof (Idx ms m H1 H2) as [(A & _)|[d A]]; rewrite A; discriminate.
    + rewrite Out; [exact Hb| |].
      * intros ms m A B E. apply entry_inj in E as [E _]. apply H. apply in_map_iff. exists m. split; [now symmetry|]. apply in_concat. eauto.
      * intros b' n t A E. apply entry_inj in E as [_ E]. apply Fl in A as (i & e & A & _ & -> & _). destruct (Fe i e A) as [_ Fr]. exact (fresh_not_index _ Fr (eq_sym E)).
  - exact Out.
Qed.
Print Assumptions C76_posts.

(** ** What was reported *)
Lemma told_in rs ds m n : told_of rs ds -> In (m, said_posted n) rs -> exists d, In d ds /\ d_msg d = m /\ d_said d = said_posted n.
Proof.
  induction 1 as [|d rs ds X IH|m' rs ds X IH]; intros H; [destruct H| |].
  - destruct H as [H|H]; [|destruct (IH H) as (d' & A & B); exists d'; split; [now right|exact B]]. exists d. split; [now left|]. unfold told in H. now injection H as -> ->.
  - destruct H as [H|H]; [discriminate H|]. now apply IH.
Qed.
Lemma told_back rs ds d : told_of rs ds -> In d ds -> In (d_msg d, d_said d) rs.
Proof. induction 1 as [|d' rs ds X IH|m' rs ds X IH]; intros H; [destruct H| |]; [destruct H as [->|H]; [now left|]|]; right; now apply IH. Qed.
Lemma posted_file cd d ds m n : deed_ok cd d -> In d ds -> d_msg d = m -> d_said d = said_posted n -> In (m_board m, n, enc cd (m_text m)) (files_of ds).
Proof.
  intros K H <- E. apply in_flat_map. exists d. split; [exact H|].
  destruct K as [m0 n0 v Ev|m0 n0 v k Ev|m0 n0 v k Ev|m0]; cbn [d_msg d_said d_file] in *; try discriminate E.
  left. injection E as ->. reflexivity.
Qed.
Lemma own_all {X} i (d : X) l : In d (own i l) -> In d (map snd l).
Proof. intros H. apply own_in in H. apply in_map_iff. now exists (i, d). Qed.

(** A post that a client was told is done is there with its whole text, whatever the
    others do, whatever fails, and whoever is stopped, at any later moment. *)
Theorem C76_reported_is_written : forall cd fuel wd w css w' ps i rs m n,
  sane w -> ~ In x00 wd ->
  (forall ms m, In ms css -> In m ms -> ident (m_board m) /\ index_fine w wd (m_board m)) ->
  fpool w (map (poster cd fuel wd) css) w' ps ->
  nth_error ps i = Some (Ret rs) -> In (m, said_posted n) rs ->
  look w (board_entry w wd (m_board m) n) = None /\ look w' (board_entry w wd (m_board m) n) = Some (EFile (enc cd (m_text m))).
Proof.
  intros cd fuel wd w css w' ps i rs m n S Nw Fine R Hr Hn.
  destruct (C76_posts cd fuel wd w css w' ps S Nw Fine R) as (_ & _ & ds & Ok & _ & _ & Fs & Told & _).
  assert (exists ms, nth_error css i = Some ms) as [ms Hm].
  { destruct (nth_error css i) eqn:E; [eauto|]. exfalso. apply nth_error_None in E.
    assert (Ln : length ps = length css). { rewrite <- (map_length (poster cd fuel wd) css). clear -R. induction R as [|w ps j R0 c k w1 r w' ps' H1 H2 H3 IH]; [reflexivity|]. rewrite IH. apply upd_nth_length. }
    rewrite <- Ln in E. apply nth_error_None in E. congruence. }
  destruct (Told i ms rs Hm Hr) as [_ T]. destruct (told_in rs _ m n T Hn) as (d & A & B & E).
  assert (D : deed_ok cd d) by (apply (Ok i); now apply own_in).
  destruct (Fs _ _ _ (posted_file cd d (map snd ds) m n D (own_all _ _ _ A) B E)) as (_ & L & L'). now split.
Qed.
Print Assumptions C76_reported_is_written.

(** ** The listing of a board *)
Lemma pool_index cd fuel wd w css w' ps b old : sane w -> ~ In x00 wd ->
  (forall ms m, In ms css -> In m ms -> ident (m_board m) /\ index_fine w wd (m_board m)) ->
  fpool w (map (poster cd fuel wd) css) w' ps -> ident b -> content_of w wd (Index b) old ->
  exists ds new, (forall i d, In (i, d) ds -> deed_ok cd d /\ exists ms, nth_error css i = Some ms /\ In (d_msg d) ms) /\
    (forall i ms rs, nth_error css i = Some ms -> nth_error ps i = Some (Ret rs) -> map fst rs = ms /\ told_of rs (own i ds)) /\
    NoDup (map fst (files_of (map snd ds))) /\
    content_of w' wd (Index b) new /\ old_or_empty new = old_or_empty old ++ pieces_of b (map snd ds).
Proof.
  intros S Nw Fine R Ib (p & rp & Ep & Np & Lo & Pre).
  destruct (C76_posts cd fuel wd w css w' ps S Nw Fine R) as (S' & C & ds & Ok & Tx & Nd & Fl & Told & Ex & Ix & Os). exists ds.
  destruct (index_names w wd b Nw Ib) as (p' & Ep' & Np'). cbn [object_path] in Ep. rewrite Ep in Ep'. injection Ep' as <-.
  assert (rp = index_entry w wd b) as ->. { destruct Np as [_ A], Np' as [_ A']. congruence. }
  set (i := index_entry w wd b) in *.
  assert (T0 : text_at w i = old_or_empty old) by (unfold text_at; rewrite Lo; now destruct old).
  assert (exists new, look w' i = option_map EFile new) as [new Ln].
  { assert (Q : index_fine w' wd b) by (apply Ix; unfold index_fine; fold i; rewrite Lo; now destruct old).
    unfold index_fine in Q. rewrite (same_cwd_index w w' wd b C) in Q. fold i in Q. destruct (look w' i) as [[|d]|]; [contradiction|now exists (Some d)|now exists None]. }
  exists new. split; [exact Ok|]. split; [exact Told|]. split; [exact Nd|]. split.
  - exists p, i. split; [exact Ep|]. split; [destruct Np as [A B]; split; [exact A|now rewrite C]|]. split; [exact Ln|].
    intros -> k d L. cbn [option_map] in Ln.
    assert (old = None) as O0. { destruct old as [o|]; [|reflexivity]. exfalso. apply (Ex i); [rewrite Lo; discriminate|exact Ln]. }
    destruct (le_lt_dec (length i) k) as [K|K]; [rewrite firstn_all2 in L by exact K; congruence|].
    assert (Len : forall b' n, length (board_entry w wd b' n) = length i).
    { intros b' n. unfold i, index_entry, board_entry, S_Create.board_dir. rewrite !app_length. reflexivity. }
    assert (Q : forall b' n, firstn k i <> board_entry w wd b' n).
    { intros b' n Q. apply (f_equal (@length bytes)) in Q. rewrite Len, firstn_length in Q. lia. }
    rewrite Os in L; [|intros ms m _ _; apply Q|intros b' n t _; apply Q]. now apply (Pre O0 k d).
  - specialize (Tx b). fold i in Tx. rewrite T0 in Tx. rewrite <- Tx. unfold text_at. rewrite Ln. now destruct new.
Qed.

(** What a board lists stays listed, in its place. *)
Theorem C76_listed_stays : forall cd fuel wd w css w' ps b old ss recs,
  sane w -> ~ In x00 wd ->
  (forall ms m, In ms css -> In m ms -> ident (m_board m) /\ index_fine w wd (m_board m)) ->
  fpool w (map (poster cd fuel wd) css) w' ps ->
  ident b -> content_of w wd (Index b) old -> old_or_empty old = concat ss -> Forall (fun s => length s = 128%nat) ss -> Forall2 (file_decoded cd) ss recs ->
  exists more, articles_are cd w' wd b (recs ++ more).
Proof.
  intros cd fuel wd w css w' ps b old ss recs S Nw Fine R Ib Co Eo Fs Fd.
  destruct (pool_index cd fuel wd w css w' ps b old S Nw Fine R Ib Co) as (ds & new & _ & _ & _ & Cn & En).
  destruct (cut_slots 128 (pieces_of b (map snd ds)) eq_refl) as (Lc & k & Ec & Kk). change (N.to_nat 128) with 128%nat in *.
  assert (Dc : exists more, Forall2 (file_decoded cd) (cut 128 (pieces_of b (map snd ds))) more).
  { revert Lc. generalize (cut 128 (pieces_of b (map snd ds))). clear. induction l as [|s l IH]; intros H; [exists []; constructor|]. inversion H. subst.
    destruct (file_decode cd s) as (f & _ & D); [unfold lenN; lia|]. destruct (IH H3) as (m & M). exists (f :: m). now constructor. }
  destruct Dc as (more & Dc). exists more, new, (ss ++ cut 128 (pieces_of b (map snd ds))). split; [exact Cn|]. split; [|now apply Forall2_app].
  split; [apply Forall_app; now split|]. exists k. split; [|exact Kk]. rewrite concat_app, Ec, En, Eo. now rewrite app_assoc.
Qed.
Print Assumptions C76_listed_stays.

(** the posts of the board [b] *)
Definition log_of (b : bytes) (ds : list deed) : list (message * bytes) :=
  flat_map (fun d => match d_file d with Some (n, _) => if beqb (m_board (d_msg d)) b then [(d_msg d, n)] else [] | None => [] end) ds.
Lemma log_in b ds m n : In (m, n) (log_of b ds) -> m_board m = b /\ exists d t, In d ds /\ d_msg d = m /\ d_file d = Some (n, t).
Proof.
  unfold log_of. rewrite in_flat_map. intros (d & H & X). destruct (d_file d) as [[n' t]|] eqn:E; [|destruct X]. destruct (beqb _ b) eqn:B; [|destruct X].
  destruct X as [X|[]]. injection X as <- <-. apply beqb_eq in B. split; [exact B|]. exists d, t. auto.
Qed.
Lemma log_names b ds : NoDup (map fst (files_of ds)) -> NoDup (map snd (log_of b ds)).
Proof.
  intros N. assert (I : forall n, In n (map snd (log_of b ds)) -> In (b, n) (map fst (files_of ds))).
  { intros n H. apply in_map_iff in H as ([m n'] & E & H). cbn in E. subst n'. apply log_in in H as (<- & d & t & H & <- & F).
    apply in_map_iff. exists (m_board (d_msg d), n, t). split; [reflexivity|]. apply in_flat_map. exists d. split; [exact H|]. rewrite F. now left. }
  induction ds as [|d ds IH]; [constructor|]. cbn [log_of flat_map]. fold (log_of b ds). cbn [files_of flat_map] in N. fold (files_of ds) in N.
  assert (I' : forall n, In n (map snd (log_of b ds)) -> In (b, n) (map fst (files_of ds))).
  { intros n H. apply in_map_iff in H as ([m n'] & E & H). cbn in E. subst n'. apply log_in in H as (<- & d' & t & H & <- & F).
    apply in_map_iff. exists (m_board (d_msg d'), n, t). split; [reflexivity|]. apply in_flat_map. exists d'. split; [exact H|]. rewrite F. now left. }
  destruct (d_file d) as [[n t]|]; [|exact (IH N I')]. cbn [app map fst] in N. apply NoDup_cons_iff in N as [N1 N2]. destruct (beqb _ b) eqn:B; [|exact (IH N2 I')].
  apply beqb_eq in B. cbn [app map snd]. constructor; [|exact (IH N2 I')]. intros Z. apply N1. rewrite B. now apply I'.
Qed.
Lemma pieces_listed cd b ds : Forall (deed_ok cd) ds -> (forall d, In d ds -> d_said d = said_not_added -> m_board (d_msg d) <> b) ->
  exists vs l, pieces_of b ds = concat vs /\ Forall (fun v => length v = 128%nat) vs /\ Forall2 (file_decoded cd) vs l /\
    Forall2 (fun e f => file_fits cd (listed (fst e) (snd e)) -> f = listed (fst e) (snd e)) (log_of b ds) l.
Proof.
  induction ds as [|d ds IH]; intros Ok Na; [exists [], []; repeat split; constructor|].
  inversion Ok as [|? ? Od Ods]. subst. destruct (IH Ods) as (vs & l & Ep & Lv & Dv & Fv). { intros d' I. apply Na. now right. }
  unfold pieces_of in *. cbn [filter log_of flat_map]. fold (log_of b ds). destruct (beqb (m_board (d_msg d)) b) eqn:E.
  2:{ exists vs, l. split; [exact Ep|]. split; [exact Lv|]. split; [exact Dv|]. now destruct (d_file d) as [[? ?]|]. }
  apply beqb_eq in E. cbn [map concat]. rewrite Ep. specialize (Na d (or_introl eq_refl)).
  destruct Od as [m n v Ev|m n v k Ev|m n v k Ev|m]; cbn [d_msg d_said d_piece d_file app] in *.
  2: now destruct (Na eq_refl).
  3: exists vs, l; auto.
  all: destruct (reads_back cd _ _ _ Ev) as (Lnv & f & Df & Ff); exists (v :: vs), (f :: l).
  all: split; [reflexivity|]; split; [now constructor|]; split; now constructor.
Qed.

(** When the clients that post to the board have finished, and none was told that its
    record could not be added, the board lists what it did before and then every post
    that was reported, each once, and otherwise only posts whose client was told that the
    text could not be written. *)
Theorem C76_reported_is_listed : forall cd fuel wd w css w' ps b old ss recs,
  sane w -> ~ In x00 wd ->
  (forall ms m, In ms css -> In m ms -> ident (m_board m) /\ index_fine w wd (m_board m)) ->
  fpool w (map (poster cd fuel wd) css) w' ps ->
  ident b -> content_of w wd (Index b) old -> old_or_empty old = concat ss -> Forall (fun s => length s = 128%nat) ss -> Forall2 (file_decoded cd) ss recs ->
  (forall i ms m, nth_error css i = Some ms -> In m ms -> m_board m = b ->
     exists rs, nth_error ps i = Some (Ret rs) /\ ~ In (m, said_not_added) rs) ->
  exists log more, articles_are cd w' wd b (recs ++ more) /\
    Forall2 (fun e f => file_fits cd (listed (fst e) (snd e)) -> f = listed (fst e) (snd e)) log more /\
    NoDup (map snd log) /\
    (forall i rs m n, nth_error ps i = Some (Ret rs) -> m_board m = b -> In (m, said_posted n) rs -> In (m, n) log) /\
    (forall m n, In (m, n) log -> m_board m = b /\
       exists i rs, nth_error ps i = Some (Ret rs) /\ (In (m, said_posted n) rs \/ In (m, said_not_written) rs)).
Proof.
  intros cd fuel wd w css w' ps b old ss recs S Nw Fine R Ib Co Eo Fs Fd Na.
  destruct (pool_index cd fuel wd w css w' ps b old S Nw Fine R Ib Co) as (ds & new & Ok & Told & Nd & Cn & En).
  assert (Ln : length ps = length css). { rewrite <- (map_length (poster cd fuel wd) css). clear -R. induction R as [|w ps j R0 c k w1 r w' ps' H1 H2 H3 IH]; [reflexivity|]. rewrite IH. apply upd_nth_length. }
  assert (Al : forall d, In d (map snd ds) -> exists i, In (i, d) ds). { intros d H. apply in_map_iff in H as ([i d'] & E & H). cbn in E. subst. eauto. }
  assert (Nn : forall d, In d (map snd ds) -> d_said d = said_not_added -> m_board (d_msg d) <> b).
  { intros d H Sd Eb. destruct (Al d H) as (i & Hi). destruct (Ok i d Hi) as (_ & ms & Hm & Hd). destruct (Na i ms (d_msg d) Hm Hd Eb) as (rs & Hr & N).
    destruct (Told i ms rs Hm Hr) as [_ T]. apply N. rewrite <- Sd. apply (told_back rs _ d T). now apply own_in. }
  destruct (pieces_listed cd b (map snd ds)) as (vs & more & Epc & Lv & Dv & Fv); [|exact Nn|].
  { apply Forall_forall. intros d H. destruct (Al d H) as (i & Hi). now apply (Ok i). }
  exists (log_of b (map snd ds)), more. split; [|split; [exact Fv|split; [now apply log_names|split]]].
  - exists new, (ss ++ vs). split; [exact Cn|]. split; [|now apply Forall2_app]. split; [apply Forall_app; now split|]. exists 0%nat. split; [|lia].
    cbn [repeat]. now rewrite app_nil_r, concat_app, En, Eo, Epc.
  - intros i rs m n Hr Hb H.
    assert (exists ms, nth_error css i = Some ms) as [ms Hm].
    { destruct (nth_error css i) eqn:E; [eauto|]. exfalso. apply nth_error_None in E. rewrite <- Ln in E. apply nth_error_None in E. congruence. }
    destruct (Told i ms rs Hm Hr) as [_ T]. destruct (told_in rs _ m n T H) as (d & A & B & E).
    assert (D : deed_ok cd d) by (apply (Ok i); now apply own_in).
    apply in_flat_map. exists d. split; [exact (own_all _ _ _ A)|]. rewrite B, Hb, beqb_refl.
    destruct D as [m0 n0 v Ev|m0 n0 v k Ev|m0 n0 v k Ev|m0]; cbn [d_msg d_said d_file] in *; try discriminate E. left. injection E as ->. reflexivity.
  - intros m n H. apply log_in in H as (Hb & d & t & H & Em & F). split; [exact Hb|]. destruct (Al d H) as (i & Hi). destruct (Ok i d Hi) as (D & ms & Hm & Hd).
    rewrite Em in Hd. destruct (Na i ms m Hm Hd Hb) as (rs & Hr & _). exists i, rs. split; [exact Hr|]. destruct (Told i ms rs Hm Hr) as [_ T].
    assert (Tb : In (d_msg d, d_said d) rs) by (apply (told_back rs _ d T); now apply own_in). rewrite Em in Tb.
    pose proof (Nn d H) as Q. rewrite Em in Q.
    destruct D as [m0 n0 v Ev|m0 n0 v k Ev|m0 n0 v k Ev|m0]; cbn [d_msg d_said d_file] in *; try discriminate F.
    + left. injection F as -> _. exact Tb.
    + now destruct (Q eq_refl).
    + right. exact Tb.
Qed.
Print Assumptions C76_reported_is_listed.

(** ** Example *)
(** A step of a client, or a step in which opening or writing fails. *)
Fixpoint pool_at {A} (plan : list (nat * option nat)) (w : world) (ps : list (prog A)) : world * list (prog A) :=
  match plan with
  | [] => (w, ps)
  | (i, x) :: plan' =>
      match nth_error ps i with
      | Some (Call c k) =>
          let ok (_ : unit) := let '(w1, r) := exec c w in pool_at plan' w1 (upd_nth i (k r) ps) in
          match x with
          | None => ok tt
          | Some n =>
              match c in sys R return (R -> prog A) -> world * list (prog A) with
              | Open _ _ => fun k => pool_at plan' w (upd_nth i (k (RErr EIO)) ps)
              | Write fd d => fun k => pool_at plan' (fst (sys_write fd (firstn n d) w)) (upd_nth i (k (RErr EIO)) ps)
              | _ => fun _ => ok tt
              end k
          end
      | _ => pool_at plan' w ps
      end
  end.
Lemma pool_at_fpool {A} plan : forall w (ps : list (prog A)), fpool w ps (fst (pool_at plan w ps)) (snd (pool_at plan w ps)).
Proof.
  induction plan as [|[i x] plan IH]; intros w ps; [constructor|]. cbn [pool_at]. destruct (nth_error ps i) as [[a|R c k]|] eqn:E; [apply IH| |apply IH].
  assert (OK : fpool w ps (fst (let '(w1, r) := exec c w in pool_at plan w1 (upd_nth i (k r) ps))) (snd (let '(w1, r) := exec c w in pool_at plan w1 (upd_nth i (k r) ps)))).
  { destruct (exec c w) as [w1 r] eqn:X. apply (fpool_step w ps i R c k w1 r); [exact E|now left|apply IH]. }
  destruct x as [n|]; [|exact OK]. destruct c; try exact OK; clear OK.
  - eapply fpool_step; [exact E|right; now split|apply IH].
  - eapply fpool_step; [exact E|right; split; [now exists n|reflexivity]|apply IH].
Qed.

(** Three clients in turn.  The text of the first breaks off after two bytes; the second
    is stopped after a part of its record is in the index; the third posts. *)
Definition unlucky : list (list message) := [[hi]; [example_message "SYSOP" "Two" "second"]; [example_message "test" "Three" "third"]].
Definition unlucky_plan : list (nat * option nat) :=
  (concat (repeat [(0, None); (1, None); (2, None)] 5) ++ [(0, None); (1, Some 60); (2, None)] ++
  concat (repeat [(0, None); (2, None)] 5) ++ [(0, Some 2); (2, None); (0, None); (2, None)])%nat.
Definition unlucky_end := pool_at unlucky_plan crowded (map (poster id_codec 20 sample_wd) unlucky).
Example C76_nonvacuous :
  sane crowded /\ ~ In x00 sample_wd /\
  (forall ms m, In ms unlucky -> In m ms -> ident (m_board m) /\ index_fine crowded sample_wd (m_board m)) /\
  fpool crowded (map (poster id_codec 20 sample_wd) unlucky) (fst unlucky_end) (snd unlucky_end) /\
  (forall i ms m, nth_error unlucky i = Some ms -> In m ms -> m_board m = str "test" ->
     exists rs, nth_error (snd unlucky_end) i = Some (Ret rs) /\ ~ In (m, said_not_added) rs) /\
  nth_error (snd unlucky_end) 0 = Some (Ret [(hi, said_not_written)]) /\
  nth_error (snd unlucky_end) 2 = Some (Ret [(example_message "test" "Three" "third", said_posted (str "M.1600000001.A.007"))]) /\
  (forall rs, nth_error (snd unlucky_end) 1 <> Some (Ret rs)) /\
  option_map (fun e => match e with EFile d => length d | EDir => 0%nat end) (look (fst unlucky_end) (index_entry crowded sample_wd (str "SYSOP"))) = Some 316%nat /\
  option_map (fun e => match e with EFile d => length d | EDir => 0%nat end) (look crowded (index_entry crowded sample_wd (str "SYSOP"))) = Some 256%nat /\
  content_of crowded sample_wd (Index (str "test")) None.
Proof.
  split; [exact crowded_sane|]. split; [no_nul|]. split.
  { intros ms m [<-|[<-|[<-|[]]]] [<-|[]]; (split; [first [exact test_ident|exact sysop_ident]|intros Q; vm_compute in Q; discriminate Q]). }
  split; [apply pool_at_fpool|].
  assert (E0 : nth_error (snd unlucky_end) 0 = Some (Ret [(hi, said_not_written)])) by (vm_compute; reflexivity).
  assert (E2 : nth_error (snd unlucky_end) 2 = Some (Ret [(example_message "test" "Three" "third", said_posted (str "M.1600000001.A.007"))])) by (vm_compute; reflexivity).
  split; [|split; [exact E0|split; [exact E2|split]]].
  - intros [|[|[|i]]] ms m H Hm Hb; cbn [unlucky nth_error] in H; try (destruct i; discriminate H); injection H as <-; destruct Hm as [<-|[]].
    + eexists. split; [exact E0|]. intros [Q|[]]. discriminate Q.
    + discriminate Hb.
    + eexists. split; [exact E2|]. intros [Q|[]]. discriminate Q.
  - intros rs Q. assert (match nth_error (snd unlucky_end) 1 with Some (Ret _) => false | _ => true end = true) as P by (vm_compute; reflexivity). rewrite Q in P. discriminate P.
  - clear E0 E2. split; [vm_compute; reflexivity|]. split; [vm_compute; reflexivity|].
    exists (str "/bbs/boards/t/test/.DIR"), (rp ["bbs"; "boards"; "t"; "test"; ".DIR"]%string). split; [vm_compute; reflexivity|]. split; [split; [split; [discriminate|no_nul]|vm_compute; reflexivity]|].
    split; [vm_compute; reflexivity|]. intros _ k d. do 6 (destruct k as [|k]; [vm_compute; discriminate|]). vm_compute. discriminate.
Qed.
