(** * The record-reading loop *)
From Coq Require Import Lia ZifyBool ZifyNat ZifyN.
From Verif Require Import M_Base M_Sys M_FileOps S_World P_Base P_Sys.
Open Scope N_scope.

Lemma app_inv_len {A} (a a' b b' : list A) : length a = length a' -> a ++ b = a' ++ b' -> a = a' /\ b = b'.
Proof.
  revert a'. induction a as [|x a IH]; intros [|x' a'] L E; try discriminate; auto.
  cbn in *. injection E as -> E. destruct (IH a') as [-> ->]; auto.
Qed.

Fixpoint cut_fuel (n : nat) (size : N) (d : bytes) : list bytes :=
  match n, d with
  | O, _ => []
  | _, [] => []
  | S n', _ => fill size (sub 0 size d) :: cut_fuel n' size (skipn (N.to_nat size) d)
  end.
Definition cut (size : N) (d : bytes) : list bytes := cut_fuel (length d) size d.

Lemma cut_fuel_enough size n m d : 0 < size -> (length d <= n)%nat -> (length d <= m)%nat ->
  cut_fuel n size d = cut_fuel m size d.
Proof.
  intros P. revert m d. induction n as [|n IH]; intros m d Hn Hm.
  - destruct d; cbn in Hn; [|lia]. destruct m; reflexivity.
  - destruct d as [|b d]; [destruct m; reflexivity|].
    destruct m as [|m]; [cbn in Hm; lia|].
    cbn [cut_fuel]. f_equal. apply IH; rewrite skipn_length; cbn [length] in *; lia.
Qed.

Lemma cut_nil size : cut size [] = [].
Proof. reflexivity. Qed.
Lemma cut_step size d : 0 < size -> d <> [] ->
  cut size d = fill size (sub 0 size d) :: cut size (skipn (N.to_nat size) d).
Proof.
  intros P N. unfold cut at 1. destruct d as [|b d]; [contradiction|].
  cbn [length cut_fuel]. f_equal. apply cut_fuel_enough; auto; rewrite skipn_length; cbn [length]; lia.
Qed.

Lemma fill_pad size d : fill size d = firstn (N.to_nat size) d ++ zeros (size - lenN d).
Proof.
  unfold fill, put. cbn [N.to_nat firstn app Nat.add]. f_equal.
  unfold zeros. rewrite firstn_length.
  assert (G : forall n m, skipn n (repeat x00 m) = repeat x00 (m - n)).
  { induction n; intros m; [now rewrite Nat.sub_0_r|]. destruct m; cbn; auto. }
  rewrite G. f_equal. unfold lenN. lia.
Qed.
Lemma lenN_fill size d : lenN (fill size d) = size.
Proof.
  rewrite fill_pad. unfold lenN, zeros. rewrite app_length, firstn_length, repeat_length. lia.
Qed.
Lemma fill_exact size d : lenN d = size -> fill size d = d.
Proof.
  intros H. rewrite fill_pad. replace (size - lenN d) with 0 by lia. cbn. rewrite app_nil_r.
  apply firstn_all2. unfold lenN in H. lia.
Qed.

(** the slots of a file, declaratively *)
Lemma cut_slots size d : 0 < size -> slots (N.to_nat size) d (cut size d).
Proof.
  intros P. remember (length d) as n eqn:E. revert d E.
  induction n as [n IH] using lt_wf_ind. intros d ->.
  destruct d as [|b d].
  - split; [constructor|]. exists 0%nat. cbn. split; [reflexivity|lia].
  - rewrite cut_step by (auto; discriminate).
    set (D := b :: d) in *.
    destruct (IH (length (skipn (N.to_nat size) D))) with (d := skipn (N.to_nat size) D) as [F (k & C & K)].
    { rewrite skipn_length. unfold D. cbn [length]. lia. }
    { reflexivity. }
    split.
    + constructor; [|exact F]. pose proof (lenN_fill size (sub 0 size D)) as Q. unfold lenN in Q. lia.
    + destruct (Nat.le_gt_cases (N.to_nat size) (length D)) as [G|G].
      * exists k. split; [|exact K]. cbn [concat]. rewrite C.
        rewrite fill_exact; [|unfold lenN, sub; rewrite firstn_length, skipn_length; cbn [N.to_nat]; lia].
        rewrite app_assoc. f_equal. unfold sub. cbn [N.to_nat skipn]. apply firstn_skipn.
      * rewrite skipn_all2 in C |- * by lia. exists (N.to_nat size - length D)%nat.
        split; [|unfold D; cbn [length]; lia].
        rewrite cut_nil. cbn [concat]. rewrite app_nil_r. rewrite fill_pad.
        unfold sub. cbn [N.to_nat skipn]. rewrite firstn_firstn, Nat.min_id.
        rewrite firstn_all2 by lia. f_equal. unfold zeros. f_equal. unfold lenN. lia.
Qed.


Lemma concat_length n (L : list bytes) : Forall (fun s => length s = n) L -> length (concat L) = (n * length L)%nat.
Proof. induction 1; cbn; [lia|]. rewrite app_length. lia. Qed.

Lemma concat_inj n (l l' : list bytes) : (0 < n)%nat ->
  Forall (fun s => length s = n) l -> Forall (fun s => length s = n) l' -> concat l = concat l' -> l = l'.
Proof.
  intros P F. revert l'. induction F as [|s l Hs Hl IH]; intros l' F' E.
  - destruct l' as [|s' l']; auto. inversion F'; subst. apply (f_equal (@length byte)) in E.
    cbn in E. rewrite app_length in E. lia.
  - destruct l' as [|s' l'].
    + apply (f_equal (@length byte)) in E. cbn in E. rewrite app_length in E. lia.
    + inversion F' as [|? ? Hs' Hl']. subst. cbn in E.
      apply app_inv_len in E; [|lia]. destruct E as [-> E]. f_equal. apply IH; auto.
Qed.

Lemma slots_unique n d l l' : (0 < n)%nat -> slots n d l -> slots n d l' -> l = l'.
Proof.
  intros P [F (k & C & K)] [F' (k' & C' & K')].
  pose proof (concat_length _ _ F) as L. pose proof (concat_length _ _ F') as L'.
  rewrite C, app_length, repeat_length in L. rewrite C', app_length, repeat_length in L'.
  assert (length l = length l') as EL.
  { destruct (Nat.lt_trichotomy (length l) (length l')) as [H|[H|H]]; auto; exfalso.
    - assert (n * S (length l) <= n * length l')%nat by (apply Nat.mul_le_mono_l; lia). lia.
    - assert (n * S (length l') <= n * length l)%nat by (apply Nat.mul_le_mono_l; lia). lia. }
  rewrite EL in L. assert (k = k') by lia. subst k'. eapply concat_inj; eauto. congruence.
Qed.

(** ** The loop on a regular file *)

Definition decodes {A} (size : N) (decode : bytes -> outcome A) : Prop :=
  forall b, lenN b = size -> exists a, decode b = Ok a.

(** [w'] is [w] except for descriptor [fd], which is closed if [closes] and still
    open otherwise *)
Definition after_read (closes : bool) (fd : N) (w w' : world) : Prop :=
  same_store w w' /\ w_nextfd w' = w_nextfd w /\
  (forall f, f <> fd -> w_fds w' f = w_fds w f) /\
  (if closes then w_fds w' fd = None else exists o o', w_fds w fd = Some o /\ w_fds w' fd = Some o' /\ of_ino o' = of_ino o).

Lemma read_loop_file {A} size (decode : bytes -> outcome A) strict closes :
  0 < size -> decodes size decode ->
  forall n d fuel w fd i app wr pos acc,
  (length d <= n)%nat -> (length d < fuel)%nat ->
  w_fds w fd = Some (OFile (Some i) pos app true wr) -> skipn (N.to_nat pos) (w_data w i) = d ->
  exists w' l, run (read_loop size decode strict closes fuel fd acc) w = (w', Ok (rev acc ++ l)) /\
    Forall2 (fun s a => decode s = Ok a) (cut size d) l /\ after_read closes fd w w'.
Proof.
  intros P D. induction n as [|n IH]; intros d fuel w fd i app wr pos acc Hn Hf Hfd Hd.
  - destruct d; [|cbn in Hn; lia]. destruct fuel as [|fuel]; [lia|].
    cbn [read_loop run]. rewrite (exec_read w fd _ i size Hfd eq_refl eq_refl). cbn [of_pos].
    unfold sub. rewrite Hd. rewrite firstn_nil. cbn [of_pos of_append of_rd of_wr].
    destruct closes; cbn [close_if run exec].
    + eexists _, []. rewrite app_nil_r. split; [reflexivity|]. split; [constructor|].
      split; [repeat split|]. split; [reflexivity|]. split; cbn; [|now destruct N.eq_dec].
      intros f Hx. now destruct N.eq_dec.
    + eexists _, []. rewrite app_nil_r. split; [reflexivity|]. split; [constructor|].
      split; [repeat split|]. split; [reflexivity|]. split; cbn.
      * intros f Hx. destruct N.eq_dec; [contradiction|reflexivity].
      * destruct N.eq_dec; [|contradiction]. eexists _, _. split; [exact Hfd|]. split; [reflexivity|reflexivity].
  - destruct d as [|b d]; [eapply (IH []); eauto; cbn; lia|].
    set (DD := b :: d) in *.
    destruct fuel as [|fuel]; [lia|].
    cbn [read_loop run]. rewrite (exec_read w fd _ i size Hfd eq_refl eq_refl). cbn [of_pos of_append of_rd of_wr].
    assert (Hs : sub pos size (w_data w i) = sub 0 size DD).
    { unfold sub. rewrite Hd. reflexivity. }
    rewrite Hs.
    destruct (sub 0 size DD) as [|c t] eqn:Es.
    { exfalso. apply (f_equal (@length byte)) in Es. unfold sub in Es. cbn [N.to_nat skipn] in Es.
      rewrite firstn_length in Es. unfold DD in Es. cbn [length] in Es. lia. }
    rewrite <- Es.
    destruct (D (fill size (sub 0 size DD)) (lenN_fill _ _)) as (a & Ea). rewrite Ea.
    set (w1 := set_fd w fd _).
    destruct (IH (skipn (N.to_nat size) DD) fuel w1 fd i app wr (pos + lenN (sub 0 size DD)) (a :: acc)) as (w' & l & R & F & Q).
    + rewrite skipn_length. unfold DD in *. cbn [length] in *. lia.
    + rewrite skipn_length. unfold DD in *. cbn [length] in *. lia.
    + unfold w1. cbn. destruct N.eq_dec; [reflexivity|contradiction].
    + unfold w1. cbn [w_data set_fd].
      assert (LS : lenN (sub 0 size DD) = N.min size (lenN DD)).
      { unfold sub. rewrite lenN_firstn. reflexivity. }
      rewrite LS. generalize (f_equal (@length byte) Hd). rewrite skipn_length. intros HL.
      generalize (lenN DD) (eq_refl : lenN DD = N.of_nat (length DD)). intros ld Eld.
      rewrite <- Hd, skipn_skipn.
      destruct (N.le_gt_cases size ld) as [G|G].
      * f_equal. lia.
      * rewrite !skipn_all2; [reflexivity|lia|lia].
    + exists w', (a :: l). split; [|split].
      * rewrite R. cbn [rev]. rewrite <- app_assoc. reflexivity.
      * rewrite cut_step by (auto; discriminate). constructor; assumption.
      * destruct Q as (Q1 & Q2 & Q3 & Q4). split; [exact Q1|]. split; [exact Q2|]. split.
        { intros f Hx. rewrite Q3 by exact Hx. unfold w1. cbn. now destruct N.eq_dec. }
        { destruct closes; [exact Q4|]. destruct Q4 as (o & o' & G1 & G2 & G3).
          unfold w1 in G1. cbn in G1. destruct N.eq_dec; [|contradiction]. injection G1 as <-.
          eexists _, _. split; [exact Hfd|]. split; [exact G2|]. exact G3. }
Qed.

(** opening and reading a regular file *)
Lemma open_records_file {A} size (decode : bytes -> outcome A) strict closes fuel w p rp d :
  0 < size -> decodes size decode -> sane w -> names w p rp -> look w rp = Some (EFile d) ->
  (length d < fuel)%nat ->
  exists w' l, run (open_records size decode strict closes fuel p) w = (w', Ok l) /\
    Forall2 (fun s a => decode s = Ok a) (cut size d) l /\
    sane w' /\ same_files w w' /\
    (if closes then same_fds w w' else
      exists o, w_fds w' (w_nextfd w) = Some o /\ forall f, f <> w_nextfd w -> w_fds w' f = w_fds w f).
Proof.
  intros P D S N L Hf.
  destruct (open_existing w p O_RDONLY rp d N L eq_refl) as (i & T & Di & E).
  unfold open_records. cbn [run]. rewrite E. cbn [o_trunc o_append o_rd o_wr O_RDONLY].
  set (w1 := bump_fd _).
  destruct (read_loop_file size decode strict closes P D (length d) d fuel w1 (w_nextfd w) i false false 0 [])
    as (w' & l & R & F & Q1 & Q2 & Q3 & Q4); auto.
  { cbn. now destruct N.eq_dec. }
  exists w', l. split; [exact R|]. split; [exact F|].
  assert (I : i < w_nexti w) by (eapply sane_ino; eauto).
  destruct Q1 as (C & TT & DD & NI & _).
  split; [|split].
  - constructor.
    + rewrite TT, NI. apply S.
    + rewrite TT. apply S.
    + rewrite TT. apply S.
    + rewrite Q2. cbn. intros f Hl. rewrite Q3 by lia. cbn. destruct N.eq_dec; [lia|]. apply S. lia.
    + rewrite NI. cbn. intros f o j G1 G2. destruct (N.eq_dec f (w_nextfd w)) as [->|G].
      * destruct closes; [congruence|]. destruct Q4 as (o1 & o2 & X1 & X2 & X3).
        cbn in X1. destruct N.eq_dec; [|contradiction]. injection X1 as <-. cbn in X3.
        rewrite X2 in G1. injection G1 as <-. rewrite X3 in G2. injection G2 as <-. exact I.
      * rewrite Q3 in G1 by exact G. cbn in G1. destruct N.eq_dec; [contradiction|]. eapply sane_fdi; eauto.
  - split; [exact C|]. intros q. unfold look. rewrite TT, DD. reflexivity.
  - destruct closes.
    + intros f. destruct (N.eq_dec f (w_nextfd w)) as [->|G].
      * rewrite Q4. symmetry. apply S. lia.
      * rewrite Q3 by exact G. cbn. now destruct N.eq_dec.
    + destruct Q4 as (o1 & o2 & X1 & X2 & X3). exists o2. split; [exact X2|].
      intros f G. rewrite Q3 by exact G. cbn. now destruct N.eq_dec.
Qed.

(** a missing file is an error and changes nothing *)
Lemma open_records_missing {A} size (decode : bytes -> outcome A) strict closes fuel w p rp :
  names w p rp -> look w rp = None ->
  run (open_records size decode strict closes fuel p) w = (w, Err (ESys (missing w rp))).
Proof.
  intros N L. unfold open_records. cbn [run]. rewrite (open_missing w p O_RDONLY rp N L); auto.
Qed.
Lemma open_records_improper {A} size (decode : bytes -> outcome A) strict closes fuel w p :
  ~ proper p ->
  run (open_records size decode strict closes fuel p) w = (w, Err (ESys (improper_errno p))).
Proof.
  intros N. unfold open_records. cbn [run]. rewrite (open_improper w p O_RDONLY N); auto.
Qed.

(** on a directory the lenient loop never ends *)
Lemma read_loop_dir {A} size (decode : bytes -> outcome A) closes :
  decodes size decode -> forall fuel w fd o acc,
  w_fds w fd = Some o -> of_ino o = None ->
  exists w', run (read_loop size decode false closes fuel fd acc) w = (w', Diverge).
Proof.
  intros D. induction fuel as [|fuel IH]; intros w fd o acc Hfd Hi; [eexists; reflexivity|].
  cbn [read_loop run exec]. unfold sys_read. rewrite Hfd, Hi.
  destruct (D (fill size []) (lenN_fill _ _)) as (a & Ea). rewrite Ea. eapply IH; eauto.
Qed.
Lemma open_records_dir {A} size (decode : bytes -> outcome A) closes fuel w p rp :
  decodes size decode -> names w p rp -> look w rp = Some EDir ->
  exists w', run (open_records size decode false closes fuel p) w = (w', Diverge).
Proof.
  intros D N L. unfold open_records. cbn [run]. rewrite (open_dir_read w p rp N L).
  apply (read_loop_dir size decode closes D) with (o := OFile None 0 false true false); [|reflexivity].
  cbn. now destruct N.eq_dec.
Qed.

(** ** Whole numbers of records *)
Lemma cut_concat size (l : list bytes) : 0 < size -> Forall (fun s => lenN s = size) l -> cut size (concat l) = l.
Proof.
  intros P F. apply slots_unique with (n := N.to_nat size) (d := concat l); [lia|now apply cut_slots|].
  split.
  - eapply Forall_impl; [|exact F]. cbn. unfold lenN. lia.
  - exists 0%nat. cbn. rewrite app_nil_r. split; [reflexivity|lia].
Qed.
Lemma cut_app size (l : list bytes) d : 0 < size -> Forall (fun s => lenN s = size) l ->
  cut size (concat l ++ d) = l ++ cut size d.
Proof.
  intros P F. apply slots_unique with (n := N.to_nat size) (d := concat l ++ d); [lia|now apply cut_slots|].
  destruct (cut_slots size d P) as [F' (k & C & K)].
  split.
  - apply Forall_app. split; [|exact F']. eapply Forall_impl; [|exact F]. cbn. unfold lenN. lia.
  - exists k. rewrite concat_app, C, app_assoc. auto.
Qed.
