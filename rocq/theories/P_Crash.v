(** * Crashes of the open-write-close programs *)
From Coq Require Import Lia ZifyBool ZifyNat ZifyN.
From Verif Require Import M_Base M_Sys M_Path M_FileOps S_World S_Path S_Store P_Base P_Sys P_Read P_Store.
Open Scope N_scope.

(** writing back the same content is invisible *)
Lemma look_set_data_same w i q : look (set_data w i (w_data w i)) q = look w q.
Proof.
  unfold look. cbn. destruct q; [reflexivity|]. destruct (w_tree w _) as [[|j]|]; auto.
  destruct N.eq_dec; congruence.
Qed.

Lemma crash_write_close {A} wo fd o i data (K : res N -> prog A) w' :
  sane wo -> w_fds wo fd = Some o -> of_ino o = Some i -> of_wr o = true ->
  (forall r, exists a, K r = Ret a) ->
  crash (Call (Write fd data) (fun r => Call (Close fd) (fun _ => K r))) wo w' ->
  exists n, sane w' /\ w_cwd w' = w_cwd wo /\
    forall q, look w' q =
      look (set_data wo i (write_at (if of_append o then lenN (w_data wo i) else of_pos o) (firstn n data) (w_data wo i))) q.
Proof.
  intros S F I W HK C.
  assert (Hfd : fd < w_nextfd wo).
  { destruct (N.lt_ge_cases fd (w_nextfd wo)) as [H|H]; auto. apply (sane_fd wo S) in H. congruence. }
  assert (Hi : i < w_nexti wo) by exact (sane_fdi wo S _ _ _ F I).
  assert (SW : forall d, sane (fst (sys_write fd d wo))).
  { intros d. pose proof (exec_write wo fd o i d F I W) as X. cbn [exec] in X. rewrite X. cbn [fst].
    apply sane_set_fd; [now apply sane_set_data|exact Hfd|]. intros q j [= <-] Q. cbn in Q. injection Q as <-. exact Hi. }
  assert (LW : forall d q, look (fst (sys_write fd d wo)) q =
     look (set_data wo i (write_at (if of_append o then lenN (w_data wo i) else of_pos o) d (w_data wo i))) q).
  { intros d q. pose proof (exec_write wo fd o i d F I W) as X. cbn [exec] in X. rewrite X. reflexivity. }
  assert (CW : forall d, w_cwd (fst (sys_write fd d wo)) = w_cwd wo).
  { intros d. pose proof (exec_write wo fd o i d F I W) as X. cbn [exec] in X. rewrite X. reflexivity. }
  cbn [crash] in C. destruct C as [->|[(n & ->)|C]].
  - exists 0%nat. split; [exact S|]. split; [reflexivity|]. intros q. cbn [firstn write_at]. symmetry. apply look_set_data_same.
  - exists n. split; [apply SW|]. split; [apply CW|]. apply LW.
  - destruct (exec (Write fd data) wo) as [w1 r] eqn:E. cbn [exec] in E.
    specialize (SW data). specialize (LW data). specialize (CW data). rewrite E in SW, LW, CW. cbn [fst] in SW, LW, CW.
    exists (length data). rewrite firstn_all.
    cbn [crash] in C. destruct C as [->|[[]|C]]; [auto|]. cbn [exec] in C.
    destruct (HK r) as (a & Ha). rewrite Ha in C. cbn [crash] in C. destruct C as [->|[]].
    split; [now apply sane_close|]. split; [exact CW|]. exact LW.
Qed.

Lemma open_write_crash fl p data w rp old w' :
  o_wr fl = true -> o_excl fl = false -> sane w -> names w p rp -> has_dir w rp ->
  look w rp = option_map EFile old -> crash (open_write fl p data) w w' ->
  sane w' /\ same_else rp w w' /\
  (look w' rp = look w rp \/
   (o_creat fl = true \/ old <> None) /\
   exists n, look w' rp = Some (EFile (written fl (firstn n data) (old_or_empty old)))).
Proof.
  intros W X S N H L C. unfold open_write in C. cbn [crash] in C.
  destruct C as [->|[[]|C]]; [split; [exact S|]; split; [apply same_else_refl|now left]|].
  destruct old as [d|]; cbn [option_map old_or_empty] in *.
  - destruct (open_existing w p fl rp d N L) as (i & T & D & E).
    { rewrite X. apply andb_false_r. }
    rewrite E in C.
    destruct (look_file _ _ _ L) as (i' & T' & _ & Nr). rewrite T in T'. injection T' as <-.
    set (w0 := if o_trunc fl then set_data w i [] else w) in *.
    assert (S0 : sane w0). { subst w0. destruct (o_trunc fl); [now apply sane_set_data|exact S]. }
    assert (T0 : w_tree w0 rp = Some (NFile i)). { subst w0. destruct (o_trunc fl); exact T. }
    assert (C0 : w_cwd w0 = w_cwd w). { subst w0. now destruct (o_trunc fl). }
    assert (D0 : w_data w0 i = if o_trunc fl then [] else d).
    { subst w0. destruct (o_trunc fl); [cbn; now destruct N.eq_dec|exact D]. }
    assert (F0 : w_nextfd w0 = w_nextfd w). { subst w0. now destruct (o_trunc fl). }
    assert (O0 : forall q, q <> rp -> look w0 q = look w q).
    { intros q Hq. subst w0. destruct (o_trunc fl); [|reflexivity]. eapply look_set_data_other; eauto. }
    set (of := OFile (Some i) 0 (o_append fl) (o_rd fl) (o_wr fl)) in *.
    set (w1 := bump_fd (set_fd w0 (w_nextfd w) (Some of))) in *.
    assert (S1 : sane w1).
    { subst w1. rewrite <- F0. apply sane_new_fd; auto. cbn. intros j [= <-]. eapply sane_ino; eauto. }
    apply crash_write_close with (o := of) (i := i) in C; auto.
    + destruct C as (n & S' & C' & Lk). split; [exact S'|]. split.
      * split; [rewrite C'; exact C0|]. intros q Hq. rewrite Lk.
        rewrite (look_set_data_other w1 rp); auto.
        change (look w1 q) with (look w0 q). now apply O0.
      * right. split; [right; discriminate|]. exists n. rewrite Lk. rewrite look_set_data; auto. f_equal. f_equal. unfold written.
        change (w_data w1 i) with (w_data w0 i). rewrite D0.
        cbn [of of_append of_pos]. reflexivity.
    + subst w1. cbn. now destruct N.eq_dec.
    + intros [x|e]; eauto.
  - destruct (o_creat fl) eqn:Cr.
    + rewrite (open_create w p fl rp N L Cr H) in C.
      destruct (look_none _ _ L) as (T & Nr).
      set (w0 := bump_ino (set_data (set_tree w rp (Some (NFile (w_nexti w)))) (w_nexti w) [])) in *.
      assert (S0 : sane w0) by (now apply sane_create).
      set (of := OFile (Some (w_nexti w)) 0 (o_append fl) (o_rd fl) (o_wr fl)) in *.
      set (w1 := bump_fd (set_fd w0 (w_nextfd w) (Some of))) in *.
      assert (T0 : w_tree w0 rp = Some (NFile (w_nexti w))). { subst w0. cbn. now destruct rp_eq_dec. }
      assert (S1 : sane w1).
      { subst w1. apply (sane_new_fd w0); auto. cbn. intros j [= <-]. lia. }
      apply crash_write_close with (o := of) (i := w_nexti w) in C; auto.
      * destruct C as (n & S' & C' & Lk). split; [exact S'|]. split.
        -- split; [rewrite C'; reflexivity|]. intros q Hq. rewrite Lk.
           rewrite (look_set_data_other w1 rp); auto.
           change (look w1 q) with (look w0 q). now apply look_create_other.
        -- right. split; [now left|]. exists n. rewrite Lk. rewrite look_set_data; auto. f_equal. f_equal. unfold written.
           assert (w_data w1 (w_nexti w) = []) as ->. { subst w1 w0. cbn. now destruct N.eq_dec. }
           cbn [of of_append of_pos]. now destruct (o_trunc fl).
      * subst w1. cbn. now destruct N.eq_dec.
      * intros [x|e]; eauto.
    + rewrite (open_missing w p fl rp N L) in C by (now left). cbn [crash] in C. destruct C as [->|[]].
      split; [exact S|]. split; [apply same_else_refl|now left].
Qed.

(** crash of a composed program: the pure prefix does nothing *)
Lemma crash_lift_pbind {A B} (x : A) (k : A -> prog (outcome B)) w w' :
  crash (pbind (lift (Ok x)) k) w w' <-> crash (k x) w w'.
Proof. reflexivity. Qed.
(** a final renaming of the result does nothing *)
Lemma crash_answer {A} (k : A -> answer) (p : prog (outcome A)) w w' : crash (answer_with k p) w w' -> crash p w w'.
Proof.
  unfold answer_with, pbind. revert w. induction p as [a|R c f IH]; intros w; cbn [bind crash].
  - destruct a; cbn; tauto.
  - intros [->|[H|H]]; [now left|right; now left|]. right. right. destruct (exec c w) as [w1 r]. now apply IH.
Qed.

(** ** Computing one particular crash: after [n] system calls, with [m] bytes of
    the next one transferred if it is a write *)
Fixpoint crash_at {A} (n m : nat) (p : prog A) (w : world) : world :=
  match p with
  | Ret _ => w
  | Call c k =>
      match n with
      | O => match c with Write fd d => fst (sys_write fd (firstn m d) w) | _ => w end
      | S n' => let '(w', r) := exec c w in crash_at n' m (k r) w'
      end
  end.
Lemma crash_refl {A} (p : prog A) w : crash p w w.
Proof. destruct p; now left. Qed.
Lemma crash_at_crash {A} n m : forall (p : prog A) w, crash p w (crash_at n m p w).
Proof.
  induction n as [|n IH]; intros [a|R c k] w; cbn [crash_at].
  - apply crash_refl.
  - destruct c; try apply crash_refl. right. left. now exists m.
  - apply crash_refl.
  - right. right. destruct (exec c w). apply IH.
Qed.
