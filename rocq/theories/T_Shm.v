(** * Property theorems: C59 (shared memory) *)
From Coq Require Import Lia ZifyBool ZifyNat ZifyN.
From Verif Require Import M_Base M_Sys S_World P_Base P_Sys S_ExWorld M_Shm M_Attach S_Shm P_Shm.
Open Scope N_scope.

(** Any operations by any processes, in any order, and whatever addresses the kernel
    chooses: every reply is the one the table of names and areas gives, and the files
    are those of the table, until a handle is used that was closed. *)
Theorem C59_shared_memory : forall w max os m hs rs,
  sane w -> Forall path_proper os -> perform_all os (boot w max) [] = (m, hs, rs) ->
  exists os1 os2 rs1 rs2 s, os = os1 ++ os2 /\ rs = rs1 ++ rs2 /\
    meets_all (w_cwd w) (is_dir w) max os1 (at_boot w) s rs1 /\
    match os2 with
    | [] => files_are (m_world m) s
    | o :: _ => uses_closed s o
    end.
Proof.
  intros w max os m hs rs S PP E.
  destruct (history_ok w max os PP _ _ _ _ _ _ (rel_boot w max S) E) as (os1 & os2 & rs1 & rs2 & m1 & hs1 & s1 & -> & -> & P1 & P2 & M & R & U).
  exists os1, os2, rs1, rs2, s1. split; [reflexivity|]. split; [reflexivity|]. split; [exact M|].
  destruct os2 as [|o os2]; [|exact U]. cbn [perform_all] in P2. injection P2 as <- <- <-. eapply rel_files; eauto.
Qed.
Print Assumptions C59_shared_memory.

(** Programs that use no handle after closing it always get the replies of the table. *)
Theorem C59_careful_programs : forall w max os m hs rs,
  sane w -> Forall path_proper os -> careful os -> perform_all os (boot w max) [] = (m, hs, rs) ->
  exists s, meets_all (w_cwd w) (is_dir w) max os (at_boot w) s rs /\ files_are (m_world m) s.
Proof.
  intros w max os m hs rs S PP C E. destruct (careful_ok w max os m hs rs S PP C E) as (s & M & R). exists s. split; [exact M|]. eapply rel_files; eauto.
Qed.
Print Assumptions C59_careful_programs.

(** A byte that was put is what every handle on the same area gets; nothing else changes. *)
Theorem C59_put_get : forall w max os m hs rs h i b m1 hs1 rep,
  sane w -> Forall path_proper os -> careful os -> perform_all os (boot w max) [] = (m, hs, rs) ->
  perform (OPut h i b) m hs = (m1, hs1, rep) ->
  exists s, meets_all (w_cwd w) (is_dir w) max os (at_boot w) s rs /\
    forall r len, nth_error (s_open s) h = Some (Some (r, len)) ->
    forall h' r' len' j, nth_error (s_open s) h' = Some (Some (r', len')) ->
      snd (perform (OGet h' j) m1 hs1) =
      match rep with
      | Done => if region_eq_dec r' r then
                  if N.eq_dec j i then if len' <=? j then PanicIndex else ByteIs b
                  else snd (perform (OGet h' j) m hs)
                else snd (perform (OGet h' j) m hs)
      | _ => snd (perform (OGet h' j) m hs)
      end.
Proof.
  intros w max os m hs rs h i b m1 hs1 rep S PP C E P. destruct (careful_ok w max os m hs rs S PP C E) as (s & M & R). exists s. split; [exact M|].
  intros r len O h' r' len' j O'. destruct (perform_put _ _ _ _ _ _ _ _ _ _ _ _ _ R O P) as (d & Hd & Hr & -> & R1).
  destruct (perform_get _ _ _ _ _ h' r' len' j R O') as (d0 & Hd0 & ->).
  destruct (perform_get _ _ _ _ _ h' r' len' j R1) as (d1 & Hd1 & ->); [destruct rep; exact O'|]. cbn [snd].
  assert (Same : d1 = d0 -> byte_of len' j d1 (ByteIs (nth (N.to_nat j) d1 x00)) = byte_of len' j d0 (ByteIs (nth (N.to_nat j) d0 x00))) by congruence.
  destruct rep; try (apply Same; congruence). cbn [with_data s_data] in Hd1.
  destruct region_eq_dec as [->|N]; [|apply Same; congruence]. injection Hd1 as <-. assert (d0 = d) by congruence. subst d0.
  assert (Li : i < lenN d). { unfold byte_of in Hr. destruct (len <=? i); [discriminate Hr|]. destruct (N.ltb_spec i (lenN d)); [assumption|]. destruct (_ <? _); discriminate Hr. }
  assert (Ln : (N.to_nat i < length d)%nat) by (unfold lenN in Li; lia).
  unfold byte_of. rewrite nth_put by exact Ln. unfold lenN at 1 2. rewrite put_len by exact Ln. fold (lenN d).
  destruct (N.eq_dec j i) as [->|Nj].
  - destruct Nat.eq_dec; [|contradiction]. now rewrite (proj2 (N.ltb_lt i (lenN d)) Li).
  - destruct Nat.eq_dec; [lia|reflexivity].
Qed.
Print Assumptions C59_put_get.

(** Two processes that open the same key see the same bytes. *)
Theorem C59_same_key : forall w max os m hs rs p a p' a' key i b m' hs' n n' r1 r2,
  sane w -> Forall path_proper os -> careful os -> perform_all os (boot w max) [] = (m, hs, rs) ->
  perform_all [OOpenKey p a key; OOpenKey p' a' key; OPut (length hs) i b; OGet (S (length hs)) i] m hs
    = (m', hs', [Opened n; Opened n'; r1; r2]) ->
  n' = n /\ (i < n -> r1 = Done /\ r2 = ByteIs b) /\ (n <= i -> r1 = PanicIndex /\ r2 = PanicIndex).
Proof.
  intros w max os m hs rs p a p' a' key i b m' hs' n n' r1 r2 S PP C E P. destruct (careful_ok w max os m hs rs S PP C E) as (s & _ & R).
  cbn [perform_all] in P.
  destruct (perform (OOpenKey p a key) m hs) as [[ma ha] ra] eqn:Ea.
  destruct (perform (OOpenKey p' a' key) ma ha) as [[mb hb] rb] eqn:Eb.
  destruct (perform (OPut (length hs) i b) mb hb) as [[mc hc] rc] eqn:Ec.
  destruct (perform (OGet (Datatypes.S (length hs)) i) mc hc) as [[md hd] rd] eqn:Ed.
  injection P as <- <- -> -> <- <-.
  destruct (perform_ok _ _ (OOpenKey p a key) _ _ _ _ _ _ R I (fun x => x) Ea) as (sa & Ma & Ra).
  destruct (perform_ok _ _ (OOpenKey p' a' key) _ _ _ _ _ _ Ra I (fun x => x) Eb) as (sb & Mb & Rb).
  cbn [meets] in Ma, Mb. cbv zeta in Ma, Mb. destruct (the_key key =? 0); [destruct Ma as [_ Ma]; discriminate Ma|].
  destruct (s_name s (Key (the_key key))) as [r|] eqn:Nm; [|destruct Ma as [_ Ma]; discriminate Ma].
  destruct Ma as (d & Hd & [[Ma ->]|[Ma _]]); [|discriminate Ma]. injection Ma as ->.
  cbn [with_handle s_name s_data] in Mb. rewrite Nm in Mb. destruct Mb as (d' & Hd' & [[Mb ->]|[Mb _]]); [|discriminate Mb]. injection Mb as ->.
  assert (d' = d) by congruence. subst d'. clear Hd'. split; [reflexivity|].
  pose proof (d_len _ _ _ (R_d _ _ _ _ _ R)) as Lh.
  assert (O1 : nth_error (s_open (with_handle (with_handle s r (lenN d)) r (lenN d))) (length hs) = Some (Some (r, lenN d))).
  { cbn [with_handle s_open]. rewrite <- app_assoc, Lh, nth_error_app2, Nat.sub_diag by lia. reflexivity. }
  assert (O2 : nth_error (s_open (with_handle (with_handle s r (lenN d)) r (lenN d))) (Datatypes.S (length hs)) = Some (Some (r, lenN d))).
  { cbn [with_handle s_open]. rewrite <- app_assoc, Lh, nth_error_app2 by lia. now replace (Datatypes.S (length (s_open s)) - length (s_open s))%nat with 1%nat by lia. }
  destruct (perform_put _ _ _ _ _ _ _ _ _ _ _ _ _ Rb O1 Ec) as (d0 & H0 & Hr & -> & Rc). cbn [with_handle s_data] in H0.
  assert (d0 = d) by congruence. subst d0. clear H0.
  destruct (perform_get _ _ _ _ _ (Datatypes.S (length hs)) r (lenN d) i Rc) as (d1 & H1 & H2); [destruct rc; exact O2|].
  rewrite H2 in Ed. injection Ed as _ _ <-. unfold byte_of in Hr |- *. split; intros Li.
  - rewrite (proj2 (N.leb_gt (lenN d) i) Li), (proj2 (N.ltb_lt i (lenN d)) Li) in Hr. subst rc. split; [reflexivity|].
    cbn [with_data s_data] in H1. destruct region_eq_dec; [|contradiction]. injection H1 as <-.
    assert (Ln : (N.to_nat i < length d)%nat) by (unfold lenN in Li; lia).
    rewrite nth_put by exact Ln. unfold lenN at 2. rewrite put_len by exact Ln. fold (lenN d).
    rewrite (proj2 (N.leb_gt (lenN d) i) Li), (proj2 (N.ltb_lt i (lenN d)) Li). destruct Nat.eq_dec; [reflexivity|contradiction].
  - rewrite (proj2 (N.leb_le (lenN d) i) Li) in *. auto.
Qed.
Print Assumptions C59_same_key.

(** So do two processes that open the same file, under any two names of it. *)
Theorem C59_same_file : forall w max os m hs rs p a p' a' path path' i b m' hs' n n' r1 r2,
  sane w -> Forall path_proper os -> careful os -> perform_all os (boot w max) [] = (m, hs, rs) ->
  proper path -> proper path' -> resolve (w_cwd w) path' = resolve (w_cwd w) path ->
  perform_all [OOpenFile p a path; OOpenFile p' a' path'; OPut (length hs) i b; OGet (S (length hs)) i] m hs
    = (m', hs', [Opened n; Opened n'; r1; r2]) ->
  n' = n /\ (i < n -> r1 = Done /\ r2 = ByteIs b) /\ (n <= i -> r1 = PanicIndex /\ r2 = PanicIndex).
Proof.
  intros w max os m hs rs p a p' a' path path' i b m' hs' n n' r1 r2 S PP C E Q1 Q2 Q3 P. destruct (careful_ok w max os m hs rs S PP C E) as (s & _ & R).
  cbn [perform_all] in P.
  destruct (perform (OOpenFile p a path) m hs) as [[ma ha] ra] eqn:Ea.
  destruct (perform (OOpenFile p' a' path') ma ha) as [[mb hb] rb] eqn:Eb.
  destruct (perform (OPut (length hs) i b) mb hb) as [[mc hc] rc] eqn:Ec.
  destruct (perform (OGet (Datatypes.S (length hs)) i) mc hc) as [[md hd] rd] eqn:Ed.
  injection P as <- <- -> -> <- <-.
  destruct (perform_ok _ _ (OOpenFile p a path) _ _ _ _ _ _ R Q1 (fun x => x) Ea) as (sa & Ma & Ra).
  destruct (perform_ok _ _ (OOpenFile p' a' path') _ _ _ _ _ _ Ra Q2 (fun x => x) Eb) as (sb & Mb & Rb).
  cbn [meets] in Ma, Mb. cbv zeta in Ma, Mb. rewrite Q3 in Mb. destruct (is_dir w _); [destruct Ma as [_ Ma]; discriminate Ma|].
  destruct (s_name s (Path _)) as [r|] eqn:Nm; [|destruct Ma as [_ [Ma|Ma]]; discriminate Ma].
  destruct (s_data s r) as [[|x d0]|] eqn:Hd; try (destruct Ma as [_ Ma]; discriminate Ma). set (d := x :: d0) in *.
  destruct Ma as [[Ma ->]|[Ma _]]; [|discriminate Ma]. injection Ma as ->.
  cbn [with_handle s_name s_data] in Mb. rewrite Nm, Hd in Mb. unfold d at 1 in Mb. destruct Mb as [[Mb ->]|[Mb _]]; [|discriminate Mb]. injection Mb as ->.
  fold d. split; [reflexivity|].
  pose proof (d_len _ _ _ (R_d _ _ _ _ _ R)) as Lh.
  assert (O1 : nth_error (s_open (with_handle (with_handle s r (lenN d)) r (lenN d))) (length hs) = Some (Some (r, lenN d))).
  { cbn [with_handle s_open]. rewrite <- app_assoc, Lh, nth_error_app2, Nat.sub_diag by lia. reflexivity. }
  assert (O2 : nth_error (s_open (with_handle (with_handle s r (lenN d)) r (lenN d))) (Datatypes.S (length hs)) = Some (Some (r, lenN d))).
  { cbn [with_handle s_open]. rewrite <- app_assoc, Lh, nth_error_app2 by lia. now replace (Datatypes.S (length (s_open s)) - length (s_open s))%nat with 1%nat by lia. }
  destruct (perform_put _ _ _ _ _ _ _ _ _ _ _ _ _ Rb O1 Ec) as (d1 & H0 & Hr & -> & Rc). cbn [with_handle s_data] in H0.
  assert (d1 = d) by congruence. subst d1. clear H0.
  destruct (perform_get _ _ _ _ _ (Datatypes.S (length hs)) r (lenN d) i Rc) as (d1 & H1 & H2); [destruct rc; exact O2|].
  rewrite H2 in Ed. injection Ed as _ _ <-. unfold byte_of in Hr |- *. split; intros Li.
  - rewrite (proj2 (N.leb_gt (lenN d) i) Li), (proj2 (N.ltb_lt i (lenN d)) Li) in Hr. subst rc. split; [reflexivity|].
    cbn [with_data s_data] in H1. destruct region_eq_dec; [|contradiction]. injection H1 as <-.
    assert (Ln : (N.to_nat i < length d)%nat) by (unfold lenN in Li; lia).
    rewrite nth_put by exact Ln. unfold lenN at 2. rewrite put_len by exact Ln. fold (lenN d).
    rewrite (proj2 (N.leb_gt (lenN d) i) Li), (proj2 (N.ltb_lt i (lenN d)) Li). destruct Nat.eq_dec; [reflexivity|contradiction].
  - rewrite (proj2 (N.leb_le (lenN d) i) Li) in *. auto.
Qed.
Print Assumptions C59_same_file.

(** Two processes that call NewCache with the same connection string see the same bytes. *)
Theorem C59_same_connection_string : forall w max os m hs rs p a p' a' cs o o' i b m' hs' n n' r1 r2,
  sane w -> Forall path_proper os -> careful os -> perform_all os (boot w max) [] = (m, hs, rs) ->
  connect p a cs = Some o -> connect p' a' cs = Some o' -> path_proper o ->
  perform_all [o; o'; OPut (length hs) i b; OGet (S (length hs)) i] m hs = (m', hs', [Opened n; Opened n'; r1; r2]) ->
  n' = n /\ (i < n -> r1 = Done /\ r2 = ByteIs b) /\ (n <= i -> r1 = PanicIndex /\ r2 = PanicIndex).
Proof.
  intros w max os m hs rs p a p' a' cs o o' i b m' hs' n n' r1 r2 S PP C E C1 C2 Po P. unfold connect in *.
  destruct (M_Conn.NewCache cs) as [[path|key]|e| |]; try discriminate C1; injection C1 as <-; injection C2 as <-.
  - eapply C59_same_file; eauto.
  - eapply C59_same_key; eauto.
Qed.
Print Assumptions C59_same_connection_string.

(** CreateMmap gives exactly the size asked for, all zeros. *)
Theorem C59_created_zero : forall w max os m hs rs p a path size m' hs' n i r,
  sane w -> Forall path_proper os -> careful os -> perform_all os (boot w max) [] = (m, hs, rs) -> proper path ->
  perform_all [OCreateFile p a path size; OGet (length hs) i] m hs = (m', hs', [Opened n; r]) ->
  Z.of_N n = size /\ (i < n -> r = ByteIs x00).
Proof.
  intros w max os m hs rs p a path size m' hs' n i r S PP C E Q P. destruct (careful_ok w max os m hs rs S PP C E) as (s & _ & R).
  cbn [perform_all] in P. destruct (perform (OCreateFile p a path size) m hs) as [[ma ha] ra] eqn:Ea.
  destruct (perform (OGet (length hs) i) ma ha) as [[mb hb] rb] eqn:Eb. injection P as <- <- -> <-.
  destruct (perform_ok _ _ (OCreateFile p a path size) _ _ _ _ _ _ R Q (fun x => x) Ea) as (sa & Ma & Ra).
  pose proof (d_len _ _ _ (R_d _ _ _ _ _ R)) as Lh.
  assert (Fc : forall s0 r0, s_open s0 = s_open s -> file_created s0 r0 size sa (Opened n) -> Z.of_N n = size /\ (i < n -> rb = ByteIs x00)).
  { intros s0 r0 Hs0 M. unfold file_created in M. destruct (Z.leb_spec size 0); [destruct M as [_ M]; discriminate M|].
    destruct M as [[M ->]|[M _]]; [|discriminate M]. injection M as ->. split; [lia|]. intros Li.
    destruct (perform_get _ _ _ _ _ (length hs) r0 (Z.to_N size) i Ra) as (d & Hd & Hp).
    { cbn [with_handle with_data s_open]. rewrite Hs0, Lh, nth_error_app2, Nat.sub_diag by lia. reflexivity. }
    rewrite Hp in Eb. injection Eb as _ _ <-. cbn [with_handle with_data s_data] in Hd. destruct region_eq_dec; [|contradiction]. injection Hd as <-.
    unfold byte_of. rewrite zeros_len, (proj2 (N.leb_gt _ _) Li), (proj2 (N.ltb_lt _ _) Li). f_equal. unfold zeros. apply nth_repeat. }
  cbn [meets] in Ma. cbv zeta in Ma. destruct (is_dir w _); [destruct Ma as [_ Ma]; discriminate Ma|].
  destruct (s_name s _) as [r0|]; [eapply Fc; eauto|]. destruct (is_dir w _); [|destruct Ma as [_ [Ma|Ma]]; discriminate Ma].
  destruct Ma as (r0 & _ & Ma). eapply Fc; [|exact Ma]. reflexivity.
Qed.
Print Assumptions C59_created_zero.

(** Right after Close, a slice got from Bytes() is gone: the first access kills the
    process.  The same happens when the garbage collector has closed a handle of which
    only the slice is kept (runtime.SetFinalizer).  Close again is an error. *)
Theorem C59_after_close : forall w max os m hs rs h m1 hs1,
  sane w -> Forall path_proper os -> careful (os ++ [OClose h]) -> perform_all os (boot w max) [] = (m, hs, rs) ->
  perform (OClose h) m hs = (m1, hs1, Done) ->
  (forall i, snd (perform (OGet h i) m1 hs1) = match snd (perform (OGet h i) m hs) with PanicIndex => PanicIndex | _ => Fault end) /\
  (forall i b, snd (perform (OPut h i b) m1 hs1) = match snd (perform (OGet h i) m hs) with PanicIndex => PanicIndex | _ => Fault end) /\
  snd (perform (OClose h) m1 hs1) = Failed EINVAL.
Proof.
  intros w max os m hs rs h m1 hs1 S PP C E P.
  assert (C' : careful os). { intros b h0 bt o af ->. apply (C b h0 bt o (af ++ [OClose h])). now rewrite <- app_assoc; cbn; rewrite <- app_assoc. }
  destruct (careful_ok w max os m hs rs S PP C' E) as (s & M & R).
  assert (U : ~ uses_closed s (OClose h)).
  { cbn [uses_closed]. intros Z. destruct (meets_all_closed _ _ _ _ _ _ _ _ M Z) as [X|X]; [cbn in X; now destruct h|].
    apply in_split in X as (l1 & l2 & ->). apply (C l1 h l2 (OClose h) []); [|reflexivity]. now rewrite <- app_assoc. }
  cbn [uses_closed] in U. pose proof P as P'. cbn [perform] in P'. destruct (nth_error hs h) as [hd|] eqn:Eh; [|discriminate P'].
  assert (Lh : (h < length (s_open s))%nat) by (rewrite <- (d_len _ _ _ (R_d _ _ _ _ _ R)); apply nth_error_Some; congruence).
  destruct (nth_error (s_open s) h) as [[[r len]|]|] eqn:Oh; [|contradiction|apply nth_error_None in Oh; lia].
  destruct (close_rel _ _ _ _ _ _ _ _ _ R Eh Oh) as (m2 & Ec & _). rewrite Ec in P'. cbn [done] in P'. injection P' as <- <-.
  destruct (closed_faults _ _ _ _ _ _ _ _ _ _ R Eh Oh Ec) as (Lf & m3 & Ec2).
  pose proof (d_live _ _ _ (R_d _ _ _ _ _ R) _ _ _ _ Eh Oh) as V. pose proof V as (A & _).
  assert (Rd : forall i, match snd (perform (OGet h i) m hs) with PanicIndex => PanicIndex | _ => Fault end = if len <=? i then PanicIndex else Fault).
  { intros i. destruct (perform_get _ _ _ _ _ _ _ _ i R Oh) as (d & _ & ->). unfold byte_of. cbn [snd]. destruct (len <=? i); [reflexivity|]. destruct (i <? lenN d); [reflexivity|]. now destruct (i <? _). }
  split; [|split].
  - intros i. rewrite Rd. cbn [perform]. rewrite Eh. cbn [snd]. unfold get. destruct (N.leb_spec len i) as [L|L]; [|now rewrite Lf].
    unfold locate. rewrite A. now rewrite (proj2 (N.leb_le _ _) L).
  - intros i b. rewrite Rd. cbn [perform]. rewrite Eh. unfold put. destruct (N.leb_spec len i) as [L|L]; [|now rewrite Lf].
    unfold locate. rewrite A. now rewrite (proj2 (N.leb_le _ _) L).
  - cbn [perform]. now rewrite Eh, Ec2.
Qed.
Print Assumptions C59_after_close.

(** ** Cases *)
Definition shm_path := str "/bbs/.shm".
Definition shm_run (os : list op) : list reply := snd (perform_all os (boot sample_world 100000) []).
Definition tour : list op :=
  [ OCreateKey 1 10 1228 5000; OPut 0 4999 "x"; OOpenKey 2 10 1228; OGet 1 4999; OGet 1 5000;
    OCreateKey 3 7 1228 100; OGet 2 4999; OCreateKey 3 7 1228 100; OCreateKey 3 8 1228 6000;
    ORemoveKey 1228; OPut 1 0 "y"; OGet 0 0; OOpenKey 2 30 1228; OClose 0;
    OCreateFile 1 10 shm_path 10; OPut 3 2 "z"; OOpenFile 2 20 shm_path; OGet 4 2; ORemoveFile shm_path; OGet 4 2;
    OOpenFile 2 40 shm_path; OClose 4; OCreateFile 2 20 shm_path 0; OOpenFile 2 20 shm_path ].
Lemma shm_path_proper : proper shm_path.
Proof. split; [discriminate|]. intros H. vm_compute in H. repeat destruct H as [H|H]; discriminate H || contradiction. Qed.
Example C59_nonvacuous : sane sample_world /\ Forall path_proper tour /\ careful tour /\ shm_run tour =
  [ Opened 5000; Done; Opened 5000; ByteIs "x"; PanicIndex;
    Opened 100; PanicIndex; NoMem; Failed EINVAL;
    Done; Done; ByteIs "y"; Failed ENOENT; Done;
    Opened 10; Done; Opened 10; ByteIs "z"; Done; ByteIs "z";
    Failed ENOENT; Done; Failed EINVAL; Failed EINVAL ].
Proof.
  split; [apply sample_sane|]. split.
  - unfold tour. repeat constructor; cbn [path_proper]; try exact I; apply shm_path_proper.
  - split; [|vm_compute; reflexivity].
    intros l1 h l2 o l3 E. assert (Q : forallb (fun k => match nth_error tour k with
        | Some (OClose h) => forallb (fun o => match target o with Some h' => negb (Nat.eqb h h') | None => true end) (skipn (S k) tour)
        | _ => true end) (seq 0 24) = true) by (vm_compute; reflexivity).
    rewrite forallb_forall in Q. specialize (Q (length l1)).
    assert (Ll : (length l1 < 24)%nat). { assert (X : length tour = 24%nat) by reflexivity. rewrite E in X. rewrite app_length in X. cbn [length] in X. lia. }
    specialize (Q ltac:(apply in_seq; lia)). rewrite E in Q. rewrite nth_error_app2, Nat.sub_diag in Q by lia. cbn [nth_error] in Q.
    replace (skipn (S (length l1)) (l1 ++ OClose h :: l2 ++ o :: l3)) with (l2 ++ o :: l3) in Q.
    + rewrite forallb_forall in Q. specialize (Q o ltac:(apply in_or_app; right; left; reflexivity)). intros T. rewrite T in Q. rewrite Nat.eqb_refl in Q. discriminate Q.
    + clear. induction l1; [reflexivity|exact IHl1].
Qed.

Example C59_pairs_nonvacuous :
  shm_run [OCreateKey 1 10 7 6000; OOpenKey 2 10 7; OOpenKey 3 10 7; OPut 1 5999 "x"; OGet 2 5999]
    = [Opened 6000; Opened 6000; Opened 6000; Done; ByteIs "x"] /\
  shm_run [OCreateFile 1 10 shm_path 6000; OOpenFile 2 10 shm_path; OOpenFile 2 20 (str "/bbs/../bbs//.shm"); OPut 1 5999 "x"; OGet 2 5999]
    = [Opened 6000; Opened 6000; Opened 6000; Done; ByteIs "x"] /\
  connect 2 10 (str "shmkey:7") = Some (OOpenKey 2 10 7) /\ connect 2 20 (str "file:/bbs/.shm") = Some (OOpenFile 2 20 shm_path) /\
  shm_run [OCreateFile 1 10 shm_path 6000; OGet 0 5999] = [Opened 6000; ByteIs x00] /\
  shm_run [OCreateKey 1 10 7 5; OCreateFile 1 30 shm_path 6; OClose 1; OGet 1 5; OPut 1 6 "x"; OClose 1; OClose 0; OGet 0 0; OClose 0]
    = [Opened 5; Opened 6; Done; Fault; PanicIndex; Failed EINVAL; Done; Fault; Failed EINVAL].
Proof. vm_compute. repeat split; reflexivity. Qed.

(** The kernel takes 32 bits of the key: keys that differ by 2^32 are one memory. *)
Theorem C59_distinct_keys_refuted : ~ forall w max p a p' a' key key' size n r m hs,
  sane w -> key <> key' -> perform_all [OCreateKey p a key size; OOpenKey p' a' key'] (boot w max) [] = (m, hs, [Opened n; r]) ->
  exists e, r = Failed e.
Proof.
  intros H. destruct (perform_all [OCreateKey 1 10 7 5; OOpenKey 2 10 (7 + 2 ^ 32)] (boot sample_world 100) []) as [[m hs] rs] eqn:E.
  assert (Q : rs = [Opened 5; Opened 5]) by (change rs with (snd (m, hs, rs)); rewrite <- E; vm_compute; reflexivity). subst rs.
  assert (K : (7 <> 7 + 2 ^ 32)%Z) by lia. destruct (H _ _ _ _ _ _ _ _ _ _ _ _ _ sample_sane K E) as [e X]. discriminate X.
Qed.
(** A key that is 0 in 32 bits is IPC_PRIVATE: created, but never found again. *)
Theorem C59_created_key_opens_refuted : ~ forall w max p a p' a' key size n r m hs,
  sane w -> perform_all [OCreateKey p a key size; OOpenKey p' a' key] (boot w max) [] = (m, hs, [Opened n; r]) ->
  r = Opened n \/ r = NoMem.
Proof.
  intros H. destruct (perform_all [OCreateKey 1 10 0 5; OOpenKey 2 10 0] (boot sample_world 100) []) as [[m hs] rs] eqn:E.
  assert (Q : rs = [Opened 5; Failed EINVAL]) by (change rs with (snd (m, hs, rs)); rewrite <- E; vm_compute; reflexivity). subst rs.
  destruct (H _ _ _ _ _ _ _ _ _ _ _ _ sample_sane E) as [X|X]; discriminate X.
Qed.
(** CreateMmap of a file that others have open wipes their memory ... *)
Theorem C59_create_keeps_others_refuted : ~ forall w max os p a path size i m hs rs x y z,
  sane w -> Forall path_proper os -> careful os -> proper path ->
  perform_all (os ++ [OGet 0 i; OCreateFile p a path size; OGet 0 i]) (boot w max) [] = (m, hs, rs ++ [x; y; z]) -> z = x.
Proof.
  intros H. destruct (perform_all ([OCreateFile 1 10 shm_path 10; OPut 0 0 "x"] ++ [OGet 0 0; OCreateFile 2 10 shm_path 10; OGet 0 0]) (boot sample_world 100) []) as [[m hs] rs] eqn:E.
  assert (Q : rs = [Opened 10; Done] ++ [ByteIs "x"; Opened 10; ByteIs x00]) by (change rs with (snd (m, hs, rs)); rewrite <- E; vm_compute; reflexivity). subst rs.
  assert (K1 : Forall path_proper [OCreateFile 1 10 shm_path 10; OPut 0 0 "x"]) by (repeat constructor; apply shm_path_proper).
  assert (K2 : careful [OCreateFile 1 10 shm_path 10; OPut 0 0 "x"]) by (intros [|? [|? [|? ?]]] ? ? ? ? X; discriminate X).
  assert (X := H _ _ _ _ _ _ _ _ _ _ _ _ _ _ sample_sane K1 K2 shm_path_proper E).
  discriminate X.
Qed.
(** ... and a smaller size kills them when they next look at what is gone. *)
Theorem C59_create_kills_others_refuted : ~ forall w max os p a path size i m hs rs x y z,
  sane w -> Forall path_proper os -> careful os -> proper path ->
  perform_all (os ++ [OGet 0 i; OCreateFile p a path size; OGet 0 i]) (boot w max) [] = (m, hs, rs ++ [x; y; z]) -> x <> Fault -> z <> Fault.
Proof.
  intros H. destruct (perform_all ([OCreateFile 1 10 shm_path 5000] ++ [OGet 0 4500; OCreateFile 2 10 shm_path 10; OGet 0 4500]) (boot sample_world 100) []) as [[m hs] rs] eqn:E.
  assert (Q : rs = [Opened 5000] ++ [ByteIs x00; Opened 10; Fault]) by (change rs with (snd (m, hs, rs)); rewrite <- E; vm_compute; reflexivity). subst rs.
  assert (K1 : Forall path_proper [OCreateFile 1 10 shm_path 5000]) by (repeat constructor; apply shm_path_proper).
  assert (K2 : careful [OCreateFile 1 10 shm_path 5000]) by (intros [|? [|? ?]] ? ? ? ? X; discriminate X).
  apply (H _ _ _ _ _ _ _ _ _ _ _ _ _ _ sample_sane K1 K2 shm_path_proper E); [discriminate|reflexivity].
Qed.
(** Closing twice: the second time may close the memory of another handle that the
    kernel has put at the same address. *)
Theorem C59_second_close_harmless_refuted : ~ forall w max os h m hs rs x y z,
  sane w -> Forall path_proper os ->
  perform_all (os ++ [OGet 1 0; OClose h; OGet 1 0]) (boot w max) [] = (m, hs, rs ++ [x; y; z]) -> h <> 1%nat -> z = x.
Proof.
  intros H.
  destruct (perform_all ([OCreateKey 1 10 7 5; OClose 0; OCreateKey 1 10 8 5] ++ [OGet 1 0; OClose 0; OGet 1 0]) (boot sample_world 100) []) as [[m hs] rs] eqn:E.
  assert (Q : rs = [Opened 5; Done; Opened 5] ++ [ByteIs x00; Done; Fault]) by (change rs with (snd (m, hs, rs)); rewrite <- E; vm_compute; reflexivity). subst rs.
  assert (K1 : Forall path_proper [OCreateKey 1 10 7 5; OClose 0; OCreateKey 1 10 8 5]) by (repeat constructor).
  assert (K2 : 0%nat <> 1%nat) by discriminate.
  assert (X := H _ _ _ _ _ _ _ _ _ _ sample_sane K1 E K2). discriminate X.
Qed.
(** OpenKey reads the size of the segment from where the kernel puts it ... *)
Example C59_size_field : nth_error (offsets 0 go_ShmidDs) 1 = Some 48 /\ nth_error (offsets 0 kernel_shmid64_ds) 1 = Some 48.
Proof. split; vm_compute; reflexivity. Qed.
(** ... but what the kernel writes there is 8 bytes longer than the structure it is given. *)
Theorem C59_stat_fits_refuted : ~ size_of kernel_shmid64_ds <= size_of go_ShmidDs.
Proof. vm_compute. intros H. apply H. reflexivity. Qed.
(** A field starts at the first multiple of its alignment that is not before the end of
    the field before it. *)
Theorem C59_fields_start : forall off a, 0 < a ->
  align off a mod a = 0 /\ off <= align off a /\ forall o, o mod a = 0 -> off <= o -> align off a <= o.
Proof.
  intros off a A. unfold align. assert (Z := N.neq_0_lt_0 a). assert (N0 : a <> 0) by lia. split; [|split].
  - apply N.mod_mul; assumption.
  - assert (D := N.div_mod (off + (a - 1)) a N0). assert (B := N.mod_lt (off + (a - 1)) a N0). lia.
  - intros o M L. apply N.div_exact in M; [|assumption]. rewrite M, N.mul_comm. apply N.mul_le_mono_l.
    apply N.lt_succ_r, N.div_lt_upper_bound; [assumption|]. lia.
Qed.
Print Assumptions C59_fields_start.
(** Every field of the Go structure but the first lies exactly where the kernel puts it:
    the size, the three times, the two process numbers and the count of attachments.  The
    kernel writes the 8 bytes after the end of the Go structure, and no more. *)
Theorem C59_stat_layout :
  (forall i, (i < 9)%nat -> nth_error (offsets 0 go_ShmidDs) i = nth_error (offsets 0 kernel_shmid64_ds) i) /\
  size_of kernel_shmid64_ds = size_of go_ShmidDs + 8 /\ size_of go_ShmidDs = 104 /\
  offsets 0 go_ipc_perm = [0; 4; 8; 12; 16; 20; 22; 24; 26; 32; 40; 48] /\
  offsets 0 kernel_ipc64_perm = [0; 4; 8; 12; 16; 20; 24; 26; 32; 40; 48].
Proof.
  split; [|repeat split; vm_compute; reflexivity].
  intros i H. do 9 (destruct i as [|i]; [vm_compute; reflexivity|]). exfalso. clear - H. lia.
Qed.
Example C59_stat_sizes : size_of go_ShmidDs = 104 /\ size_of kernel_shmid64_ds = 112.
Proof. split; vm_compute; reflexivity. Qed.
Print Assumptions C59_stat_layout.
Print Assumptions C59_distinct_keys_refuted.
Print Assumptions C59_created_key_opens_refuted.
Print Assumptions C59_create_keeps_others_refuted.
Print Assumptions C59_create_kills_others_refuted.
Print Assumptions C59_second_close_harmless_refuted.
Print Assumptions C59_stat_fits_refuted.
