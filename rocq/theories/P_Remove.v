(** * Removing a board record *)
From Coq Require Import Lia ZifyBool ZifyNat ZifyN.
From Verif Require Import M_Base M_Sys M_Path M_Board M_FileOps S_World S_Path S_Store P_Base P_Sys P_Read P_FileOps P_Store P_Crash.
Open Scope N_scope.

(** ** what the copy loop makes of the content [d] after [c] bytes *)
Definition shifted (W R c : N) (d : bytes) : bytes :=
  firstn (N.to_nat W) d ++ sub R c d ++ skipn (N.to_nat (W + c)) d.

Lemma shifted_0 W R d : shifted W R 0 d = d.
Proof. unfold shifted, sub. cbn [N.to_nat firstn app]. rewrite N.add_0_r. apply firstn_skipn. Qed.

Lemma sub_cat a m n d : sub a m d ++ sub (a + m) n d = sub a (m + n) d.
Proof.
  unfold sub. replace (N.to_nat (m + n)) with (N.to_nat m + N.to_nat n)%nat by lia.
  rewrite <- (firstn_skipn (N.to_nat m) (firstn (N.to_nat m + N.to_nat n) (skipn (N.to_nat a) d))).
  rewrite firstn_firstn. replace (Nat.min (N.to_nat m) (N.to_nat m + N.to_nat n)) with (N.to_nat m) by lia.
  f_equal. rewrite skipn_firstn_comm. replace (N.to_nat m + N.to_nat n - N.to_nat m)%nat with (N.to_nat n) by lia.
  f_equal. rewrite skipn_skipn. f_equal. lia.
Qed.

Lemma write_at_mid pos x p s : length p = N.to_nat pos -> write_at pos x (p ++ s) = p ++ x ++ skipn (length x) s.
Proof.
  intros L. unfold write_at. destruct x as [|b x]; [reflexivity|]. set (y := b :: x).
  rewrite <- app_assoc, firstn_app. rewrite firstn_all2 by lia.
  replace (N.to_nat pos - length p)%nat with 0%nat by lia. cbn [firstn]. rewrite app_nil_r. f_equal. f_equal.
  rewrite skipn_app. rewrite skipn_all2 by lia. cbn [app]. f_equal. lia.
Qed.

Lemma shifted_prefix W R c d : W <= R -> R + c <= lenN d ->
  length (firstn (N.to_nat W) d ++ sub R c d) = N.to_nat (W + c).
Proof.
  intros H1 H2. rewrite app_length, firstn_length. rewrite sub_length by exact H2. unfold lenN in *. lia.
Qed.
Lemma shifted_write W R c x d : W <= R -> R + c + lenN x <= lenN d -> x = sub (R + c) (lenN x) d ->
  write_at (W + c) x (shifted W R c d) = shifted W R (c + lenN x) d.
Proof.
  intros H1 H2 Hx. unfold shifted. rewrite app_assoc.
  rewrite write_at_mid by (apply shifted_prefix; lia).
  rewrite <- !app_assoc. f_equal. rewrite app_assoc. rewrite Hx at 1. rewrite sub_cat. f_equal.
  rewrite skipn_skipn. f_equal. unfold lenN. lia.
Qed.
Lemma shifted_read W R c n d : W <= R -> R + c <= lenN d -> sub (R + c) n (shifted W R c d) = sub (R + c) n d.
Proof.
  intros H1 H2. unfold sub. f_equal. unfold shifted. rewrite app_assoc. rewrite skipn_app.
  rewrite (shifted_prefix W R c d H1 H2). rewrite skipn_all2 by (rewrite (shifted_prefix W R c d H1 H2); lia).
  cbn [app]. rewrite skipn_skipn. f_equal. lia.
Qed.
Lemma shifted_length W R c d : W <= R -> R + c <= lenN d -> lenN (shifted W R c d) = lenN d.
Proof.
  intros H1 H2. unfold shifted. rewrite app_assoc. unfold lenN at 1. rewrite app_length, (shifted_prefix W R c d H1 H2), skipn_length.
  unfold lenN in *. lia.
Qed.

(** ** worlds during the copy *)
Record fstate (w0 : world) (i : N) (D : bytes) (w : world) : Prop := {
  fs_sane : sane w;
  fs_cwd : w_cwd w = w_cwd w0;
  fs_tree : w_tree w = w_tree w0;
  fs_other : forall j, j <> i -> w_data w j = w_data w0 j;
  fs_data : w_data w i = D }.
Record cstate (w0 : world) (i fi fo : N) (D : bytes) (posi poso : N) (w : world) : Prop := {
  cs_f : fstate w0 i D w;
  cs_fi : w_fds w fi = Some (OFile (Some i) posi false true false);
  cs_fo : w_fds w fo = Some (OFile (Some i) poso false false true);
  cs_fds : forall fd, fd <> fi -> fd <> fo -> w_fds w fd = w_fds w0 fd }.

Lemma fd_bound w fd o : sane w -> w_fds w fd = Some o -> fd < w_nextfd w.
Proof. intros S F. destruct (N.lt_ge_cases fd (w_nextfd w)) as [H|H]; auto. apply (sane_fd w S) in H. congruence. Qed.

Lemma cs_read w0 i fi fo D posi poso w n : fi <> fo -> cstate w0 i fi fo D posi poso w ->
  exists w1, exec (Read fi n) w = (w1, ROk (sub posi n D)) /\
    cstate w0 i fi fo D (posi + lenN (sub posi n D)) poso w1.
Proof.
  intros NE [[S C T O DD] Fi Fo Fd]. rewrite (exec_read w fi _ i n Fi eq_refl eq_refl). cbn [of_pos of_append of_rd of_wr].
  rewrite DD. eexists. split; [reflexivity|]. constructor; [constructor|..]; cbn; auto.
  - apply sane_set_fd; auto; [eapply fd_bound; eauto|]. intros q j [= <-] Q. cbn in Q. injection Q as <-.
    exact (sane_fdi w S _ _ _ Fi eq_refl).
  - now destruct N.eq_dec.
  - destruct N.eq_dec; [congruence|exact Fo].
  - intros fd H1 H2. destruct N.eq_dec; [contradiction|auto].
Qed.
Lemma cs_write w0 i fi fo D posi poso w x : fi <> fo -> cstate w0 i fi fo D posi poso w ->
  exists w1, sys_write fo x w = (w1, ROk (lenN x)) /\
    cstate w0 i fi fo (write_at poso x D) posi (poso + lenN x) w1.
Proof.
  intros NE [[S C T O DD] Fi Fo Fd].
  pose proof (exec_write w fo _ i x Fo eq_refl eq_refl) as E. cbn [exec] in E. rewrite E. cbn [of_pos of_append of_rd of_wr].
  rewrite DD. eexists. split; [reflexivity|]. constructor; [constructor|..]; cbn; auto.
  - apply sane_set_fd; [now apply sane_set_data|cbn; eapply fd_bound; eauto|]. intros q j [= <-] Q. cbn in Q. injection Q as <-.
    cbn. exact (sane_fdi w S _ _ _ Fo eq_refl).
  - intros j Hj. destruct N.eq_dec; [contradiction|auto].
  - now destruct N.eq_dec.
  - destruct N.eq_dec; [congruence|exact Fi].
  - now destruct N.eq_dec.
  - intros fd H1 H2. destruct N.eq_dec; [contradiction|auto].
Qed.

(** the copy loop, from [c] bytes on *)
Lemma copy_loop_run chunk w0 i fi fo W R d : fi <> fo -> W <= R ->
  forall fuel k c w, R + c <= lenN d -> (N.to_nat (lenN d - (R + c)) < fuel)%nat ->
  cstate w0 i fi fo (shifted W R c d) (R + c) (W + c) w ->
  exists w1, run (copy_loop chunk fuel k fi fo) w = (w1, Ok tt) /\
    cstate w0 i fi fo (shifted W R (lenN d - R) d) (lenN d) (W + (lenN d - R)) w1.
Proof.
  intros NE HW. induction fuel as [|fuel IH]; intros k c w Hc Hf CS; [lia|].
  cbn [copy_loop run]. destruct (cs_read _ _ _ _ _ _ _ _ (N.succ (chunk k)) NE CS) as (w1 & -> & CS1).
  rewrite (shifted_read W R c _ d HW Hc) in *.
  destruct (sub (R + c) (N.succ (chunk k)) d) as [|b x] eqn:E.
  - assert (R + c = lenN d) as Hend.
    { destruct (N.eq_dec (R + c) (lenN d)) as [|Q]; auto. exfalso.
      apply (f_equal (@length byte)) in E. unfold sub in E. rewrite firstn_length, skipn_length in E.
      unfold lenN in *. cbn [length] in E. lia. }
    exists w1. split; [reflexivity|]. change (lenN []) with 0 in CS1. rewrite N.add_0_r in CS1.
    replace (lenN d - R) with c by lia. rewrite <- Hend. exact CS1.
  - assert (Lx : R + c + lenN (b :: x) <= lenN d /\ b :: x = sub (R + c) (lenN (b :: x)) d /\ 0 < lenN (b :: x)).
    { rewrite <- E. unfold sub, lenN. rewrite firstn_length, skipn_length. unfold lenN in Hc. split; [lia|]. split.
      - apply (f_equal (@length byte)) in E. unfold sub in E. rewrite firstn_length, skipn_length in E. cbn [length] in E.
        rewrite Nat2N.id.
        destruct (Nat.le_ge_cases (N.to_nat (N.succ (chunk k))) (length d - N.to_nat (R + c))) as [Q|Q].
        + now rewrite Nat.min_l by exact Q.
        + rewrite Nat.min_r by exact Q. rewrite !firstn_all2; auto; rewrite skipn_length; lia.
      - apply (f_equal (@length byte)) in E. unfold sub in E. rewrite firstn_length, skipn_length in E. cbn [length] in E. lia. }
    destruct Lx as (L1 & L2 & L3). set (y := b :: x) in *.
    cbn [run exec]. destruct (cs_write _ _ _ _ _ _ _ _ y NE CS1) as (w2 & -> & CS2).
    rewrite (shifted_write W R c y d HW L1 L2) in CS2.
    rewrite <- !N.add_assoc in CS2.
    apply (IH (S k) (c + lenN y) w2); [lia|lia|exact CS2].
Qed.

(** crash points of the loop *)
Lemma copy_loop_crash {A} chunk w0 i fi fo W R d (K : outcome unit -> prog A) : fi <> fo -> W <= R ->
  forall fuel k c w w', R + c <= lenN d -> (N.to_nat (lenN d - (R + c)) < fuel)%nat ->
  cstate w0 i fi fo (shifted W R c d) (R + c) (W + c) w ->
  crash (bind (copy_loop chunk fuel k fi fo) K) w w' ->
  (exists c', R + c' <= lenN d /\ fstate w0 i (shifted W R c' d) w') \/
  (exists w1, cstate w0 i fi fo (shifted W R (lenN d - R) d) (lenN d) (W + (lenN d - R)) w1 /\ crash (K (Ok tt)) w1 w').
Proof.
  intros NE HW. induction fuel as [|fuel IH]; intros k c w w' Hc Hf CS C; [lia|].
  cbn [copy_loop bind crash] in C. destruct C as [->|[[]|C]].
  { left. exists c. split; [exact Hc|apply CS]. }
  destruct (cs_read _ _ _ _ _ _ _ _ (N.succ (chunk k)) NE CS) as (w1 & E1 & CS1). rewrite E1 in C.
  rewrite (shifted_read W R c _ d HW Hc) in *.
  destruct (sub (R + c) (N.succ (chunk k)) d) as [|b x] eqn:E.
  - assert (R + c = lenN d) as Hend.
    { destruct (N.eq_dec (R + c) (lenN d)) as [|Q]; auto. exfalso.
      apply (f_equal (@length byte)) in E. unfold sub in E. rewrite firstn_length, skipn_length in E.
      unfold lenN in *. cbn [length] in E. lia. }
    right. exists w1. change (lenN []) with 0 in CS1. rewrite N.add_0_r in CS1.
    replace (lenN d - R) with c by lia. rewrite <- Hend. split; [exact CS1|exact C].
  - assert (Lx : R + c + lenN (b :: x) <= lenN d /\ b :: x = sub (R + c) (lenN (b :: x)) d /\ 0 < lenN (b :: x)).
    { rewrite <- E. unfold sub, lenN. rewrite firstn_length, skipn_length. unfold lenN in Hc. split; [lia|]. split.
      - apply (f_equal (@length byte)) in E. unfold sub in E. rewrite firstn_length, skipn_length in E. cbn [length] in E.
        rewrite Nat2N.id.
        destruct (Nat.le_ge_cases (N.to_nat (N.succ (chunk k))) (length d - N.to_nat (R + c))) as [Q|Q].
        + now rewrite Nat.min_l by exact Q.
        + rewrite Nat.min_r by exact Q. rewrite !firstn_all2; auto; rewrite skipn_length; lia.
      - apply (f_equal (@length byte)) in E. unfold sub in E. rewrite firstn_length, skipn_length in E. cbn [length] in E. lia. }
    destruct Lx as (L1 & L2 & L3). set (y := b :: x) in *.
    change (match y with [] => Ret (Ok tt) | _ :: _ => Call (Write fo y) (fun r => match r with ROk _ => copy_loop chunk fuel (S k) fi fo | RErr e => Ret (Err (ESys e)) end) end)
      with (Call (Write fo y) (fun r => match r with ROk _ => copy_loop chunk fuel (S k) fi fo | RErr e => Ret (Err (ESys e)) end)) in C.
    cbn [bind crash] in C. destruct C as [->|[(n & ->)|C]].
    + left. exists c. split; [exact Hc|apply CS1].
    + (* a partial write *)
      set (m := Nat.min n (length y)).
      assert (Ly : lenN (firstn n y) = N.of_nat m). { unfold lenN. rewrite firstn_length. reflexivity. }
      destruct (cs_write _ _ _ _ _ _ _ _ (firstn n y) NE CS1) as (w2 & -> & CS2). cbn [fst].
      left. exists (c + N.of_nat m). split; [unfold lenN in *; lia|].
      rewrite shifted_write in CS2; [rewrite Ly in CS2; apply CS2|exact HW|unfold lenN in *; lia|].
      rewrite Ly. rewrite L2 at 1. unfold sub. rewrite firstn_firstn. f_equal. subst m. unfold lenN. lia.
    + cbn [exec] in C. destruct (cs_write _ _ _ _ _ _ _ _ y NE CS1) as (w2 & E2 & CS2). rewrite E2 in C.
      rewrite (shifted_write W R c y d HW L1 L2) in CS2.
      rewrite <- !N.add_assoc in CS2.
      apply (IH (S k) (c + lenN y) w2); [lia|lia|exact CS2|exact C].
Qed.

(** opening both descriptors and seeking *)
Definition remove_tail (chunk : nat -> N) (fuel : nat) (fi fo : N) : prog (outcome unit) :=
  let close_both (o : outcome unit) := Call (Close fo) (fun _ => Call (Close fi) (fun _ => Ret o)) in
  bind (copy_loop chunk fuel 0 fi fo) (fun o =>
  match o with
  | Err e => close_both (Err e)
  | Panic => Ret Panic
  | Diverge => Ret Diverge
  | Ok _ =>
  Call (SeekCur0 fo) (fun r =>
  match r with
  | RErr e => close_both (Err (ESys e))
  | ROk size =>
  Call (Ftruncate fo size) (fun _ => close_both (Ok tt))
  end)
  end).

(** the state after opening and seeking *)
Lemma remove_opened w path rp d i : sane w -> names w path rp -> look w rp = Some (EFile d) ->
  w_tree w rp = Some (NFile i) ->
  exists w1 w2, exec (Open path O_RDONLY) w = (w1, ROk (w_nextfd w)) /\ fstate w i d w1 /\
    exec (Open path O_WRONLY) w1 = (w2, ROk (N.succ (w_nextfd w))) /\
    cstate w i (w_nextfd w) (N.succ (w_nextfd w)) d 0 0 w2.
Proof.
  intros S N L T.
  destruct (open_existing w path O_RDONLY rp d N L eq_refl) as (i' & T' & D & E).
  rewrite T in T'. injection T' as <-. cbn [o_trunc O_RDONLY o_append o_rd o_wr] in E.
  set (w1 := bump_fd _) in E. exists w1.
  assert (S1 : sane w1). { apply sane_new_fd; auto. cbn. intros j [= <-]. eapply sane_ino; eauto. }
  assert (N1 : names w1 path rp). { destruct N. split; auto. }
  destruct (open_existing w1 path O_WRONLY rp d N1 L eq_refl) as (i' & T' & D' & E').
  change (w_tree w1) with (w_tree w) in T'. rewrite T in T'. injection T' as <-. cbn [o_trunc O_WRONLY o_append o_rd o_wr] in E'.
  set (w2 := bump_fd _) in E'. exists w2. split; [exact E|]. split; [constructor; auto|]. split; [exact E'|].
  constructor; [constructor|..]; auto.
  - apply sane_new_fd; auto. cbn. intros j [= <-]. eapply sane_ino; eauto.
  - cbn. destruct N.eq_dec; [lia|]. now destruct N.eq_dec.
  - cbn. now destruct N.eq_dec.
  - intros fd H1 H2. cbn. destruct N.eq_dec; [contradiction|]. destruct N.eq_dec; [contradiction|reflexivity].
Qed.

Lemma cs_seek_i w0 i fi fo D posi poso w off : fi <> fo -> cstate w0 i fi fo D posi poso w -> (0 <= off)%Z ->
  exists w1, exec (SeekSet fi off) w = (w1, ROk (Z.to_N off)) /\ cstate w0 i fi fo D (Z.to_N off) poso w1.
Proof.
  intros NE [[S C T O DD] Fi Fo Fd] H. cbn [exec]. unfold sys_seek_set. rewrite Fi.
  destruct (Z.ltb_spec off 0); [lia|]. cbn [of_ino of_append of_rd of_wr].
  eexists. split; [reflexivity|]. constructor; [constructor|..]; cbn; auto.
  - apply sane_set_fd; auto; [eapply fd_bound; eauto|]. intros q j [= <-] Q. cbn in Q. injection Q as <-.
    exact (sane_fdi w S _ _ _ Fi eq_refl).
  - now destruct N.eq_dec.
  - destruct N.eq_dec; [congruence|exact Fo].
  - intros fd H1 H2. destruct N.eq_dec; [contradiction|auto].
Qed.
Lemma cs_seek_o w0 i fi fo D posi poso w off : fi <> fo -> cstate w0 i fi fo D posi poso w -> (0 <= off)%Z ->
  exists w1, exec (SeekSet fo off) w = (w1, ROk (Z.to_N off)) /\ cstate w0 i fi fo D posi (Z.to_N off) w1.
Proof.
  intros NE [[S C T O DD] Fi Fo Fd] H. cbn [exec]. unfold sys_seek_set. rewrite Fo.
  destruct (Z.ltb_spec off 0); [lia|]. cbn [of_ino of_append of_rd of_wr].
  eexists. split; [reflexivity|]. constructor; [constructor|..]; cbn; auto.
  - apply sane_set_fd; auto; [eapply fd_bound; eauto|]. intros q j [= <-] Q. cbn in Q. injection Q as <-.
    exact (sane_fdi w S _ _ _ Fo eq_refl).
  - destruct N.eq_dec; [congruence|exact Fi].
  - now destruct N.eq_dec.
  - intros fd H1 H2. destruct N.eq_dec; [contradiction|auto].
Qed.

(** closing both *)
Lemma cs_close w0 i fi fo D posi poso w : sane w0 -> w_fds w0 fi = None -> w_fds w0 fo = None ->
  cstate w0 i fi fo D posi poso w ->
  fstate w0 i D (set_fd (set_fd w fo None) fi None) /\ same_fds w0 (set_fd (set_fd w fo None) fi None).
Proof.
  intros S0 Ni No [[S C T O DD] Fi Fo Fd]. split.
  - constructor; auto. now apply sane_close, sane_close.
  - intros fd. cbn. destruct N.eq_dec; [congruence|]. destruct N.eq_dec; [congruence|]. auto.
Qed.

Lemma fs_look w0 i D w rp : sane w0 -> w_tree w0 rp = Some (NFile i) -> rp <> [] -> fstate w0 i D w ->
  look w rp = Some (EFile D) /\ same_else rp w0 w.
Proof.
  intros S0 T Nr [S C T' O DD]. split.
  - unfold look. destruct rp; [contradiction|]. rewrite T', T, DD. reflexivity.
  - split; [exact C|]. intros q Hq. unfold look. destruct q as [|h q]; [reflexivity|]. rewrite T'.
    destruct (w_tree w0 (h :: q)) as [[|j]|] eqn:E; auto. rewrite O; [reflexivity|].
    intros ->. apply Hq. exact (sane_inj w0 S0 _ _ _ E T).
Qed.

Lemma cs_tail w0 i fi fo D posi poso w : sane w0 -> fi <> fo -> w_fds w0 fi = None -> w_fds w0 fo = None ->
  cstate w0 i fi fo D posi poso w ->
  exists w3, run (Call (SeekCur0 fo) (fun r =>
    match r with
    | RErr e => Call (Close fo) (fun _ => Call (Close fi) (fun _ => Ret (Err (ESys e))))
    | ROk size => Call (Ftruncate fo size) (fun _ => Call (Close fo) (fun _ => Call (Close fi) (fun _ => Ret (Ok tt))))
    end)) w = (w3, Ok tt) /\ fstate w0 i (truncate_to poso D) w3 /\ same_fds w0 w3.
Proof.
  intros S0 NE Ni No CS. pose proof CS as [[S C T O DD] Fi Fo Fd].
  cbn [run exec]. unfold sys_seek_cur0. rewrite Fo. cbn [run exec of_pos]. unfold sys_ftruncate. rewrite Fo. cbn [of_ino of_wr run exec].
  rewrite DD. set (w1 := set_data w i (truncate_to poso D)).
  assert (CS1 : cstate w0 i fi fo (truncate_to poso D) posi poso w1).
  { subst w1. constructor; [constructor|..]; cbn; auto.
    - now apply sane_set_data.
    - intros j Hj. destruct N.eq_dec; [contradiction|auto].
    - now destruct N.eq_dec. }
  eexists. split; [reflexivity|]. now apply cs_close in CS1.
Qed.

(** ** the whole call for indices with representable offsets *)
Definition removed (i : N) (d : bytes) : bytes :=
  if (i + 1) * 256 <=? lenN d then firstn (N.to_nat (i * 256)) d ++ skipn (N.to_nat ((i + 1) * 256)) d
  else truncate_to (i * 256) d.

Lemma shifted_end W R d : W <= R -> R <= lenN d ->
  truncate_to (W + (lenN d - R)) (shifted W R (lenN d - R) d) = firstn (N.to_nat W) d ++ skipn (N.to_nat R) d.
Proof.
  intros H1 H2. unfold truncate_to. rewrite shifted_length by lia.
  replace (W + (lenN d - R) - lenN d) with 0 by lia. cbn [zeros N.to_nat repeat]. rewrite app_nil_r.
  unfold shifted. rewrite app_assoc, firstn_app.
  rewrite shifted_prefix by lia. rewrite firstn_all2 by (rewrite shifted_prefix by lia; lia).
  replace (N.to_nat (W + (lenN d - R)) - N.to_nat (W + (lenN d - R)))%nat with 0%nat by lia. cbn [firstn].
  rewrite app_nil_r. f_equal. unfold sub. apply firstn_all2. rewrite skipn_length. unfold lenN. lia.
Qed.

Lemma copy_loop_eof chunk w0 i fi fo D posi poso w fuel : fi <> fo -> lenN D <= posi ->
  cstate w0 i fi fo D posi poso w ->
  exists w1, run (copy_loop chunk (S fuel) 0 fi fo) w = (w1, Ok tt) /\ cstate w0 i fi fo D posi poso w1.
Proof.
  intros NE H CS. cbn [copy_loop run]. destruct (cs_read _ _ _ _ _ _ _ _ (N.succ (chunk 0%nat)) NE CS) as (w1 & -> & CS1).
  assert (sub posi (N.succ (chunk 0%nat)) D = []) as E.
  { unfold sub. rewrite skipn_all2 by (unfold lenN in H; lia). now rewrite firstn_nil. }
  rewrite E in *. exists w1. split; [reflexivity|]. change (lenN []) with 0 in CS1. now rewrite N.add_0_r in CS1.
Qed.

Lemma index_offsets (i : N) : i < 2 ^ 54 ->
  i64 (i64 (Z.of_N i + 1) * 256) = Z.of_N ((i + 1) * 256) /\ i64 (Z.of_N i * 256) = Z.of_N (i * 256).
Proof.
  intros H. rewrite (i64_id (Z.of_N i + 1)) by lia. rewrite !i64_id by lia. lia.
Qed.

Lemma remove_run chunk w path rp d (i : N) fuel :
  sane w -> names w path rp -> look w rp = Some (EFile d) -> i < 2 ^ 54 -> (length d < fuel)%nat ->
  exists w', run (RemoveBoardHeaderFileRecord chunk fuel path (Z.of_N i)) w = (w', Ok tt) /\
    sane w' /\ same_but rp w w' /\ look w' rp = Some (EFile (removed i d)).
Proof.
  intros S N L Hi Hf. destruct (look_file _ _ _ L) as (ino & T & D & Nr).
  destruct (remove_opened w path rp d ino S N L T) as (w1 & w2 & E1 & FS1 & E2 & CS2).
  set (fi := w_nextfd w) in *. set (fo := N.succ fi) in *.
  assert (NE : fi <> fo) by (subst fo; lia).
  assert (Ni : w_fds w fi = None) by (apply (sane_fd w S); subst fi; lia).
  assert (No : w_fds w fo = None) by (apply (sane_fd w S); subst fo fi; lia).
  destruct (index_offsets i Hi) as [O1 O2].
  unfold RemoveBoardHeaderFileRecord. cbn [run]. rewrite E1. cbn [run]. rewrite E2. cbn [run]. rewrite O1, O2.
  destruct (cs_seek_i _ _ _ _ _ _ _ _ (Z.of_N ((i + 1) * 256)) NE CS2) as (w3 & -> & CS3); [lia|].
  cbn [run]. destruct (cs_seek_o _ _ _ _ _ _ _ _ (Z.of_N (i * 256)) NE CS3) as (w4 & -> & CS4); [lia|].
  rewrite !N2Z.id in CS4. rewrite run_bind.
  assert (K : exists w5 D' posi, run (copy_loop chunk fuel 0 fi fo) w4 = (w5, Ok tt) /\
     exists poso, cstate w ino fi fo D' posi poso w5 /\ truncate_to poso D' = removed i d).
  { unfold removed. destruct (N.leb_spec ((i + 1) * 256) (lenN d)) as [Q|Q].
    - destruct (copy_loop_run chunk w ino fi fo (i * 256) ((i + 1) * 256) d NE ltac:(lia) fuel 0 0 w4) as (w5 & R5 & CS5).
      + lia.
      + unfold lenN. lia.
      + rewrite shifted_0, !N.add_0_r. exact CS4.
      + eexists w5, _, _. split; [exact R5|]. eexists. split; [exact CS5|]. apply shifted_end; lia.
    - destruct fuel as [|fuel]; [lia|].
      destruct (copy_loop_eof chunk w ino fi fo d ((i + 1) * 256) (i * 256) w4 fuel NE ltac:(lia) CS4) as (w5 & R5 & CS5).
      eexists w5, _, _. split; [exact R5|]. eexists. split; [exact CS5|]. reflexivity. }
  destruct K as (w5 & D' & posi & R5 & poso & CS5 & TR). rewrite R5.
  destruct (cs_tail w ino fi fo D' posi poso w5 S NE Ni No CS5) as (w6 & R6 & FS6 & SF).
  exists w6. split; [exact R6|]. rewrite TR in FS6.
  destruct (fs_look w ino _ w6 rp S T Nr FS6) as [L6 [C6 F6]].
  split; [apply FS6|]. split; [split; [exact C6|split; [exact F6|exact SF]]|exact L6].
Qed.

(** negative indices are refused *)
Lemma remove_negative chunk w path rp d (i : Z) fuel :
  sane w -> names w path rp -> look w rp = Some (EFile d) -> (- 2 ^ 55 <= i < 0)%Z ->
  exists w', run (RemoveBoardHeaderFileRecord chunk fuel path i) w = (w', Err (ESys EINVAL)) /\
    sane w' /\ same_but rp w w' /\ look w' rp = Some (EFile d).
Proof.
  intros S N L Hi. destruct (look_file _ _ _ L) as (ino & T & D & Nr).
  destruct (remove_opened w path rp d ino S N L T) as (w1 & w2 & E1 & FS1 & E2 & CS2).
  set (fi := w_nextfd w) in *. set (fo := N.succ fi) in *.
  assert (NE : fi <> fo) by (subst fo; lia).
  assert (Ni : w_fds w fi = None) by (apply (sane_fd w S); subst fi; lia).
  assert (No : w_fds w fo = None) by (apply (sane_fd w S); subst fo fi; lia).
  assert (O1 : i64 (i64 (i + 1) * 256) = ((i + 1) * 256)%Z) by (rewrite (i64_id (i + 1)) by lia; rewrite i64_id; lia).
  assert (O2 : i64 (i * 256) = (i * 256)%Z) by (rewrite i64_id; lia).
  unfold RemoveBoardHeaderFileRecord. cbn [run]. rewrite E1. cbn [run]. rewrite E2. cbn [run]. rewrite O1, O2.
  assert (Fin : forall posi poso wx, cstate w ino fi fo d posi poso wx ->
    let w' := set_fd (set_fd wx fo None) fi None in sane w' /\ same_but rp w w' /\ look w' rp = Some (EFile d)).
  { intros posi poso wx CS. destruct (cs_close w ino fi fo d posi poso wx S Ni No CS) as [FS SF].
    destruct (fs_look w ino _ _ rp S T Nr FS) as [L6 [C6 F6]].
    split; [apply FS|]. split; [split; [exact C6|split; [exact F6|exact SF]]|exact L6]. }
  destruct (Z.eq_dec i (-1)) as [->|Hn].
  - destruct (cs_seek_i _ _ _ _ _ _ _ _ ((-1 + 1) * 256) NE CS2) as (w3 & -> & CS3); [lia|].
    cbn [run exec]. unfold sys_seek_set. rewrite (cs_fo _ _ _ _ _ _ _ _ CS3).
    change (-1 * 256 <? 0)%Z with true. cbn [run exec]. eexists. split; [reflexivity|]. eapply Fin; eauto.
  - cbn [exec]. unfold sys_seek_set at 1. rewrite (cs_fi _ _ _ _ _ _ _ _ CS2).
    destruct (Z.ltb_spec ((i + 1) * 256) 0); [|lia]. cbn [run exec]. eexists. split; [reflexivity|]. eapply Fin; eauto.
Qed.

(** ** crashes *)
Lemma remove_crash chunk w path rp d (i : N) fuel w' :
  sane w -> names w path rp -> look w rp = Some (EFile d) -> (i + 1) * 256 <= lenN d -> lenN d < 2 ^ 62 ->
  (length d < fuel)%nat ->
  crash (RemoveBoardHeaderFileRecord chunk fuel path (Z.of_N i)) w w' ->
  sane w' /\ same_else rp w w' /\
  ((exists c, (i + 1) * 256 + c <= lenN d /\ look w' rp = Some (EFile (shifted (i * 256) ((i + 1) * 256) c d))) \/
   look w' rp = Some (EFile (removed i d))).
Proof.
  intros S N L Hi HL Hf C. destruct (look_file _ _ _ L) as (ino & T & D & Nr).
  destruct (remove_opened w path rp d ino S N L T) as (w1 & w2 & E1 & FS1 & E2 & CS2).
  set (fi := w_nextfd w) in *. set (fo := N.succ fi) in *.
  assert (NE : fi <> fo) by (subst fo; lia).
  assert (Ni : w_fds w fi = None) by (apply (sane_fd w S); subst fi; lia).
  assert (No : w_fds w fo = None) by (apply (sane_fd w S); subst fo fi; lia).
  destruct (index_offsets i) as [O1 O2]; [lia|].
  assert (Fin : forall wx c, (i + 1) * 256 + c <= lenN d -> fstate w ino (shifted (i * 256) ((i + 1) * 256) c d) wx ->
    sane wx /\ same_else rp w wx /\
    ((exists c, (i + 1) * 256 + c <= lenN d /\ look wx rp = Some (EFile (shifted (i * 256) ((i + 1) * 256) c d))) \/
     look wx rp = Some (EFile (removed i d)))).
  { intros wx c Hc FS. destruct (fs_look w ino _ _ rp S T Nr FS) as [L6 SE].
    split; [apply FS|]. split; [exact SE|]. left. exists c. auto. }
  assert (FinR : forall wx, fstate w ino (removed i d) wx ->
    sane wx /\ same_else rp w wx /\
    ((exists c, (i + 1) * 256 + c <= lenN d /\ look wx rp = Some (EFile (shifted (i * 256) ((i + 1) * 256) c d))) \/
     look wx rp = Some (EFile (removed i d)))).
  { intros wx FS. destruct (fs_look w ino _ _ rp S T Nr FS) as [L6 SE].
    split; [apply FS|]. split; [exact SE|]. now right. }
  assert (FS0 : fstate w ino (shifted (i * 256) ((i + 1) * 256) 0 d) w).
  { rewrite shifted_0. constructor; auto. }
  unfold RemoveBoardHeaderFileRecord in C. cbn [crash] in C.
  destruct C as [->|[[]|C]]; [apply (Fin w 0); [lia|exact FS0]|].
  rewrite E1 in C. cbn [crash] in C.
  destruct C as [->|[[]|C]]; [apply (Fin w1 0); [lia|rewrite shifted_0; exact FS1]|].
  rewrite E2 in C. cbn [crash] in C. rewrite O1, O2 in C.
  destruct C as [->|[[]|C]]; [apply (Fin w2 0); [lia|rewrite shifted_0; apply CS2]|].
  destruct (cs_seek_i _ _ _ _ _ _ _ _ (Z.of_N ((i + 1) * 256)) NE CS2) as (w3 & E3 & CS3); [lia|].
  rewrite E3 in C. cbn [crash] in C.
  destruct C as [->|[[]|C]]; [apply (Fin w3 0); [lia|rewrite shifted_0; apply CS3]|].
  destruct (cs_seek_o _ _ _ _ _ _ _ _ (Z.of_N (i * 256)) NE CS3) as (w4 & E4 & CS4); [lia|].
  rewrite E4 in C. rewrite !N2Z.id in CS4.
  apply (copy_loop_crash chunk w ino fi fo (i * 256) ((i + 1) * 256) d _ NE ltac:(lia) fuel 0 0 w4) in C.
  - destruct C as [(c & Hc & FS)|(w5 & CS5 & C)]; [exact (Fin w' c Hc FS)|].
    assert (F5 : fstate w ino (shifted (i * 256) ((i + 1) * 256) (lenN d - (i + 1) * 256) d) w5) by apply CS5.
    pose proof CS5 as [[S5 C5 T5 O5 D5] Fi5 Fo5 Fd5].
    cbn [crash exec] in C. unfold sys_seek_cur0 in C. rewrite Fo5 in C. cbn [of_pos] in C.
    destruct C as [->|[[]|C]]; [apply (Fin w5 (lenN d - (i + 1) * 256)); [lia|exact F5]|].
    cbn [crash exec] in C. unfold sys_ftruncate in C. rewrite Fo5 in C. cbn [of_ino of_wr] in C.
    destruct C as [->|[[]|C]]; [apply (Fin w5 (lenN d - (i + 1) * 256)); [lia|exact F5]|].
    rewrite D5, shifted_end in C by lia. set (w6 := set_data w5 ino _) in C.
    assert (F6 : fstate w ino (removed i d) w6).
    { unfold removed. destruct (N.leb_spec ((i + 1) * 256) (lenN d)); [|lia].
      subst w6. constructor; cbn; auto.
      - now apply sane_set_data.
      - intros j Hj. destruct N.eq_dec; [contradiction|auto].
      - now destruct N.eq_dec. }
    cbn [crash exec] in C. destruct C as [->|[[]|C]]; [now apply FinR|].
    destruct C as [->|[[]|C]].
    + apply FinR. destruct F6 as [A1 A2 A3 A4 A5]. constructor; auto. now apply sane_close.
    + destruct C as [->|[]]. apply FinR. destruct F6 as [A1 A2 A3 A4 A5]. constructor; auto. now apply sane_close, sane_close.
  - lia.
  - unfold lenN. lia.
  - rewrite shifted_0, !N.add_0_r. exact CS4.
Qed.
