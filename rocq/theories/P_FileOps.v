(** * Lemmas about the file operations: update, listing with any fuel *)
From Coq Require Import Lia ZifyBool ZifyNat ZifyN.
From Verif Require Import M_Base M_Sys M_Path M_File M_Board M_FileOps M_DB.
From Verif Require Import S_World S_Path S_Layout S_File S_BoardList.
From Verif Require Import P_Base P_Layout P_Records P_Sys P_Read P_Path.
Open Scope N_scope.

Lemma i64_id z : (- 2 ^ 63 <= z < 2 ^ 63)%Z -> i64 z = z.
Proof. intros H. apply sgn_id; lia. Qed.

Lemma update_offset i : i < 2 ^ 56 -> i64 (i64 (Z.of_N i) * 128) = Z.of_N (i * 128).
Proof. intros H. rewrite (i64_id (Z.of_N i)) by lia. rewrite i64_id; lia. Qed.

(** ** seek and write *)
Lemma update_file cd p i f w rp d :
  i < 2 ^ 56 -> sane w -> names w p rp -> look w rp = Some (EFile d) ->
  exists w', run (UpdateFileHeaderFileRecord cd p i f) w = (w', Ok tt) /\ sane w' /\ same_but rp w w' /\
    look w' rp = Some (EFile (write_at (i * 128) (MarshalToByte cd f) d)).
Proof.
  intros Hi S N L.
  destruct (open_existing w p O_WRONLY rp d N L eq_refl) as (j & T & D & E).
  pose proof (look_file _ _ _ L) as (_ & _ & _ & Nn).
  unfold UpdateFileHeaderFileRecord. cbn [run]. rewrite E. cbn [run O_WRONLY o_trunc o_append o_rd o_wr].
  rewrite update_offset by exact Hi.
  assert (I0 : j < w_nexti w) by (eapply sane_ino; eauto).
  set (w1 := bump_fd _).
  assert (S1 : sane w1) by (apply sane_new_fd; auto; cbn; intros k [= <-]; exact I0).
  cbn [exec]. unfold sys_seek_set.
  assert (w_fds w1 (w_nextfd w) = Some (OFile (Some j) 0 false false true)) as ->.
  { cbn. now destruct N.eq_dec. }
  assert ((Z.of_N (i * 128) <? 0)%Z = false) as -> by lia. rewrite N2Z.id.
  cbn [of_ino of_append of_rd of_wr].
  set (w2 := set_fd w1 _ _).
  assert (S2 : sane w2). { apply sane_set_fd; auto; [cbn; lia|]. intros q k [= <-] [= <-]. exact I0. }
  assert (G : w_fds w2 (w_nextfd w) = Some (OFile (Some j) (i * 128) false false true)).
  { cbn. now destruct N.eq_dec. }
  cbn [run].
  pose proof (exec_write w2 _ _ j (MarshalToByte cd f) G eq_refl eq_refl) as EW. rewrite EW. clear EW.
  cbn [of_append of_pos of_rd of_wr run exec].
  assert (w_data w2 j = d) as -> by exact D.
  eexists. split; [reflexivity|]. split; [|split; [split; [|split]|]].
  - apply sane_close. apply sane_set_fd; [now apply sane_set_data|cbn; lia|].
    intros q k [= <-] [= <-]. exact I0.
  - reflexivity.
  - intros q Hq. rewrite !look_set_fd. rewrite look_set_data_other with (rp := rp); auto.
  - intros fd. cbn. destruct (N.eq_dec fd (w_nextfd w)) as [->|Q]; [|reflexivity]. symmetry. apply S. lia.
  - rewrite !look_set_fd. now apply look_set_data.
Qed.
Lemma update_missing cd p i f w rp :
  names w p rp -> look w rp = None -> run (UpdateFileHeaderFileRecord cd p i f) w = (w, Err (ESys (missing w rp))).
Proof.
  intros N L. unfold UpdateFileHeaderFileRecord. cbn [run]. rewrite (open_missing w p O_WRONLY rp N L); auto.
Qed.

(** ** The reading loop gives the same answer for every sufficient fuel *)
Lemma read_loop_mono {A} size (decode : bytes -> outcome A) strict closes :
  forall fuel fuel' w fd acc w' a,
  (fuel <= fuel')%nat -> run (read_loop size decode strict closes fuel fd acc) w = (w', a) -> a <> Diverge ->
  run (read_loop size decode strict closes fuel' fd acc) w = (w', a).
Proof.
  induction fuel as [|fuel IH]; intros fuel' w fd acc w' a Hf R Na.
  - cbn in R. injection R as <- <-. contradiction.
  - destruct fuel' as [|fuel']; [lia|]. cbn [read_loop run] in R |- *.
    destruct (exec (Read fd size) w) as [w1 r].
    destruct r as [[|b d]|e].
    + exact R.
    + destruct (decode (fill size (b :: d))); try exact R. apply IH; auto. lia.
    + destruct strict; [exact R|]. destruct (decode (fill size [])); try exact R. apply IH; auto. lia.
Qed.
Lemma open_records_mono {A} size (decode : bytes -> outcome A) strict closes fuel fuel' p w w' a :
  (fuel <= fuel')%nat -> run (open_records size decode strict closes fuel p) w = (w', a) -> a <> Diverge ->
  run (open_records size decode strict closes fuel' p) w = (w', a).
Proof.
  intros Hf R Na. unfold open_records in *. cbn [run] in *. destruct (exec _ w) as [w1 [fd|e]]; [|exact R].
  eapply read_loop_mono; eauto.
Qed.

Definition mono {A} (p : nat -> prog (outcome A)) : Prop :=
  forall fuel fuel' w w' a, (fuel <= fuel')%nat -> run (p fuel) w = (w', a) -> a <> Diverge ->
  run (p fuel') w = (w', a).
Lemma mono_const {A} (p : prog (outcome A)) : mono (fun _ => p).
Proof. intros fuel fuel' w w' a _ R _. exact R. Qed.
Lemma mono_pbind {A B} (p : nat -> prog (outcome A)) (k : nat -> A -> prog (outcome B)) :
  mono p -> (forall a, mono (fun n => k n a)) -> mono (fun n => pbind (p n) (k n)).
Proof.
  intros Hp Hk fuel fuel' w w' a L R N. rewrite run_pbind in *.
  destruct (run (p fuel) w) as [w1 o] eqn:E.
  destruct o as [x|e| |].
  - rewrite (Hp _ _ _ _ _ L E) by discriminate. exact (Hk x _ _ _ _ _ L R N).
  - rewrite (Hp _ _ _ _ _ L E) by discriminate. exact R.
  - rewrite (Hp _ _ _ _ _ L E) by discriminate. exact R.
  - injection R as <- <-. contradiction.
Qed.
Lemma returns_unique {A} (p : nat -> prog (outcome A)) w w1 w2 a1 a2 :
  mono p -> returns p w w1 a1 -> returns p w w2 a2 -> w1 = w2 /\ a1 = a2.
Proof.
  intros M (N1 & f1 & R1) (N2 & f2 & R2).
  destruct (Nat.le_ge_cases f1 f2) as [L|L].
  - apply (M _ _ _ _ _ L) in R1; auto. rewrite R1 in R2. injection R2 as -> ->. auto.
  - apply (M _ _ _ _ _ L) in R2; auto. rewrite R1 in R2. injection R2 as -> ->. auto.
Qed.

Lemma mono_list_board cd wd b : mono (fun n => ReadBoardArticleRecordsFile cd n wd b).
Proof.
  unfold ReadBoardArticleRecordsFile. apply (mono_pbind (fun _ => lift _)); [apply mono_const|]. intros p.
  intros fuel fuel' w w' a L R N. rewrite run_bind in *. unfold OpenFileHeaderFile in *.
  destruct (run (open_records _ _ _ _ fuel p) w) as [w1 o] eqn:E.
  destruct o as [x|e| |].
  - rewrite (open_records_mono _ _ _ _ _ _ _ _ _ _ L E) by discriminate. exact R.
  - rewrite (open_records_mono _ _ _ _ _ _ _ _ _ _ L E) by discriminate. exact R.
  - rewrite (open_records_mono _ _ _ _ _ _ _ _ _ _ L E) by discriminate. exact R.
  - injection R as <- <-. contradiction.
Qed.

(** ** Writing at record boundaries *)
Lemma write_at_slot : forall i x (l : list bytes),
  Forall (fun s => length s = 128%nat) l -> length x = 128%nat ->
  write_at (N.of_nat i * 128) x (concat l) = concat (set_at (zeros 128) i x l).
Proof.
  intros i x l F. revert i x. induction F as [|s l Hs Hl IH]; intros i x Hx.
  - cbn [concat]. 
    assert (G : forall i, concat (set_at (zeros 128) i x []) = zeros (N.of_nat i * 128) ++ x).
    { clear. induction i as [|i IH]; [cbn; now rewrite app_nil_r|].
      cbn [set_at concat]. rewrite IH, app_assoc, <- zeros_add. f_equal. f_equal. lia. }
    rewrite G. unfold write_at. destruct x; [discriminate|].
    rewrite lenN_nil, N.sub_0_r. cbn [app].
    rewrite firstn_all2 by (rewrite zeros_length; lia). now rewrite skipn_nil, app_nil_r.
  - destruct i as [|i].
    + cbn [set_at concat N.of_nat N.mul]. rewrite write_at_0. f_equal.
      rewrite skipn_app, skipn_all2 by lia. cbn. replace (length x - length s)%nat with 0%nat by lia. reflexivity.
    + cbn [set_at concat]. rewrite <- (IH i x Hx).
      unfold write_at. destruct x as [|c x']; [discriminate|]. set (X := c :: x') in *.
      replace (N.to_nat (N.of_nat (S i) * 128)) with (length s + N.to_nat (N.of_nat i * 128))%nat by lia.
      replace (N.of_nat (S i) * 128 - lenN (s ++ concat l)) with (N.of_nat i * 128 - lenN (concat l))
        by (rewrite lenN_app; unfold lenN; lia).
      rewrite <- app_assoc, firstn_app_2, <- app_assoc. do 3 f_equal.
      rewrite skipn_app, skipn_all2 by lia. cbn [app]. f_equal. lia.
Qed.
