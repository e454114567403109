(** * crypt/ computes the traditional crypt(3) *)
From Coq Require Import Lia ZifyBool ZifyNat ZifyN.
From Verif Require Import M_Base M_CryptTables M_Crypt S_Crypt P_Base P_CryptSym P_CryptKey P_CryptRound.
Open Scope N_scope.

(** ** rounds *)
Lemma round_keys_shape (key : list bool) i : (i < 16)%nat -> length (nth i (round_keys false key) []) = 48%nat.
Proof.
  intros H. unfold round_keys. generalize (firstn 28 (pick false PC1 key)) (skipn 28 (pick false PC1 key)).
  assert (G : forall sh C D i, (i < length sh)%nat -> length (nth i (round_keys_from false sh C D) []) = 48%nat).
  { induction sh as [|n sh IH]; intros C D k K; [cbn in K; lia|]. cbn [round_keys_from]. destruct k; cbn [nth]; [unfold pick; now rewrite map_length|]. apply IH. cbn in K. lia. }
  intros C D. now apply G.
Qed.
Lemma round_keys_length (key : list bool) : length (round_keys false key) = 16%nat.
Proof. reflexivity. Qed.
Fixpoint bt (f : N * N -> N * N) (n : nat) (lr : N * N) : N * N :=
  match n with O => lr | S n' => let '(l, r) := f lr in bt f n' (r, l) end.
Lemma bt_snoc f n : forall lr, bt f (S n) lr = let '(l, r) := f (bt f n lr) in (r, l).
Proof.
  induction n as [|n IH]; intros lr; [cbn [bt]; now destruct (f lr)|].
  change (bt f (S (S n)) lr) with (let '(l, r) := f lr in bt f (S n) (r, l)).
  change (bt f (S n) lr) with (let '(l, r) := f lr in bt f n (r, l)). destruct (f lr) as [l r]. apply IH.
Qed.
Lemma body_times_bt n s a b : forall lr, body_times n s a b lr = bt (body_rounds s a b) n lr.
Proof.
  induction n as [|n IH]; intros lr; [reflexivity|]. cbn [body_times bt]. generalize (body_rounds s a b lr). intros [l r]. apply IH.
Qed.
Section WithKey.
  Variable key : list N.
  Variables v w : N.
  Hypothesis KB : Forall (fun k => k < 256) key.
  Hypothesis KL : length key = 8%nat.
  Hypothesis V : v < 64.
  Hypothesis W : w < 64.
  Let s := desSetKey key.
  Let RK := round_keys false (key_block key).
  Let salt := salt_bits v w.

  Lemma round_key_fits i : (i < 16)%nat -> key_fits (nth i RK []) (nth (2 * i) s 0) (nth (2 * i + 1) s 0).
  Proof.
    intros H. split; [now apply round_keys_shape|]. split; [intros p; now apply key_words_small|]. split; [intros p; now apply key_words_small|].
    intros b j B J. pose proof (key_words key i b j KB KL H B J) as E. fold s in E. fold RK in E. rewrite <- E. f_equal.
    assert (T : (b = 0 \/ b = 1 \/ b = 2 \/ b = 3 \/ b = 4 \/ b = 5 \/ b = 6 \/ b = 7)%nat) by lia.
    destruct T as [-> | [-> | [-> | [-> | [-> | [-> | [-> | ->]]]]]]]; cbn [Nat.even]; f_equal; cbn; lia.
  Qed.
  Definition step2 (lr : N * N) (i : nat) : N * N :=
    let '(l, r) := lr in
    let l := dEncrypt l r i v (shl w 4) s in
    let r := dEncrypt r l (i + 2) v (shl w 4) s in
    (l, r).
  Lemma step2_rounds ns : Forall (fun n => (n < 8)%nat) ns -> forall l r, small l -> small r -> exists l' r',
    fold_left step2 (map (fun n => 4 * n)%nat ns) (l, r) = (l', r') /\ small l' /\ small r' /\
    des_rounds salt (concat (map (fun n => [nth (2 * n) RK []; nth (2 * n + 1) RK []]) ns)) (tb l) (tb r) = (tb l', tb r').
  Proof.
    induction ns as [|n ns IH]; intros F l r HL HR; [now exists l, r|]. apply Forall_cons_iff in F as [F1 F2].
    cbn [map fold_left concat app des_rounds].
    change (step2 (l, r) (4 * n)%nat) with (dEncrypt l r (4 * n) v (shl w 4) s, dEncrypt r (dEncrypt l r (4 * n) v (shl w 4) s) (4 * n + 2) v (shl w 4) s).
    pose proof (dEncrypt_small v w l r s (4 * n) HL) as HL'.
    pose proof (round_key_fits (2 * n) ltac:(lia)) as K1. pose proof (round_key_fits (2 * n + 1) ltac:(lia)) as K2.
    replace (2 * (2 * n))%nat with (4 * n)%nat in K1 by lia. replace (2 * (2 * n + 1))%nat with (4 * n + 2)%nat in K2 by lia.
    unfold salt. rewrite <- (dEncrypt_round v w l r s (4 * n) _ V W HR K1).
    set (l1 := dEncrypt l r (4 * n) v (shl w 4) s) in *.
    rewrite <- (dEncrypt_round v w r l1 s (4 * n + 2) _ V W HL' K2).
    apply IH; [exact F2|exact HL'|now apply dEncrypt_small].
  Qed.
  Lemma body_rounds_rounds l r : small l -> small r -> exists l' r',
    body_rounds s v (shl w 4) (l, r) = (l', r') /\ small l' /\ small r' /\ des_rounds salt RK (tb l) (tb r) = (tb l', tb r').
  Proof.
    intros HL HR. destruct (step2_rounds (seq 0 8) ltac:(apply Forall_forall; intros n I'; apply in_seq in I'; lia) l r HL HR) as (l' & r' & E & A & B & D).
    exists l', r'. split; [exact E|]. split; [exact A|]. split; [exact B|]. rewrite <- D. reflexivity.
  Qed.

  (** ** iterations *)
  Lemma ip_fp x : length x = 64%nat -> pick false IP (pick false FP x) = x.
  Proof.
    intros L. apply nth_ext with (d := false) (d' := false); [unfold pick; rewrite map_length, L; reflexivity|].
    intros j J. unfold pick in J. rewrite map_length in J.
    assert (C : forallb (fun j => (nth j IP 0 - 1 <? 64)%nat && (nth (nth j IP 0 - 1) FP 0 - 1 =? j)%nat) (seq 0 64) = true) by (vm_compute; reflexivity).
    rewrite forallb_forall in C. specialize (C j ltac:(apply in_seq; cbn in J |- *; lia)). apply andb_prop in C as [C1 C2].
    rewrite pick_nth by exact J. rewrite pick_nth by (cbn [FP length]; lia). f_equal. lia.
  Qed.
  Lemma iterations n : exists l r, body_times n s v (shl w 4) (0, 0) = (l, r) /\ small l /\ small r /\
    times n (des salt RK) (repeat false 64) = pick false FP (tb l ++ tb r).
  Proof.
    induction n as [|n (l & r & E & HL & HR & D)].
    - exists 0, 0. split; [reflexivity|]. split; [intros p _; apply N.bits_0|]. split; [intros p _; apply N.bits_0|]. vm_compute. reflexivity.
    - rewrite body_times_bt in *. rewrite bt_snoc, E. destruct (body_rounds_rounds l r HL HR) as (l' & r' & E' & HL' & HR' & D'). rewrite E'.
      exists r', l'. split; [reflexivity|]. split; [exact HR'|]. split; [exact HL'|]. cbn [times]. rewrite D. unfold des.
      rewrite ip_fp by (rewrite app_length, !tb_length; reflexivity).
      rewrite firstn_app, skipn_app, tb_length, Nat.sub_diag, firstn_O, skipn_O, app_nil_r.
      rewrite firstn_all2 by (rewrite tb_length; lia). rewrite skipn_all2 by (rewrite tb_length; lia). cbn [app]. rewrite D'. reflexivity.
  Qed.
End WithKey.

(** ** after the loops *)
Definition pair_bit (l r : N) (q : N) : bool := if q <? 32 then N.testbit l q else N.testbit r (q - 32).
Definition send (sl sr : sw) : sw * sw :=
  let r := smask ones32 (sor (sshr 1 sl) (sshl 31 sl)) in
  let l := smask ones32 (sor (sshr 1 sr) (sshl 31 sr)) in
  let '(r, l) := sperm r l 1 0x55555555 in
  let '(l, r) := sperm l r 8 0x00ff00ff in
  let '(r, l) := sperm r l 2 0x33333333 in
  let '(l, r) := sperm l r 16 0x0000ffff in
  let '(r, l) := sperm r l 4 0x0f0f0f0f in
  (l, r).
Ltac perm1 C D v w n m a b :=
  destruct (rep_perm _ v w n m a b C D) as [? ?];
  destruct (permOp v w n m) as [? ?], (sperm a b n m) as [? ?]; cbn [fst snd] in *; clear C D.
Lemma rep_end x l r sl sr : Rep x l sl -> Rep x r sr ->
  sdisj (sshr 1 sl) (sshl 31 sl) = true -> sdisj (sshr 1 sr) (sshl 31 sr) = true ->
  Rep x (fst (body_end l r)) (fst (send sl sr)) /\ Rep x (snd (body_end l r)) (snd (send sl sr)).
Proof.
  intros A B K1 K2.
  assert (R : Rep x (N.land (N.lor (shr l 1) (shl l 31)) ones32) (smask ones32 (sor (sshr 1 sl) (sshl 31 sl)))).
  { apply rep_land, rep_lor; [now apply rep_shr|now apply rep_shl|exact K1]. }
  assert (L : Rep x (N.land (N.lor (shr r 1) (shl r 31)) ones32) (smask ones32 (sor (sshr 1 sr) (sshl 31 sr)))).
  { apply rep_land, rep_lor; [now apply rep_shr|now apply rep_shl|exact K2]. }
  unfold body_end, send. cbv zeta. revert R L.
  generalize (N.land (N.lor (shr l 1) (shl l 31)) ones32) (smask ones32 (sor (sshr 1 sl) (sshl 31 sl)))
             (N.land (N.lor (shr r 1) (shl r 31)) ones32) (smask ones32 (sor (sshr 1 sr) (sshl 31 sr))).
  clear. intros r a l b R L.
  destruct (rep_perm x r l 1 0x55555555 a b R L) as [R1 L1]. destruct (permOp r l 1 0x55555555) as [r1 l1], (sperm a b 1 0x55555555) as [a1 b1]. cbn [fst snd] in R1, L1.
  destruct (rep_perm x l1 r1 8 0x00ff00ff b1 a1 L1 R1) as [L2 R2]. destruct (permOp l1 r1 8 0x00ff00ff) as [l2 r2], (sperm b1 a1 8 0x00ff00ff) as [b2 a2]. cbn [fst snd] in R2, L2.
  destruct (rep_perm x r2 l2 2 0x33333333 a2 b2 R2 L2) as [R3 L3]. destruct (permOp r2 l2 2 0x33333333) as [r3 l3], (sperm a2 b2 2 0x33333333) as [a3 b3]. cbn [fst snd] in R3, L3.
  destruct (rep_perm x l3 r3 16 0x0000ffff b3 a3 L3 R3) as [L4 R4]. destruct (permOp l3 r3 16 0x0000ffff) as [l4 r4], (sperm b3 a3 16 0x0000ffff) as [b4 a4]. cbn [fst snd] in R4, L4.
  destruct (rep_perm x r4 l4 4 0x0f0f0f0f a4 b4 R4 L4) as [R5 L5]. destruct (permOp r4 l4 4 0x0f0f0f0f) as [r5 l5], (sperm a4 b4 4 0x0f0f0f0f) as [a5 b5]. cbn [fst snd] in R5, L5.
  cbn [fst snd]. now split.
Qed.
Lemma rep_small x w o : small w -> (forall p, p < 32 -> x (p + N.of_nat o) = N.testbit w p) -> Rep x w (map (fun q => [N.of_nat q]) (seq o 32)).
Proof.
  intros H X p. unfold sget. rewrite seq_get. destruct (N.lt_ge_cases p 32) as [P|P].
  - replace (N.to_nat p <? 32)%nat with true by lia. cbn [evl fold_right]. rewrite xorb_false_r, <- X by exact P. f_equal. lia.
  - replace (N.to_nat p <? 32)%nat with false by lia. now apply H.
Qed.
(** where bit [n] of the block is in the two output words, and where it comes from *)
Definition end_ok (n : nat) : bool :=
  let '(o0, o1) := send word0 word1 in
  let m := (nth n FP 0 - 1)%nat in
  match sget (if (n <? 32)%nat then o0 else o1) (N.of_nat (8 * ((n mod 32) / 8) + (7 - n mod 8))) with
  | [q] => q =? N.of_nat (32 * (m / 32) + (m mod 32 + 1) mod 32)
  | _ => false
  end && (m <? 64)%nat.
Lemma end_matches : forallb end_ok (seq 0 64) = true. Proof. vm_compute. reflexivity. Qed.
Lemma end_disj : sdisj (sshr 1 word0) (sshl 31 word0) = true /\ sdisj (sshr 1 word1) (sshl 31 word1) = true.
Proof. vm_compute. split; reflexivity. Qed.
Lemma body_end_bit l r n : small l -> small r -> (n < 64)%nat ->
  N.testbit (if (n <? 32)%nat then fst (body_end l r) else snd (body_end l r)) (N.of_nat (8 * ((n mod 32) / 8) + (7 - n mod 8))) =
  nth n (pick false FP (tb l ++ tb r)) false.
Proof.
  intros HL HR H. pose proof (proj1 (forallb_forall _ _) end_matches n ltac:(apply in_seq; lia)) as M. unfold end_ok in M.
  assert (A : Rep (pair_bit l r) l word0).
  { apply (rep_small _ l 0 HL). intros p P. unfold pair_bit. replace (p + N.of_nat 0) with p by lia. now replace (p <? 32) with true by lia. }
  assert (B : Rep (pair_bit l r) r word1).
  { apply (rep_small _ r 32 HR). intros p P. unfold pair_bit. replace (p + N.of_nat 32 <? 32) with false by lia. f_equal. lia. }
  destruct end_disj as [D1 D2].
  destruct (rep_end _ l r _ _ A B D1 D2) as [E0 E1]. destruct (send word0 word1) as [o0 o1]. cbn [fst snd] in E0, E1.
  rewrite pick_nth by exact H. set (m := (nth n FP 0 - 1)%nat) in *. apply andb_prop in M as [M Mm].
  assert (X : N.testbit (if (n <? 32)%nat then fst (body_end l r) else snd (body_end l r)) (N.of_nat (8 * ((n mod 32) / 8) + (7 - n mod 8))) =
    evl (pair_bit l r) (sget (if (n <? 32)%nat then o0 else o1) (N.of_nat (8 * ((n mod 32) / 8) + (7 - n mod 8))))).
  { destruct (n <? 32)%nat; [apply E0|apply E1]. }
  rewrite X. destruct (sget _ _) as [|q [|q' t]]; try discriminate. apply N.eqb_eq in M. subst q. cbn [evl fold_right]. rewrite xorb_false_r.
  clearbody m. destruct (Nat.lt_ge_cases m 32) as [L|L].
  - rewrite Nat.div_small, (Nat.mod_small m 32) by exact L. rewrite app_nth1 by (rewrite tb_length; exact L). rewrite tb_nth by exact L.
    unfold pair_bit. pose proof (Nat.mod_upper_bound (m + 1) 32 ltac:(discriminate)) as U.
    replace (N.of_nat (32 * 0 + (m + 1) mod 32) <? 32) with true by lia. do 2 f_equal. rewrite Nat.add_1_r. lia.
  - rewrite app_nth2 by (rewrite tb_length; exact L). rewrite tb_length, tb_nth by lia.
    replace (m / 32)%nat with 1%nat by (replace m with (m - 32 + 1 * 32)%nat by lia; rewrite Nat.div_add, Nat.div_small by lia; reflexivity).
    replace (m mod 32)%nat with (m - 32)%nat by (replace m with (m - 32 + 1 * 32)%nat at 2 by lia; rewrite Nat.mod_add, Nat.mod_small by lia; reflexivity).
    unfold pair_bit. replace (N.of_nat (32 * 1 + (m - 32 + 1) mod 32) <? 32) with false by lia. f_equal. rewrite Nat.add_1_r. lia.
Qed.

(** ** the printable form *)
Definition bitn (bb : list N) (p : nat) : bool := N.testbit (nth (p / 8) bb 0) (N.of_nat (7 - p mod 8)).
Lemma mask_bit x k : negb (N.land x (2 ^ k) =? 0) = N.testbit x k.
Proof.
  destruct (N.testbit x k) eqn:E.
  - apply negb_true_iff, N.eqb_neq. intros H. assert (F : N.testbit (N.land x (2 ^ k)) k = false) by (rewrite H; apply N.bits_0).
    rewrite N.land_spec, E, N.pow2_bits_true in F. discriminate.
  - apply negb_false_iff, N.eqb_eq. apply N.bits_inj. intros j. rewrite N.land_spec, N.bits_0.
    destruct (N.eq_dec j k) as [->|D]; [now rewrite E|]. rewrite N.pow2_bits_false by auto. apply andb_false_r.
Qed.
Lemma six_spec bb n : forall y k c, (k < 8)%nat -> exists y' k',
  six n bb y (2 ^ N.of_nat (7 - k)) c = (y', 2 ^ N.of_nat (7 - k'), fold_left (fun a b => 2 * a + N.b2n b) (map (bitn bb) (seq (8 * y + k) n)) c) /\
  (k' < 8)%nat /\ (8 * y' + k' = 8 * y + k + n)%nat.
Proof.
  induction n as [|n IH]; intros y k c K.
  - exists y, k. split; [reflexivity|]. lia.
  - cbn [six seq map fold_left].
    assert (B : bitn bb (8 * y + k) = N.testbit (nth y bb 0) (N.of_nat (7 - k))).
    { unfold bitn. rewrite Nat.mul_comm, Nat.add_comm, Nat.div_add, Nat.mod_add by discriminate. rewrite Nat.div_small, Nat.mod_small by exact K. reflexivity. }
    set (c2 := if N.land (nth y bb 0) (2 ^ N.of_nat (7 - k)) =? 0 then N.shiftl c 1 else N.lor (N.shiftl c 1) 1).
    assert (C2 : c2 = 2 * c + N.b2n (bitn bb (8 * y + k))).
    { rewrite B, <- mask_bit. unfold c2. rewrite N.shiftl_mul_pow2, N.pow_1_r, N.mul_comm.
      destruct (_ =? 0); cbn [negb N.b2n]; [lia|]. rewrite (N.add_comm (2 * c)), N.lor_comm. destruct c; reflexivity. }
    destruct (N.eqb_spec (N.shiftr (2 ^ N.of_nat (7 - k)) 1) 0) as [Z|Z].
    + assert (k = 7)%nat.
      { destruct (Nat.eq_dec k 7) as [|D]; [assumption|]. exfalso. rewrite N.shiftr_div_pow2, N.pow_1_r in Z.
        replace (N.of_nat (7 - k)) with (N.succ (N.of_nat (6 - k))) in Z by lia. rewrite N.pow_succ_r', N.mul_comm, N.div_mul in Z by discriminate.
        now apply N.pow_nonzero in Z. }
      subst k. change 0x80 with (2 ^ N.of_nat (7 - 0)). destruct (IH (S y) 0%nat c2 ltac:(lia)) as (y' & k' & E & K' & P).
      exists y', k'. rewrite E. split; [|lia]. rewrite C2. replace (8 * S y + 0)%nat with (S (8 * y + 7)) by lia. reflexivity.
    + assert (K7 : (k < 7)%nat).
      { destruct (Nat.lt_ge_cases k 7) as [|D]; [assumption|]. exfalso. apply Z. replace (7 - k)%nat with 0%nat by lia. reflexivity. }
      assert (H2 : N.shiftr (2 ^ N.of_nat (7 - k)) 1 = 2 ^ N.of_nat (7 - S k)).
      { rewrite N.shiftr_div_pow2, N.pow_1_r. replace (N.of_nat (7 - k)) with (N.succ (N.of_nat (7 - S k))) by lia.
        rewrite N.pow_succ_r', N.mul_comm, N.div_mul by discriminate. reflexivity. }
      rewrite H2.
      destruct (IH y (S k) c2 ltac:(lia)) as (y' & k' & E & K' & P). exists y', k'. rewrite E. split; [|lia]. rewrite C2.
      replace (8 * y + S k)%nat with (S (8 * y + k)) by lia. reflexivity.
Qed.
Lemma chars_spec bb n : forall y k, (k < 8)%nat ->
  chars n bb y (2 ^ N.of_nat (7 - k)) = map (fun g => at_ cov2char (bits_val g)) (six_groups (map (bitn bb) (seq (8 * y + k) (6 * n)))).
Proof.
  induction n as [|n IH]; intros y k K; [reflexivity|]. cbn [chars]. destruct (six_spec bb 6 y k 0 K) as (y' & k' & E & K' & P). rewrite E.
  replace (6 * S n)%nat with (6 + 6 * n)%nat by lia. rewrite seq_app, map_app. cbn [seq map app six_groups]. f_equal.
  rewrite IH by exact K'. rewrite P. reflexivity.
Qed.

(** ** the key block *)
Lemma key_block_8 k0 k1 k2 k3 k4 k5 k6 k7 :
  key_block [k0; k1; k2; k3; k4; k5; k6; k7] = concat (map (val_bits 8) [k0; k1; k2; k3; k4; k5; k6; k7]).
Proof. reflexivity. Qed.
Lemma key_byte_bits c : c < 256 -> val_bits 8 (N.land (N.shiftl c 1) 0xff) = val_bits 7 c ++ [false].
Proof.
  intros H. cbn [val_bits app]. change (N.of_nat 7) with 7. change (N.of_nat 6) with 6. change (N.of_nat 5) with 5. change (N.of_nat 4) with 4.
  change (N.of_nat 3) with 3. change (N.of_nat 2) with 2. change (N.of_nat 1) with 1. change (N.of_nat 0) with 0.
  rewrite !N.land_spec. rewrite !(N.shiftl_spec_high' c 1) by lia. rewrite (N.shiftl_spec_low c 1 0) by lia. cbn [N.sub].
  change (N.testbit 0xff 7) with true. change (N.testbit 0xff 6) with true. change (N.testbit 0xff 5) with true. change (N.testbit 0xff 4) with true.
  change (N.testbit 0xff 3) with true. change (N.testbit 0xff 2) with true. change (N.testbit 0xff 1) with true. rewrite !andb_true_r. reflexivity.
Qed.
Lemma key_bytes_spec buf : key_bytes buf = map (fun c => N.land (N.shiftl (b2n c) 1) 0xff) (until_nul buf).
Proof.
  induction buf as [|c buf IH]; [reflexivity|]. cbn [key_bytes until_nul].
  replace (b2n c =? 0) with (Byte.eqb c x00) by (destruct c; reflexivity). destruct (Byte.eqb c x00); [reflexivity|]. cbn [map]. now rewrite IH.
Qed.
Lemma until_nul_firstn n : forall p, until_nul (firstn n p) = firstn n (until_nul p).
Proof.
  induction n as [|n IH]; intros p; [reflexivity|]. destruct p as [|c p]; [reflexivity|]. cbn [firstn until_nul]. destruct (Byte.eqb c x00); [reflexivity|].
  cbn [firstn]. now rewrite IH.
Qed.
Definition key_of (password : bytes) : list N := pad8 (key_bytes (firstn 8 password)).
Lemma pad8_spec l : (length l <= 8)%nat -> pad8 l = l ++ repeat 0 (8 - length l).
Proof.
  intros H. unfold pad8. destruct l as [|a0 [|a1 [|a2 [|a3 [|a4 [|a5 [|a6 [|a7 [|a8 r]]]]]]]]]; cbn [length] in H; try lia; reflexivity.
Qed.
Lemma key_of_spec password : length (key_of password) = 8%nat /\ Forall (fun k => k < 256) (key_of password) /\
  key_block (key_of password) = password_key password.
Proof.
  unfold key_of. rewrite key_bytes_spec, until_nul_firstn. set (u := firstn 8 (until_nul password)).
  assert (L : (length u <= 8)%nat) by (unfold u; rewrite firstn_length; lia).
  set (l := map _ u). assert (LL : length l = length u) by (unfold l; now rewrite map_length). rewrite pad8_spec by lia.
  assert (L8 : length (l ++ repeat 0 (8 - length l)) = 8%nat) by (rewrite app_length, repeat_length; lia).
  split; [exact L8|]. split.
  - apply Forall_app. split.
    + unfold l. apply Forall_forall. intros k I'. apply in_map_iff in I' as (c & <- & _). change 0xff with (N.ones 8). rewrite N.land_ones. apply N.mod_lt. discriminate.
    + apply Forall_forall. intros k I'. apply repeat_spec in I'. now subst.
  - assert (X : forall ks, length ks = 8%nat -> key_block ks = concat (map (val_bits 8) ks)).
    { intros ks H. destruct ks as [|a0 [|a1 [|a2 [|a3 [|a4 [|a5 [|a6 [|a7 [|a8 r]]]]]]]]]; try discriminate. apply key_block_8. }
    rewrite X by exact L8. rewrite map_app, concat_app. unfold password_key. fold u.
    assert (A : concat (map (val_bits 8) l) = concat (map (fun b => val_bits 7 (b2n b) ++ [false]) u)).
    { unfold l. rewrite map_map. f_equal. apply map_ext. intros c. apply key_byte_bits, b2n_lt. }
    assert (N8 : length (concat (map (fun b => val_bits 7 (b2n b) ++ [false]) u)) = (8 * length u)%nat).
    { clear. induction u as [|c u IH]; [reflexivity|]. cbn [map concat length]. rewrite app_length, IH. cbn [length app val_bits]. lia. }
    rewrite A. rewrite firstn_app, N8. rewrite (firstn_all2 (concat _)) by (rewrite N8; lia). f_equal.
    rewrite LL. clear - L. destruct (length u) as [|[|[|[|[|[|[|[|[|m]]]]]]]]]; try reflexivity. lia.
Qed.

(** ** the tables of characters *)
Lemma cov_letter v : n2b (at_ cov2char v) = letter v.
Proof.
  unfold at_, letter. change x00 with (n2b 0). rewrite <- (map_nth n2b). f_equal.
Qed.
Lemma con_salt_small x e : con_salt x = Some e -> e < 64.
Proof.
  unfold con_salt. intros H. apply nth_error_In in H. assert (C : forallb (fun e => e <? 64) conSalt = true) by (vm_compute; reflexivity).
  rewrite forallb_forall in C. apply C in H. lia.
Qed.
Lemma con_salt_letter v : v < 64 -> con_salt (b2n (letter v)) = Some v /\ b2n (letter v) <> 0.
Proof.
  intros H. assert (C : forallb (fun v => match con_salt (b2n (letter v)) with Some e => e =? v | None => false end && negb (b2n (letter v) =? 0)) idx64 = true) by (vm_compute; reflexivity).
  rewrite forallb_forall in C. specialize (C v (in_idx64 v H)). apply andb_prop in C as [C1 C2]. destruct (con_salt _) as [e|]; [|discriminate]. apply N.eqb_eq in C1. subst. split; [reflexivity|]. lia.
Qed.

(** The eleven characters for salt values [v] and [w]. *)
Lemma hash_chars password v w : v < 64 -> w < 64 ->
  (let '(o0, o1) := body (desSetKey (key_of password)) v (shl w 4) in map n2b (chars 11 (l2c o0 ++ l2c o1 ++ [0]) 0 0x80)) =
  map (fun g => letter (bits_val g)) (six_groups (crypt_block password (salt_bits v w) ++ [false; false])).
Proof.
  intros V W. destruct (key_of_spec password) as (KL & KB & KK). unfold body.
  destruct (iterations (key_of password) v w KB KL V W 25) as (l & r & E & HL & HR & D). rewrite E.
  rewrite KK in D. unfold crypt_block. rewrite D. clear D E.
  pose proof (fun n => body_end_bit l r n HL HR) as X. destruct (body_end l r) as [o0 o1]. cbn [fst snd] in X.
  change 0x80 with (2 ^ N.of_nat (7 - 0)). rewrite chars_spec by lia. rewrite map_map. 
  replace (map (bitn (l2c o0 ++ l2c o1 ++ [0])) (seq (8 * 0 + 0) (6 * 11))) with (pick false FP (tb l ++ tb r) ++ [false; false]).
  { apply map_ext. intros g. apply cov_letter. }
  change (seq (8 * 0 + 0) (6 * 11)) with (seq 0 64 ++ [64; 65]%nat). rewrite map_app. f_equal.
  apply nth_ext with (d := false) (d' := bitn (l2c o0 ++ l2c o1 ++ [0]) 0%nat); [rewrite map_length; reflexivity|].
  intros n Hn. change (length (pick false FP (tb l ++ tb r))) with 64%nat in Hn. rewrite map_nth, seq_nth by exact Hn. rewrite Nat.add_0_l, <- X by exact Hn.
  clear - Hn.
  assert (B8 : forall (o : N) c k, (c < 4)%nat -> (k < 8)%nat -> N.testbit (nth c (l2c o) 0) (N.of_nat k) = N.testbit o (N.of_nat (8 * c + k))).
  { intros o c k C K. unfold l2c.
    assert (Y : forall m, N.testbit (N.land (shr o m) 0xff) (N.of_nat k) = N.testbit o (N.of_nat k + m)).
    { intros m. rewrite N.land_spec. unfold shr. rewrite N.shiftr_spec by lia. change 0xff with (N.ones 8). rewrite N.ones_spec_low by lia. apply andb_true_r. }
    pose proof (Y 0) as Y0. unfold shr in Y0. rewrite N.shiftr_0_r in Y0.
    destruct c as [|[|[|[|c]]]]; try lia; cbn [nth]; rewrite ?Y0, ?Y; f_equal; lia. }
  unfold bitn. pose proof (Nat.mod_upper_bound n 8 ltac:(discriminate)) as U.
  destruct (Nat.ltb_spec n 32) as [L|L].
  - rewrite (Nat.mod_small n 32) by exact L. assert (Q : (n / 8 < 4)%nat) by (apply Nat.div_lt_upper_bound; lia).
    rewrite app_nth1 by (cbn [l2c length]; exact Q). rewrite B8 by lia. reflexivity.
  - assert (Q : (n / 8 = (n - 32) / 8 + 4)%nat) by (replace n with (n - 32 + 4 * 8)%nat at 1 by lia; now rewrite Nat.div_add).
    assert (Q4 : ((n - 32) / 8 < 4)%nat) by (apply Nat.div_lt_upper_bound; lia).
    replace (n mod 32)%nat with (n - 32)%nat by (replace n with (n - 32 + 1 * 32)%nat at 2 by lia; rewrite Nat.mod_add, Nat.mod_small by lia; reflexivity).
    rewrite Q. rewrite app_nth2 by (cbn [l2c length]; lia). cbn [l2c length]. fold (l2c o1). rewrite Nat.add_sub.
    rewrite app_nth1 by (cbn [l2c length]; exact Q4). rewrite B8 by lia. reflexivity.
Qed.
(** Fcrypt, for every salt it accepts. *)
Lemma Fcrypt_spec password s0 s1 rest v w :
  let x0 := if b2n s0 =? 0 then 0x41 else b2n s0 in let x1 := if b2n s1 =? 0 then 0x41 else b2n s1 in
  con_salt x0 = Some v -> con_salt x1 = Some w ->
  Fcrypt password (s0 :: s1 :: rest) =
  Ok ([n2b x0; n2b x1] ++ map (fun g => letter (bits_val g)) (six_groups (crypt_block password (salt_bits v w) ++ [false; false])) ++ [x00]).
Proof.
  intros x0 x1 H0 H1. unfold Fcrypt, salt_char. cbn [nth_error]. fold x0. fold x1. rewrite H0, H1.
  rewrite <- (hash_chars password v w (con_salt_small _ _ H0) (con_salt_small _ _ H1)). fold (key_of password).
  destruct (body _ _ _) as [o0 o1]. now rewrite !map_app.
Qed.
