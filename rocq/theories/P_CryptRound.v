(** * One round of crypt/ is one round of the standard *)
From Coq Require Import Lia ZifyBool ZifyNat ZifyN.
From Verif Require Import M_Base M_CryptTables M_Crypt S_Crypt P_Base P_CryptSym.
Open Scope N_scope.

(** Bit [j] of the standard is bit [j mod 32] of the word. *)
Definition tb (w : N) : list bool := map (fun j => N.testbit w (N.of_nat (j mod 32))) (seq 1 32).
Definition small (w : N) : Prop := forall p, 32 <= p -> N.testbit w p = false.
Lemma tb_length w : length (tb w) = 32%nat.
Proof. unfold tb. now rewrite map_length, seq_length. Qed.
Lemma tb_nth w j : (j < 32)%nat -> nth j (tb w) false = N.testbit w (N.of_nat (S j mod 32)).
Proof.
  intros H. unfold tb. rewrite nth_indep with (d' := (fun j => N.testbit w (N.of_nat (j mod 32))) 0%nat) by (rewrite map_length, seq_length; lia).
  rewrite (map_nth (fun j => N.testbit w (N.of_nat (j mod 32)))), seq_nth by exact H. reflexivity.
Qed.

(** the word mixed with salt and key *)
Definition mixed (R E k : N) : N :=
  let u := N.land (N.lxor R (shr R 16)) E in N.lxor (N.lxor (N.lxor u (shl u 16)) R) k.
Lemma mixed_bit R E k i : E < 2 ^ 16 -> i < 32 ->
  N.testbit (mixed R E k) i =
  xorb (N.testbit R (if N.testbit E (i mod 16) then (i + 16) mod 32 else i)) (N.testbit k i).
Proof.
  intros HE Hi. unfold mixed. rewrite !N.lxor_spec, shl_bit, !N.land_spec, !N.lxor_spec. unfold shr. rewrite !N.shiftr_spec by lia.
  destruct (N.lt_ge_cases i 16) as [H|H].
  - rewrite (N.mod_small i 16) by exact H. replace (16 <=? i) with false by lia. rewrite andb_false_r. cbn [andb].
    rewrite (N.mod_small (i + 16) 32) by lia. destruct (N.testbit E i), (N.testbit R i), (N.testbit R (i + 16)), (N.testbit k i); reflexivity.
  - replace (16 <=? i) with true by lia. replace (i <? 32) with true by lia. cbn [andb].
    rewrite (bits_small E 16 i HE H). rewrite andb_false_r.
    replace (i mod 16) with (i - 16) by (rewrite <- (N.mod_small (i - 16) 16) by lia; replace i with (i - 16 + 1 * 16) at 2 by lia; now rewrite N.mod_add).
    replace ((i + 16) mod 32) with (i - 16) by (rewrite <- (N.mod_small (i - 16) 32) by lia; replace (i + 16) with (i - 16 + 1 * 32) by lia; now rewrite N.mod_add).
    replace (i - 16 + 16) with i by lia.
    destruct (N.testbit E (i - 16)), (N.testbit R i), (N.testbit R (i - 16)), (N.testbit k i); reflexivity.
Qed.
Lemma mixed_small R E k : small R -> small k -> E < 2 ^ 16 -> small (mixed R E k).
Proof.
  intros HR Hk HE p Hp. unfold mixed. rewrite !N.lxor_spec, shl_bit, !N.land_spec, (HR p Hp), (Hk p Hp), (bits_small E 16 p HE) by lia.
  replace (p <? 32) with false by lia. now rewrite andb_false_r.
Qed.
Lemma rot4_bit t i : small t -> i < 32 -> N.testbit (N.lor (shr t 4) (shl t 28)) i = N.testbit t ((i + 4) mod 32).
Proof.
  intros H Hi. rewrite N.lor_spec, shl_bit. unfold shr. rewrite N.shiftr_spec by lia. replace (i <? 32) with true by lia. cbn [andb].
  destruct (28 <=? i) eqn:E.
  - rewrite (H (i + 4)) by lia. cbn [orb andb]. f_equal. rewrite <- (N.mod_small (i - 28) 32) by lia. replace (i + 4) with (i - 28 + 1 * 32) by lia. now rewrite N.mod_add.
  - cbn [andb]. rewrite orb_false_r. rewrite N.mod_small by lia. reflexivity.
Qed.

(** six low bits, lowest first *)
Definition lsb6 (v : N) : list bool := map (N.testbit v) [0; 1; 2; 3; 4; 5].
Lemma lsb6_slice w m : lsb6 (N.land (shr w m) 0x3f) = map (fun j => N.testbit w (m + j)) [0; 1; 2; 3; 4; 5].
Proof.
  unfold lsb6. cbn [map]. unfold shr. rewrite !N.land_spec, !N.shiftr_spec by lia. rewrite !(N.add_comm m). 
  change (N.testbit 63 0) with true. change (N.testbit 63 1) with true. change (N.testbit 63 2) with true.
  change (N.testbit 63 3) with true. change (N.testbit 63 4) with true. change (N.testbit 63 5) with true. now rewrite !andb_true_r.
Qed.
Lemma slice_small w : N.land w 0x3f < 64.
Proof.
  apply (small_bits _ 6). intros p Hp. rewrite N.land_spec. change 0x3f with (N.ones 6). rewrite N.ones_spec_high by exact Hp. apply andb_false_r.
Qed.

(** ** The table spTrans is the substitution boxes followed by the permutation. *)
Definition P0 (j : nat) : nat := (nth j P_table 0 - 1)%nat.
Definition sp_ok (b : nat) (v : N) (j : nat) : bool :=
  Bool.eqb (N.testbit (at_ (row spTrans b) v) (N.of_nat (S j mod 32)))
           (if (P0 j / 4 =? b)%nat then nth (P0 j mod 4) (S_box (nth b S_boxes []) (lsb6 v)) false else false).
Lemma sp_matches : forallb (fun b => forallb (fun v => forallb (sp_ok b v) (seq 0 32)) idx64) (seq 0 8) = true.
Proof. vm_compute. reflexivity. Qed.
Lemma check3 {A B C} (f : A -> B -> C -> bool) la lb lc :
  forallb (fun a => forallb (fun b => forallb (f a b) lc) lb) la = true -> forall a b c, In a la -> In b lb -> In c lc -> f a b c = true.
Proof.
  intros M a b c HA HB HC. rewrite forallb_forall in M. specialize (M a HA). rewrite forallb_forall in M. specialize (M b HB).
  rewrite forallb_forall in M. now apply M.
Qed.
Lemma sp_bit b v j : (b < 8)%nat -> v < 64 -> (j < 32)%nat ->
  N.testbit (at_ (row spTrans b) v) (N.of_nat (S j mod 32)) =
  if (P0 j / 4 =? b)%nat then nth (P0 j mod 4) (S_box (nth b S_boxes []) (lsb6 v)) false else false.
Proof.
  intros B V J. apply Bool.eqb_prop. apply (check3 sp_ok _ _ _ sp_matches b v j); [apply in_seq; lia|now apply in_idx64|apply in_seq; lia].
Qed.
Lemma P0_range j : (j < 32)%nat -> (P0 j < 32)%nat.
Proof.
  intros J. assert (H : forallb (fun j => (P0 j <? 32)%nat) (seq 0 32) = true) by (vm_compute; reflexivity).
  rewrite forallb_forall in H. specialize (H j ltac:(apply in_seq; lia)). lia.
Qed.

(** ** lists in groups *)
Lemma six_groups_nth : forall (l : list bool) b, (6 * b + 5 < length l)%nat ->
  nth b (six_groups l) [] = map (fun j => nth (6 * b + j) l false) [0; 1; 2; 3; 4; 5]%nat.
Proof.
  intros l. remember (length l) as n eqn:E. revert l E. induction n as [n IH] using lt_wf_ind. intros l E b H.
  destruct l as [|x0 [|x1 [|x2 [|x3 [|x4 [|x5 r]]]]]]; cbn [length] in E; try lia.
  destruct b as [|b]; [reflexivity|]. cbn [six_groups nth]. rewrite (IH (length r) ltac:(lia) r eq_refl b ltac:(lia)).
  apply map_ext. intros j. replace (6 * S b + j)%nat with (6 + (6 * b + j))%nat by lia. reflexivity.
Qed.
Lemma six_groups_length : forall (l : list bool) n, length l = (6 * n)%nat -> length (six_groups l) = n.
Proof.
  intros l n. revert l. induction n as [|n IH]; intros l H.
  - now destruct l.
  - destruct l as [|x0 [|x1 [|x2 [|x3 [|x4 [|x5 r]]]]]]; cbn [length] in H; try lia. cbn [six_groups length]. f_equal. apply IH. lia.
Qed.
Lemma concat4_nth : forall (ls : list (list bool)) q, Forall (fun l => length l = 4%nat) ls -> (q < 4 * length ls)%nat ->
  nth q (concat ls) false = nth (q mod 4) (nth (q / 4) ls []) false.
Proof.
  induction ls as [|l ls IH]; intros q F H; [cbn in H; lia|]. apply Forall_cons_iff in F as [F1 F2]. cbn [concat].
  destruct (Nat.lt_ge_cases q 4) as [L|L].
  - rewrite app_nth1 by lia. now rewrite Nat.div_small, Nat.mod_small by exact L.
  - rewrite app_nth2, F1 by lia. rewrite IH by (try assumption; cbn [length] in H; lia).
    replace q with ((q - 4) + 1 * 4)%nat at 3 4 by lia. rewrite Nat.mod_add, Nat.div_add by discriminate. now rewrite Nat.add_1_r.
Qed.
Lemma S_box_length box g : length g = 6%nat -> length (S_box box g) = 4%nat.
Proof. intros H. destruct g as [|x0 [|x1 [|x2 [|x3 [|x4 [|x5 [|x6 r]]]]]]]; try discriminate. reflexivity. Qed.
Lemma xors_length a b : length (xors a b) = Nat.min (length a) (length b).
Proof. unfold xors. now rewrite map_length, combine_length. Qed.
Lemma xors_nth a b j : (j < length a)%nat -> (j < length b)%nat -> nth j (xors a b) false = xorb (nth j a false) (nth j b false).
Proof.
  intros A B. unfold xors. change false with ((fun p => xorb (fst p) (snd p)) (false, false)) at 1. rewrite map_nth.
  revert b j A B. induction a as [|x a IH]; intros b j A B; [cbn in A; lia|]. destruct b as [|y b]; [cbn in B; lia|].
  destruct j; [reflexivity|]. cbn [combine nth]. cbn in A, B. apply IH; lia.
Qed.

(** ** the round *)
Definition Ew (v : N) : Prop := v < 64.
(** Which word bit feeds input [j] of box [b]. *)
Lemma expansion_bit salt R b j : (b < 8)%nat -> (j < 6)%nat ->
  nth (6 * b + j) (salted salt (pick false E_table (tb R))) false =
  N.testbit R (N.of_nat ((4 * (if salt (6 * (b mod 4) + j)%nat then (b + 4) mod 8 else b) + j) mod 32)).
Proof.
  intros B J. unfold salted.
  rewrite nth_indep with (d' := (fun q => nth (if salt (q mod 24)%nat then (q + 24) mod 48 else q) (pick false E_table (tb R)) false) 0%nat)
    by (rewrite map_length, seq_length; lia).
  rewrite (map_nth (fun q => nth (if salt (q mod 24)%nat then (q + 24) mod 48 else q) (pick false E_table (tb R)) false)), seq_nth by lia.
  rewrite Nat.add_0_l.
  assert (X : forall q, (q < 48)%nat -> nth q (pick false E_table (tb R)) false = N.testbit R (N.of_nat (nth q E_table 0 mod 32)%nat)).
  { intros q Q. unfold pick. rewrite nth_indep with (d' := (fun i => nth (i - 1) (tb R) false) 0%nat) by (rewrite map_length; exact Q).
    rewrite (map_nth (fun i => nth (i - 1) (tb R) false)).
    assert (H : forallb (fun q => (1 <=? nth q E_table 0%nat)%nat && (nth q E_table 0%nat <=? 32)%nat) (seq 0 48) = true) by (vm_compute; reflexivity).
    rewrite forallb_forall in H. specialize (H q ltac:(apply in_seq; lia)). rewrite tb_nth by lia. do 2 f_equal. f_equal. lia. }
  assert (T : (b = 0 \/ b = 1 \/ b = 2 \/ b = 3 \/ b = 4 \/ b = 5 \/ b = 6 \/ b = 7)%nat) by lia.
  assert (U : (j = 0 \/ j = 1 \/ j = 2 \/ j = 3 \/ j = 4 \/ j = 5)%nat) by lia. clear B J.
  destruct T as [-> | [-> | [-> | [-> | [-> | [-> | [-> | ->]]]]]]]; destruct U as [-> | [-> | [-> | [-> | [-> | ->]]]]];
    (match goal with |- nth (if salt ?a then ?c else ?d) _ _ = N.testbit R (N.of_nat ((4 * (if salt ?e then _ else _) + _) mod 32)) =>
       let a' := eval vm_compute in a in let c' := eval vm_compute in c in let d' := eval vm_compute in d in
       change a with a'; change e with a'; change c with c'; change d with d' end;
     match goal with |- context [salt ?z] => destruct (salt z) end; rewrite X by lia; reflexivity).
Qed.

Lemma salted_length salt e : length (salted salt e) = 48%nat.
Proof. unfold salted. now rewrite map_length, seq_length. Qed.
Lemma shl4_small w : w < 64 -> shl w 4 < 2 ^ 16.
Proof.
  intros H. apply (small_bits _ 16). intros p Hp. rewrite shl_bit. rewrite (bits_small w 6 (p - 4)) by (try exact H; lia). now rewrite andb_false_r.
Qed.
(** the word that feeds box [b] *)
Definition feed (v w R k0 k1 : N) (b : nat) : N := if Nat.even b then mixed R v k0 else mixed R (shl w 4) k1.
Lemma salt_at v w (b j : nat) : v < 64 -> w < 64 -> (b < 8)%nat -> (j < 6)%nat ->
  N.testbit (if Nat.even b then v else shl w 4) (N.of_nat ((4 * b + j) mod 32) mod 16) = salt_bits v w (6 * (b mod 4) + j).
Proof.
  intros V W B J.
  assert (T : (b = 0 \/ b = 1 \/ b = 2 \/ b = 3 \/ b = 4 \/ b = 5 \/ b = 6 \/ b = 7)%nat) by lia.
  assert (U : (j = 0 \/ j = 1 \/ j = 2 \/ j = 3 \/ j = 4 \/ j = 5)%nat) by lia. clear B J.
  destruct T as [-> | [-> | [-> | [-> | [-> | [-> | [-> | ->]]]]]]]; destruct U as [-> | [-> | [-> | [-> | [-> | ->]]]]];
    cbn [Nat.even];
    (match goal with |- N.testbit _ ?a = salt_bits v w ?q => let a' := eval vm_compute in a in let q' := eval vm_compute in q in
      change a with a'; change q with q' end; rewrite ?shl_bit; unfold salt_bits; cbn -[N.testbit];
      try reflexivity; first [apply (bits_small v 6); [exact V|discriminate] | apply (bits_small w 6); [exact W|discriminate] ]).
Qed.
Lemma feed_bit v w R k0 k1 b j : v < 64 -> w < 64 -> (b < 8)%nat -> (j < 6)%nat ->
  N.testbit (feed v w R k0 k1 b) (N.of_nat ((4 * b + j) mod 32)) =
  xorb (nth (6 * b + j) (salted (salt_bits v w) (pick false E_table (tb R))) false)
       (N.testbit (if Nat.even b then k0 else k1) (N.of_nat ((4 * b + j) mod 32))).
Proof.
  intros V W B J. rewrite expansion_bit by assumption. pose proof (salt_at v w b j V W B J) as SA.
  assert (I' : N.of_nat ((4 * b + j) mod 32) < 32) by (pose proof (Nat.mod_upper_bound (4 * b + j) 32); lia).
  assert (H16 : v < 2 ^ 16) by (change (2 ^ 16) with 65536; lia).
  assert (M : N.testbit (feed v w R k0 k1 b) (N.of_nat ((4 * b + j) mod 32)) =
    xorb (N.testbit R (if N.testbit (if Nat.even b then v else shl w 4) (N.of_nat ((4 * b + j) mod 32) mod 16)
                       then (N.of_nat ((4 * b + j) mod 32) + 16) mod 32 else N.of_nat ((4 * b + j) mod 32)))
         (N.testbit (if Nat.even b then k0 else k1) (N.of_nat ((4 * b + j) mod 32)))).
  { unfold feed. destruct (Nat.even b); apply mixed_bit; auto using shl4_small. }
  rewrite M, SA. f_equal. destruct (salt_bits v w (6 * (b mod 4) + j)); [|reflexivity]. f_equal.
  clear - B J.
  assert (T : (b = 0 \/ b = 1 \/ b = 2 \/ b = 3 \/ b = 4 \/ b = 5 \/ b = 6 \/ b = 7)%nat) by lia.
  assert (U : (j = 0 \/ j = 1 \/ j = 2 \/ j = 3 \/ j = 4 \/ j = 5)%nat) by lia. clear B J.
  destruct T as [-> | [-> | [-> | [-> | [-> | [-> | [-> | ->]]]]]]]; destruct U as [-> | [-> | [-> | [-> | [-> | ->]]]]]; reflexivity.
Qed.
Definition key_fits (K : list bool) (k0 k1 : N) : Prop :=
  length K = 48%nat /\ small k0 /\ small k1 /\
  forall b j, (b < 8)%nat -> (j < 6)%nat -> N.testbit (if Nat.even b then k0 else k1) (N.of_nat ((4 * b + j) mod 32)) = nth (6 * b + j) K false.
Lemma input_bits v w R k0 k1 K b : v < 64 -> w < 64 -> key_fits K k0 k1 -> (b < 8)%nat ->
  map (fun j => N.testbit (feed v w R k0 k1 b) (N.of_nat ((4 * b + j) mod 32))) [0; 1; 2; 3; 4; 5]%nat =
  nth b (six_groups (xors (salted (salt_bits v w) (pick false E_table (tb R))) K)) [].
Proof.
  intros V W (KL & _ & _ & KB) B. rewrite six_groups_nth by (rewrite xors_length, salted_length, KL; cbn [Nat.min]; lia).
  apply map_ext_in. intros j J. assert (J' : (j < 6)%nat) by (cbn in J; lia).
  rewrite feed_bit by assumption. rewrite xors_nth by (rewrite ?salted_length, ?KL; lia). now rewrite KB.
Qed.
(** the six-bit indices computed by the code *)
Definition index (v w R k0 k1 : N) (b : nat) : N :=
  let m := N.of_nat (8 * (b / 2)) in
  if Nat.even b then N.land (shr (mixed R v k0) m) 0x3f
  else let t := mixed R (shl w 4) k1 in N.land (shr (N.lor (shr t 4) (shl t 28)) m) 0x3f.
Lemma index_bits v w R k0 k1 b : v < 64 -> w < 64 -> small R -> small k1 -> (b < 8)%nat ->
  lsb6 (index v w R k0 k1 b) = map (fun j => N.testbit (feed v w R k0 k1 b) (N.of_nat ((4 * b + j) mod 32))) [0; 1; 2; 3; 4; 5]%nat.
Proof.
  intros V W HR Hk B. unfold index, feed. pose proof (mixed_small R (shl w 4) k1 HR Hk (shl4_small w W)) as MS.
  assert (T : (b = 0 \/ b = 1 \/ b = 2 \/ b = 3 \/ b = 4 \/ b = 5 \/ b = 6 \/ b = 7)%nat) by lia. clear B.
  destruct T as [-> | [-> | [-> | [-> | [-> | [-> | [-> | ->]]]]]]]; cbn [Nat.even]; cbv zeta; rewrite lsb6_slice; cbn [map];
   rewrite ?rot4_bit by (first [exact MS | reflexivity]); reflexivity.
Qed.
Lemma index_small v w R k0 k1 b : index v w R k0 k1 b < 64.
Proof. unfold index. destruct (Nat.even b); apply slice_small. Qed.

Lemma spTrans_small : forallb tab_small spTrans = true. Proof. vm_compute. reflexivity. Qed.
Lemma sp_high b v p : (b < 8)%nat -> 32 <= p -> N.testbit (at_ (row spTrans b) v) p = false.
Proof.
  intros B P. apply at_small; [|exact P]. apply (proj1 (forallb_forall _ _) spTrans_small). apply nth_In. exact B.
Qed.
Definition sp_word (I' : nat -> N) : N :=
  N.lor (N.lor (N.lor (N.lor (N.lor (N.lor (N.lor
     (at_ (row spTrans 1) (I' 1%nat)) (at_ (row spTrans 3) (I' 3%nat))) (at_ (row spTrans 5) (I' 5%nat))) (at_ (row spTrans 7) (I' 7%nat)))
     (at_ (row spTrans 0) (I' 0%nat))) (at_ (row spTrans 2) (I' 2%nat))) (at_ (row spTrans 4) (I' 4%nat))) (at_ (row spTrans 6) (I' 6%nat)).
Lemma sp_word_bit I' j : (forall b, I' b < 64) -> (j < 32)%nat ->
  N.testbit (sp_word I') (N.of_nat (S j mod 32)) = nth (P0 j mod 4) (S_box (nth (P0 j / 4) S_boxes []) (lsb6 (I' (P0 j / 4)%nat))) false.
Proof.
  intros H J. unfold sp_word. rewrite !N.lor_spec, !sp_bit by (try apply H; lia).
  pose proof (P0_range j J) as PR. assert (Q : (P0 j / 4 < 8)%nat) by (apply Nat.div_lt_upper_bound; lia).
  set (q := (P0 j / 4)%nat) in *. clearbody q.
  assert (T : (q = 0 \/ q = 1 \/ q = 2 \/ q = 3 \/ q = 4 \/ q = 5 \/ q = 6 \/ q = 7)%nat) by lia.
  destruct T as [-> | [-> | [-> | [-> | [-> | [-> | [-> | ->]]]]]]]; cbn [Nat.eqb orb]; now rewrite ?orb_false_r.
Qed.
Lemma pick_nth t l j : (j < length t)%nat -> nth j (pick false t l) false = nth (nth j t 0%nat - 1) l false.
Proof.
  intros J. unfold pick. rewrite nth_indep with (d' := (fun i => nth (i - 1) l false) 0%nat) by (rewrite map_length; exact J).
  now rewrite (map_nth (fun i => nth (i - 1) l false)).
Qed.
Lemma dEncrypt_word v w L R s i : dEncrypt L R i v (shl w 4) s = N.lxor L (sp_word (index v w R (nth i s 0) (nth (i + 1) s 0))).
Proof. reflexivity. Qed.
Lemma dEncrypt_small v w L R s i : small L -> small (dEncrypt L R i v (shl w 4) s).
Proof.
  intros H p Hp. rewrite dEncrypt_word, N.lxor_spec, (H p Hp). unfold sp_word. rewrite !N.lor_spec, !sp_high by (try exact Hp; lia). reflexivity.
Qed.
(** One call is one round of the standard. *)
Lemma dEncrypt_round v w L R s i K : v < 64 -> w < 64 -> small R -> key_fits K (nth i s 0) (nth (i + 1) s 0) ->
  tb (dEncrypt L R i v (shl w 4) s) = xors (tb L) (des_f (salt_bits v w) K (tb R)).
Proof.
  intros V W HR KF. pose proof KF as (KL & K0 & K1 & KB). rewrite dEncrypt_word.
  set (g := six_groups (xors (salted (salt_bits v w) (pick false E_table (tb R))) K)).
  assert (GL : length g = 8%nat) by (apply six_groups_length; rewrite xors_length, salted_length, KL; reflexivity).
  assert (G6 : forall b, (b < 8)%nat -> lsb6 (index v w R (nth i s 0) (nth (i + 1) s 0) b) = nth b g []).
  { intros b B. rewrite index_bits by assumption. now apply input_bits. }
  set (bx := map (fun p => S_box (fst p) (snd p)) (combine S_boxes g)).
  assert (BN : forall b, (b < 8)%nat -> nth b bx [] = S_box (nth b S_boxes []) (nth b g [])).
  { intros b B. unfold bx. change (@nil bool) with ((fun p => S_box (fst p) (snd p)) (@nil N, @nil bool)) at 1. rewrite map_nth, combine_nth by (rewrite GL; reflexivity). reflexivity. }
  assert (BL : length bx = 8%nat) by (unfold bx; rewrite map_length, combine_length, GL; reflexivity).
  assert (B4 : Forall (fun l => length l = 4%nat) bx).
  { apply Forall_nth. intros b d B. rewrite BL in B. rewrite (nth_indep _ d []) by (rewrite BL; exact B). rewrite BN by exact B.
    apply S_box_length. rewrite <- G6 by exact B. reflexivity. }
  assert (FL : length (des_f (salt_bits v w) K (tb R)) = 32%nat) by (unfold des_f, pick; rewrite map_length; reflexivity).
  apply nth_ext with (d := false) (d' := false).
  { rewrite xors_length, !tb_length, FL. reflexivity. }
  intros j J. rewrite tb_length in J. rewrite xors_nth by (rewrite ?tb_length, ?FL; exact J). rewrite !tb_nth by exact J.
  rewrite N.lxor_spec. f_equal. rewrite sp_word_bit by (try exact J; intros; apply index_small).
  pose proof (P0_range j J) as PR. assert (Q : (P0 j / 4 < 8)%nat) by (apply Nat.div_lt_upper_bound; lia).
  rewrite G6, <- BN by exact Q. rewrite <- concat4_nth by (try exact B4; rewrite BL; lia).
  unfold des_f. fold g. fold bx. symmetry. exact (pick_nth P_table (concat bx) j J).
Qed.
