(** * Lemmas about bytes, little-endian numbers and fixed-offset buffers. *)
From Coq Require Import Lia ZifyBool ZifyNat ZifyN.
From Verif Require Import M_Base.

Lemma b2n_lt b : (b2n b < 256)%N.
Proof. unfold b2n. pose proof (Byte.to_N_bounded b). lia. Qed.

Lemma n2b_b2n b : n2b (b2n b) = b.
Proof.
  unfold n2b, b2n. rewrite N.mod_small by (pose proof (Byte.to_N_bounded b); lia).
  rewrite Byte.of_to_N. reflexivity.
Qed.

Lemma b2n_n2b n : b2n (n2b n) = (n mod 256)%N.
Proof.
  unfold n2b, b2n.
  assert (H : (n mod 256 < 256)%N) by (apply N.mod_lt; lia).
  destruct (Byte.of_N (n mod 256)) eqn:E.
  - apply Byte.to_of_N in E. exact E.
  - apply Byte.of_N_None_iff in E. lia.
Qed.

Lemma b2n_inj a b : b2n a = b2n b -> a = b.
Proof. intros H. rewrite <- (n2b_b2n a), <- (n2b_b2n b), H. reflexivity. Qed.

Lemma beqb_eq a b : beqb a b = true <-> a = b.
Proof. unfold beqb. destruct (list_eq_dec _ a b); split; congruence. Qed.
Lemma beqb_neq a b : beqb a b = false <-> a <> b.
Proof. unfold beqb. destruct (list_eq_dec _ a b); split; congruence. Qed.
Lemma beqb_refl a : beqb a a = true.
Proof. apply beqb_eq. reflexivity. Qed.

Lemma byte_eqb_eq a b : Byte.eqb a b = true <-> a = b.
Proof.
  split.
  - intros H. apply Byte.byte_dec_bl; exact H.
  - intros ->. apply Byte.byte_dec_lb; reflexivity.
Qed.
Lemma byte_eqb_neq a b : Byte.eqb a b = false <-> a <> b.
Proof.
  split.
  - intros H E. apply byte_eqb_eq in E. congruence.
  - intros H. destruct (Byte.eqb a b) eqn:E; auto. apply byte_eqb_eq in E. contradiction.
Qed.
Lemma byte_eqb_refl a : Byte.eqb a a = true.
Proof. apply byte_eqb_eq. reflexivity. Qed.

(** ** Lengths *)

Lemma lenN_nil {A} : lenN (@nil A) = 0%N. Proof. reflexivity. Qed.
Lemma lenN_cons {A} (x : A) l : lenN (x :: l) = (1 + lenN l)%N.
Proof. unfold lenN. cbn [List.length]. lia. Qed.
Lemma lenN_app {A} (a b : list A) : lenN (a ++ b) = (lenN a + lenN b)%N.
Proof. unfold lenN. rewrite app_length. lia. Qed.
Lemma to_nat_lenN {A} (l : list A) : N.to_nat (lenN l) = List.length l.
Proof. unfold lenN. lia. Qed.
Lemma lenN_0 {A} (l : list A) : lenN l = 0%N <-> l = [].
Proof. unfold lenN. destruct l; cbn; split; intros; try congruence; lia. Qed.

Lemma zeros_length n : List.length (zeros n) = N.to_nat n.
Proof. unfold zeros. apply repeat_length. Qed.
Lemma lenN_zeros n : lenN (zeros n) = n.
Proof. unfold lenN. rewrite zeros_length. lia. Qed.
Lemma zeros_0 : zeros 0 = []. Proof. reflexivity. Qed.
Lemma zeros_add a b : zeros (a + b) = zeros a ++ zeros b.
Proof. unfold zeros. rewrite N2Nat.inj_add, repeat_app. reflexivity. Qed.

Lemma firstn_repeat {A} (x : A) n k : firstn k (repeat x n) = repeat x (min k n).
Proof. revert k; induction n; destruct k; cbn; auto. f_equal; auto. Qed.
Lemma skipn_repeat {A} (x : A) n k : skipn k (repeat x n) = repeat x (n - k).
Proof. revert k; induction n; destruct k; cbn; auto. Qed.

Lemma skipn_skipn {A} n m (l : list A) : skipn n (skipn m l) = skipn (n + m) l.
Proof.
  revert l; induction m as [|m IH]; intros l.
  - now rewrite Nat.add_0_r.
  - rewrite Nat.add_succ_r. destruct l; cbn; [now rewrite skipn_nil|apply IH].
Qed.

(** ** Little endian *)

Lemma le_enc_length k n : List.length (le_enc k n) = k.
Proof. revert n; induction k; cbn; auto. Qed.
Lemma lenN_le_enc k n : lenN (le_enc k n) = N.of_nat k.
Proof. unfold lenN. now rewrite le_enc_length. Qed.

Lemma le_dec_enc k n : le_dec (le_enc k n) = (n mod (256 ^ N.of_nat k))%N.
Proof.
  revert n; induction k; intros n.
  - cbn. now rewrite N.mod_1_r.
  - cbn [le_enc le_dec]. rewrite IHk, b2n_n2b.
    rewrite Nat2N.inj_succ, N.pow_succ_r'.
    rewrite N.mod_mul_r; try lia.
Qed.

Lemma le_dec_bound l : (le_dec l < 256 ^ lenN l)%N.
Proof.
  induction l as [|b l IH].
  - cbn. lia.
  - rewrite lenN_cons. cbn [le_dec].
    replace (1 + lenN l)%N with (N.succ (lenN l)) by lia.
    rewrite N.pow_succ_r'. pose proof (b2n_lt b). nia.
Qed.

Lemma le_enc_dec l : le_enc (List.length l) (le_dec l) = l.
Proof.
  induction l as [|b l IH]; cbn [List.length le_enc le_dec]; auto.
  pose proof (b2n_lt b) as Hb.
  f_equal.
  - apply b2n_inj. rewrite b2n_n2b.
    replace (b2n b + 256 * le_dec l)%N with (b2n b + le_dec l * 256)%N by lia.
    rewrite N.mod_add by lia. apply N.mod_small; exact Hb.
  - replace ((b2n b + 256 * le_dec l) / 256)%N with (le_dec l); [exact IH|].
    replace (b2n b + 256 * le_dec l)%N with (b2n b + le_dec l * 256)%N by lia.
    rewrite N.div_add by lia. rewrite N.div_small by exact Hb. lia.
Qed.

Lemma le_dec_inj a b : List.length a = List.length b -> le_dec a = le_dec b -> a = b.
Proof. intros H E. rewrite <- (le_enc_dec a), <- (le_enc_dec b), H, E. reflexivity. Qed.

(** ** Slices *)

Lemma sub_length off len d :
  (off + len <= lenN d)%N -> List.length (sub off len d) = N.to_nat len.
Proof. unfold sub, lenN. intros. rewrite firstn_length, skipn_length. lia. Qed.
Lemma lenN_sub off len d : (off + len <= lenN d)%N -> lenN (sub off len d) = len.
Proof. intros. unfold lenN at 1. rewrite sub_length by assumption. lia. Qed.

Lemma lenN_sub_le off len d : (lenN (sub off len d) <= len)%N.
Proof. unfold sub, lenN. rewrite firstn_length. lia. Qed.

Lemma sub_all d : sub 0 (lenN d) d = d.
Proof. unfold sub. cbn [N.to_nat skipn]. rewrite to_nat_lenN. apply firstn_all. Qed.

Lemma sub_app_l off len a b :
  (off + len <= lenN a)%N -> sub off len (a ++ b) = sub off len a.
Proof.
  unfold sub, lenN. intros. rewrite skipn_app, firstn_app.
  replace (N.to_nat len - _)%nat with 0%nat by (rewrite skipn_length; lia).
  cbn. now rewrite app_nil_r.
Qed.
Lemma sub_app_r off len a b :
  (lenN a <= off)%N -> sub off len (a ++ b) = sub (off - lenN a) len b.
Proof.
  unfold sub, lenN. intros. rewrite skipn_app.
  rewrite (skipn_all2 a) by lia. cbn [app]. f_equal. f_equal. lia.
Qed.

Lemma sub_zeros off len n :
  sub off len (zeros n) = zeros (N.min len (n - off)).
Proof.
  unfold sub, zeros. rewrite skipn_repeat, firstn_repeat. f_equal. lia.
Qed.

(** What a slot of width [len] holds after [src] is copied into it. *)
Definition pad (len : N) (src : bytes) : bytes :=
  let s := firstn (N.to_nat len) src in s ++ zeros (len - lenN s).

Lemma lenN_firstn {A} k (l : list A) : lenN (firstn (N.to_nat k) l) = N.min k (lenN l).
Proof. unfold lenN. rewrite firstn_length. lia. Qed.

Lemma lenN_pad len src : lenN (pad len src) = len.
Proof. unfold pad. rewrite lenN_app, lenN_zeros, lenN_firstn. lia. Qed.

Lemma pad_fit len src : (lenN src <= len)%N -> pad len src = src ++ zeros (len - lenN src).
Proof.
  unfold pad. intros.
  rewrite firstn_all2 by (unfold lenN in *; lia). reflexivity.
Qed.

Lemma put_length off len src buf :
  (off + len <= lenN buf)%N -> lenN (put off len src buf) = lenN buf.
Proof.
  unfold put. intros. rewrite !lenN_app. rewrite !lenN_firstn.
  unfold lenN in *. rewrite skipn_length, firstn_length. lia.
Qed.

Lemma sub_put_disjoint off len src buf o l :
  (off + len <= lenN buf)%N -> (o + l <= lenN buf)%N ->
  (o + l <= off \/ off + len <= o)%N ->
  sub o l (put off len src buf) = sub o l buf.
Proof.
  intros H H0 D. unfold put.
  set (s := firstn (N.to_nat len) src).
  assert (Ls : (lenN s <= len)%N) by (unfold s; rewrite lenN_firstn; lia).
  assert (Lf : lenN (firstn (N.to_nat off) buf) = off) by (rewrite lenN_firstn; lia).
  replace (N.to_nat off + Datatypes.length s)%nat with (N.to_nat (off + lenN s)) by (unfold lenN; lia).
  destruct D as [D|D].
  - rewrite sub_app_l by lia.
    rewrite <- (firstn_skipn (N.to_nat off) buf) at 2.
    rewrite sub_app_l by lia. reflexivity.
  - rewrite sub_app_r by lia. rewrite sub_app_r by lia.
    rewrite Lf. unfold sub.
    rewrite !skipn_skipn.
    f_equal. f_equal. lia.
Qed.

Lemma sub_put_same off len src buf :
  (off + len <= lenN buf)%N ->
  sub off len buf = zeros len ->
  sub off len (put off len src buf) = pad len src.
Proof.
  intros H Z. unfold put, pad.
  set (s := firstn (N.to_nat len) src).
  assert (Ls : (lenN s <= len)%N) by (unfold s; rewrite lenN_firstn; lia).
  assert (Lf : lenN (firstn (N.to_nat off) buf) = off) by (rewrite lenN_firstn; lia).
  replace (N.to_nat off + Datatypes.length s)%nat with (N.to_nat (off + lenN s)) by (unfold lenN; lia).
  rewrite sub_app_r by lia. rewrite Lf, N.sub_diag.
  unfold sub at 1. cbn [N.to_nat skipn].
  rewrite firstn_app.
  rewrite (firstn_all2 s) by (unfold lenN in *; lia).
  f_equal.
  assert (E : sub (off + lenN s) (len - lenN s) buf = zeros (len - lenN s)).
  { unfold sub in *.
    assert (E1 : skipn (N.to_nat (lenN s)) (firstn (N.to_nat len) (skipn (N.to_nat off) buf)) =
                 skipn (N.to_nat (lenN s)) (zeros len)) by now rewrite Z.
    rewrite skipn_firstn_comm in E1. rewrite skipn_skipn in E1.
    unfold zeros in E1 at 1. rewrite skipn_repeat in E1.
    replace (N.to_nat (len - lenN s)) with (N.to_nat len - N.to_nat (lenN s))%nat by lia.
    replace (N.to_nat (off + lenN s)) with (N.to_nat (lenN s) + N.to_nat off)%nat by lia.
    rewrite E1. unfold zeros. f_equal. lia. }
  rewrite <- E. unfold sub. f_equal. unfold lenN. lia.
Qed.

(** ** Buffers built by a list of writes *)

(** Every write lies inside a buffer of size [n]. *)
Definition wr_in (n : N) (w : wr) : Prop := (w_off w + w_len w <= n)%N.
Definition wr_disj (o l : N) (w : wr) : Prop :=
  (o + l <= w_off w \/ w_off w + w_len w <= o)%N.

Definition wr_inb (n : N) (w : wr) : bool := (w_off w + w_len w <=? n)%N.
Definition wr_disjb (o l : N) (w : wr) : bool :=
  ((o + l <=? w_off w) || (w_off w + w_len w <=? o))%N.

Lemma wr_inb_spec n w : wr_inb n w = true -> wr_in n w.
Proof. unfold wr_inb, wr_in. lia. Qed.
Lemma wr_disjb_spec o l w : wr_disjb o l w = true -> wr_disj o l w.
Proof. unfold wr_disjb, wr_disj. lia. Qed.

Definition puts (ws : list wr) (buf : bytes) : bytes :=
  fold_left (fun buf w => put (w_off w) (w_len w) (w_src w) buf) ws buf.

Lemma puts_length ws buf :
  Forall (wr_in (lenN buf)) ws -> lenN (puts ws buf) = lenN buf.
Proof.
  revert buf. induction ws as [|w ws IH]; intros buf H; cbn; auto.
  inversion H; subst. unfold puts in IH. rewrite IH.
  - apply put_length. assumption.
  - rewrite put_length by assumption. assumption.
Qed.

Lemma sub_puts_disjoint ws buf o l :
  Forall (wr_in (lenN buf)) ws -> Forall (wr_disj o l) ws -> (o + l <= lenN buf)%N ->
  sub o l (puts ws buf) = sub o l buf.
Proof.
  revert buf. induction ws as [|w ws IH]; intros buf H D B; cbn; auto.
  inversion H; inversion D; subst. unfold puts in IH. rewrite IH.
  - apply sub_put_disjoint; try assumption; lia.
  - rewrite put_length by assumption. assumption.
  - assumption.
  - rewrite put_length by assumption. assumption.
Qed.

Lemma put_all_length n ws : Forall (wr_in n) ws -> lenN (put_all n ws) = n.
Proof.
  intros H. unfold put_all. change (lenN (puts ws (zeros n)) = n).
  rewrite puts_length; rewrite lenN_zeros; auto.
Qed.

(** Reading back a slot: all other writes miss the slot. *)
Lemma put_all_read n ws1 w ws2 :
  Forall (wr_in n) (ws1 ++ w :: ws2) ->
  Forall (wr_disj (w_off w) (w_len w)) ws1 ->
  Forall (wr_disj (w_off w) (w_len w)) ws2 ->
  sub (w_off w) (w_len w) (put_all n (ws1 ++ w :: ws2)) = pad (w_len w) (w_src w).
Proof.
  intros H D1 D2. unfold put_all.
  apply Forall_app in H. destruct H as [H1 H2]. inversion H2; subst.
  rewrite fold_left_app. cbn [fold_left].
  change (sub (w_off w) (w_len w)
    (puts ws2 (put (w_off w) (w_len w) (w_src w) (puts ws1 (zeros n)))) = pad (w_len w) (w_src w)).
  assert (L1 : lenN (puts ws1 (zeros n)) = n).
  { rewrite puts_length; rewrite lenN_zeros; auto. }
  assert (L2 : lenN (put (w_off w) (w_len w) (w_src w) (puts ws1 (zeros n))) = n).
  { rewrite put_length; rewrite L1; auto. }
  rewrite sub_puts_disjoint; rewrite ?L2; auto.
  apply sub_put_same; rewrite ?L1; auto.
  rewrite sub_puts_disjoint; rewrite ?lenN_zeros; auto.
  rewrite sub_zeros. f_equal. red in H3. lia.
Qed.

(** A slot nobody writes is zero. *)
Lemma put_all_untouched n ws o l :
  Forall (wr_in n) ws -> Forall (wr_disj o l) ws -> (o + l <= n)%N ->
  sub o l (put_all n ws) = zeros l.
Proof.
  intros. unfold put_all. change (sub o l (puts ws (zeros n)) = zeros l).
  rewrite sub_puts_disjoint; rewrite ?lenN_zeros; auto.
  rewrite sub_zeros. f_equal. lia.
Qed.

(** Later writes hide earlier ones: a slot is the content of the last write
    that covers exactly it, provided later writes miss it and that write fills
    the slot. *)
Lemma put_all_read_full n ws1 w ws2 :
  Forall (wr_in n) (ws1 ++ w :: ws2) ->
  Forall (wr_disj (w_off w) (w_len w)) ws2 ->
  lenN (w_src w) = w_len w ->
  sub (w_off w) (w_len w) (put_all n (ws1 ++ w :: ws2)) = w_src w.
Proof.
  intros H D2 L. unfold put_all.
  apply Forall_app in H. destruct H as [H1 H2]. inversion H2; subst.
  rewrite fold_left_app. cbn [fold_left].
  change (sub (w_off w) (w_len w)
    (puts ws2 (put (w_off w) (w_len w) (w_src w) (puts ws1 (zeros n)))) = w_src w).
  assert (L1 : lenN (puts ws1 (zeros n)) = n).
  { rewrite puts_length; rewrite lenN_zeros; auto. }
  assert (L2 : lenN (put (w_off w) (w_len w) (w_src w) (puts ws1 (zeros n))) = n).
  { rewrite put_length; rewrite L1; auto. }
  rewrite sub_puts_disjoint; rewrite ?L2; auto.
  unfold put. rewrite (firstn_all2 (w_src w)) by (unfold lenN in L; lia).
  red in H3.
  assert (Lf : lenN (firstn (N.to_nat (w_off w)) (puts ws1 (zeros n))) = w_off w)
    by (rewrite lenN_firstn; lia).
  rewrite sub_app_r by lia. rewrite Lf, N.sub_diag.
  rewrite sub_app_l by lia. rewrite <- L. apply sub_all.
Qed.

(** ** NUL trimming *)

Definition no_nul (l : bytes) : Prop := ~ In x00 l.

Lemma drop_nul_zeros n l : drop_nul (zeros n ++ l) = drop_nul l.
Proof.
  unfold zeros. induction (N.to_nat n); cbn; auto.
Qed.

Lemma drop_nul_id l : hd x01 l <> x00 -> drop_nul l = l.
Proof.
  destruct l as [|b l]; cbn; auto. intros H.
  destruct (Byte.eqb b x00) eqn:E; auto. apply byte_eqb_eq in E. contradiction.
Qed.

Lemma drop_nul_app_zeros n l :
  hd x01 (rev l) <> x00 -> rev (drop_nul (rev (l ++ zeros n))) = l.
Proof.
  intros H. rewrite rev_app_distr.
  assert (R : rev (zeros n) = zeros n).
  { unfold zeros. induction (N.to_nat n) as [|k IH]; cbn; auto.
    rewrite IH. clear IH. induction k; cbn; auto. f_equal. auto. }
  rewrite R, drop_nul_zeros, drop_nul_id by exact H. apply rev_involutive.
Qed.

(** A text without NUL at either end is recovered from its padded slot. *)
Definition ends_ok (l : bytes) : Prop := hd x01 l <> x00 /\ hd x01 (rev l) <> x00.

Lemma trim_nul_pad len l :
  (lenN l <= len)%N -> ends_ok l -> trim_nul (pad len l) = l.
Proof.
  intros H [H1 H2]. rewrite pad_fit by exact H. unfold trim_nul.
  destruct l as [|b l].
  - cbn [app]. replace (zeros (len - lenN (@nil byte))) with (zeros (len - lenN (@nil byte)) ++ []) by apply app_nil_r.
    rewrite drop_nul_zeros. reflexivity.
  - rewrite (drop_nul_id ((b :: l) ++ _)) by exact H1.
    apply drop_nul_app_zeros. exact H2.
Qed.

Lemma no_nul_ends l : no_nul l -> ends_ok l.
Proof.
  intros H. split.
  - destruct l; cbn; [discriminate|]. intros ->. apply H. now left.
  - destruct (rev l) eqn:E; cbn; [discriminate|]. intros ->. apply H.
    apply in_rev. rewrite E. now left.
Qed.

Lemma no_nul_app a b : no_nul (a ++ b) <-> no_nul a /\ no_nul b.
Proof. unfold no_nul. rewrite in_app_iff. tauto. Qed.

(** ** Integers *)
Lemma u32_range z : (u32 z < 4294967296)%N.
Proof. unfold u32. pose proof (Z.mod_pos_bound z 4294967296). lia. Qed.
Lemma u32_small z : (0 <= z < 4294967296)%Z -> Z.of_N (u32 z) = z.
Proof. unfold u32. intros. rewrite Z.mod_small by lia. lia. Qed.
Lemma sgn_range h z : (0 < h)%Z -> (- h <= sgn h z < h)%Z.
Proof.
  unfold sgn. intros. pose proof (Z.mod_pos_bound z (2*h)).
  destruct (z mod (2*h) <? h)%Z eqn:E; lia.
Qed.
Lemma sgn_id h z : (0 < h)%Z -> (- h <= z < h)%Z -> sgn h z = z.
Proof.
  unfold sgn. intros Hh [H1 H2].
  destruct (Z_lt_dec z 0).
  - assert (E : (z mod (2*h) = z + 2*h)%Z).
    { symmetry. apply Z.mod_unique with (q := (-1)%Z); lia. }
    rewrite E. destruct (z + 2*h <? h)%Z eqn:F; lia.
  - rewrite Z.mod_small by lia. destruct (z <? h)%Z eqn:F; lia.
Qed.
Lemma sgn_mod h z : (0 < h)%Z -> sgn h (z mod (2*h)) = sgn h z.
Proof. unfold sgn. intros. rewrite Z.mod_mod by lia. reflexivity. Qed.
