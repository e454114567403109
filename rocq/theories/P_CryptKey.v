(** * The key schedule of crypt/ is the key schedule of the standard *)
From Coq Require Import Lia ZifyBool ZifyNat ZifyN.
From Verif Require Import M_Base M_CryptTables M_Crypt S_Crypt P_Base P_CryptSym.
Open Scope N_scope.

Ltac rep := repeat first [eassumption | eapply rep_lxor | eapply rep_shl | eapply rep_shr | eapply rep_land | eapply rep_lor].

(** ** symbolic mirrors of the steps of desSetKey *)
Definition sperm (a b : sw) (n m : N) : sw * sw :=
  let t := smask m (sxor (sshr n a) b) in (sxor a (sshl n t), sxor b t).
Definition shperm (a : sw) (k m : N) : sw :=
  let t := smask m (sxor (sshl k a) a) in sxor (sxor a t) (sshr k t).
Lemma rep_perm x v w n m a b : Rep x v a -> Rep x w b ->
  Rep x (fst (permOp v w n m)) (fst (sperm a b n m)) /\ Rep x (snd (permOp v w n m)) (snd (sperm a b n m)).
Proof. apply rep_permOp. Qed.
Lemma rep_hperm x v k m a : Rep x v a -> Rep x (hPermOp v k m) (shperm a k m).
Proof. apply rep_hPermOp. Qed.

Definition sstart0 (c d : sw) : sw * sw :=
  let '(d, c) := sperm d c 4 0x0f0f0f0f in
  let c := shperm c 18 0xcccc0000 in
  let d := shperm d 18 0xcccc0000 in
  let '(d, c) := sperm d c 1 0x55555555 in
  let '(c, d) := sperm c d 8 0x00ff00ff in
  let '(d, c) := sperm d c 1 0x55555555 in
  (c, d).
Definition sstart_parts (c d : sw) : sw * sw * sw * sw :=
  (sshl 16 (smask 0x000000ff d), smask 0x0000ff00 d, sshr 16 (smask 0x00ff0000 d), sshr 4 (smask 0xf0000000 c)).
Definition sstart (c d : sw) : sw * sw :=
  let '(c, d) := sstart0 c d in
  let '(p, q, r, s) := sstart_parts c d in
  (smask 0x0fffffff c, sor (sor (sor p q) r) s).
Definition sstart_ok (c d : sw) : bool :=
  let '(c, d) := sstart0 c d in
  let '(p, q, r, s) := sstart_parts c d in
  sdisj p q && sdisj (sor p q) r && sdisj (sor (sor p q) r) s.
Lemma rep_start x c d sc sd : Rep x c sc -> Rep x d sd -> sstart_ok sc sd = true ->
  Rep x (fst (setKey_start c d)) (fst (sstart sc sd)) /\ Rep x (snd (setKey_start c d)) (snd (sstart sc sd)).
Proof.
  intros C D. unfold sstart_ok, sstart, sstart0, setKey_start.
  destruct (rep_perm x d c 4 0x0f0f0f0f sd sc D C) as [D1 C1].
  destruct (permOp d c 4 0x0f0f0f0f) as [d1 c1], (sperm sd sc 4 0x0f0f0f0f) as [sd1 sc1]. cbn [fst snd] in D1, C1.
  apply (rep_hperm x c1 18 0xcccc0000) in C1. apply (rep_hperm x d1 18 0xcccc0000) in D1.
  revert C1 D1. generalize (hPermOp c1 18 0xcccc0000), (hPermOp d1 18 0xcccc0000), (shperm sc1 18 0xcccc0000), (shperm sd1 18 0xcccc0000).
  clear. intros c d sc sd C D.
  destruct (rep_perm x d c 1 0x55555555 sd sc D C) as [D1 C1].
  destruct (permOp d c 1 0x55555555) as [d1 c1], (sperm sd sc 1 0x55555555) as [sd1 sc1]. cbn [fst snd] in D1, C1.
  clear C D c d sc sd.
  destruct (rep_perm x c1 d1 8 0x00ff00ff sc1 sd1 C1 D1) as [C D].
  destruct (permOp c1 d1 8 0x00ff00ff) as [c d], (sperm sc1 sd1 8 0x00ff00ff) as [sc sd]. cbn [fst snd] in D, C.
  clear C1 D1 c1 d1 sc1 sd1.
  destruct (rep_perm x d c 1 0x55555555 sd sc D C) as [D1 C1].
  destruct (permOp d c 1 0x55555555) as [d1 c1], (sperm sd sc 1 0x55555555) as [sd1 sc1]. cbn [fst snd] in D1, C1.
  clear C D c d sc sd. unfold sstart_parts. intros K. apply andb_prop in K as [K K3]. apply andb_prop in K as [K1 K2].
  cbn [fst snd]. split; rep; assumption.
Qed.

Definition srot (two : bool) (c : sw) : sw :=
  smask 0x0fffffff (if two then sor (sshr 2 c) (sshl 26 c) else sor (sshr 1 c) (sshl 27 c)).
Definition srot_ok (two : bool) (c : sw) : bool :=
  if two then sdisj (sshr 2 c) (sshl 26 c) else sdisj (sshr 1 c) (sshl 27 c).
Lemma rep_rot x two c sc : Rep x c sc -> srot_ok two sc = true -> Rep x (setKey_rotate two c) (srot two sc).
Proof. intros C K. unfold setKey_rotate, srot. apply rep_land. destruct two; rep; exact K. Qed.

(** the indices into the tables *)
Definition ix0 (c : sw) := smask 0x3f c.
Definition ix1 (c : sw) := sor (smask 0x03 (sshr 6 c)) (smask 0x3c (sshr 7 c)).
Definition ix2 (c : sw) := sor (smask 0x0f (sshr 13 c)) (smask 0x30 (sshr 14 c)).
Definition ix3 (c : sw) := sor (sor (smask 0x01 (sshr 20 c)) (smask 0x06 (sshr 21 c))) (smask 0x38 (sshr 22 c)).
Definition ix5 (c : sw) := sor (smask 0x03 (sshr 7 c)) (smask 0x3c (sshr 8 c)).
Definition ix6 (c : sw) := smask 0x3f (sshr 15 c).
Definition ix7 (c : sw) := sor (smask 0x0f (sshr 21 c)) (smask 0x30 (sshr 22 c)).
Definition len6 (s : sw) : bool := (length s <=? 6)%nat.
Definition sk (k : nat) (i : sw) : sw := stab (row skb k) i.
Definition ss (c : sw) : sw := sor (sor (sor (sk 0 (ix0 c)) (sk 1 (ix1 c))) (sk 2 (ix2 c))) (sk 3 (ix3 c)).
Definition st (d : sw) : sw := sor (sor (sor (sk 4 (ix0 d)) (sk 5 (ix5 d))) (sk 6 (ix6 d))) (sk 7 (ix7 d)).
Definition ss_ok (c : sw) : bool :=
  sdisj (smask 0x03 (sshr 6 c)) (smask 0x3c (sshr 7 c)) && sdisj (smask 0x0f (sshr 13 c)) (smask 0x30 (sshr 14 c)) &&
  sdisj (smask 0x01 (sshr 20 c)) (smask 0x06 (sshr 21 c)) && sdisj (sor (smask 0x01 (sshr 20 c)) (smask 0x06 (sshr 21 c))) (smask 0x38 (sshr 22 c)) &&
  len6 (ix0 c) && len6 (ix1 c) && len6 (ix2 c) && len6 (ix3 c) &&
  sdisj (sk 0 (ix0 c)) (sk 1 (ix1 c)) && sdisj (sor (sk 0 (ix0 c)) (sk 1 (ix1 c))) (sk 2 (ix2 c)) &&
  sdisj (sor (sor (sk 0 (ix0 c)) (sk 1 (ix1 c))) (sk 2 (ix2 c))) (sk 3 (ix3 c)).
Definition st_ok (d : sw) : bool :=
  sdisj (smask 0x03 (sshr 7 d)) (smask 0x3c (sshr 8 d)) && sdisj (smask 0x0f (sshr 21 d)) (smask 0x30 (sshr 22 d)) &&
  len6 (ix0 d) && len6 (ix5 d) && len6 (ix6 d) && len6 (ix7 d) &&
  sdisj (sk 4 (ix0 d)) (sk 5 (ix5 d)) && sdisj (sor (sk 4 (ix0 d)) (sk 5 (ix5 d))) (sk 6 (ix6 d)) &&
  sdisj (sor (sor (sk 4 (ix0 d)) (sk 5 (ix5 d))) (sk 6 (ix6 d))) (sk 7 (ix7 d)).
Lemma skb_lin : forallb tab_lin skb = true. Proof. vm_compute. reflexivity. Qed.
Lemma skb_small : forallb tab_small skb = true. Proof. vm_compute. reflexivity. Qed.
Lemma rep_sk x k i s : (k < 8)%nat -> Rep x i s -> len6 s = true -> Rep x (at_ (row skb k) i) (sk k s).
Proof.
  intros K A L. assert (I' : In (row skb k) skb) by (apply nth_In; exact K).
  apply rep_tab; [exact (proj1 (forallb_forall _ _) skb_lin _ I')|exact (proj1 (forallb_forall _ _) skb_small _ I')|apply Nat.leb_le; exact L|exact A].
Qed.
Ltac cut_and K H := apply andb_prop in K as [K H].
Lemma rep_ss x c s : Rep x c s -> ss_ok s = true -> Rep x (setKey_s c) (ss s).
Proof.
  intros C K. unfold ss_ok in K.
  cut_and K K11. cut_and K K10. cut_and K K9. cut_and K K8. cut_and K K7. cut_and K K6. cut_and K K5. cut_and K K4. cut_and K K3. cut_and K K2.
  assert (R0 : Rep x (at_ (row skb 0) (N.land c 0x3f)) (sk 0 (ix0 s))) by (apply rep_sk; [clear; lia|now apply rep_land|exact K5]).
  assert (R1 : Rep x (at_ (row skb 1) (N.lor (N.land (shr c 6) 0x03) (N.land (shr c 7) 0x3c))) (sk 1 (ix1 s))).
  { apply rep_sk; [clear; lia| |exact K6]. apply rep_lor; [now apply rep_land, rep_shr|now apply rep_land, rep_shr|exact K]. }
  assert (R2 : Rep x (at_ (row skb 2) (N.lor (N.land (shr c 13) 0x0f) (N.land (shr c 14) 0x30))) (sk 2 (ix2 s))).
  { apply rep_sk; [clear; lia| |exact K7]. apply rep_lor; [now apply rep_land, rep_shr|now apply rep_land, rep_shr|exact K2]. }
  assert (R3 : Rep x (at_ (row skb 3) (N.lor (N.lor (N.land (shr c 20) 0x01) (N.land (shr c 21) 0x06)) (N.land (shr c 22) 0x38))) (sk 3 (ix3 s))).
  { apply rep_sk; [clear; lia| |exact K8]. apply rep_lor; [apply rep_lor; [now apply rep_land, rep_shr|now apply rep_land, rep_shr|exact K3]|now apply rep_land, rep_shr|exact K4]. }
  exact (rep_lor _ _ _ _ _ (rep_lor _ _ _ _ _ (rep_lor _ _ _ _ _ R0 R1 K9) R2 K10) R3 K11).
Qed.
Lemma rep_st x c s : Rep x c s -> st_ok s = true -> Rep x (setKey_t c) (st s).
Proof.
  intros C K. unfold st_ok in K.
  cut_and K K9. cut_and K K8. cut_and K K7. cut_and K K6. cut_and K K5. cut_and K K4. cut_and K K3. cut_and K K2.
  assert (R0 : Rep x (at_ (row skb 4) (N.land c 0x3f)) (sk 4 (ix0 s))) by (apply rep_sk; [clear; lia|now apply rep_land|exact K3]).
  assert (R1 : Rep x (at_ (row skb 5) (N.lor (N.land (shr c 7) 0x03) (N.land (shr c 8) 0x3c))) (sk 5 (ix5 s))).
  { apply rep_sk; [clear; lia| |exact K4]. apply rep_lor; [now apply rep_land, rep_shr|now apply rep_land, rep_shr|exact K]. }
  assert (R2 : Rep x (at_ (row skb 6) (N.land (shr c 15) 0x3f)) (sk 6 (ix6 s))) by (apply rep_sk; [clear; lia|now apply rep_land, rep_shr|exact K5]).
  assert (R3 : Rep x (at_ (row skb 7) (N.lor (N.land (shr c 21) 0x0f) (N.land (shr c 22) 0x30))) (sk 7 (ix7 s))).
  { apply rep_sk; [clear; lia| |exact K6]. apply rep_lor; [now apply rep_land, rep_shr|now apply rep_land, rep_shr|exact K2]. }
  exact (rep_lor _ _ _ _ _ (rep_lor _ _ _ _ _ (rep_lor _ _ _ _ _ R0 R1 K7) R2 K8) R3 K9).
Qed.
Definition swords (s t : sw) : list sw :=
  let s' := sor (sshr 16 s) (smask 0xffff0000 t) in
  [smask ones32 (sor (sshl 16 t) (smask 0x0000ffff s)); smask ones32 (sor (sshl 4 s') (sshr 28 s'))].
Definition swords_ok (s t : sw) : bool :=
  let s' := sor (sshr 16 s) (smask 0xffff0000 t) in
  sdisj (sshl 16 t) (smask 0x0000ffff s) && sdisj (sshr 16 s) (smask 0xffff0000 t) && sdisj (sshl 4 s') (sshr 28 s').
Lemma rep_words x s t a b : Rep x s a -> Rep x t b -> swords_ok a b = true -> Forall2 (Rep x) (setKey_words s t) (swords a b).
Proof.
  intros A B K. unfold swords_ok in K. cut_and K K3. cut_and K K2. unfold setKey_words, swords.
  assert (R : Rep x (N.lor (shr s 16) (N.land t 0xffff0000)) (sor (sshr 16 a) (smask 0xffff0000 b))).
  { apply rep_lor; [now apply rep_shr|now apply rep_land|exact K2]. }
  constructor; [|constructor; [|constructor]]; apply rep_land; apply rep_lor; try exact K; try exact K3;
    [now apply rep_shl|now apply rep_land|now apply rep_shl|now apply rep_shr].
Qed.
Fixpoint sloop (shifts : list bool) (c d : sw) : list sw :=
  match shifts with
  | [] => []
  | two :: rest => let c := srot two c in let d := srot two d in swords (ss c) (st d) ++ sloop rest c d
  end.
Fixpoint sloop_ok (shifts : list bool) (c d : sw) : bool :=
  match shifts with
  | [] => true
  | two :: rest =>
      srot_ok two c && srot_ok two d &&
      (let c := srot two c in let d := srot two d in ss_ok c && st_ok d && swords_ok (ss c) (st d) && sloop_ok rest c d)
  end.
Lemma rep_loop x shifts : forall c d sc sd, Rep x c sc -> Rep x d sd -> sloop_ok shifts sc sd = true ->
  Forall2 (Rep x) (setKey_loop shifts c d) (sloop shifts sc sd).
Proof.
  induction shifts as [|two rest IH]; intros c d sc sd C D K; [constructor|].
  cbn [sloop_ok setKey_loop sloop] in *. cbv zeta in *. apply andb_prop in K as [K K']. apply andb_prop in K as [K1 K2].
  apply andb_prop in K' as [K' K6]. apply andb_prop in K' as [K' K5]. apply andb_prop in K' as [K3 K4].
  apply (rep_rot x two) in C; [|exact K1]. apply (rep_rot x two) in D; [|exact K2].
  apply Forall2_app; [|apply IH; assumption]. apply rep_words; [now apply rep_ss|now apply rep_st|exact K5].
Qed.

(** ** the inputs: bit [q mod 8] of key byte [q / 8] *)
Definition word0 : sw := map (fun q => [N.of_nat q]) (seq 0 32).
Definition word1 : sw := map (fun q => [N.of_nat q]) (seq 32 32).
Definition key_bit (key : list N) (q : N) : bool := N.testbit (nth (N.to_nat (q / 8)) key 0) (q mod 8).
Definition start01 : sw * sw := sstart word0 word1.
Definition schedule : list sw := sloop shifts2 (fst start01) (snd start01).
Lemma schedule_ok : sstart_ok word0 word1 = true /\ sloop_ok shifts2 (fst start01) (snd start01) = true.
Proof. vm_compute. split; reflexivity. Qed.

Lemma seq_get a n p : nth p (map (fun q => [N.of_nat q]) (seq a n)) [] = if (p <? n)%nat then [N.of_nat (a + p)] else [].
Proof.
  destruct (p <? n)%nat eqn:E.
  - rewrite nth_indep with (d' := (fun q => [N.of_nat q]) 0%nat) by (rewrite map_length, seq_length; lia).
    rewrite (map_nth (fun q => [N.of_nat q])), seq_nth by lia. reflexivity.
  - apply nth_overflow. rewrite map_length, seq_length. lia.
Qed.
Lemma c2l_bit a b c d p : a < 256 -> b < 256 -> c < 256 -> d < 256 ->
  N.testbit (c2l a b c d) p = (p <? 32) && N.testbit (nth (N.to_nat (p / 8)) [a; b; c; d] 0) (p mod 8).
Proof.
  intros A B C D. unfold c2l. rewrite !N.lor_spec, !shl_bit.
  assert (Z : forall v i, v < 256 -> 8 <= i -> N.testbit v i = false) by (intros v i Hv; apply (bits_small v 8 i Hv)).
  destruct (p <? 32) eqn:E.
  - assert (Q : p / 8 < 4) by (apply N.div_lt_upper_bound; lia). pose proof (N.div_mod p 8 ltac:(discriminate)) as M.
    pose proof (N.mod_lt p 8 ltac:(discriminate)) as M'. cbn [andb].
    assert (H : p / 8 = 0 \/ p / 8 = 1 \/ p / 8 = 2 \/ p / 8 = 3) by lia.
    destruct H as [H|[H|[H|H]]]; rewrite H in *; cbn [N.to_nat nth Pos.to_nat Pos.iter_op Init.Nat.add].
    + replace (8 <=? p) with false by lia. replace (16 <=? p) with false by lia. replace (24 <=? p) with false by lia. cbn [andb orb].
      rewrite !orb_false_r. f_equal. lia.
    + replace (8 <=? p) with true by lia. replace (16 <=? p) with false by lia. replace (24 <=? p) with false by lia. cbn [andb].
      rewrite (Z a p) by lia. rewrite !orb_false_r. cbn [orb]. f_equal. lia.
    + replace (8 <=? p) with true by lia. replace (16 <=? p) with true by lia. replace (24 <=? p) with false by lia. cbn [andb].
      rewrite (Z a p), (Z b (p - 8)) by lia. rewrite !orb_false_r. cbn [orb]. f_equal. lia.
    + replace (8 <=? p) with true by lia. replace (16 <=? p) with true by lia. replace (24 <=? p) with true by lia. cbn [andb].
      rewrite (Z a p), (Z b (p - 8)), (Z c (p - 16)) by lia. cbn [orb]. f_equal. lia.
  - rewrite (Z a p) by lia. reflexivity.
Qed.
Lemma rep_c2l (key : list N) (o : N) : Forall (fun k => k < 256) key ->
  Rep (key_bit key) (c2l (nth (N.to_nat o) key 0) (nth (N.to_nat o + 1) key 0) (nth (N.to_nat o + 2) key 0) (nth (N.to_nat o + 3) key 0))
      (map (fun q => [N.of_nat q]) (seq (N.to_nat (8 * o)) 32)).
Proof.
  intros F p. assert (B : forall i, nth i key 0 < 256).
  { intros i. destruct (nth_in_or_default i key 0) as [I' | ->]; [|reflexivity]. now apply (proj1 (Forall_forall _ _) F). }
  rewrite c2l_bit by apply B. unfold sget. rewrite seq_get. destruct (p <? 32) eqn:E.
  - replace (N.to_nat p <? 32)%nat with true by lia. cbn [andb evl fold_right]. rewrite xorb_false_r. unfold key_bit.
    replace (N.of_nat (N.to_nat (8 * o) + N.to_nat p)) with (p + o * 8) by lia.
    rewrite N.mod_add, N.div_add by discriminate.
    assert (Q : p / 8 < 4) by (apply N.div_lt_upper_bound; lia).
    assert (H : p / 8 = 0 \/ p / 8 = 1 \/ p / 8 = 2 \/ p / 8 = 3) by lia.
    rewrite N2Nat.inj_add, !(Nat.add_comm (N.to_nat o)). destruct H as [-> | [-> | [-> | ->]]]; reflexivity.
  - replace (N.to_nat p <? 32)%nat with false by lia. reflexivity.
Qed.
(** Every word of the schedule is the computed selection of key bits. *)
Lemma schedule_rep key : Forall (fun k => k < 256) key -> Forall2 (Rep (key_bit key)) (desSetKey key) schedule.
Proof.
  intros F. destruct schedule_ok as [K1 K2]. unfold desSetKey.
  pose proof (rep_c2l key 0 F) as C. pose proof (rep_c2l key 4 F) as D.
  change (N.to_nat (8 * 0)) with 0%nat in C. change (N.to_nat (8 * 4)) with 32%nat in D. fold word0 in C. fold word1 in D.
  change (N.to_nat 0) with 0%nat in C. change (N.to_nat 4) with 4%nat in D. cbn [Init.Nat.add] in C, D.
  destruct (rep_start _ _ _ _ _ C D K1) as [C' D']. cbv zeta. destruct (setKey_start _ _) as [c d]. cbn [fst snd] in C', D'.
  apply rep_loop; assumption.
Qed.

(** ** the same selection in the standard *)
Definition key_index : list N := map (fun j => N.of_nat (8 * (j / 8) + (7 - j mod 8))) (seq 0 64).
Definition std_keys : list (list N) := round_keys 64 key_index.
Definition std_match : bool :=
  forallb (fun i => forallb (fun b => forallb (fun j =>
    match sget (nth (2 * i + b mod 2) schedule []) (N.of_nat ((4 * b + j) mod 32)) with
    | [q] => q =? nth (6 * b + j) (nth i std_keys []) 64
    | _ => false
    end) (seq 0 6)) (seq 0 8)) (seq 0 16).
Lemma std_matches : std_match = true. Proof. vm_compute. reflexivity. Qed.
Lemma schedule_narrow : forallb (fun s => (length s <=? 32)%nat) schedule = true. Proof. vm_compute. reflexivity. Qed.
Lemma schedule_length : length schedule = 32%nat. Proof. vm_compute. reflexivity. Qed.

(** picking commutes with any function *)
Lemma pick_map {A B} (f : A -> B) d t l : pick (f d) t (map f l) = map f (pick d t l).
Proof. unfold pick. rewrite map_map. apply map_ext. intros i. apply map_nth. Qed.
Lemma round_keys_from_map {A B} (f : A -> B) d shifts : forall C D,
  round_keys_from (f d) shifts (map f C) (map f D) = map (map f) (round_keys_from d shifts C D).
Proof.
  induction shifts as [|n rest IH]; intros C D; [reflexivity|]. cbn [round_keys_from map]. unfold rotate.
  rewrite !skipn_map, !firstn_map, <- !map_app, pick_map. f_equal. apply IH.
Qed.
Lemma round_keys_map {A B} (f : A -> B) d l : round_keys (f d) (map f l) = map (map f) (round_keys d l).
Proof. unfold round_keys. rewrite pick_map, skipn_map, firstn_map. apply round_keys_from_map. Qed.

Lemma Forall2_nth {A B} (R : A -> B -> Prop) l l' : Forall2 R l l' -> forall i d d', (i < length l')%nat -> R (nth i l d) (nth i l' d').
Proof. induction 1; intros i d d' L; [cbn in L; lia|]. destruct i; [assumption|]. cbn in *. apply IHForall2. lia. Qed.

(** bits of the key block, numbered as in the standard *)
Definition key_block (key : list N) : list bool := map (key_bit key) key_index.
Lemma key_words key i b j : Forall (fun k => k < 256) key -> (length key = 8)%nat -> (i < 16)%nat -> (b < 8)%nat -> (j < 6)%nat ->
  N.testbit (nth (2 * i + b mod 2) (desSetKey key) 0) (N.of_nat ((4 * b + j) mod 32)) =
  nth (6 * b + j) (nth i (round_keys false (key_block key)) []) false.
Proof.
  intros F L I' B J. pose proof (schedule_rep key F) as R.
  assert (M : (b mod 2 < 2)%nat) by (apply Nat.mod_upper_bound; discriminate).
  pose proof (Forall2_nth _ _ _ R (2 * i + b mod 2) 0 [] ltac:(rewrite schedule_length; lia)) as Rw.
  rewrite Rw. pose proof std_matches as SM. unfold std_match in SM. rewrite forallb_forall in SM.
  specialize (SM i ltac:(apply in_seq; lia)). rewrite forallb_forall in SM. specialize (SM b ltac:(apply in_seq; lia)).
  rewrite forallb_forall in SM. specialize (SM j ltac:(apply in_seq; lia)).
  destruct (sget _ _) as [|q [|q' r]]; try discriminate. apply N.eqb_eq in SM. subst q. cbn [evl fold_right]. rewrite xorb_false_r.
  assert (D : key_bit key 64 = false).
  { unfold key_bit. change (64 / 8) with 8. rewrite nth_overflow; [apply N.bits_0|]. rewrite L. vm_compute. lia. }
  unfold key_block. rewrite <- D, (round_keys_map (key_bit key) 64).
  change (@nil bool) with (map (key_bit key) []). rewrite map_nth. fold std_keys. now rewrite map_nth.
Qed.
Lemma key_words_small key i p : Forall (fun k => k < 256) key -> 32 <= p -> N.testbit (nth i (desSetKey key) 0) p = false.
Proof.
  intros F P. pose proof (schedule_rep key F) as R. destruct (Nat.lt_ge_cases i 32) as [H|H].
  - pose proof (Forall2_nth _ _ _ R i 0 [] ltac:(rewrite schedule_length; lia)) as Rw. rewrite Rw.
    unfold sget. rewrite nth_overflow; [reflexivity|]. pose proof schedule_narrow as SN. rewrite forallb_forall in SN.
    specialize (SN (nth i schedule []) ltac:(apply nth_In; rewrite schedule_length; lia)). apply Nat.leb_le in SN. lia.
  - rewrite nth_overflow; [apply N.bits_0|].
    assert (L : length (desSetKey key) = length schedule) by (clear - R; induction R; cbn; congruence). rewrite L, schedule_length. exact H.
Qed.
