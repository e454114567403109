(** * Symbolic bits: words whose every bit is an exclusive-or of input bits.
    Used to check the bit permutations of crypt/ once for all inputs. *)
From Coq Require Import Lia ZifyBool ZifyNat ZifyN.
From Verif Require Import M_Base M_CryptTables M_Crypt P_Base.
Open Scope N_scope.

(** A symbolic word: for each bit, lowest first, the inputs it is the sum of. *)
Definition sw := list (list N).
Definition evl (x : N -> bool) (l : list N) : bool := fold_right (fun q b => xorb (x q) b) false l.
Definition sget (s : sw) (p : N) : list N := nth (N.to_nat p) s [].
Definition Rep (x : N -> bool) (w : N) (s : sw) : Prop := forall p, N.testbit w p = evl x (sget s p).

Fixpoint toggle (q : N) (l : list N) : list N :=
  match l with
  | [] => [q]
  | a :: l' => if a =? q then l' else a :: toggle q l'
  end.
Definition sdiff (a b : list N) : list N := fold_right toggle b a.
Lemma evl_cons x a l : evl x (a :: l) = xorb (x a) (evl x l).
Proof. reflexivity. Qed.
Lemma evl_toggle x q l : evl x (toggle q l) = xorb (x q) (evl x l).
Proof.
  induction l as [|a l IH]; [reflexivity|]. cbn [toggle]. destruct (a =? q) eqn:E.
  - apply N.eqb_eq in E. subst. rewrite evl_cons. destruct (x q), (evl x l); reflexivity.
  - rewrite !evl_cons, IH. destruct (x q), (x a), (evl x l); reflexivity.
Qed.
Lemma evl_sdiff x a b : evl x (sdiff a b) = xorb (evl x a) (evl x b).
Proof.
  induction a as [|q a IH]; [symmetry; apply xorb_false_l|]. cbn [sdiff fold_right]. fold (sdiff a b). rewrite evl_toggle, IH, evl_cons.
  destruct (x q), (evl x a), (evl x b); reflexivity.
Qed.

Fixpoint zipw (f : list N -> list N -> list N) (a b : sw) : sw :=
  match a, b with
  | [], _ => b
  | _, [] => a
  | p :: a', q :: b' => f p q :: zipw f a' b'
  end.
Lemma zipw_get f a : (forall l, f [] l = l) -> (forall l, f l [] = l) -> forall b n, nth n (zipw f a b) [] = f (nth n a []) (nth n b []).
Proof.
  intros F1 F2. induction a as [|p a IH]; intros b n.
  - cbn [zipw]. now destruct n; cbn [nth]; rewrite F1.
  - destruct b as [|q b]; [cbn [zipw]; now destruct n; cbn [nth]; rewrite F2|]. cbn [zipw]. destruct n; [reflexivity|]. cbn [nth]. apply IH.
Qed.
(** xor *)
Definition sd (a b : list N) : list N := match a, b with [], _ => b | _, [] => a | _, _ => sdiff a b end.
Lemma evl_sd x a b : evl x (sd a b) = xorb (evl x a) (evl x b).
Proof.
  destruct a as [|p a]; [symmetry; apply xorb_false_l|]. destruct b as [|q b]; [|apply evl_sdiff].
  cbn [sd]. change (evl x []) with false. now rewrite xorb_false_r.
Qed.
Definition sxor (a b : sw) : sw := zipw sd a b.
Lemma rep_lxor x v w a b : Rep x v a -> Rep x w b -> Rep x (N.lxor v w) (sxor a b).
Proof.
  intros A B p. rewrite N.lxor_spec, A, B. unfold sget, sxor. rewrite zipw_get; [now rewrite evl_sd|reflexivity|now intros []].
Qed.

(** or, of words without a common bit *)
Definition so (a b : list N) : list N := match a with [] => b | _ => a end.
Definition sor (a b : sw) : sw := zipw so a b.
Fixpoint sdisj (a b : sw) : bool :=
  match a, b with
  | p :: a', q :: b' => match p, q with [], _ => true | _, [] => true | _, _ => false end && sdisj a' b'
  | _, _ => true
  end.
Lemma sdisj_get a : forall b n, sdisj a b = true -> nth n a [] = [] \/ nth n b [] = [].
Proof.
  induction a as [|p a IH]; intros b n D; [left; now destruct n|]. destruct b as [|q b]; [right; now destruct n|].
  cbn [sdisj] in D. apply andb_prop in D as [D1 D2]. destruct n; [|exact (IH b n D2)]. cbn [nth]. destruct p; [now left|]. destruct q; [now right|discriminate].
Qed.
Lemma rep_lor x v w a b : Rep x v a -> Rep x w b -> sdisj a b = true -> Rep x (N.lor v w) (sor a b).
Proof.
  intros A B D p. rewrite N.lor_spec, A, B. unfold sget, sor. rewrite zipw_get; [|reflexivity|now intros []].
  destruct (sdisj_get a b (N.to_nat p) D) as [-> | ->].
  - reflexivity.
  - rewrite orb_false_r. now destruct (nth (N.to_nat p) a []).
Qed.

(** and with a constant *)
Fixpoint smask (m : N) (s : sw) : sw :=
  match s with
  | [] => []
  | l :: s' => if m =? 0 then [] else (if N.odd m then l else []) :: smask (N.div2 m) s'
  end.
Lemma smask_get s : forall m n, nth n (smask m s) [] = if N.testbit m (N.of_nat n) then nth n s [] else [].
Proof.
  induction s as [|l s IH]; intros m n; cbn [smask].
  - destruct n; cbn [nth]; now destruct (N.testbit m _).
  - destruct (m =? 0) eqn:Z; [apply N.eqb_eq in Z; subst; rewrite N.bits_0; now destruct n|].
    destruct n as [|n]; cbn [nth].
    + now rewrite N.bit0_odd.
    + rewrite IH, Nat2N.inj_succ, N.div2_spec, N.shiftr_spec by lia. now rewrite N.add_1_r.
Qed.
Lemma rep_land x v m a : Rep x v a -> Rep x (N.land v m) (smask m a).
Proof.
  intros A p. rewrite N.land_spec, A. unfold sget. rewrite smask_get, N2Nat.id. destruct (N.testbit m p); [apply andb_true_r|apply andb_false_r].
Qed.

(** shifts *)
Definition sshr (n : N) (s : sw) : sw := skipn (N.to_nat n) s.
Lemma nth_skip {A} (d : A) k : forall l n, nth n (skipn k l) d = nth (k + n) l d.
Proof. induction k as [|k IH]; intros [|a l] n; try reflexivity; cbn; [now destruct n|apply IH]. Qed.
Lemma rep_shr x v n a : Rep x v a -> Rep x (shr v n) (sshr n a).
Proof.
  intros A p. unfold shr. rewrite N.shiftr_spec, A by lia. unfold sget, sshr. rewrite nth_skip. do 2 f_equal. lia.
Qed.
Definition sshl (n : N) (s : sw) : sw := firstn 32 (repeat [] (N.to_nat n) ++ s).
Lemma ones32_bit p : N.testbit ones32 p = (p <? 32).
Proof.
  change ones32 with (N.ones 32). destruct (p <? 32) eqn:E; [apply N.ones_spec_low; lia|apply N.ones_spec_high; lia].
Qed.
Lemma shl_bit v n p : N.testbit (shl v n) p = (p <? 32) && (n <=? p) && N.testbit v (p - n).
Proof.
  unfold shl. rewrite N.land_spec, ones32_bit. destruct (n <=? p) eqn:E.
  - rewrite N.shiftl_spec_high' by lia. now destruct (p <? 32), (N.testbit v (p - n)).
  - rewrite N.shiftl_spec_low by lia. now destruct (p <? 32).
Qed.
Lemma nth_first {A} (d : A) k : forall l n, nth n (firstn k l) d = if (n <? k)%nat then nth n l d else d.
Proof.
  induction k as [|k IH]; intros l n; [now destruct n|]. destruct l as [|a l]; [cbn [firstn]; destruct n; cbn [nth]; now destruct (_ <? _)%nat|].
  destruct n as [|n]; [reflexivity|]. cbn [firstn nth]. now rewrite IH.
Qed.
Lemma rep_shl x v n a : Rep x v a -> Rep x (shl v n) (sshl n a).
Proof.
  intros A p. rewrite shl_bit. unfold sget, sshl. rewrite nth_first.
  destruct (p <? 32) eqn:E1; [|now replace (N.to_nat p <? 32)%nat with false by lia].
  replace (N.to_nat p <? 32)%nat with true by lia. cbn [andb]. destruct (n <=? p) eqn:E2.
  - rewrite A, app_nth2; rewrite repeat_length; [|lia]. unfold sget. cbn [andb]. do 2 f_equal. lia.
  - rewrite app_nth1 by (rewrite repeat_length; lia). now rewrite nth_repeat.
Qed.

(** Look-up in a table of 64 words that is linear. *)
Definition tab_sum (T : list N) (b : N -> bool) : N :=
  fold_right (fun j acc => N.lxor (if b j then at_ T (2 ^ j) else 0) acc) 0 [0; 1; 2; 3; 4; 5].
Definition idx64 : list N := map N.of_nat (seq 0 64).
Definition tab_lin (T : list N) : bool := forallb (fun v => at_ T v =? tab_sum T (N.testbit v)) idx64.
Lemma in_idx64 v : v < 64 -> In v idx64.
Proof. intros H. unfold idx64. rewrite <- (N2Nat.id v). apply in_map, in_seq. lia. Qed.
Definition stab_bit (T : list N) (s : sw) (p : N) : list N :=
  fold_right (fun j acc => sd (if N.testbit (at_ T (2 ^ j)) p then sget s j else []) acc) [] [0; 1; 2; 3; 4; 5].
Definition stab (T : list N) (s : sw) : sw := map (stab_bit T s) (map N.of_nat (seq 0 32)).
Lemma small_bits w n : (forall p, n <= p -> N.testbit w p = false) -> w < 2 ^ n.
Proof.
  intros H. destruct (N.eq_dec w 0) as [->|Nz]; [apply N.neq_0_lt_0, N.pow_nonzero; discriminate|].
  apply N.log2_lt_pow2; [lia|]. destruct (N.lt_ge_cases (N.log2 w) n) as [L|L]; [exact L|].
  specialize (H _ L). now rewrite N.bit_log2 in H.
Qed.
Lemma bits_small w n p : w < 2 ^ n -> n <= p -> N.testbit w p = false.
Proof.
  intros L H. destruct (N.eq_dec w 0) as [->|Nz]; [apply N.bits_0|].
  apply N.bits_above_log2. apply N.lt_le_trans with n; [|exact H]. now apply N.log2_lt_pow2; [lia|].
Qed.
Definition tab_small (T : list N) : bool := forallb (fun v => v <? 2 ^ 32) T.
Lemma at_small T v p : tab_small T = true -> 32 <= p -> N.testbit (at_ T v) p = false.
Proof.
  intros S H. apply (bits_small _ 32); [|exact H]. unfold at_. unfold tab_small in S. rewrite forallb_forall in S.
  destruct (nth_in_or_default (N.to_nat v) T 0) as [I' | ->]; [|reflexivity]. apply S in I'. now apply N.ltb_lt.
Qed.
Lemma rep_tab x T i s : tab_lin T = true -> tab_small T = true -> (length s <= 6)%nat -> Rep x i s -> Rep x (at_ T i) (stab T s).
Proof.
  intros L Sm Len A p.
  assert (I6 : i < 64).
  { apply (small_bits i 6). intros q Hq. rewrite A. unfold sget. rewrite nth_overflow by lia. reflexivity. }
  destruct (N.lt_ge_cases p 32) as [P|P].
  - unfold tab_lin in L. rewrite forallb_forall in L. specialize (L i (in_idx64 i I6)). apply N.eqb_eq in L. rewrite L.
    unfold sget at 1, stab. rewrite nth_indep with (d' := stab_bit T s 32) by (rewrite !map_length, seq_length; lia).
    rewrite map_nth. replace (nth (N.to_nat p) (map N.of_nat (seq 0 32)) 32) with p.
    2:{ rewrite (map_nth N.of_nat (seq 0 32) 32%nat), seq_nth by lia. lia. }
    unfold tab_sum, stab_bit. generalize [0; 1; 2; 3; 4; 5]. intros js. induction js as [|j js IH]; [apply N.bits_0|].
    cbn [fold_right]. rewrite N.lxor_spec, evl_sd, IH. f_equal. rewrite A. destruct (evl x (sget s j)) eqn:E, (N.testbit (at_ T (2 ^ j)) p) eqn:F;
      rewrite ?F, ?E, ?N.bits_0; reflexivity.
  - rewrite at_small by assumption. unfold sget. rewrite nth_overflow; [reflexivity|]. unfold stab. rewrite !map_length, seq_length. lia.
Qed.

Lemma rep_permOp x v w n m a b : Rep x v a -> Rep x w b ->
  Rep x (fst (permOp v w n m)) (sxor a (sshl n (smask m (sxor (sshr n a) b)))) /\
  Rep x (snd (permOp v w n m)) (sxor b (smask m (sxor (sshr n a) b))).
Proof.
  intros A B. unfold permOp. cbn [fst snd]. split; repeat first [assumption | apply rep_lxor | apply rep_shl | apply rep_shr | apply rep_land].
Qed.
Lemma rep_hPermOp x v k m a : Rep x v a ->
  Rep x (hPermOp v k m) (sxor (sxor a (smask m (sxor (sshl k a) a))) (sshr k (smask m (sxor (sshl k a) a)))).
Proof. intros A. unfold hPermOp. repeat first [assumption | apply rep_lxor | apply rep_shl | apply rep_shr | apply rep_land]. Qed.
