(** * The digits fmt prints *)
From Coq Require Import Lia ZifyBool ZifyNat ZifyN Decimal DecimalString DecimalFacts DecimalPos DecimalN.
From Verif Require Import M_Base M_FileOps S_Digits P_Base.
Open Scope N_scope.

Lemma ten_cases d : d < 10 -> d = 0 \/ d = 1 \/ d = 2 \/ d = 3 \/ d = 4 \/ d = 5 \/ d = 6 \/ d = 7 \/ d = 8 \/ d = 9.
Proof. lia. Qed.
Lemma hex_digit_is d : d < 16 -> is_digit 16 d (hex_digit d).
Proof.
  intros H. split; [exact H|].
  assert (d < 10 \/ d = 10 \/ d = 11 \/ d = 12 \/ d = 13 \/ d = 14 \/ d = 15) as [C|C] by lia.
  - apply ten_cases in C. repeat destruct C as [->|C]; try reflexivity. subst d. reflexivity.
  - repeat destruct C as [->|C]; try reflexivity. subst d. reflexivity.
Qed.
Lemma fmt_3X_hex3 r : r < 4096 -> hex3 r (fmt_3X r).
Proof.
  intros H. split; [|reflexivity]. unfold fmt_3X.
  assert (V : r = 16 * (16 * (16 * 0 + r / 256 mod 16) + r / 16 mod 16) + r mod 16).
  { assert (E : r / 256 = r / 16 / 16) by (rewrite N.div_div by discriminate; reflexivity).
    assert (L : r / 16 / 16 < 16) by (rewrite <- E; apply N.div_lt_upper_bound; lia).
    rewrite E, (N.mod_small (r / 16 / 16)) by exact L.
    rewrite N.mul_0_r, N.add_0_l. rewrite <- (N.div_mod (r / 16) 16) by discriminate. apply N.div_mod. discriminate. }
  set (a := r / 256 mod 16) in *. set (b := r / 16 mod 16) in *. set (c := r mod 16) in *. rewrite V.
  change [hex_digit a; hex_digit b; hex_digit c] with ((([] ++ [hex_digit a]) ++ [hex_digit b]) ++ [hex_digit c]).
  repeat (apply num_snoc; [|apply hex_digit_is, N.mod_lt; discriminate]). constructor.
Qed.
(** reading on from the left *)
Lemma numeral_uint u : forall s p, numeral 10 s (Npos p) -> numeral 10 (s ++ str (NilEmpty.string_of_uint u)) (Npos (Pos.of_uint_acc u p)).
Proof.
  assert (Q : forall s p d c, is_digit 10 d c -> numeral 10 s (Npos p) -> numeral 10 (s ++ [c]) (10 * Npos p + d)) by (intros; now apply num_snoc).
  induction u; intros s p H; cbn [NilEmpty.string_of_uint str list_byte_of_string Pos.of_uint_acc];
    [cbn; now rewrite app_nil_r| | | | | | | | | |].
  all: match goal with |- numeral 10 (_ ++ str (String.String ?a ?x)) _ =>
         let c := eval vm_compute in (Ascii.byte_of_ascii a) in
         change (str (String.String a x)) with ([c] ++ str x) end; rewrite app_assoc; apply IHu.
  - pose proof (Q s p 0 x30 (conj eq_refl eq_refl) H) as K. now rewrite N.add_0_r in K.
  - pose proof (Q s p 1 x31 (conj eq_refl eq_refl) H) as K. cbn [N.mul N.add] in K. now rewrite Pos.add_comm in K.
  - pose proof (Q s p 2 x32 (conj eq_refl eq_refl) H) as K. cbn [N.mul N.add] in K. now rewrite Pos.add_comm in K.
  - pose proof (Q s p 3 x33 (conj eq_refl eq_refl) H) as K. cbn [N.mul N.add] in K. now rewrite Pos.add_comm in K.
  - pose proof (Q s p 4 x34 (conj eq_refl eq_refl) H) as K. cbn [N.mul N.add] in K. now rewrite Pos.add_comm in K.
  - pose proof (Q s p 5 x35 (conj eq_refl eq_refl) H) as K. cbn [N.mul N.add] in K. now rewrite Pos.add_comm in K.
  - pose proof (Q s p 6 x36 (conj eq_refl eq_refl) H) as K. cbn [N.mul N.add] in K. now rewrite Pos.add_comm in K.
  - pose proof (Q s p 7 x37 (conj eq_refl eq_refl) H) as K. cbn [N.mul N.add] in K. now rewrite Pos.add_comm in K.
  - pose proof (Q s p 8 x38 (conj eq_refl eq_refl) H) as K. cbn [N.mul N.add] in K. now rewrite Pos.add_comm in K.
  - pose proof (Q s p 9 x39 (conj eq_refl eq_refl) H) as K. cbn [N.mul N.add] in K. now rewrite Pos.add_comm in K.
Qed.

Lemma to_uint_head p : exists c v, str (NilEmpty.string_of_uint (Pos.to_uint p)) = c :: v /\ c <> x30 /\ numeral 10 (c :: v) (Npos p).
Proof.
  assert (U : unorm (Pos.to_uint p) = Pos.to_uint p).
  { rewrite <- DecimalPos.Unsigned.to_of, DecimalPos.Unsigned.of_to. reflexivity. }
  assert (Z : forall v, Pos.to_uint p <> D0 v).
  { intros v E. rewrite E in U. cbn [unorm] in U. unfold unorm in U. destruct (nzhead (D0 v)) eqn:Z; try discriminate U.
    - apply (DecimalPos.Unsigned.to_uint_nonzero p). rewrite E. symmetry. exact U.
    - exact (nzhead_nonzero _ _ Z). }
  pose proof (DecimalPos.Unsigned.of_to p) as V. pose proof (DecimalPos.Unsigned.to_uint_nonnil p) as Nn.
  assert (One : forall d c, is_digit 10 (Npos d) c -> numeral 10 [c] (Npos d)).
  { intros d c H. exact (num_snoc 10 [] 0 c (Npos d) (num_nil 10) H). }
  destruct (Pos.to_uint p) as [|u|u|u|u|u|u|u|u|u|u]; [congruence|now destruct (Z u)| | | | | | | | |]; cbn [Pos.of_uint] in V;
    eexists _, _; (split; [reflexivity|]); (split; [discriminate|]); rewrite <- V;
    match goal with |- numeral 10 (?c :: ?v) _ => apply (numeral_uint u [c]); apply One; split; reflexivity end.
Qed.
Lemma fmt_d_decimal t : decimal t (fmt_d t).
Proof.
  destruct t as [|p|p].
  - exists (str "0"), 0. split; [exact (num_snoc 10 [] 0 x30 0 (num_nil 10) (conj eq_refl eq_refl))|]. split; [now left|]. left. split; reflexivity.
  - destruct (to_uint_head p) as (c & v & E & C & Nu). exists (c :: v), (Npos p). split; [exact Nu|]. split; [right; now exists c, v|]. left. split; [reflexivity|exact E].
  - destruct (to_uint_head p) as (c & v & E & C & Nu). exists (c :: v), (Npos p). split; [exact Nu|]. split; [right; now exists c, v|]. right.
    split; [reflexivity|]. split; [discriminate|]. cbn [fmt_d]. change (N.to_uint (N.pos p)) with (Pos.to_uint p). now rewrite E.
Qed.
(** The characters of digits. *)
Lemma digit_char base d c : is_digit base d c -> In c (str "0123456789ABCDEF").
Proof. intros [_ E]. now apply nth_error_In in E. Qed.
Lemma numeral_chars base s n : numeral base s n -> Forall (fun c => In c (str "0123456789ABCDEF")) s.
Proof. induction 1 as [|s n c d _ IH D]; [constructor|]. apply Forall_app. split; [exact IH|]. constructor; [now apply digit_char in D|constructor]. Qed.
Lemma decimal_chars t s : decimal t s -> Forall (fun c => In c (str "-0123456789ABCDEF")) s.
Proof.
  intros (u & n & N & _ & [[_ ->]|(_ & _ & ->)]); apply numeral_chars in N.
  - eapply Forall_impl; [|exact N]. intros c H. now right.
  - constructor; [now left|]. eapply Forall_impl; [|exact N]. intros c H. now right.
Qed.
(** A number has one numeral. *)
Lemma digit_fun base d c c' : is_digit base d c -> is_digit base d c' -> c = c'.
Proof. intros [_ E] [_ E']. congruence. Qed.
Lemma digit_value base d d' c : base <= 16 -> is_digit base d c -> is_digit base d' c -> d = d'.
Proof.
  intros B [L E] [L' E']. assert (Nd : NoDup (str "0123456789ABCDEF")).
  { assert (G : (if list_eq_dec Byte.byte_eq_dec (nodup Byte.byte_eq_dec (str "0123456789ABCDEF")) (str "0123456789ABCDEF") then true else false) = true) by (vm_compute; reflexivity).
    destruct (list_eq_dec _ _ _) as [<-|]; [|discriminate]. apply NoDup_nodup. }
  rewrite NoDup_nth_error in Nd. assert (N.to_nat d = N.to_nat d'); [|lia]. apply Nd; [apply nth_error_Some; congruence|congruence].
Qed.
Lemma numeral_fun base s : base <= 16 -> forall n n', numeral base s n -> numeral base s n' -> n = n'.
Proof.
  intros B n n' H. revert n'. induction H as [|s n c d _ IH D]; intros n' H'.
  - inversion H' as [E|s n c d N D E]; [reflexivity|]. destruct s; discriminate.
  - inversion H' as [E|s' m c' d' N' D' E]; [destruct s; discriminate|]. apply app_inj_tail in E. destruct E as [-> ->].
    rewrite (IH m N'), (digit_value base d d' c B D D'). reflexivity.
Qed.
Lemma decimal_value t t' s : decimal t s -> decimal t' s -> t = t'.
Proof.
  intros (u & n & N & H & C) (u' & n' & N' & H' & C').
  assert (M : forall v k, numeral 10 (x2d :: v) k -> False).
  { intros v k K. apply numeral_chars in K. inversion K as [|? ? X _]. cbn in X. repeat destruct X as [X|X]; discriminate || contradiction. }
  destruct C as [[-> ->]|(-> & _ & ->)], C' as [[-> E]|(-> & _ & E)].
  - subst u'. now rewrite (numeral_fun 10 u ltac:(lia) _ _ N N').
  - subst u. now apply M in N.
  - subst u'. now apply M in N'.
  - apply app_inv_head in E. subst u'. now rewrite (numeral_fun 10 u ltac:(lia) _ _ N N').
Qed.
