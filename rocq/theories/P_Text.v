(** * Splitting and numerals *)
From Coq Require Import Lia ZifyBool ZifyNat ZifyN.
From Verif Require Import M_Base M_Text S_Text P_Base.
Open Scope N_scope.

Lemma byte_eqb_eq a b : Byte.eqb a b = true <-> a = b.
Proof. split; [apply Byte.byte_dec_bl|intros ->; now apply Byte.byte_dec_lb]. Qed.
Lemma byte_eqb_neq a b : Byte.eqb a b = false <-> a <> b.
Proof. rewrite <- byte_eqb_eq. destruct (Byte.eqb a b); split; congruence. Qed.

Lemma split_nonempty c s : split_on c s <> [].
Proof. destruct s as [|b s]; cbn; [discriminate|]. destruct (Byte.eqb b c); [discriminate|]. destruct (split_on c s); discriminate. Qed.
Lemma split_cuts c s : cuts c s (split_on c s).
Proof.
  induction s as [|b s (N & E & F)]; cbn [split_on].
  - split; [discriminate|]. split; [reflexivity|]. constructor; [intros []|constructor].
  - destruct (Byte.eqb b c) eqn:B.
    + apply byte_eqb_eq in B. subst b. split; [discriminate|]. split; [|constructor; [intros []|exact F]].
      cbn [join]. destruct (split_on c s) as [|p ps]; [contradiction|]. rewrite E at 1. reflexivity.
    + destruct (split_on c s) as [|p ps]; [contradiction|]. split; [discriminate|]. apply byte_eqb_neq in B. split.
      * rewrite E at 1. cbn [join]. now destruct ps.
      * apply Forall_cons_iff in F as [F1 F2]. constructor; [|exact F2]. intros [Q|Q]; [congruence|contradiction].
Qed.
Lemma split_no c s : ~ In c s -> split_on c s = [s].
Proof.
  induction s as [|b s IH]; intros N; [reflexivity|]. cbn [split_on]. destruct (Byte.eqb b c) eqn:B.
  - apply byte_eqb_eq in B. subst. destruct N. now left.
  - rewrite IH; [reflexivity|]. intros H. apply N. now right.
Qed.
Lemma split_app c s r : ~ In c s -> split_on c (s ++ c :: r) = s :: split_on c r.
Proof.
  induction s as [|b s IH]; intros N; cbn [app split_on].
  - rewrite (proj2 (byte_eqb_eq c c) eq_refl). reflexivity.
  - destruct (Byte.eqb b c) eqn:B.
    + apply byte_eqb_eq in B. subst. destruct N. now left.
    + rewrite IH; [reflexivity|]. intros H. apply N. now right.
Qed.
Lemma split_join c ps : ps <> [] -> Forall (fun p => ~ In c p) ps -> split_on c (join c ps) = ps.
Proof.
  induction ps as [|p ps IH]; intros N F; [contradiction|]. apply Forall_cons_iff in F as [F1 F2]. cbn [join]. destruct ps as [|q ps].
  - now apply split_no.
  - rewrite split_app by exact F1. f_equal. apply IH; [discriminate|exact F2].
Qed.
Lemma cuts_split c s ps : cuts c s ps <-> ps = split_on c s.
Proof.
  split; [|intros ->; apply split_cuts]. intros (N & -> & F). symmetry. now apply split_join.
Qed.

Lemma has_prefix_spec s p : HasPrefix s p = true <-> exists r, s = p ++ r.
Proof.
  revert s. induction p as [|b p IH]; intros s.
  - split; [intros _; now exists s|now destruct s].
  - destruct s as [|a s]; cbn [HasPrefix]; [split; [discriminate|intros [r H]; discriminate]|]. rewrite andb_true_iff, byte_eqb_eq, IH. split.
    + intros [-> [r ->]]. now exists r.
    + intros [r H]. injection H as -> ->. eauto.
Qed.

(** ** Numerals *)
Lemma digit_spec b : is_digit b = true <-> exists k, b2n b = 48 + k /\ k < 10.
Proof.
  unfold is_digit. split.
  - intros H. exists (b2n b - 48). lia.
  - intros (k & E & L). lia.
Qed.
Lemma dec_val_snoc s b : dec_val (s ++ [b]) = 10 * dec_val s + digit_val b.
Proof. unfold dec_val. now rewrite fold_left_app. Qed.
Lemma numeral_of s : s <> [] -> forallb is_digit s = true -> numeral s (dec_val s).
Proof.
  induction s as [|b s IH] using rev_ind; intros N F; [contradiction|]. rewrite forallb_app in F. cbn [forallb] in F.
  apply andb_prop in F as [F1 F2]. rewrite andb_true_r in F2. pose proof F2 as G. apply digit_spec in G as (k & E & L).
  destruct s as [|b0 s0].
  - cbn [app]. replace (dec_val [b]) with k by (unfold dec_val, digit_val; cbn; lia). now constructor.
  - rewrite dec_val_snoc. replace (digit_val b) with k by (unfold digit_val; lia). apply NumMore; auto. apply IH; [discriminate|exact F1].
Qed.
Lemma numeral_inv s n : numeral s n -> s <> [] /\ forallb is_digit s = true /\ dec_val s = n.
Proof.
  induction 1 as [b k E L|s' n' b k _ (N & F & V) E L].
  - split; [discriminate|]. cbn [forallb]. rewrite (proj2 (digit_spec b)) by eauto. split; [reflexivity|]. unfold dec_val, digit_val. cbn. lia.
  - split; [destruct s'; discriminate|]. rewrite forallb_app. cbn [forallb]. rewrite F, (proj2 (digit_spec b)) by eauto. split; [reflexivity|].
    rewrite dec_val_snoc, V. unfold digit_val. lia.
Qed.
Lemma numeral_parse s n : numeral s n <-> parse_uint s = Some n.
Proof.
  unfold parse_uint. split.
  - intros H. apply numeral_inv in H as (N & F & V). destruct s; [contradiction|]. now rewrite F, V.
  - destruct s as [|b s]; [discriminate|]. destruct (forallb is_digit (b :: s)) eqn:F; [|discriminate]. intros [= <-]. apply numeral_of; [discriminate|exact F].
Qed.
