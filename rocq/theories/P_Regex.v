(** * Facts about matching *)
From Coq Require Import Lia ZifyBool ZifyNat ZifyN.
From Verif Require Import M_Base M_Utf8 M_Regex P_Base P_Text P_Utf8.
Open Scope N_scope.

(** ** Words of an expression, with the groups they capture (latest first) *)
Definition groups : Set := list (nat * list sym).
Inductive lang : re -> list sym -> groups -> Prop :=
| LEps : lang Eps [] []
| LCls rs x : in_ranges (fst x) rs = true -> lang (Cls rs) [x] []
| LDot x : fst x <> 10 -> lang Dot [x] []
| LSeq a b w1 w2 c1 c2 : lang a w1 c1 -> lang b w2 c2 -> lang (Seq a b) (w1 ++ w2) (c2 ++ c1)
| LAltL a b w c : lang a w c -> lang (Alt a b) w c
| LAltR a b w c : lang b w c -> lang (Alt a b) w c
| LStarNil a : lang (Star a) [] []
| LStarCons a w1 w2 c1 c2 : w1 <> [] -> lang a w1 c1 -> lang (Star a) w2 c2 -> lang (Star a) (w1 ++ w2) (c2 ++ c1)
| LCap i a w c : lang a w c -> lang (Cap i a) w ((i, w) :: c).

Lemma taken_app w s : taken (w ++ s) s = w.
Proof. unfold taken. rewrite app_length. replace (length w + length s - length s)%nat with (length w) by lia. rewrite firstn_app, firstn_all, Nat.sub_diag. cbn. apply app_nil_r. Qed.
Definition sound (f : state -> list state) (L : list sym -> groups -> Prop) : Prop :=
  forall s c s' c', In (s', c') (f (s, c)) <-> exists w cs, s = w ++ s' /\ L w cs /\ c' = cs ++ c.
Lemma iter_sound f a : sound f (lang a) -> forall fuel s c, (length s <= fuel)%nat ->
  forall s' c', In (s', c') (iter f fuel (s, c)) <-> exists w cs, s = w ++ s' /\ lang (Star a) w cs /\ c' = cs ++ c.
Proof.
  intros F. induction fuel as [|fuel IH]; intros s c L s' c'; cbn [iter].
  - destruct s; [|cbn in L; lia]. split.
    + intros [[= <- <-]|[]]. exists [], []. repeat split. constructor.
    + intros (w & cs & E & W & ->). symmetry in E. apply app_eq_nil in E as [-> ->]. inversion W as [| | | | | | |? w1 w2 ? ? N|]; subst; [now left|].
      destruct w1; [congruence|discriminate].
  - rewrite in_app_iff, in_flat_map. cbn [fst]. split.
    + intros [([s1 c1] & I1 & I2)|[[= <- <-]|[]]]; [|exists [], []; repeat split; constructor].
      cbn [fst] in I2. destruct (length s1 <? length s)%nat eqn:Lt; [|contradiction].
      apply F in I1 as (w1 & cs1 & -> & W1 & ->). assert (L1 : (length s1 <= fuel)%nat) by lia. apply (IH _ _ L1) in I2 as (w2 & cs2 & -> & W2 & ->).
      exists (w1 ++ w2), (cs2 ++ cs1). rewrite <- !app_assoc. split; [reflexivity|]. split; [|reflexivity].
      apply LStarCons; auto. apply Nat.ltb_lt in Lt. destruct w1; [cbn [app] in Lt; lia|discriminate].
    + intros (w & cs & E & W & ->). inversion W as [| | | | | | |? w1 w2 c1 c2 N W1 W2|]; subst; [right; now left|]. left.
      exists (w2 ++ s', c1 ++ c). split; [apply F; exists w1, c1; rewrite <- app_assoc; auto|]. cbn [fst].
      destruct w1 as [|x w1]; [congruence|].
      assert (Q : (length (w2 ++ s') <? length (((x :: w1) ++ w2) ++ s'))%nat = true) by (rewrite !app_length; cbn [length]; lia). rewrite Q.
      apply IH; [rewrite !app_length in *; cbn in L; lia|]. exists w2, c2. rewrite <- app_assoc. auto.
Qed.
(** [paths] finds exactly the prefixes that are words. *)
Lemma paths_lang r : sound (paths r) (lang r).
Proof.
  induction r as [|rs| |a IHa b IHb|a IHa b IHb|a IHa|i a IHa]; intros s c s' c'; cbn [paths].
  - split; [intros [[= <- <-]|[]]; exists [], []; repeat split; constructor|]. intros (w & cs & -> & W & ->). inversion W; subst. now left.
  - cbn [fst snd]. split.
    + destruct s as [|x t]; [intros []|]. destruct (in_ranges (fst x) rs) eqn:R; [|intros []]. intros [[= <- <-]|[]]. exists [x], []. repeat split. now constructor.
    + intros (w & cs & -> & W & ->). inversion W; subst. cbn [app]. rewrite H0. now left.
  - cbn [fst snd]. split.
    + destruct s as [|x t]; [intros []|]. destruct (fst x =? 10) eqn:R; [intros []|]. intros [[= <- <-]|[]]. exists [x], []. repeat split. constructor. lia.
    + intros (w & cs & -> & W & ->). inversion W; subst. cbn [app]. replace (fst x =? 10) with false by lia. now left.
  - rewrite in_flat_map. split.
    + intros ([s1 c1] & I1 & I2). apply IHa in I1 as (w1 & cs1 & -> & W1 & ->). apply IHb in I2 as (w2 & cs2 & -> & W2 & ->).
      exists (w1 ++ w2), (cs2 ++ cs1). rewrite <- !app_assoc. repeat split. now constructor.
    + intros (w & cs & -> & W & ->). inversion W as [| | |? ? w1 w2 c1 c2 W1 W2| | | | |]; subst. exists (w2 ++ s', c1 ++ c). split.
      * apply IHa. exists w1, c1. rewrite <- app_assoc. auto.
      * apply IHb. exists w2, c2. rewrite <- app_assoc. auto.
  - rewrite in_app_iff, (IHa s c s' c'), (IHb s c s' c'). split.
    + intros [(w & cs & E & W & C)|(w & cs & E & W & C)]; exists w, cs; repeat split; auto; [now apply LAltL|now apply LAltR].
    + intros (w & cs & E & W & C). inversion W; subst; [left|right]; eauto.
  - cbn [fst]. apply iter_sound; [exact IHa|lia].
  - rewrite in_map_iff. split.
    + intros ([s1 c1] & [= <- <-] & I1). apply IHa in I1 as (w & cs & -> & W & ->). cbn [fst snd]. rewrite taken_app.
      exists w, ((i, w) :: cs). repeat split. now constructor.
    + intros (w & cs & -> & W & ->). inversion W as [| | | | | | | |? ? ? cs' W']; subst. exists (s', cs' ++ c). cbn [fst snd]. rewrite taken_app. split; [reflexivity|].
      apply IHa. eauto.
Qed.
Lemma paths_suffix r s c s' c' : In (s', c') (paths r (s, c)) -> (length s' <= length s)%nat.
Proof. intros H. apply paths_lang in H as (w & cs & -> & _). rewrite app_length. lia. Qed.

(** ** Order *)
Definition left_of (x : state) : nat := length (fst x).
Fixpoint ordered (l : list state) : Prop :=
  match l with [] => True | x :: l' => (forall y, In y l' -> (left_of x <= left_of y)%nat) /\ ordered l' end.
Definition longest_first (r : re) : Prop := forall s, ordered (paths r s).
(** at most one way, of a fixed length *)
Definition fixed (n : nat) (r : re) : Prop :=
  forall s, paths r s = [] \/ exists s', paths r s = [s'] /\ left_of s = (n + left_of s')%nat.
Lemma ordered_app l l' : ordered (l ++ l') <-> ordered l /\ ordered l' /\ forall x y, In x l -> In y l' -> (left_of x <= left_of y)%nat.
Proof.
  induction l as [|a l IH]; cbn [app ordered].
  - split; [intros H; repeat split; [exact H|intros x y []]|tauto].
  - rewrite IH. split.
    + intros (A & B & C & D). split; [split; [|exact B]|split; [exact C|]].
      * intros y Y. apply A. apply in_or_app. now left.
      * intros x y [<-|X] Y; [apply A; apply in_or_app; now right|now apply D].
    + intros ((A & B) & C & D). split; [|split; [exact B|split; [exact C|]]].
      * intros y Y. apply in_app_or in Y as [Y|Y]; [now apply A|]. apply D; [now left|exact Y].
      * intros x y X Y. apply D; [now right|exact Y].
Qed.
Lemma fixed_cls rs : fixed 1 (Cls rs).
Proof.
  intros [s c]. cbn [paths fst snd]. destruct s as [|x t]; [now left|]. destruct (in_ranges (fst x) rs); [|now left]. right. eexists. split; reflexivity.
Qed.
Lemma fixed_dot : fixed 1 Dot.
Proof. intros [s c]. cbn [paths fst snd]. destruct s as [|x t]; [now left|]. destruct (fst x =? 10); [now left|]. right. eexists. split; reflexivity. Qed.
Lemma fixed_seq m n a b : fixed m a -> fixed n b -> fixed (m + n) (Seq a b).
Proof.
  intros A B s. cbn [paths]. destruct (A s) as [->|(s1 & -> & E1)]; [now left|]. cbn [flat_map]. rewrite app_nil_r.
  destruct (B s1) as [->|(s2 & -> & E2)]; [now left|]. right. exists s2. split; [reflexivity|lia].
Qed.
Lemma fixed_cap n i a : fixed n a -> fixed n (Cap i a).
Proof. intros A s. cbn [paths]. destruct (A s) as [->|(s1 & -> & E1)]; [now left|]. right. eexists. split; [reflexivity|]. exact E1. Qed.
Lemma fixed_longest n a : fixed n a -> longest_first a.
Proof. intros A s. destruct (A s) as [->|(s1 & -> & _)]; cbn; [exact I|]. split; [intros y []|exact I]. Qed.
Lemma left_suffix r x y : In y (paths r x) -> (left_of y <= left_of x)%nat.
Proof. destruct x as [s c], y as [s' c']. apply paths_suffix. Qed.
Lemma ordered_flat_fixed n b l : fixed n b -> ordered l -> ordered (flat_map (paths b) l).
Proof.
  intros B. induction l as [|x l IH]; intros O; [exact I|]. destruct O as [O1 O2]. cbn [flat_map]. apply ordered_app.
  split; [apply (fixed_longest n); exact B|]. split; [now apply IH|]. intros y z Y Z. apply in_flat_map in Z as (x' & X' & Z).
  specialize (O1 _ X'). destruct (B x) as [E|(y' & E & Ey)]; rewrite E in Y; [contradiction|]. destruct Y as [<-|[]].
  destruct (B x') as [E'|(z' & E' & Ez)]; rewrite E' in Z; [contradiction|]. destruct Z as [<-|[]]. lia.
Qed.
Lemma longest_seq_fixed n a b : longest_first a -> fixed n b -> longest_first (Seq a b).
Proof. intros A B s. cbn [paths]. apply (ordered_flat_fixed n); auto. Qed.
Lemma longest_fixed_seq n a b : fixed n a -> longest_first b -> longest_first (Seq a b).
Proof. intros A B s. cbn [paths]. destruct (A s) as [->|(s1 & -> & _)]; [exact I|]. cbn [flat_map]. rewrite app_nil_r. apply B. Qed.
Lemma longest_opt a : longest_first a -> longest_first (Opt a).
Proof.
  intros A s. unfold Opt. cbn [paths]. apply ordered_app. split; [apply A|]. split; [split; [intros y []|exact I]|].
  intros x y X [<-|[]]. exact (left_suffix _ _ _ X).
Qed.
Lemma longest_upto n a k : fixed n a -> longest_first (upto a k).
Proof. intros A. induction k as [|k IH]; cbn [upto]; [intros s; cbn; split; [intros y []|exact I]|]. apply longest_opt. now apply (longest_fixed_seq n). Qed.
Lemma iter_suffix f fuel s : (forall x y, In y (f x) -> (left_of y <= left_of x)%nat) -> forall y, In y (iter f fuel s) -> (left_of y <= left_of s)%nat.
Proof.
  intros F. revert s. induction fuel as [|fuel IH]; intros s y H; cbn [iter] in H.
  - destruct H as [<-|[]]. lia.
  - apply in_app_or in H as [H|[<-|[]]]; [|lia]. apply in_flat_map in H as (x & X & H). destruct (_ <? _)%nat; [|contradiction].
    apply IH in H. specialize (F _ _ X). lia.
Qed.
Lemma iter_fixed_longest n a fuel s : fixed n a -> ordered (iter (paths a) fuel s).
Proof.
  intros A. revert s. induction fuel as [|fuel IH]; intros s; cbn [iter]; [split; [intros y []|exact I]|].
  apply ordered_app. split; [|split; [split; [intros y []|exact I]|]].
  - destruct (A s) as [->|(s1 & -> & _)]; [exact I|]. cbn [flat_map]. rewrite app_nil_r. destruct (_ <? _)%nat; [apply IH|exact I].
  - intros x y X [<-|[]]. apply in_flat_map in X as (z & Z & X). destruct (_ <? _)%nat; [|contradiction].
    apply (iter_suffix _ _ _ (left_suffix a)) in X. apply left_suffix in Z. lia.
Qed.
Lemma longest_star_fixed n a : fixed n a -> longest_first (Star a).
Proof. intros A s. cbn [paths]. now apply (iter_fixed_longest n). Qed.
Lemma ordered_head x l y : ordered (x :: l) -> In y (x :: l) -> (left_of x <= left_of y)%nat.
Proof. intros [O _] [<-|Y]; [lia|now apply O]. Qed.

(** ** Symbols *)
Lemma symbols_fuel_enough fuel s : (length s <= fuel)%nat -> symbols_fuel fuel s = symbols s.
Proof.
  unfold symbols. assert (G : forall f1 f2 s, (length s <= f1)%nat -> (length s <= f2)%nat -> symbols_fuel f1 s = symbols_fuel f2 s).
  { induction f1 as [|f1 IH]; intros f2 t L1 L2.
    - destruct t; [|cbn in L1; lia]. now destruct f2.
    - destruct f2 as [|f2]; [destruct t; [reflexivity|cbn in L2; lia]|]. cbn [symbols_fuel]. destruct (decode_rune t) as [[c w]|] eqn:D; [|reflexivity].
      f_equal. destruct t as [|b t]; [discriminate D|].
      assert (W : (1 <= w)%nat).
      { unfold decode_rune in D. repeat (match type of D with context [if ?x then _ else _] => destruct x | context [match ?x with [] => _ | _ :: _ => _ end] => destruct x end);
          injection D as _ <-; lia. }
      apply IH; rewrite skipn_length; cbn [length] in *; lia. }
  intros L. now apply G.
Qed.
Lemma decode_width s c w : decode_rune s = Some (c, w) -> (1 <= w <= length s)%nat.
Proof.
  destruct s as [|b0 s]; [discriminate|]. unfold decode_rune.
  repeat (match goal with |- context [if ?x then _ else _] => destruct x | |- context [match ?x with [] => _ | _ :: _ => _ end] => destruct x end);
    intros [= _ <-]; cbn [length]; lia.
Qed.
Lemma symbols_cons s c w : decode_rune s = Some (c, w) -> symbols s = (c, firstn w s) :: symbols (skipn w s).
Proof.
  intros D. pose proof (decode_width _ _ _ D) as W. unfold symbols at 1. destruct s as [|b s]; [discriminate D|]. cbn [length symbols_fuel]. rewrite D. f_equal.
  apply symbols_fuel_enough. rewrite skipn_length. cbn [length] in *. lia.
Qed.
Lemma symbols_nil : symbols [] = [].
Proof. reflexivity. Qed.
Lemma flat_app a b : flat (a ++ b) = flat a ++ flat b.
Proof. unfold flat. now rewrite map_app, concat_app. Qed.
Lemma symbols_ind (P : bytes -> Prop) : P [] -> (forall s c w, decode_rune s = Some (c, w) -> P (skipn w s) -> P s) -> forall s, P s.
Proof.
  intros H0 H1. assert (G : forall n s, (length s <= n)%nat -> P s).
  { induction n as [|n IH]; intros s L; [destruct s; [exact H0|cbn in L; lia]|].
    destruct s as [|b s]; [exact H0|]. destruct (decode_rune (b :: s)) as [[c w]|] eqn:D.
    - apply (H1 _ c w D). apply IH. pose proof (decode_width _ _ _ D). rewrite skipn_length. lia.
    - exfalso. unfold decode_rune in D. repeat (match type of D with context [if ?x then _ else _] => destruct x | context [match ?x with [] => _ | _ :: _ => _ end] => destruct x end); discriminate D. }
  intros s. now apply (G (length s)).
Qed.
Lemma flat_symbols s : flat (symbols s) = s.
Proof.
  induction s as [|s c w D IH] using symbols_ind; [reflexivity|]. rewrite (symbols_cons s c w D). unfold flat in *. cbn [map concat snd]. rewrite IH. apply firstn_skipn.
Qed.
(** the rest of a symbol list is the symbol list of the rest *)
Lemma symbols_split w s r : symbols s = w ++ r -> exists t, s = flat w ++ t /\ r = symbols t.
Proof.
  revert s. induction w as [|x w IH]; intros s E.
  - exists s. now split.
  - destruct (decode_rune s) as [[c k]|] eqn:D; [|destruct s; [discriminate E|unfold symbols in E; cbn in D, E; rewrite D in E; discriminate E]].
    rewrite (symbols_cons s c k D) in E. cbn [app] in E. injection E as <- E. destruct (IH _ E) as (t & T & ->).
    exists t. split; [|reflexivity]. unfold flat. cbn [map concat snd]. rewrite <- app_assoc. fold (flat w). rewrite <- T. symmetry. apply firstn_skipn.
Qed.
(** the symbols that can occur *)
Definition proper_sym (x : sym) : Prop :=
  (fst x < 128 -> snd x = [n2b (fst x)]) /\ (fst x = 0x9B -> snd x = [n2b 0xC2; n2b 0x9B]) /\
  (forall b r, snd x = b :: r -> forallb tail_byte r = true /\ (tail_byte b = true -> r = [])) /\ snd x <> [].
Lemma b2n_not n b : b2n b = n -> b = n2b n.
Proof. intros <-. symmetry. apply n2b_b2n. Qed.
Lemma some_pair {A B} (a c : A) (b d : B) : Some (a, b) = Some (c, d) -> c = a /\ d = b.
Proof. intros H. inversion H. auto. Qed.
Lemma decode_proper s c w : decode_rune s = Some (c, w) -> proper_sym (c, firstn w s).
Proof.
  destruct s as [|b0 s]; [discriminate|]. unfold decode_rune. cbv zeta. pose proof (b2n_lt b0) as B0.
  destruct (b2n b0 <? 128) eqn:E1.
  { intros [= <- <-]. unfold proper_sym. cbn [fst snd firstn]. split; [intros _; now rewrite n2b_b2n|]. split; [intros H; lia|]. split; [|discriminate].
    intros b r [= <- <-]. now split. }
  assert (K : proper_sym (RuneError, firstn 1 (b0 :: s))).
  { unfold proper_sym. cbn [fst snd firstn]. split; [unfold RuneError; lia|]. split; [unfold RuneError; lia|]. split; [|discriminate].
    intros b r [= <- <-]. now split. }
  destruct ((b2n b0 <? 194) || (244 <? b2n b0)) eqn:E2; [intros [= <- <-]; exact K|].
  destruct (b2n b0 <? 224) eqn:E3.
  { destruct s as [|b1 s]; [intros [= <- <-]; exact K|]. unfold between, low6. destruct ((128 <=? b2n b1) && (b2n b1 <=? 191)) eqn:T1; [|intros [= <- <-]; exact K].
    intros Q; apply some_pair in Q as [-> ->]. unfold proper_sym. cbn [fst snd firstn]. split; [lia|]. split.
    - intros H. assert (b2n b0 = 0xC2) by lia. assert (b2n b1 = 0x9B) by lia. now rewrite (b2n_not 0xC2 b0), (b2n_not 0x9B b1).
    - split; [|discriminate]. intros b r [= <- <-]. split; [cbn [forallb]; unfold tail_byte; rewrite T1; reflexivity|]. intros H. unfold tail_byte in H. lia. }
  destruct (b2n b0 <? 240) eqn:E4.
  { destruct s as [|b1 [|b2 s]]; try (intros [= <- <-]; exact K).
    match goal with |- context [if ?x then _ else _] => destruct x eqn:T1 end; [|intros [= <- <-]; exact K]. apply andb_prop in T1 as [T1 T2].
    match type of T1 with between (if ?x then _ else _) (if ?y then _ else _) _ = _ => destruct x eqn:X; destruct y eqn:Y end; unfold between, low6 in *;
    intros Q; apply some_pair in Q as [-> ->]; unfold proper_sym; cbn [fst snd firstn]; (split; [lia|]); (split; [lia|]);
    (split; [|discriminate]); intros b r [= <- <-]; (split; [cbn [forallb]; unfold tail_byte; lia|]); intros H; unfold tail_byte in H; lia. }
  destruct s as [|b1 [|b2 [|b3 s]]]; try (intros [= <- <-]; exact K).
  match goal with |- context [if ?x then _ else _] => destruct x eqn:T1 end; [|intros [= <- <-]; exact K]. apply andb_prop in T1 as [T1 T3]. apply andb_prop in T1 as [T1 T2].
  match type of T1 with between (if ?x then _ else _) (if ?y then _ else _) _ = _ => destruct x eqn:X; destruct y eqn:Y end; unfold between, low6 in *;
  intros Q; apply some_pair in Q as [-> ->]; unfold proper_sym; cbn [fst snd firstn]; (split; [lia|]); (split; [lia|]);
  (split; [|discriminate]); intros b r [= <- <-]; (split; [cbn [forallb]; unfold tail_byte; lia|]); intros H; unfold tail_byte in H; lia.
Qed.
Lemma symbols_proper s : Forall proper_sym (symbols s).
Proof.
  induction s as [|s c w D IH] using symbols_ind; [constructor|]. rewrite (symbols_cons s c w D). constructor; [exact (decode_proper _ _ _ D)|exact IH].
Qed.
(** decoding ASCII *)
Definition asym (b : byte) : sym := (b2n b, [b]).
Lemma symbols_ascii b s : b2n b < 128 -> symbols (b :: s) = asym b :: symbols s.
Proof.
  intros H. rewrite (symbols_cons (b :: s) (b2n b) 1); [reflexivity|]. unfold decode_rune. now replace (b2n b <? 128) with true by lia.
Qed.
Lemma symbols_asciis a s : Forall (fun b => b2n b < 128) a -> symbols (a ++ s) = map asym a ++ symbols s.
Proof. induction 1 as [|b a B _ IH]; [reflexivity|]. cbn [app map]. now rewrite symbols_ascii, IH. Qed.
Lemma symbols_csi s : symbols (n2b 0xC2 :: n2b 0x9B :: s) = (0x9B, [n2b 0xC2; n2b 0x9B]) :: symbols s.
Proof. rewrite (symbols_cons _ 0x9B 2); reflexivity. Qed.
(** a text that starts with no continuation byte is decoded on its own *)
Lemma symbols_app a b : (forall x t, b = x :: t -> tail_byte x = false) -> symbols (a ++ b) = symbols a ++ symbols b.
Proof.
  intros N. induction a as [|a c w D IH] using symbols_ind; [reflexivity|].
  assert (D' : decode_rune (a ++ b) = Some (c, w)).
  { destruct a as [|a0 a]; [discriminate D|]. cbn [app]. unfold decode_rune in *. cbv zeta in *.
    destruct (b2n a0 <? 128); [exact D|]. destruct (_ || _); [exact D|].
    assert (T : forall lo hi x t, b = x :: t -> 128 <= lo -> hi <= 191 -> between lo hi x = false).
    { intros lo hi x t E L1 L2. specialize (N x t E). unfold tail_byte, between in *. lia. }
    destruct (b2n a0 <? 224).
    { destruct a as [|a1 a]; cbn [app]; [|exact D]. destruct b as [|x t]; [exact D|]. now rewrite (T _ _ x t eq_refl) by lia. }
    assert (L : 128 <= (if b2n a0 =? 0xE0 then 0xA0 else 128)) by (clear; destruct (_ =? _); discriminate). assert (R : (if b2n a0 =? 0xED then 0x9F else 191) <= 191) by (clear; destruct (_ =? _); discriminate).
    assert (L' : 128 <= (if b2n a0 =? 0xF0 then 0x90 else 128)) by (clear; destruct (_ =? _); discriminate). assert (R' : (if b2n a0 =? 0xF4 then 0x8F else 191) <= 191) by (clear; destruct (_ =? _); discriminate).
    destruct (b2n a0 <? 240).
    { destruct a as [|a1 [|a2 a]]; cbn [app]; try exact D.
      - destruct b as [|x [|x2 t]]; try exact D. now rewrite (T _ _ x (x2 :: t) eq_refl L R).
      - destruct b as [|x t]; try exact D. rewrite (T 128 191 x t eq_refl) by lia. now rewrite andb_false_r. }
    destruct a as [|a1 [|a2 [|a3 a]]]; cbn [app]; try exact D.
    - destruct b as [|x [|x2 [|x3 t]]]; try exact D. now rewrite (T _ _ x _ eq_refl L' R').
    - destruct b as [|x [|x2 t]]; try exact D. rewrite (T 128 191 x _ eq_refl) by lia. rewrite andb_false_r. exact D.
    - destruct b as [|x t]; try exact D. rewrite (T 128 191 x _ eq_refl) by lia. rewrite andb_false_r. exact D. }
  pose proof (decode_width _ _ _ D) as W. rewrite (symbols_cons _ _ _ D), (symbols_cons _ _ _ D'). cbn [app].
  rewrite firstn_app, skipn_app. replace (w - length a)%nat with 0%nat by lia. rewrite firstn_O, skipn_O, app_nil_r, IH. reflexivity.
Qed.
