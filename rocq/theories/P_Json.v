(** * Proofs about JSON texts *)
From Coq Require Import Lia ZifyBool ZifyNat ZifyN Permutation.
From Verif Require Import M_Base M_Utf8 M_Time M_Board M_FileOps M_Web M_Json.
From Verif Require Import S_Digits S_Json P_Base P_Digits P_Regex.
Open Scope N_scope.

(** ** UTF-8 *)
Lemma b2n_small n : n < 256 -> b2n (n2b n) = n.
Proof. intros H. rewrite b2n_n2b. now apply N.mod_small. Qed.
Ltac euclid := zify; Z.to_euclidean_division_equations; lia.
Ltac test_is b := match goal with |- context [if ?t then _ else _] => replace t with b by (unfold between, low6; rewrite ?b2n_small by euclid; symmetry; euclid) end.
Lemma decode_good c u : code_point c -> decode_rune (utf8 c ++ u) = Some (c, length (utf8 c)).
Proof.
  intros H. unfold utf8, code_point in *. destruct (c <? 0x80) eqn:A; [|destruct (c <? 0x800) eqn:B; [|destruct (c <? 0x10000) eqn:C]]; cbn [map app length].
  - unfold decode_rune. rewrite b2n_small by lia. now rewrite A.
  - unfold decode_rune. rewrite (b2n_small (0xC0 + c / 64)) by euclid. test_is false. test_is false. test_is true. test_is true.
    unfold low6. rewrite b2n_small by euclid. do 2 f_equal. euclid.
  - unfold decode_rune. rewrite (b2n_small (0xE0 + c / 4096)) by euclid. test_is false. test_is false. test_is false. test_is true.
    match goal with |- context [between ?l ?h ?b && ?x] => replace (between l h b && x) with true end.
    + unfold low6. rewrite !b2n_small by euclid. do 2 f_equal. euclid.
    + symmetry. apply andb_true_iff. split; unfold between; rewrite b2n_small by euclid; [|euclid].
      destruct (0xE0 + c / 4096 =? 0xE0) eqn:X; destruct (0xE0 + c / 4096 =? 0xED) eqn:Y; euclid.
  - unfold decode_rune. rewrite (b2n_small (0xF0 + c / 262144)) by euclid. test_is false. test_is false. test_is false. test_is false.
    match goal with |- context [between ?l ?h ?b && ?x && ?y] => replace (between l h b && x && y) with true end.
    + unfold low6. rewrite !b2n_small by euclid. do 2 f_equal. euclid.
    + symmetry. apply andb_true_iff. split; [apply andb_true_iff; split|]; unfold between; rewrite b2n_small by euclid; [|euclid|euclid].
      destruct (0xF0 + c / 262144 =? 0xF0) eqn:X; destruct (0xF0 + c / 262144 =? 0xF4) eqn:Y; euclid.
Qed.
Lemma low_byte a n : b2n a = n -> n2b n = a.
Proof. intros <-. apply n2b_b2n. Qed.
Lemma some_pair {A B} (a a' : A) (b b' : B) : Some (a, b) = Some (a', b') -> a = a' /\ b = b'.
Proof. intros H. split; congruence. Qed.
Lemma decode_cases s c w : decode_rune s = Some (c, w) ->
  (code_point c /\ s = utf8 c ++ skipn w s /\ w = length (utf8 c)) \/ (c = RuneError /\ w = 1%nat /\ exists b s', s = b :: s' /\ 128 <= b2n b).
Proof.
  destruct s as [|b0 t]; [discriminate|]. unfold decode_rune. pose proof (b2n_lt b0) as L0.
  assert (Bad : 128 <= b2n b0 -> Some (RuneError, 1%nat) = Some (c, w) -> c = RuneError /\ w = 1%nat /\ exists b s', b0 :: t = b :: s' /\ 128 <= b2n b).
  { intros K [= <- <-]. split; [reflexivity|]. split; [reflexivity|]. now exists b0, t. }
  destruct (b2n b0 <? 128) eqn:A.
  { intros [= <- <-]. left. split; [left; lia|]. unfold utf8. rewrite A. cbn [map app skipn length]. rewrite n2b_b2n. now split. }
  destruct ((b2n b0 <? 0xC2) || (0xF4 <? b2n b0)) eqn:B; [intros Q; right; apply Bad; [lia|exact Q]|].
  destruct (b2n b0 <? 0xE0) eqn:C.
  { destruct t as [|b1 t]; [intros Q; right; apply Bad; [lia|exact Q]|]. destruct (between 128 191 b1) eqn:D; [|intros Q; right; apply Bad; [lia|exact Q]].
    unfold between, low6 in *. intros Q. apply some_pair in Q as [<- <-]. left. clear Bad.
    set (x := b2n b0) in *. set (y := b2n b1) in *. split; [unfold code_point; lia|]. unfold utf8.
    replace (64 * (x - 192) + (y - 128) <? 0x80) with false by lia. replace (64 * (x - 192) + (y - 128) <? 0x800) with true by lia.
    cbn [map app skipn length]. split; [|reflexivity]. f_equal; [|f_equal]; symmetry; apply low_byte; fold x y; euclid. }
  destruct (b2n b0 <? 0xF0) eqn:E.
  { destruct t as [|b1 [|b2 t]]; try (intros Q; right; apply Bad; [lia|exact Q]).
    match goal with |- (if ?t then _ else _) = _ -> _ => destruct t eqn:D end; [|intros Q; right; apply Bad; [lia|exact Q]].
    apply andb_true_iff in D as [D1 D2]. unfold between, low6 in *. intros Q. apply some_pair in Q as [<- <-]. left. clear Bad.
    set (x := b2n b0) in *. set (y := b2n b1) in *. set (z := b2n b2) in *.
    assert (R : 128 <= y <= 191 /\ (x = 0xE0 -> 0xA0 <= y) /\ (x = 0xED -> y <= 0x9F)) by (destruct (x =? 0xE0) eqn:X1, (x =? 0xED) eqn:X2; lia). clear D1.
    set (v := 4096 * (x - 224) + 64 * (y - 128) + (z - 128)). assert (V : 0x800 <= v < 0x10000) by (unfold v; lia).
    split; [unfold code_point, v; lia|]. unfold utf8.
    replace (v <? 0x80) with false by lia. replace (v <? 0x800) with false by lia. replace (v <? 0x10000) with true by lia.
    cbn [map app skipn length]. split; [|reflexivity]. f_equal; [|f_equal; [|f_equal]]; symmetry; apply low_byte; fold x y z; unfold v; euclid. }
  { destruct t as [|b1 [|b2 [|b3 t]]]; try (intros Q; right; apply Bad; [lia|exact Q]).
    match goal with |- (if ?t then _ else _) = _ -> _ => destruct t eqn:D end; [|intros Q; right; apply Bad; [lia|exact Q]].
    apply andb_true_iff in D as [D D3]. apply andb_true_iff in D as [D1 D2]. unfold between, low6 in *. intros Q. apply some_pair in Q as [<- <-]. left. clear Bad.
    set (x := b2n b0) in *. set (y := b2n b1) in *. set (z := b2n b2) in *. set (q := b2n b3) in *.
    assert (R : 128 <= y <= 191 /\ (x = 0xF0 -> 0x90 <= y) /\ (x = 0xF4 -> y <= 0x8F)) by (destruct (x =? 0xF0) eqn:X1, (x =? 0xF4) eqn:X2; lia). clear D1.
    set (v := 262144 * (x - 240) + 4096 * (y - 128) + 64 * (z - 128) + (q - 128)). assert (V : 0x10000 <= v <= 0x10FFFF) by (unfold v; lia).
    split; [unfold code_point; lia|]. unfold utf8.
    replace (v <? 0x80) with false by lia. replace (v <? 0x800) with false by lia. replace (v <? 0x10000) with false by lia.
    cbn [map app skipn length]. split; [|reflexivity]. f_equal; [|f_equal; [|f_equal; [|f_equal]]]; symmetry; apply low_byte; fold x y z q; unfold v; euclid. }
Qed.
Lemma utf8_ascii c : c < 128 -> utf8 c = [n2b c].
Proof. intros H. unfold utf8. now replace (c <? 0x80) with true by lia. Qed.
Lemma utf8_high c : 128 <= c -> code_point c -> Forall (fun b => 128 <= b2n b) (utf8 c).
Proof.
  intros H P. unfold utf8, code_point in *. replace (c <? 0x80) with false by lia.
  destruct (c <? 0x800) eqn:B; [|destruct (c <? 0x10000) eqn:C]; cbn [map]; repeat constructor; rewrite b2n_small; euclid.
Qed.

(** The text that bytes are read as. *)
Fixpoint runes_fuel (fuel : nat) (s : bytes) : list N :=
  match fuel with
  | O => []
  | S fuel' => match decode_rune s with Some (c, w) => c :: runes_fuel fuel' (skipn w s) | None => [] end
  end.
Definition runes (s : bytes) : list N := runes_fuel (length s) s.
Lemma decode_none s : decode_rune s = None -> s = [].
Proof.
  destruct s as [|b0 t]; [reflexivity|]. unfold decode_rune. intros D.
  repeat (match type of D with context [if ?x then _ else _] => destruct x | context [match ?x with [] => _ | _ :: _ => _ end] => destruct x end); discriminate D.
Qed.
Lemma runes_more : forall f g s, (length s <= f)%nat -> (length s <= g)%nat -> runes_fuel f s = runes_fuel g s.
Proof.
  induction f as [|f IH]; intros g s F G.
  - destruct s; [|cbn in F; lia]. now destruct g.
  - destruct g as [|g]; [destruct s; [reflexivity|cbn in G; lia]|]. cbn [runes_fuel]. destruct (decode_rune s) as [[c w]|] eqn:D; [|reflexivity].
    f_equal. apply decode_width in D. apply IH; rewrite skipn_length; lia.
Qed.
Lemma runes_cons s c w : decode_rune s = Some (c, w) -> runes s = c :: runes (skipn w s).
Proof.
  intros D. pose proof (decode_width _ _ _ D) as W. unfold runes. destruct (length s) as [|n] eqn:L; [lia|]. cbn [runes_fuel]. rewrite D. f_equal.
  apply runes_more; rewrite skipn_length; lia.
Qed.
Lemma reads_as_runes s : reads_as s (runes s).
Proof.
  induction s as [|s c w D IH] using symbols_ind; [constructor|]. rewrite (runes_cons _ _ _ D).
  destruct (decode_cases _ _ _ D) as [(P & E & W)|(-> & -> & b & s' & -> & B)].
  - rewrite E at 1. now constructor.
  - cbn [skipn] in *. change RuneError with 0xFFFD. constructor; [|exact IH]. intros c u P E. pose proof (decode_good c u P) as G. rewrite <- E, D in G. injection G as G1 G2.
    subst c. discriminate G2.
Qed.
Lemma reads_as_unique s t : reads_as s t -> t = runes s.
Proof.
  induction 1 as [|c s t P R IH|b s t N R IH]; [reflexivity| |].
  - rewrite (runes_cons _ _ _ (decode_good c s P)). rewrite skipn_app, skipn_all, Nat.sub_diag. cbn [app skipn]. now f_equal.
  - destruct (decode_rune (b :: s)) as [[c w]|] eqn:D; [|apply decode_none in D; discriminate D].
    destruct (decode_cases _ _ _ D) as [(P & E & W)|(-> & -> & _)].
    + exfalso. exact (N c _ P E).
    + rewrite (runes_cons _ _ _ D). cbn [skipn]. now f_equal.
Qed.
Lemma runes_ascii s : Forall (fun b => b2n b < 128) s -> runes s = map b2n s.
Proof.
  intros F. symmetry. apply reads_as_unique. induction F as [|b s B F IH]; [constructor|]. cbn [map].
  replace (b :: s) with (utf8 (b2n b) ++ s) by (rewrite utf8_ascii, n2b_b2n by lia; reflexivity). constructor; [left; lia|exact IH].
Qed.

(** ** Strings *)
Definition safe (b : byte) : Prop := b <> "<"%byte /\ b <> ">"%byte /\ b <> "&"%byte.
Definition app_chars (t : list N) (o : option (list N * list N)) : option (list N * list N) :=
  match o with Some (t', r) => Some (t ++ t', r) | None => None end.
Lemma encode_ascii_ok b : b2n b < 128 ->
  Forall (fun x => b2n x < 128) (encode_ascii b) /\ Forall safe (encode_ascii b) /\
  (forall r, chars (map b2n (encode_ascii b) ++ r) = cons_char (b2n b) (chars r)) /\
  (forall rest n d, Indent (encode_ascii b ++ rest) Inside n d = encode_ascii b ++ Indent rest Inside n d).
Proof.
  intros H. destruct b; try (exfalso; revert H; vm_compute; intros H; discriminate H);
    (split; [repeat constructor|]; split; [repeat constructor; discriminate|]; split; [intros r; reflexivity|intros rest n d; reflexivity]).
Qed.
Lemma indent_high e : Forall (fun b => 128 <= b2n b) e -> forall rest n d, Indent (e ++ rest) Inside n d = e ++ Indent rest Inside n d.
Proof.
  induction 1 as [|b e B F IH]; intros rest n d; [reflexivity|]. cbn [app Indent].
  replace (Byte.eqb b "\") with false by (symmetry; apply byte_eqb_neq; intros ->; cbn in B; lia).
  replace (Byte.eqb b """") with false by (symmetry; apply byte_eqb_neq; intros ->; cbn in B; lia). now rewrite IH.
Qed.
Lemma chars_plain c r : c <> 34 -> c <> 92 -> 32 <= c -> chars (c :: r) = cons_char c (chars r).
Proof. intros A B C. cbn [chars]. replace (c =? 34) with false by lia. replace (c =? 92) with false by lia. now replace (c <? 32) with false by lia. Qed.
Lemma ascii_points s : Forall (fun b => b2n b < 128) s -> Forall code_point (map b2n s) /\ s = concat (map utf8 (map b2n s)).
Proof.
  induction 1 as [|b s B F [IH1 IH2]]; [split; constructor|]. cbn [map concat]. split; [constructor; [left; lia|exact IH1]|].
  rewrite utf8_ascii, n2b_b2n by lia. cbn [app]. now f_equal.
Qed.
Lemma concat_utf8_app a b : concat (map utf8 (a ++ b)) = concat (map utf8 a) ++ concat (map utf8 b).
Proof. now rewrite map_app, concat_app. Qed.
Lemma app_chars_cons c t o : cons_char c (app_chars t o) = app_chars (c :: t) o.
Proof. now destruct o as [[]|]. Qed.
Lemma encode_runes_ok s : forall fuel, (length s <= fuel)%nat -> exists cs,
  Forall code_point cs /\ encode_runes fuel s = concat (map utf8 cs) /\ Forall safe (encode_runes fuel s) /\
  (forall r, chars (cs ++ r) = app_chars (runes s) (chars r)) /\
  (forall rest n d, Indent (encode_runes fuel s ++ rest) Inside n d = encode_runes fuel s ++ Indent rest Inside n d).
Proof.
  induction s as [|s c w D IH] using symbols_ind; intros fuel L.
  { exists []. replace (encode_runes fuel []) with (@nil byte) by now destruct fuel. repeat split; try constructor. intros r. cbn. now destruct (chars r) as [[]|]. }
  pose proof (decode_width _ _ _ D) as W. destruct fuel as [|fuel]; [lia|]. destruct (IH fuel) as (cs & P & E & F & C & I'); [rewrite skipn_length; lia|]. clear IH.
  rewrite (runes_cons _ _ _ D). destruct s as [|b s]; [discriminate D|]. cbn [encode_runes]. destruct (b2n b <? 128) eqn:A.
  - unfold decode_rune in D. rewrite A in D. injection D as <- <-. cbn [skipn] in *.
    destruct (encode_ascii_ok b ltac:(lia)) as (E1 & E2 & E3 & E4). destruct (ascii_points _ E1) as [P1 P2].
    exists (map b2n (encode_ascii b) ++ cs). split; [now apply Forall_app|]. split; [rewrite concat_utf8_app, <- P2; congruence|].
    split; [now apply Forall_app|]. split; [intros r; rewrite <- app_assoc, E3, C; apply app_chars_cons|].
    intros rest n d. rewrite <- !app_assoc, E4. now rewrite I'.
  - rewrite D. destruct (decode_cases _ _ _ D) as [(Pc & Es & Ew)|(-> & -> & _)].
    + assert (Hc : 128 <= c).
      { destruct (c <? 128) eqn:X; [|lia]. exfalso. rewrite utf8_ascii in Es by lia. injection Es as Eb _. subst b. rewrite b2n_small in A by lia. lia. }
      destruct ((c =? RuneError) && (w =? 1)%nat) eqn:X.
      { exfalso. apply andb_true_iff in X as [X1 X2]. apply N.eqb_eq in X1. apply Nat.eqb_eq in X2. rewrite X1 in Ew. rewrite X2 in Ew. discriminate Ew. }
      destruct ((c =? 0x2028) || (c =? 0x2029)) eqn:Y.
      * apply orb_true_iff in Y. rewrite !N.eqb_eq in Y.
        assert (K : forall x, x = str "\u2028" \/ x = str "\u2029" -> Forall (fun b => b2n b < 128) x /\ Forall safe x /\ (forall rest n d, Indent (x ++ rest) Inside n d = x ++ Indent rest Inside n d)).
        { intros x [->| ->]; (split; [repeat constructor|]; split; [repeat constructor; discriminate|]; reflexivity). }
        assert (K2 : forall r, chars (map b2n (str "\u202" ++ [hex (c mod 16)]) ++ r) = cons_char c (chars r)) by (destruct Y as [-> | ->]; reflexivity).
        destruct (K (str "\u202" ++ [hex (c mod 16)])) as (E1 & E2 & E4); [destruct Y as [-> | ->]; [left|right]; reflexivity|]. destruct (ascii_points _ E1) as [P1 P2].
        set (x := str "\u202" ++ [hex (c mod 16)]) in *. clearbody x.
        exists (map b2n x ++ cs). split; [now apply Forall_app|]. split; [rewrite concat_utf8_app, <- P2; congruence|].
        split; [now apply Forall_app|]. split; [intros r; rewrite <- app_assoc, K2, C; apply app_chars_cons|].
        intros rest n d. rewrite <- !app_assoc, E4. now rewrite I'.
      * replace (firstn w (b :: s)) with (utf8 c).
        2: { rewrite Es. rewrite Ew, firstn_app, firstn_all, Nat.sub_diag. cbn [firstn]. now rewrite app_nil_r. }
        pose proof (utf8_high c Hc Pc) as Hh.
        exists (c :: cs). split; [now constructor|]. split; [cbn [map concat]; congruence|].
        split; [apply Forall_app; split; [|exact F]; refine (Forall_impl _ _ Hh); intros x Hx; repeat split; intros ->; cbn in Hx; lia|].
        split; [intros r; cbn [app]; rewrite chars_plain by lia; rewrite C; apply app_chars_cons|].
        intros rest n d. rewrite <- !app_assoc, indent_high by exact Hh. now rewrite I'.
    + change ((RuneError =? RuneError) && (1 =? 1)%nat) with true. cbv iota.
      assert (E1 : Forall (fun b => b2n b < 128) (str "\ufffd")) by repeat constructor. destruct (ascii_points _ E1) as [P1 P2].
      exists (map b2n (str "\ufffd") ++ cs). split; [now apply Forall_app|]. split; [rewrite concat_utf8_app, <- P2; congruence|].
      split; [apply Forall_app; split; [repeat constructor; discriminate|exact F]|]. 
      split; [intros r; rewrite <- app_assoc; change (chars (map b2n (str "\ufffd") ++ cs ++ r)) with (cons_char RuneError (chars (cs ++ r))); rewrite C; apply app_chars_cons|].
      intros rest n d. rewrite <- !app_assoc. change (Indent (str "\ufffd" ++ encode_runes fuel (skipn 1 (b :: s)) ++ rest) Inside n d) with (str "\ufffd" ++ Indent (encode_runes fuel (skipn 1 (b :: s)) ++ rest) Inside n d). now rewrite I'.
Qed.

(** ** Numbers *)
Lemma digit_b2n d c : S_Digits.is_digit 10 d c -> b2n c = 48 + d /\ d < 10.
Proof.
  intros [L E]. destruct (ten_cases d L) as [->|[->|[->|[->|[->|[->|[->|[->|[->| ->]]]]]]]]]; cbn in E; injection E as <-; split; reflexivity || exact L.
Qed.
Lemma digits_numeral s n : S_Digits.numeral 10 s n -> forall acc r, digits (map b2n s ++ r) acc = digits r (acc * 10 ^ lenN s + n).
Proof.
  induction 1 as [|s n c d _ IH D]; intros acc r.
  - cbn. f_equal. lia.
  - rewrite map_app, <- app_assoc, IH. cbn [map app digits]. destruct (digit_b2n _ _ D) as [E L]. rewrite E.
    replace ((48 <=? 48 + d) && (48 + d <=? 57)) with true by lia. f_equal. unfold lenN. rewrite app_length, Nat2N.inj_add. cbn [length]. rewrite N.pow_add_r. change (10 ^ N.of_nat 1) with 10. lia.
Qed.
Lemma digits_stop r n : ends_number r = true -> digits r n = (n, r).
Proof. destruct r as [|c r]; [reflexivity|]. cbn [ends_number digits]. unfold is_space. intros H. now replace ((48 <=? c) && (c <=? 57)) with false by lia. Qed.
Lemma natural_numeral u n r : S_Digits.numeral 10 u n -> (u = str "0" \/ exists c v, u = c :: v /\ c <> x30) -> ends_number r = true -> natural (map b2n u ++ r) = Some (n, r).
Proof.
  intros Nu [->|(c & v & -> & C)] R.
  - cbn. f_equal. f_equal. pose proof (num_snoc 10 [] 0 x30 0 (num_nil 10) (conj eq_refl eq_refl)) as Z. exact (numeral_fun 10 _ ltac:(lia) _ _ Z Nu).
  - pose proof (digits_numeral _ _ Nu 0 r) as E. rewrite (digits_stop r _ R) in E. cbn [map app digits natural] in *.
    assert (K : 49 <= b2n c <= 57).
    { assert (H : In c (str "0123456789")).
      { clear - Nu. remember (c :: v) as s eqn:Es. revert c v Es. induction Nu as [|s n x d Nu IH D]; intros c v Es; [discriminate Es|].
        destruct s as [|c' s]; [injection Es as <- _; destruct D as [L D]; change (str "0123456789ABCDEF") with (str "0123456789" ++ str "ABCDEF") in D; rewrite nth_error_app1 in D by (cbn; lia); now apply nth_error_In in D|].
        injection Es as -> _. exact (IH c s eq_refl). }
      cbn in H. repeat destruct H as [<-|H]; try contradiction; try (cbn; lia). }
    replace (b2n c =? 48) with false by lia. replace ((49 <=? b2n c) && (b2n c <=? 57)) with true by lia.
    replace ((48 <=? b2n c) && (b2n c <=? 57)) with true in E by lia. change (10 * 0 + (b2n c - 48)) with (b2n c - 48) in E. rewrite E. reflexivity.
Qed.
Lemma integer_ok z r : ends_number r = true -> integer (map b2n (fmt_d z) ++ r) = Some (z, r).
Proof.
  intros R. destruct (fmt_d_decimal z) as (u & n & Nu & H & [[-> E]|(-> & _ & E)]); rewrite E; clear E.
  - pose proof (natural_numeral u n r Nu H R) as X. destruct u as [|c u]; [destruct H as [H|(? & ? & H & _)]; discriminate H|]. cbn [map app integer] in *. rewrite X.
    replace (b2n c =? 45) with false; [reflexivity|]. apply numeral_chars in Nu. inversion Nu as [|? ? Y _]. clear - Y. symmetry. cbn in Y. repeat destruct Y as [<-|Y]; try contradiction; reflexivity.
  - change (map b2n (str "-" ++ u) ++ r) with (45 :: map b2n u ++ r). cbn [integer]. change (45 =? 45) with true. cbv iota. now rewrite (natural_numeral u n r Nu H R).
Qed.
Lemma fmt_d_chars z : Forall (fun b => b2n b < 128 /\ (b2n b = 45 \/ 48 <= b2n b <= 57) /\ safe b) (fmt_d z).
Proof.
  assert (K : forall s n, S_Digits.numeral 10 s n -> Forall (fun b => b2n b < 128 /\ (b2n b = 45 \/ 48 <= b2n b <= 57) /\ safe b) s).
  { induction 1 as [|s n c d _ IH D]; [constructor|]. apply Forall_app. split; [exact IH|]. constructor; [|constructor].
    destruct (digit_b2n _ _ D) as [E L]. assert (K : 48 <= b2n c <= 57) by lia. clear E. split; [lia|]. split; [lia|]. repeat split; intros ->; cbn in K; lia. }
  destruct (fmt_d_decimal z) as (u & n & Nu & H & [[-> E]|(-> & _ & E)]); rewrite E; apply K in Nu; [exact Nu|].
  constructor; [|exact Nu]. split; [cbn; lia|]. split; [left; reflexivity|]. repeat split; discriminate.
Qed.
Lemma fmt_d_nonempty z : exists b s, fmt_d z = b :: s.
Proof. destruct (fmt_d_decimal z) as (u & n & Nu & H & [[-> E]|(-> & _ & E)]); rewrite E; [|cbn; eauto]. destruct H as [->|(c & v & -> & _)]; [cbn; eauto|eauto]. Qed.

(** ** Values *)
Section ValueInd.
  Variable P : M_Json.value -> Prop.
  Hypothesis HS : forall s, P (VStr s).
  Hypothesis HI : forall z, P (VInt z).
  Hypothesis HL : forall l, Forall P l -> P (VSlice l).
  Hypothesis HM : forall m, Forall (fun kv => P (snd kv)) m -> P (VMap m).
  Hypothesis HT : forall m, Forall (fun kv => P (snd kv)) m -> P (VStruct m).
  Fixpoint value_ind' (v : M_Json.value) : P v :=
    match v with
    | VStr s => HS s
    | VInt z => HI z
    | VSlice l => HL l ((fix go l : Forall P l := match l with [] => Forall_nil _ | x :: l' => Forall_cons _ (value_ind' x) (go l') end) l)
    | VMap m => HM m ((fix go m : Forall (fun kv => P (snd kv)) m := match m with [] => Forall_nil _ | (k, x) :: m' => @Forall_cons _ (fun kv => P (snd kv)) (k, x) m' (value_ind' x) (go m') end) m)
    | VStruct m => HT m ((fix go m : Forall (fun kv => P (snd kv)) m := match m with [] => Forall_nil _ | (k, x) :: m' => @Forall_cons _ (fun kv => P (snd kv)) (k, x) m' (value_ind' x) (go m') end) m)
    end.
End ValueInd.

(** The meaning of a value. *)
Fixpoint meaning (v : M_Json.value) : json :=
  match v with
  | VStr s => JStr (runes s)
  | VInt z => JNum z
  | VSlice l => JArr (map meaning l)
  | VMap m => JObj (map (fun kv => (runes (fst kv), snd kv)) (sort_keys (map (fun kv => (fst kv, meaning (snd kv))) m)))
  | VStruct m => JObj (map (fun kv => (runes (fst kv), meaning (snd kv))) m)
  end.
Fixpoint size (v : M_Json.value) : nat :=
  match v with
  | VStr _ | VInt _ => 1
  | VSlice l => S (list_sum (map (fun x => S (size x)) l))
  | VMap m => S (list_sum (map (fun kv => S (size (snd kv))) m))
  | VStruct m => S (list_sum (map (fun kv => S (size (snd kv))) m))
  end.
Lemma insert_map {A B} (f : A -> B) k v m : insert_key k (f v) (map (fun kv => (fst kv, f (snd kv))) m) = map (fun kv => (fst kv, f (snd kv))) (insert_key k v m).
Proof. induction m as [|[k' v'] m IH]; [reflexivity|]. cbn [map insert_key fst snd]. destruct (less k' k); [|reflexivity]. cbn [map fst snd]. now rewrite IH. Qed.
Lemma sort_map {A B} (f : A -> B) (m : list (bytes * A)) : sort_keys (map (fun kv => (fst kv, f (snd kv))) m) = map (fun kv => (fst kv, f (snd kv))) (sort_keys m).
Proof. induction m as [|[k v] m IH]; [reflexivity|]. cbn [map sort_keys fold_right fst snd]. unfold sort_keys in IH. rewrite IH. apply insert_map. Qed.
Lemma insert_perm {A} k (v : A) m : Permutation ((k, v) :: m) (insert_key k v m).
Proof. induction m as [|[k' v'] m IH]; [reflexivity|]. cbn [insert_key]. destruct (less k' k); [|reflexivity]. rewrite perm_swap. now constructor. Qed.
Lemma sort_perm {A} (m : list (bytes * A)) : Permutation m (sort_keys m).
Proof. induction m as [|[k v] m IH]; [reflexivity|]. cbn [sort_keys fold_right fst snd]. etransitivity; [|apply insert_perm]. now constructor. Qed.
Lemma list_sum_perm (l l' : list nat) : Permutation l l' -> list_sum l = list_sum l'.
Proof. unfold list_sum. induction 1; cbn [fold_right]; lia. Qed.
Lemma marshal_map m : Marshal (VMap m) = Marshal (VStruct (sort_keys m)).
Proof. cbn [Marshal]. rewrite sort_map, map_map. reflexivity. Qed.
Lemma meaning_map m : meaning (VMap m) = meaning (VStruct (sort_keys m)).
Proof. cbn [meaning]. rewrite sort_map, map_map. reflexivity. Qed.
Lemma size_map m : size (VMap m) = size (VStruct (sort_keys m)).
Proof. cbn [size]. f_equal. apply list_sum_perm, Permutation_map, sort_perm. Qed.

(** ** Indented text *)
Definition sp (d : nat) : list N := 10 :: concat (repeat [32; 32] d).
Lemma sp_newline d : newline d = concat (map utf8 (sp d)) /\ Forall code_point (sp d).
Proof.
  unfold newline, sp. cbn [map concat]. rewrite utf8_ascii by lia. cbn [app].
  enough (H : concat (repeat (str "  ") d) = concat (map utf8 (concat (repeat [32; 32] d))) /\ Forall code_point (concat (repeat [32; 32] d))).
  { destruct H as [-> H]. split; [reflexivity|]. constructor; [left; lia|exact H]. }
  induction d as [|d [IH1 IH2]]; [split; constructor|]. cbn [repeat concat app map]. rewrite utf8_ascii by lia. cbn [app concat]. rewrite IH1. split; [reflexivity|].
  constructor; [left; lia|]. constructor; [left; lia|exact IH2].
Qed.
Lemma newline_safe d : Forall safe (newline d).
Proof.
  unfold newline. constructor; [repeat split; discriminate|]. induction d as [|d IH]; [constructor|]. cbn [repeat concat]. apply Forall_app. split; [|exact IH].
  repeat constructor; discriminate.
Qed.
Lemma spaces_sp d r : S_Json.spaces (sp d ++ r) = S_Json.spaces r.
Proof.
  unfold sp. cbn [app S_Json.spaces]. change (is_space 10) with true. cbv iota. induction d as [|d IH]; [reflexivity|]. cbn [repeat concat app S_Json.spaces].
  change (is_space 32) with true. exact IH.
Qed.
Lemma spaces_cons c r : is_space c = false -> S_Json.spaces (c :: r) = c :: r.
Proof. intros H. cbn [S_Json.spaces]. now rewrite H. Qed.
Lemma value_sp fuel d r : value fuel (sp d ++ r) = value fuel r.
Proof. destruct fuel; [reflexivity|]. cbn [value]. now rewrite spaces_sp. Qed.
Lemma value_one fuel r : value fuel (32 :: r) = value fuel r.
Proof. destruct fuel; reflexivity. Qed.
Lemma elements_sp fuel d r : elements fuel (sp d ++ r) = elements fuel r.
Proof. destruct fuel; [reflexivity|]. cbn [elements]. now rewrite value_sp. Qed.
Lemma members_sp fuel d r : members fuel (sp d ++ r) = members fuel r.
Proof. destruct fuel; [reflexivity|]. cbn [members]. now rewrite spaces_sp. Qed.

Definition opening (b : byte) : Prop := b <> "}"%byte /\ b <> "]"%byte.
Lemma indent_first b t d : opening b -> Indent (b :: t) Outside true d = newline (S d) ++ Indent (b :: t) Outside false (S d).
Proof.
  intros [A B]. cbn [Indent]. replace (Byte.eqb b "}" || Byte.eqb b "]") with false by (symmetry; apply orb_false_iff; split; apply byte_eqb_neq; assumption). reflexivity.
Qed.
Lemma marshal_head v : exists b t, Marshal v = b :: t /\ opening b.
Proof.
  destruct v as [s|z|l|m|m]; try (eexists _, _; split; [reflexivity|split; discriminate]).
  destruct (fmt_d_nonempty z) as (b & s & E). cbn [Marshal]. exists b, s. split; [exact E|]. pose proof (fmt_d_chars z) as F. rewrite E in F. inversion F as [|? ? (_ & X & _) _].
  split; intros ->; cbn in X; lia.
Qed.
Lemma indent_plain s rest d : Forall (fun b => b2n b < 128 /\ (b2n b = 45 \/ 48 <= b2n b <= 57) /\ safe b) s -> Indent (s ++ rest) Outside false d = s ++ Indent rest Outside false d.
Proof.
  induction 1 as [|b s (_ & B & _) F IH]; [reflexivity|]. cbn [app Indent]. 
  assert (N : forall x, b2n x <> 45 -> (b2n x < 48 \/ 57 < b2n x) -> Byte.eqb b x = false) by (intros x X1 X2; apply byte_eqb_neq; intros ->; lia).
  rewrite !N by (cbn; lia). cbn [andb orb negb app]. now rewrite IH.
Qed.
Lemma indent_string s : exists cs, Forall code_point cs /\ Forall safe (concat (map utf8 cs)) /\
  (forall rest d, Indent (encode_string s ++ rest) Outside false d = concat (map utf8 cs) ++ Indent rest Outside false d) /\
  exists cs', cs = 34 :: cs' /\ cs' <> [] /\ forall r, chars (cs' ++ r) = Some (runes s, r).
Proof.
  destruct (encode_runes_ok s (length s) ltac:(lia)) as (cs & P & E & F & C & I').
  exists (34 :: cs ++ [34]). assert (P34 : code_point 34) by (left; lia). split; [constructor; [exact P34|]; apply Forall_app; split; [exact P|]; constructor; [exact P34|constructor]|].
  assert (X : concat (map utf8 (34 :: cs ++ [34])) = encode_string s).
  { cbn [map concat]. rewrite concat_utf8_app. cbn [map concat]. rewrite utf8_ascii, app_nil_r by lia. unfold encode_string. now rewrite <- E. }
  rewrite X. split; [constructor; [repeat split; discriminate|]; apply Forall_app; split; [exact F|]; constructor; [repeat split; discriminate|constructor]|].
  split.
  - intros rest d. unfold encode_string. cbn [app Indent]. change (Byte.eqb """" "}" || Byte.eqb """" "]") with false. cbn [andb app].
    change (Byte.eqb """" "{" || Byte.eqb """" "[") with false. change (Byte.eqb """" ",") with false. change (Byte.eqb """" ":") with false. change (Byte.eqb """" """") with true. cbv iota.
    rewrite <- !app_assoc, I'. reflexivity.
  - exists (cs ++ [34]). split; [reflexivity|]. split; [now destruct cs|]. intros r. rewrite <- app_assoc, C. cbn. now rewrite app_nil_r.
Qed.

Definition ok (v : M_Json.value) : Prop := forall d, exists cs,
  Forall code_point cs /\ Forall safe (concat (map utf8 cs)) /\
  (forall rest, Indent (Marshal v ++ rest) Outside false d = concat (map utf8 cs) ++ Indent rest Outside false d) /\
  (forall fuel r, (size v <= fuel)%nat -> ends_number r = true -> value fuel (cs ++ r) = Some (meaning v, r)) /\
  (size v <= length cs)%nat /\
  exists c cs', cs = c :: cs' /\ is_space c = false /\ c <> 93.
Lemma ok_string s : ok (VStr s).
Proof.
  intros d. destruct (indent_string s) as (cs & P & F & I' & cs' & -> & Ne & C). exists (34 :: cs'). split; [exact P|]. split; [exact F|]. split; [intros rest; apply I'|]. split; [|split].
  - intros [|fuel] r L R; [cbn in L; lia|]. cbn [app value]. rewrite spaces_cons by reflexivity. change (34 =? 34) with true. cbv iota. now rewrite C.
  - cbn. lia.
  - exists 34, cs'. split; [reflexivity|]. split; [reflexivity|lia].
Qed.
Lemma ok_int z : ok (VInt z).
Proof.
  intros d. pose proof (fmt_d_chars z) as H. exists (map b2n (fmt_d z)).
  assert (A : Forall (fun b => b2n b < 128) (fmt_d z)) by (refine (Forall_impl _ _ H); tauto). destruct (ascii_points _ A) as [P E]. rewrite <- E.
  destruct (fmt_d_nonempty z) as (b & s & Eb). assert (B : b2n b = 45 \/ 48 <= b2n b <= 57) by (rewrite Eb in H; inversion H; tauto).
  split; [exact P|]. split; [refine (Forall_impl _ _ H); tauto|]. split; [intros rest; now apply indent_plain|]. split; [|split].
  - intros [|fuel] r L R; [cbn in L; lia|]. pose proof (integer_ok z r R) as I'. rewrite Eb in *. cbn [map app] in *. cbn [value]. rewrite spaces_cons by (unfold is_space; lia).
    replace (b2n b =? 34) with false by lia. replace (b2n b =? 91) with false by lia. replace (b2n b =? 123) with false by lia. rewrite I', R. reflexivity.
  - rewrite map_length, Eb. cbn. lia.
  - rewrite Eb. eexists _, _. split; [reflexivity|]. unfold is_space. split; lia.
Qed.
Lemma ends_sp d r : ends_number (sp d ++ r) = true.
Proof. reflexivity. Qed.
Lemma close_indent c rest d : c = "}"%byte \/ c = "]"%byte -> Indent (c :: rest) Outside false (S d) = newline d ++ c :: Indent rest Outside false d.
Proof. intros [-> | ->]; reflexivity. Qed.
Lemma comma_indent rest d : Indent (","%byte :: rest) Outside false d = ","%byte :: newline d ++ Indent rest Outside false d.
Proof. reflexivity. Qed.
Lemma colon_indent rest d : Indent (":"%byte :: rest) Outside false d = ":"%byte :: " "%byte :: Indent rest Outside false d.
Proof. reflexivity. Qed.
Lemma points_app a b : Forall code_point a -> Forall code_point b -> Forall code_point (a ++ b).
Proof. intros. now apply Forall_app. Qed.
Lemma ascii_point c : c < 128 -> code_point c.
Proof. left. lia. Qed.
Lemma elements_ok l : l <> [] -> Forall ok l -> forall d, exists cs,
  Forall code_point cs /\ Forall safe (concat (map utf8 cs)) /\
  (forall rest, Indent (commas (map Marshal l) ++ "]"%byte :: rest) Outside false (S d) = concat (map utf8 cs) ++ Indent rest Outside false d) /\
  (forall fuel r, (list_sum (map (fun x => S (size x)) l) <= fuel)%nat -> elements fuel (cs ++ r) = Some (map meaning l, r)) /\
  (list_sum (map (fun x => S (size x)) l) <= length cs)%nat /\
  exists c cs', cs = c :: cs' /\ is_space c = false /\ c <> 93.
Proof.
  induction l as [|v l IH]; intros Ne F d; [contradiction|]. apply Forall_cons_iff in F as [V F].
  destruct (V (S d)) as (cv & Pv & Sv & Iv & Rv & Lv & c & cv' & Ev & Wv & Nv).
  destruct (sp_newline d) as [Nd Pd]. destruct (sp_newline (S d)) as [Nd' Pd'].
  destruct l as [|v' l].
  - exists (cv ++ sp d ++ [93]). assert (X : concat (map utf8 (cv ++ sp d ++ [93])) = concat (map utf8 cv) ++ newline d ++ ["]"%byte]) by (rewrite !concat_utf8_app, <- Nd; reflexivity).
    rewrite X. split; [apply points_app; [exact Pv|]; apply points_app; [exact Pd|]; constructor; [now apply ascii_point|constructor]|].
    split; [apply Forall_app; split; [exact Sv|]; apply Forall_app; split; [apply newline_safe|]; constructor; [repeat split; discriminate|constructor]|].
    split; [|split; [|split]].
    + intros rest. cbn [map commas]. rewrite Iv, close_indent by now right. now rewrite <- !app_assoc.
    + intros fuel r L. cbn [map list_sum fold_right] in L. destruct fuel as [|fuel]; [lia|]. cbn [elements]. rewrite <- !app_assoc, Rv by (try apply ends_sp; lia).
      rewrite spaces_sp. reflexivity.
    + cbn [map list_sum fold_right]. rewrite !app_length. cbn. lia.
    + exists c, (cv' ++ sp d ++ [93]). rewrite Ev. split; [reflexivity|]. now split.
  - destruct (IH ltac:(discriminate) F d) as (cl & Pl & Sl & Il & Rl & Ll & c2 & cl' & El & Wl & Nl). clear IH.
    exists (cv ++ 44 :: sp (S d) ++ cl).
    assert (X : concat (map utf8 (cv ++ 44 :: sp (S d) ++ cl)) = concat (map utf8 cv) ++ ","%byte :: newline (S d) ++ concat (map utf8 cl)).
    { rewrite concat_utf8_app. cbn [map concat]. rewrite concat_utf8_app, <- Nd'. reflexivity. }
    rewrite X. split; [apply points_app; [exact Pv|]; constructor; [now apply ascii_point|]; now apply points_app|].
    split; [apply Forall_app; split; [exact Sv|]; constructor; [repeat split; discriminate|]; apply Forall_app; split; [apply newline_safe|exact Sl]|].
    split; [|split; [|split]].
    + intros rest. change (commas (map Marshal (v :: v' :: l))) with (Marshal v ++ ","%byte :: commas (map Marshal (v' :: l))). rewrite <- app_assoc, Iv. cbn [app]. rewrite comma_indent, Il.
      rewrite <- !app_assoc. cbn [app]. now rewrite <- !app_assoc.
    + intros fuel r L. change (list_sum (map (fun x => S (size x)) (v :: v' :: l))) with (S (size v) + list_sum (map (fun x => S (size x)) (v' :: l)))%nat in L.
      destruct fuel as [|fuel]; [lia|]. cbn [elements]. rewrite <- !app_assoc. cbn [app]. rewrite Rv by (try reflexivity; lia).
      rewrite spaces_cons by reflexivity. change (44 =? 93) with false. change (44 =? 44) with true. cbv iota. rewrite <- app_assoc, elements_sp, Rl by lia. reflexivity.
    + change (list_sum (map (fun x => S (size x)) (v :: v' :: l))) with (S (size v) + list_sum (map (fun x => S (size x)) (v' :: l)))%nat. rewrite app_length. cbn [length]. rewrite app_length. lia.
    + exists c, (cv' ++ 44 :: sp (S d) ++ cl). rewrite Ev. split; [reflexivity|]. now split.
Qed.
Definition member_bytes (kv : bytes * M_Json.value) : bytes := encode_string (fst kv) ++ ":"%byte :: Marshal (snd kv).
Lemma members_ok m : m <> [] -> Forall (fun kv => ok (snd kv)) m -> forall d, exists cs,
  Forall code_point cs /\ Forall safe (concat (map utf8 cs)) /\
  (forall rest, Indent (commas (map member_bytes m) ++ "}"%byte :: rest) Outside false (S d) = concat (map utf8 cs) ++ Indent rest Outside false d) /\
  (forall fuel r, (list_sum (map (fun kv => S (size (snd kv))) m) <= fuel)%nat -> members fuel (cs ++ r) = Some (map (fun kv => (runes (fst kv), meaning (snd kv))) m, r)) /\
  (list_sum (map (fun kv => S (size (snd kv))) m) <= length cs)%nat /\
  exists cs', cs = 34 :: cs'.
Proof.
  induction m as [|[k v] m IH]; intros Ne F d; [contradiction|]. apply Forall_cons_iff in F as [V F]. cbn [snd] in V.
  destruct (V (S d)) as (cv & Pv & Sv & Iv & Rv & Lv & _).
  destruct (indent_string k) as (ck & Pk & Sk & Ik & ck' & -> & Nk & Ck).
  destruct (sp_newline d) as [Nd Pd]. destruct (sp_newline (S d)) as [Nd' Pd'].
  assert (Q : forall fuel r, (size v <= fuel)%nat -> ends_number r = true -> value fuel (32 :: cv ++ r) = Some (meaning v, r)) by (intros; rewrite value_one; now apply Rv).
  destruct m as [|kv' m].
  - exists ((34 :: ck') ++ 58 :: 32 :: cv ++ sp d ++ [125]).
    assert (X : concat (map utf8 ((34 :: ck') ++ 58 :: 32 :: cv ++ sp d ++ [125])) = concat (map utf8 (34 :: ck')) ++ ":"%byte :: " "%byte :: concat (map utf8 cv) ++ newline d ++ ["}"%byte]).
    { rewrite concat_utf8_app. f_equal. change (concat (map utf8 (58 :: 32 :: cv ++ sp d ++ [125]))) with (":"%byte :: " "%byte :: concat (map utf8 (cv ++ sp d ++ [125]))). rewrite !concat_utf8_app, <- Nd; reflexivity. }
    rewrite X. split; [apply points_app; [exact Pk|]; constructor; [now apply ascii_point|]; constructor; [now apply ascii_point|]; apply points_app; [exact Pv|]; apply points_app; [exact Pd|]; constructor; [now apply ascii_point|constructor]|].
    split; [apply Forall_app; split; [exact Sk|]; constructor; [repeat split; discriminate|]; constructor; [repeat split; discriminate|]; apply Forall_app; split; [exact Sv|]; apply Forall_app; split; [apply newline_safe|]; constructor; [repeat split; discriminate|constructor]|].
    split; [|split; [|split]].
    + intros rest. cbn [map commas]. unfold member_bytes at 1. cbn [fst snd]. rewrite <- app_assoc, Ik. cbn [app]. rewrite colon_indent, Iv, close_indent by now left.
      rewrite <- app_assoc. cbn [app]. now rewrite <- !app_assoc.
    + intros fuel r L. cbn [map list_sum fold_right snd] in L. destruct fuel as [|fuel]; [lia|]. cbn [members app]. rewrite spaces_cons by reflexivity. change (34 =? 34) with true. cbv iota.
      rewrite <- app_assoc, Ck. cbn [app]. rewrite spaces_cons by reflexivity. change (58 =? 58) with true. cbv iota. rewrite <- !app_assoc, Q by (try apply ends_sp; lia).
      rewrite spaces_sp. reflexivity.
    + cbn [map list_sum fold_right snd]. rewrite app_length. cbn [length]. rewrite !app_length. cbn. lia.
    + eexists. reflexivity.
  - destruct (IH ltac:(discriminate) F d) as (cl & Pl & Sl & Il & Rl & Ll & cl' & El). clear IH.
    exists ((34 :: ck') ++ 58 :: 32 :: cv ++ 44 :: sp (S d) ++ cl).
    assert (X : concat (map utf8 ((34 :: ck') ++ 58 :: 32 :: cv ++ 44 :: sp (S d) ++ cl)) = concat (map utf8 (34 :: ck')) ++ ":"%byte :: " "%byte :: concat (map utf8 cv) ++ ","%byte :: newline (S d) ++ concat (map utf8 cl)).
    { rewrite concat_utf8_app. f_equal. change (concat (map utf8 (58 :: 32 :: cv ++ 44 :: sp (S d) ++ cl))) with (":"%byte :: " "%byte :: concat (map utf8 (cv ++ 44 :: sp (S d) ++ cl))). rewrite concat_utf8_app.
      change (concat (map utf8 (44 :: sp (S d) ++ cl))) with (","%byte :: concat (map utf8 (sp (S d) ++ cl))). rewrite concat_utf8_app, <- Nd'. reflexivity. }
    rewrite X. split; [apply points_app; [exact Pk|]; constructor; [now apply ascii_point|]; constructor; [now apply ascii_point|]; apply points_app; [exact Pv|]; constructor; [now apply ascii_point|]; now apply points_app|].
    split; [apply Forall_app; split; [exact Sk|]; constructor; [repeat split; discriminate|]; constructor; [repeat split; discriminate|]; apply Forall_app; split; [exact Sv|]; constructor; [repeat split; discriminate|]; apply Forall_app; split; [apply newline_safe|exact Sl]|].
    split; [|split; [|split]].
    + intros rest. change (commas (map member_bytes ((k, v) :: kv' :: m))) with (member_bytes (k, v) ++ ","%byte :: commas (map member_bytes (kv' :: m))). unfold member_bytes at 1. cbn [fst snd].
      rewrite <- !app_assoc, Ik. cbn [app]. rewrite colon_indent, <- app_assoc, Iv. cbn [app]. rewrite comma_indent, Il. repeat (rewrite <- app_assoc; cbn [app]). reflexivity.
    + intros fuel r L. change (list_sum (map (fun kv => S (size (snd kv))) ((k, v) :: kv' :: m))) with (S (size v) + list_sum (map (fun kv => S (size (snd kv))) (kv' :: m)))%nat in L.
      destruct fuel as [|fuel]; [lia|]. cbn [members app]. rewrite spaces_cons by reflexivity. change (34 =? 34) with true. cbv iota.
      rewrite <- app_assoc, Ck. cbn [app]. rewrite spaces_cons by reflexivity. change (58 =? 58) with true. cbv iota. rewrite <- app_assoc, Q by (try reflexivity; lia).
      cbn [app]. rewrite spaces_cons by reflexivity. change (44 =? 125) with false. change (44 =? 44) with true. cbv iota. rewrite <- app_assoc, members_sp, Rl by lia. reflexivity.
    + change (list_sum (map (fun kv => S (size (snd kv))) ((k, v) :: kv' :: m))) with (S (size v) + list_sum (map (fun kv => S (size (snd kv))) (kv' :: m)))%nat.
      rewrite app_length. cbn [length]. rewrite app_length. cbn [length]. rewrite app_length. lia.
    + eexists. reflexivity.
Qed.
Lemma commas_first b x t l rest : x = b :: t -> exists t', commas (x :: l) ++ rest = b :: t'.
Proof. intros ->. destruct l; cbn; eauto. Qed.
Lemma ok_slice l : Forall ok l -> ok (VSlice l).
Proof.
  intros F d. destruct l as [|v l].
  - exists [91; 93]. split; [repeat constructor|]. split; [repeat constructor; discriminate|]. split; [reflexivity|]. split; [|split; [cbn; lia|]].
    + intros [|fuel] r L R; [cbn in L; lia|]. reflexivity.
    + eexists _, _. split; [reflexivity|]. split; [reflexivity|lia].
  - destruct (elements_ok (v :: l) ltac:(discriminate) F d) as (cs & P & S' & I' & R & L & c & cs' & E & W & Nc). destruct (sp_newline (S d)) as [Nd' Pd'].
    exists (91 :: sp (S d) ++ cs). assert (X : concat (map utf8 (91 :: sp (S d) ++ cs)) = "["%byte :: newline (S d) ++ concat (map utf8 cs)) by (cbn [map concat]; rewrite concat_utf8_app, <- Nd'; reflexivity).
    rewrite X. split; [constructor; [now apply ascii_point|]; now apply points_app|].
    split; [constructor; [repeat split; discriminate|]; apply Forall_app; split; [apply newline_safe|exact S']|].
    split; [|split; [|split]].
    + intros rest. change (Marshal (VSlice (v :: l))) with ("["%byte :: commas (map Marshal (v :: l)) ++ ["]"%byte]). cbn [app]. rewrite <- app_assoc.
      change (["]"%byte] ++ rest) with ("]"%byte :: rest). destruct (marshal_head v) as (b & t & Eb & Ob). destruct (commas_first b (Marshal v) t (map Marshal l) ("]"%byte :: rest) Eb) as [t' Et].
      change (Indent ("["%byte :: commas (map Marshal (v :: l)) ++ "]"%byte :: rest) Outside false d) with ("["%byte :: Indent (commas (map Marshal (v :: l)) ++ "]"%byte :: rest) Outside true d).
      change (map Marshal (v :: l)) with (Marshal v :: map Marshal l) in *. rewrite Et, indent_first, <- Et, I' by exact Ob. now rewrite <- app_assoc.
    + intros [|fuel] r Lf Rr; [cbn in Lf; lia|]. cbn [app value]. rewrite spaces_cons by reflexivity. change (91 =? 34) with false. change (91 =? 91) with true. cbv iota.
      rewrite <- app_assoc, spaces_sp, E. cbn [app]. rewrite spaces_cons by exact W. replace (c =? 93) with false by lia.
      change (c :: cs' ++ r) with ((c :: cs') ++ r). rewrite <- E, elements_sp, R; [reflexivity|]. cbn [size] in Lf. lia.
    + cbn [size length]. rewrite app_length. lia.
    + eexists _, _. split; [reflexivity|]. split; [reflexivity|lia].
Qed.
Lemma ok_struct m : Forall (fun kv => ok (snd kv)) m -> ok (VStruct m).
Proof.
  intros F d. destruct m as [|kv m].
  - exists [123; 125]. split; [repeat constructor|]. split; [repeat constructor; discriminate|]. split; [reflexivity|]. split; [|split; [cbn; lia|]].
    + intros [|fuel] r L R; [cbn in L; lia|]. reflexivity.
    + eexists _, _. split; [reflexivity|]. split; [reflexivity|lia].
  - destruct (members_ok (kv :: m) ltac:(discriminate) F d) as (cs & P & S' & I' & R & L & cs' & E). destruct (sp_newline (S d)) as [Nd' Pd'].
    exists (123 :: sp (S d) ++ cs). assert (X : concat (map utf8 (123 :: sp (S d) ++ cs)) = "{"%byte :: newline (S d) ++ concat (map utf8 cs)) by (cbn [map concat]; rewrite concat_utf8_app, <- Nd'; reflexivity).
    rewrite X. split; [constructor; [now apply ascii_point|]; now apply points_app|].
    split; [constructor; [repeat split; discriminate|]; apply Forall_app; split; [apply newline_safe|exact S']|].
    split; [|split; [|split]].
    + intros rest. change (Marshal (VStruct (kv :: m))) with ("{"%byte :: commas (map member_bytes (kv :: m)) ++ ["}"%byte]). cbn [app]. rewrite <- app_assoc.
      change (["}"%byte] ++ rest) with ("}"%byte :: rest). assert (Eb : exists t, member_bytes kv = """"%byte :: t) by (eexists; reflexivity). destruct Eb as [t Eb].
      destruct (commas_first """"%byte (member_bytes kv) t (map member_bytes m) ("}"%byte :: rest) Eb) as [t' Et].
      change (Indent ("{"%byte :: commas (map member_bytes (kv :: m)) ++ "}"%byte :: rest) Outside false d) with ("{"%byte :: Indent (commas (map member_bytes (kv :: m)) ++ "}"%byte :: rest) Outside true d).
      change (map member_bytes (kv :: m)) with (member_bytes kv :: map member_bytes m) in *. rewrite Et, indent_first, <- Et, I' by (split; discriminate). now rewrite <- app_assoc.
    + intros [|fuel] r Lf Rr; [cbn in Lf; lia|]. cbn [app value]. rewrite spaces_cons by reflexivity. change (123 =? 34) with false. change (123 =? 91) with false. change (123 =? 123) with true. cbv iota.
      rewrite <- app_assoc, spaces_sp, E. cbn [app]. rewrite spaces_cons by reflexivity. change (34 =? 125) with false. cbv iota.
      change (34 :: cs' ++ r) with ((34 :: cs') ++ r). rewrite <- E, members_sp, R; [reflexivity|]. cbn [size] in Lf. lia.
    + cbn [size length]. rewrite app_length. lia.
    + eexists _, _. split; [reflexivity|]. split; [reflexivity|lia].
Qed.
Lemma all_ok v : ok v.
Proof.
  induction v as [s|z|l F|m F|m F] using value_ind'; [apply ok_string|apply ok_int|now apply ok_slice| |now apply ok_struct].
  assert (H : ok (VStruct (sort_keys m))).
  { apply ok_struct. rewrite Forall_forall in *. intros kv K. apply F. eapply Permutation_in; [symmetry; apply sort_perm|exact K]. }
  intros d. destruct (H d) as (cs & Q). exists cs. rewrite marshal_map, meaning_map, size_map. exact Q.
Qed.
(** What json.MarshalIndent writes is a JSON text with that meaning. *)
Lemma marshal_indent_ok v : json_text (MarshalIndent v) (meaning v) /\ Forall safe (MarshalIndent v).
Proof.
  destruct (all_ok v 0%nat) as (cs & P & S' & I' & R & L & _). specialize (I' []). rewrite app_nil_r in I'. cbn [Indent] in I'. rewrite app_nil_r in I'.
  unfold MarshalIndent. rewrite I'. split; [|exact S']. exists cs. split; [now split|]. unfold json_of.
  specialize (R (S (length cs)) [] ltac:(lia) eq_refl). rewrite app_nil_r in R. rewrite R. reflexivity.
Qed.
