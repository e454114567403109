(** * Parsing and formatting times *)
From Coq Require Import Lia ZifyBool ZifyNat ZifyN.
From Verif Require Import M_Base M_Text M_Time S_Text S_Time P_Base P_Text.
Open Scope N_scope.

Lemma isLeap_spec y : isLeap y = true <-> leap_year y.
Proof.
  unfold isLeap, leap_year. rewrite andb_true_iff, orb_true_iff, negb_true_iff, !N.eqb_eq, N.eqb_neq.
  rewrite <- !N.mod_divide by lia. reflexivity.
Qed.
Lemma daysIn_spec y m : 1 <= m <= 12 -> month_length y m (daysIn m y).
Proof.
  intros M. assert (C : m = 1 \/ m = 2 \/ m = 3 \/ m = 4 \/ m = 5 \/ m = 6 \/ m = 7 \/ m = 8 \/ m = 9 \/ m = 10 \/ m = 11 \/ m = 12) by lia.
  unfold daysIn. decompose [or] C; subst; try (cbn; constructor).
  change (2 =? 2) with true. cbn [andb]. destruct (isLeap y) eqn:E; [constructor; now apply isLeap_spec|].
  cbn. constructor. rewrite <- isLeap_spec, E. discriminate.
Qed.
Lemma month_length_fun y m k k' : month_length y m k -> month_length y m k' -> k = k'.
Proof. intros H H'. destruct H; inversion H'; try reflexivity; try lia; contradiction. Qed.
Lemma month_length_m y m k : month_length y m k -> 1 <= m <= 12 /\ 28 <= k <= 31.
Proof. destruct 1; lia. Qed.
Lemma calendar_check t : t_month t <> 0 -> t_month t <= 12 ->
  ((t_day t <? 1) || (daysIn (t_month t) (t_year t) <? t_day t) = false <->
   exists k, month_length (t_year t) (t_month t) k /\ 1 <= t_day t <= k).
Proof.
  intros A B. assert (M : 1 <= t_month t <= 12) by lia. pose proof (daysIn_spec (t_year t) _ M) as D. split.
  - intros H. exists (daysIn (t_month t) (t_year t)). split; [exact D|lia].
  - intros (k & L & R). rewrite (month_length_fun _ _ _ _ L D) in R. lia.
Qed.

(** numerals *)
Lemma dec_val_2 a b : dec_val [a; b] = digit_val a * 10 + digit_val b.
Proof. change (10 * (10 * 0 + digit_val a) + digit_val b = digit_val a * 10 + digit_val b). lia. Qed.
Lemma parse_uint_2 a b : parse_uint [a; b] = if is_digit a && is_digit b then Some (digit_val a * 10 + digit_val b) else None.
Proof. unfold parse_uint. cbn [forallb]. rewrite andb_true_r, dec_val_2. reflexivity. Qed.
Lemma width_2 s n : width 2 s n <-> exists a b, s = [a; b] /\ is_digit a = true /\ is_digit b = true /\ n = digit_val a * 10 + digit_val b.
Proof.
  unfold width. rewrite numeral_parse. split.
  - intros [P L]. destruct s as [|a [|b [|]]]; try discriminate. exists a, b. rewrite parse_uint_2 in P. destruct (is_digit a) eqn:A; [|discriminate].
    destruct (is_digit b) eqn:B; [|discriminate]. cbn [andb] in P. injection P as <-. repeat split.
  - intros (a & b & -> & A & B & ->). split; [|reflexivity]. now rewrite parse_uint_2, A, B.
Qed.
Lemma width_1 s n : width 1 s n <-> exists a, s = [a] /\ is_digit a = true /\ n = digit_val a.
Proof.
  unfold width. rewrite numeral_parse. split.
  - intros [P L]. destruct s as [|a [|]]; try discriminate. exists a. cbn in P. destruct (is_digit a) eqn:A; [|discriminate].
    cbn in P. injection P as <-. repeat split.
  - intros (a & -> & A & ->). split; [|reflexivity]. cbn. now rewrite A.
Qed.
Lemma getnum_fixed v n v' : getnum v true = Some (n, v') <-> exists s, v = s ++ v' /\ width 2 s n.
Proof.
  unfold getnum. split.
  - destruct v as [|a [|b v]]; try discriminate; destruct (is_digit a) eqn:A; cbn [negb]; try discriminate.
    destruct (is_digit b) eqn:B; try discriminate. intros [= <- <-]. exists [a; b]. split; [reflexivity|]. apply width_2. eauto 6.
  - intros (s & -> & W). apply width_2 in W as (a & b & -> & A & B & ->). cbn [app]. now rewrite A, B.
Qed.
Definition digit_first (s : bytes) : Prop := exists b s', s = b :: s' /\ is_digit b = true.
Lemma getnum_free v n v' : getnum v false = Some (n, v') <->
  exists s, v = s ++ v' /\ (width 2 s n \/ (width 1 s n /\ ~ digit_first v')).
Proof.
  unfold getnum. split.
  - destruct v as [|a v]; try discriminate; destruct (is_digit a) eqn:A; cbn [negb]; try discriminate. destruct v as [|b v].
    + intros [= <- <-]. exists [a]. split; [reflexivity|]. right. split; [apply width_1; eauto|]. intros (x & y & H & _). discriminate.
    + destruct (is_digit b) eqn:B; intros [= <- <-].
      * exists [a; b]. split; [reflexivity|]. left. apply width_2. eauto 6.
      * exists [a]. split; [reflexivity|]. right. split; [apply width_1; eauto|]. intros (x & y & [= <- <-] & H). congruence.
  - intros (s & -> & [W|[W N]]).
    + apply width_2 in W as (a & b & -> & A & B & ->). cbn [app]. now rewrite A, B.
    + apply width_1 in W as (a & -> & A & ->). cbn [app]. rewrite A. cbn [negb]. destruct v' as [|b v']; [reflexivity|].
      destruct (is_digit b) eqn:B; [|reflexivity]. exfalso. apply N. exists b, v'. now split.
Qed.
Lemma year_spec v y v' t : (parse_std StdLongYear v t = Some (v', Time y (t_month t) (t_day t) (t_hour t) (t_min t) (t_sec t) (t_nsec t))) <->
  exists s, v = s ++ v' /\ width 4 s y.
Proof.
  unfold parse_std, width. split.
  - destruct v as [|a [|b [|c [|d v]]]]; try discriminate. destruct (parse_uint [a; b; c; d]) eqn:P; [|discriminate].
    intros [= <- <-]. exists [a; b; c; d]. split; [reflexivity|]. split; [now apply numeral_parse|reflexivity].
  - intros (s & -> & P & L). destruct s as [|a [|b [|c [|d [|]]]]]; try discriminate. cbn [app]. apply numeral_parse in P. now rewrite P.
Qed.

(** spaces *)
Definition space_first (s : bytes) : Prop := exists s', s = " "%byte :: s'.
Lemma cutspace_spec v : exists k, v = repeat " "%byte k ++ cutspace v /\ ~ space_first (cutspace v).
Proof.
  induction v as [|b v (k & E & N)]; cbn [cutspace].
  - exists 0%nat. split; [reflexivity|]. intros [s H]. discriminate.
  - destruct (Byte.eqb b " ") eqn:B.
    + apply byte_eqb_eq in B. subst b. exists (S k). cbn [repeat app]. rewrite <- E. split; [reflexivity|exact N].
    + apply byte_eqb_neq in B. exists 0%nat. split; [reflexivity|]. intros [s [= H _]]. contradiction.
Qed.
Lemma cutspace_app k v : ~ space_first v -> cutspace (repeat " "%byte k ++ v) = v.
Proof.
  intros N. induction k as [|k IH]; cbn [repeat app cutspace].
  - destruct v as [|b v]; [reflexivity|]. cbn [cutspace]. destruct (Byte.eqb b " ") eqn:B; [|reflexivity].
    apply byte_eqb_eq in B. subst. exfalso. apply N. now exists v.
  - exact IH.
Qed.
Lemma skip_space v v' : skip v (str " ") = Some v' <-> (v = [] /\ v' = []) \/ (exists sp, v = sp ++ v' /\ gap sp /\ ~ space_first v').
Proof.
  change (skip v (str " ")) with (match v with x :: _ => if Byte.eqb x " " then Some (cutspace v) else None | [] => Some [] end). split.
  - destruct v as [|x v]; [intros [= <-]; now left|]. destruct (Byte.eqb x " ") eqn:X; [|discriminate]. apply byte_eqb_eq in X. subst x.
    intros [= <-]. right. destruct (cutspace_spec v) as (k & E & N). change (cutspace (" "%byte :: v)) with (cutspace v).
    exists (" "%byte :: repeat " "%byte k). cbn [app]. rewrite <- E. split; [reflexivity|]. split; [now exists k|exact N].
  - intros [[-> ->]|(sp & -> & (k & ->) & N)]; [reflexivity|]. change (repeat " "%byte (S k) ++ v') with (" "%byte :: repeat " "%byte k ++ v').
    cbn [Byte.eqb]. change (cutspace (" "%byte :: repeat " "%byte k ++ v')) with (cutspace (repeat " "%byte k ++ v')). now rewrite cutspace_app.
Qed.
Lemma skip_char c v v' : Byte.eqb c " " = false -> (skip v [c] = Some v' <-> v = c :: v').
Proof.
  intros C. cbn [skip]. rewrite C. split.
  - destruct v as [|x v]; [discriminate|]. destruct (Byte.eqb x c) eqn:X; [|discriminate]. apply byte_eqb_eq in X. now intros [= <-]; subst.
  - intros ->. now rewrite (proj2 (byte_eqb_eq c c) eq_refl).
Qed.

(** fractions *)
Lemma digits_spec s : exists r, s = digits s ++ r /\ forallb is_digit (digits s) = true /\ ~ digit_first r.
Proof.
  induction s as [|b s (r & E & F & N)]; cbn [digits].
  - exists []. split; [reflexivity|]. split; [reflexivity|]. intros (x & y & H & _). discriminate.
  - destruct (is_digit b) eqn:B.
    + exists r. cbn [app]. rewrite <- E. split; [reflexivity|]. split; [cbn; now rewrite B|exact N].
    + exists (b :: s). split; [reflexivity|]. split; [reflexivity|]. intros (x & y & [= <- <-] & H). congruence.
Qed.
Lemma digits_app d r : forallb is_digit d = true -> ~ digit_first r -> digits (d ++ r) = d.
Proof.
  intros F N. induction d as [|b d IH]; cbn [app digits forallb] in *.
  - destruct r as [|b r]; [reflexivity|]. cbn [digits]. destruct (is_digit b) eqn:B; [|reflexivity]. exfalso. apply N. now exists b, r.
  - apply andb_prop in F as [-> F]. now rewrite IH.
Qed.
(** [r] cannot be read as (the continuation of) a fraction *)
Definition no_fraction (r : bytes) : Prop := ~ digit_first r /\ ~ exists s, r = "."%byte :: s.
Lemma fraction_complete f ns r : fraction_of_second f ns -> no_fraction r -> fraction (f ++ r) = Some (ns, r).
Proof.
  intros [[-> ->]|(d & n & -> & P & L & ->)] [N1 N2].
  - cbn [app]. destruct r as [|b [|c r]]; try reflexivity. cbn [fraction]. destruct (Byte.eqb b ".") eqn:B; [|reflexivity].
    apply byte_eqb_eq in B. subst. exfalso. apply N2. now exists (c :: r).
  - apply numeral_inv in P as (NE & F & V). destruct d as [|a d]; [contradiction|]. pose proof F as F'. cbn [forallb] in F'. apply andb_prop in F' as [A _].
    cbn [app fraction]. cbn [tl]. rewrite A. change (Byte.eqb "." ".") with true. cbn [andb]. cbv zeta.
    change (a :: d ++ r) with ((a :: d) ++ r). rewrite (digits_app (a :: d) r F N1), V. unfold lenN.
    destruct (1000000000 <=? n) eqn:E; [lia|]. rewrite skipn_app, skipn_all, Nat.sub_diag. reflexivity.
Qed.
Lemma fraction_sound v ns v' : fraction v = Some (ns, v') -> exists f, v = f ++ v' /\ fraction_of_second f ns.
Proof.
  destruct v as [|p [|a v]]; try (intros [= <- <-]; exists []; split; [reflexivity|now left]).
  cbn [fraction tl]. destruct (Byte.eqb p "." && is_digit a) eqn:E; [|intros [= <- <-]; exists []; split; [reflexivity|now left]].
  cbv zeta. apply andb_prop in E as [P A]. apply byte_eqb_eq in P. subst p. destruct (digits_spec (a :: v)) as (r & E & F & _).
  assert (NE : digits (a :: v) <> []) by (cbn [digits]; now rewrite A).
  set (d := digits (a :: v)) in *. clearbody d. destruct (1000000000 <=? dec_val d) eqn:L; [discriminate|]. intros [= <- <-].
  exists ("."%byte :: d). split.
  - cbn [app]. rewrite E, skipn_app, skipn_all, Nat.sub_diag. reflexivity.
  - right. exists d, (dec_val d). split; [reflexivity|]. split; [now apply numeral_of|split; [lia|reflexivity]].
Qed.

(** days of the week *)
Lemma letter_spec a b : In b (concat (map str ["Sun"; "Mon"; "Tue"; "Wed"; "Thu"; "Fri"; "Sat"]%string)) -> (match_letter a b = true <-> same_letter a b).
Proof.
  intros H. unfold same_letter, match_letter.
  assert (X : (Byte.eqb a b || ((lower a =? lower b) && (97 <=? lower a) && (lower a <=? 122))) =
    (Byte.eqb a b || ((65 <=? b2n a) && (b2n a <=? 90) && (b2n b =? b2n a + 32)) || ((97 <=? b2n a) && (b2n a <=? 122) && (b2n a =? b2n b + 32)))).
  { cbn in H. repeat destruct H as [H|H]; try contradiction; subst b; destruct a; reflexivity. }
  rewrite X, !orb_true_iff, !andb_true_iff, !N.leb_le, !N.eqb_eq, byte_eqb_eq. clear. tauto.
Qed.
Lemma match_word_spec v w : In w shortDayNames ->
  (match_word v w = true <-> exists s r, v = s ++ r /\ length s = length w /\ Forall2 same_letter s w).
Proof.
  intros I'. assert (J : forall b, In b w -> In b (concat shortDayNames)) by (intros b B; apply in_concat; eauto).
  unfold match_word. rewrite andb_true_iff, Nat.leb_le. revert J. clear I'. revert v. induction w as [|b w IH]; intros v J.
  - split; [intros _; exists [], v; repeat split; constructor|intros _; split; [cbn; lia|now destruct v]].
  - destruct v as [|a v].
    + split; [cbn; lia|]. intros (s & r & E & L & F). destruct s; [discriminate|discriminate].
    + cbn [length combine forallb fst snd]. rewrite andb_true_iff, (letter_spec a b) by (apply J; now left).
      specialize (IH v (fun x H => J x (or_intror H))). split.
      * intros [L [A F]]. destruct (proj1 IH) as (s & r & -> & Ls & Fs); [split; [lia|exact F]|].
        exists (a :: s), r. split; [reflexivity|]. split; [cbn; lia|]. now constructor.
      * intros (s & r & E & L & F). inversion F as [|x y s' w' A F']; subst. cbn [app] in E. injection E as -> ->.
        destruct (proj2 IH) as [L' F'']; [exists s', r; repeat split; [cbn in L; lia|exact F']|]. split; [lia|]. now split.
Qed.
Lemma names_3 w : In w shortDayNames -> length w = 3%nat.
Proof. cbn. intros H. repeat destruct H as [H|H]; try contradiction; subst; reflexivity. Qed.
Lemma lookup_day_sound v v' : lookup_day v = Some v' -> exists s, v = s ++ v' /\ day_name s.
Proof.
  unfold lookup_day. destruct (find (match_word v) shortDayNames) as [w|] eqn:E; [|discriminate]. intros [= <-].
  apply find_some in E as [I' M]. apply match_word_spec in M as (s & r & -> & L & F); [|exact I'].
  exists s. rewrite <- L, skipn_app, skipn_all, Nat.sub_diag. split; [reflexivity|]. now exists w.
Qed.
Lemma lookup_day_complete s v : day_name s -> lookup_day (s ++ v) = Some v.
Proof.
  intros (w & I' & F). assert (L : length s = length w) by (clear I'; induction F; cbn; congruence).
  unfold lookup_day. destruct (find (match_word (s ++ v)) shortDayNames) as [w'|] eqn:E.
  - apply find_some in E as [I'' _]. rewrite (names_3 w' I''), <- (names_3 w I'), <- L, skipn_app, skipn_all, Nat.sub_diag. reflexivity.
  - exfalso. pose proof (find_none _ _ E w I') as N. rewrite (proj2 (match_word_spec (s ++ v) w I')) in N; [discriminate|].
    exists s, v. now repeat split.
Qed.
Lemma day_name_3 s : day_name s -> length s = 3%nat.
Proof. intros (w & I' & F). rewrite <- (names_3 w I'). clear I'. induction F; cbn; congruence. Qed.

(** ** Parse is exact *)
Definition ranges (t : time) : Prop := 1 <= t_month t <= 12 /\ t_hour t < 24 /\ t_min t < 60 /\ t_sec t < 60.
Definition fields (v : bytes) (t : time) : Prop :=
  exists mm dd yy sp hh mi ss fr,
    v = mm ++ "/"%byte :: dd ++ "/"%byte :: yy ++ sp ++ hh ++ ":"%byte :: mi ++ ":"%byte :: ss ++ fr /\
    width 2 mm (t_month t) /\ width 2 dd (t_day t) /\ width 4 yy (t_year t) /\ gap sp /\
    (width 1 hh (t_hour t) \/ width 2 hh (t_hour t)) /\ width 2 mi (t_min t) /\ width 2 ss (t_sec t) /\
    fraction_of_second fr (t_nsec t) /\ ranges t.
Definition core (rest : list (bytes * std)) : list (bytes * std) :=
  ([], StdZeroMonth) :: (str "/", StdZeroDay) :: (str "/", StdLongYear) :: (str " ", StdHour) :: (str ":", StdZeroMinute) :: (str ":", StdZeroSecond) :: rest.
Definition zero_time : time := Time 0 1 1 0 0 0 0.

Lemma not_digit_c c s : is_digit c = false -> ~ digit_first (c :: s).
Proof. intros H (b & s' & [= <- <-] & D). congruence. Qed.
Lemma digit_not_space s : digit_first s -> ~ space_first s.
Proof. intros (b & s' & -> & D) (s'' & [= -> ->]). discriminate. Qed.
Lemma width_digit k s n r : width k s n -> digit_first (s ++ r).
Proof.
  intros [P _]. apply numeral_inv in P as (N & F & _). destruct s as [|a s]; [contradiction|]. cbn in F. apply andb_prop in F as [A _].
  exists a, (s ++ r). now split.
Qed.
Lemma core_complete rest tail w t r : fields w t -> no_fraction r ->
  parse_chunks (core rest) tail (w ++ r) zero_time = parse_chunks rest tail r t.
Proof.
  intros (mm & dd & yy & sp & hh & mi & ss & fr & -> & Wm & Wd & Wy & G & Wh & Wi & Ws & F & (Rm & Rh & Ri & Rs)) N. unfold core, zero_time.
  repeat (rewrite <- app_assoc || rewrite <- app_comm_cons).
  cbn [parse_chunks]. cbn [skip]. cbn [parse_std].
  rewrite (proj2 (getnum_fixed _ _ _) (ex_intro _ mm (conj eq_refl Wm))).
  replace ((t_month t =? 0) || (12 <? t_month t)) with false by lia. cbv beta iota.
  rewrite (proj2 (skip_char "/" _ _ eq_refl) eq_refl). cbn [t_year t_month t_day t_hour t_min t_sec t_nsec].
  rewrite (proj2 (getnum_fixed _ _ _) (ex_intro _ dd (conj eq_refl Wd))). cbv beta iota.
  rewrite (proj2 (skip_char "/" _ _ eq_refl) eq_refl). cbn [t_year t_month t_day t_hour t_min t_sec t_nsec].
  destruct Wy as [Py Ly]. destruct yy as [|y1 [|y2 [|y3 [|y4 [|]]]]]; try discriminate. cbn [app]. apply numeral_parse in Py. rewrite Py. cbv beta iota.
  assert (Hd : digit_first (hh ++ ":"%byte :: mi ++ ":"%byte :: ss ++ fr ++ r)) by (destruct Wh as [Wh|Wh]; exact (width_digit _ _ _ _ Wh)).
  rewrite (proj2 (skip_space _ _) (or_intror (ex_intro _ sp (conj eq_refl (conj G (digit_not_space _ Hd)))))). cbn [t_year t_month t_day t_hour t_min t_sec t_nsec].
  rewrite (proj2 (getnum_free (hh ++ ":"%byte :: mi ++ ":"%byte :: ss ++ fr ++ r) (t_hour t) (":"%byte :: mi ++ ":"%byte :: ss ++ fr ++ r))).
  2: { exists hh. split; [reflexivity|]. destruct Wh as [Wh|Wh]; [right; split; [exact Wh|now apply not_digit_c]|now left]. }
  replace (24 <=? t_hour t) with false by lia. cbv beta iota.
  rewrite (proj2 (skip_char ":" _ _ eq_refl) eq_refl). cbn [t_year t_month t_day t_hour t_min t_sec t_nsec].
  rewrite (proj2 (getnum_fixed _ _ _) (ex_intro _ mi (conj eq_refl Wi))).
  replace (60 <=? t_min t) with false by lia. cbv beta iota.
  rewrite (proj2 (skip_char ":" _ _ eq_refl) eq_refl). cbn [t_year t_month t_day t_hour t_min t_sec t_nsec].
  rewrite (proj2 (getnum_fixed _ _ _) (ex_intro _ ss (conj eq_refl Ws))).
  replace (60 <=? t_sec t) with false by lia. cbv beta iota.
  rewrite (fraction_complete fr (t_nsec t) r F N). destruct t; reflexivity.
Qed.
Ltac take H p v' := let E := fresh "E" in destruct p as [v'|] eqn:E; [|discriminate H].
Lemma core_sound rest tail v t : parse_chunks (core rest) tail v zero_time = Some t ->
  exists w r t1, v = w ++ r /\ fields w t1 /\ parse_chunks rest tail r t1 = Some t.
Proof.
  unfold core, zero_time. cbn [parse_chunks]. cbn [skip]. cbn [parse_std]. intros H.
  destruct (getnum v true) as [[m v1]|] eqn:E1; [|discriminate H]. apply getnum_fixed in E1 as (mm & -> & Wm).
  destruct ((m =? 0) || (12 <? m)) eqn:Rm; [discriminate H|]. cbv beta iota in H.
  destruct (skip v1 (str "/")) as [v2|] eqn:K1; [|discriminate H]. apply (skip_char "/" _ _ eq_refl) in K1. subst v1. cbn [t_year t_month t_day t_hour t_min t_sec t_nsec] in H.
  destruct (getnum v2 true) as [[d v3]|] eqn:E2; [|discriminate H]. apply getnum_fixed in E2 as (dd & -> & Wd). cbv beta iota in H.
  destruct (skip v3 (str "/")) as [v4|] eqn:K2; [|discriminate H]. apply (skip_char "/" _ _ eq_refl) in K2. subst v3. cbn [t_year t_month t_day t_hour t_min t_sec t_nsec] in H.
  destruct v4 as [|y1 [|y2 [|y3 [|y4 v5]]]]; try discriminate H.
  destruct (parse_uint [y1; y2; y3; y4]) as [y|] eqn:Py; [|discriminate H]. apply numeral_parse in Py. cbv beta iota in H.
  destruct (skip v5 (str " ")) as [v6|] eqn:K3; [|discriminate H]. cbn [t_year t_month t_day t_hour t_min t_sec t_nsec] in H.
  destruct (getnum v6 false) as [[h v7]|] eqn:E3; [|discriminate H].
  apply skip_space in K3 as [[-> ->]|(sp & -> & G & _)]; [discriminate E3|].
  apply getnum_free in E3 as (hh & -> & Wh). destruct (24 <=? h) eqn:Rh; [discriminate H|]. cbv beta iota in H.
  destruct (skip v7 (str ":")) as [v8|] eqn:K4; [|discriminate H]. apply (skip_char ":" _ _ eq_refl) in K4. subst v7. cbn [t_year t_month t_day t_hour t_min t_sec t_nsec] in H.
  destruct (getnum v8 true) as [[mi v9]|] eqn:E4; [|discriminate H]. apply getnum_fixed in E4 as (ii & -> & Wi).
  destruct (60 <=? mi) eqn:Ri; [discriminate H|]. cbv beta iota in H.
  destruct (skip v9 (str ":")) as [v10|] eqn:K5; [|discriminate H]. apply (skip_char ":" _ _ eq_refl) in K5. subst v9. cbn [t_year t_month t_day t_hour t_min t_sec t_nsec] in H.
  destruct (getnum v10 true) as [[s v11]|] eqn:E5; [|discriminate H]. apply getnum_fixed in E5 as (ss & -> & Ws).
  destruct (60 <=? s) eqn:Rs; [discriminate H|].
  destruct (fraction v11) as [[ns v12]|] eqn:E6; [|discriminate H]. apply fraction_sound in E6 as (fr & -> & F). cbv beta iota in H.
  exists (mm ++ "/"%byte :: dd ++ "/"%byte :: [y1; y2; y3; y4] ++ sp ++ hh ++ ":"%byte :: ii ++ ":"%byte :: ss ++ fr), v12, (Time y m d h mi s ns).
  split; [repeat (rewrite <- app_assoc || rewrite <- app_comm_cons); reflexivity|]. split; [|exact H].
  exists mm, dd, [y1; y2; y3; y4], sp, hh, ii, ss, fr. cbn [t_year t_month t_day t_hour t_min t_sec t_nsec].
  split; [reflexivity|]. split; [exact Wm|]. split; [exact Wd|]. split; [split; [exact Py|reflexivity]|]. split; [exact G|].
  split; [tauto|]. split; [exact Wi|]. split; [exact Ws|]. split; [exact F|]. unfold ranges. cbn [t_year t_month t_day t_hour t_min t_sec t_nsec]. clear - Rm Rh Ri Rs. lia.
Qed.
Lemma spells_fields v t : spells v t <-> fields v t /\ (t_day t <? 1) || (daysIn (t_month t) (t_year t) <? t_day t) = false.
Proof.
  split.
  - intros (mm & dd & yy & sp & hh & mi & ss & fr & E & Wm & Wd & Wy & G & Wh & Wi & Ws & F & (D & Rh & Ri & Rs)).
    assert (M : 1 <= t_month t <= 12) by (destruct D as (k & L & _); now apply month_length_m in L).
    split; [exists mm, dd, yy, sp, hh, mi, ss, fr; repeat (split; [assumption|]); assumption|].
    apply calendar_check; [lia|lia|exact D].
  - intros [(mm & dd & yy & sp & hh & mi & ss & fr & E & Wm & Wd & Wy & G & Wh & Wi & Ws & F & (M & Rh & Ri & Rs)) D].
    apply calendar_check in D; [|lia|lia]. exists mm, dd, yy, sp, hh, mi, ss, fr. repeat (split; [assumption|]). assumption.
Qed.
Theorem Parse_login v t : Parse layout_login v = Some t <-> spells v t.
Proof.
  unfold Parse. change (l_chunks layout_login) with (core []). change (l_tail layout_login) with (@nil byte). fold zero_time.
  rewrite spells_fields. split.
  - intros H. destruct (parse_chunks (core []) [] v zero_time) as [t1|] eqn:E; [|discriminate H].
    destruct ((t_day t1 <? 1) || (daysIn (t_month t1) (t_year t1) <? t_day t1)) eqn:D; [discriminate H|]. injection H as <-.
    apply core_sound in E as (w & r & t2 & -> & F & P). cbn [parse_chunks skip] in P. destruct r; [|discriminate]. injection P as <-.
    rewrite app_nil_r. now split.
  - intros [F D]. rewrite <- (app_nil_r v), (core_complete [] [] v t []); [|exact F|split; [intros (b & s & H & _)|intros (s & H)]; discriminate H].
    cbn [parse_chunks skip]. now rewrite D.
Qed.
Lemma gap_cons sp : gap sp -> exists s, sp = " "%byte :: s.
Proof. intros (k & ->). now exists (repeat " "%byte k). Qed.
Lemma same_letter_not_space s d r : Forall2 same_letter s d -> In d shortDayNames -> ~ space_first (s ++ r).
Proof.
  intros F I' (x & E). destruct F as [|a b s d A F]; [cbn in I'; repeat destruct I' as [I'|I']; discriminate || contradiction|].
  injection E as -> E. cbn in I'. repeat destruct I' as [I'|I']; try contradiction; injection I' as <- _;
    destruct A as [A|[[A _]|[A _]]]; try discriminate A; vm_compute in A; destruct A as [A1 A2]; congruence.
Qed.
Theorem Parse_bad v t : Parse layout_bad v = Some t <-> spells_bracketed v t.
Proof.
  unfold Parse. change (l_tail layout_bad) with (str "]"). fold zero_time.
  assert (B : forall v, parse_chunks (l_chunks layout_bad) (str "]") v zero_time =
    match skip v (str "[") with Some v' => parse_chunks (core [(str " ", StdWeekDay)]) (str "]") v' zero_time | None => None end) by reflexivity.
  rewrite B. unfold spells_bracketed. split.
  - intros H. destruct (skip v (str "[")) as [v1|] eqn:K; [|discriminate H]. apply (skip_char "[" _ _ eq_refl) in K. subst v.
    destruct (parse_chunks (core [(str " ", StdWeekDay)]) (str "]") v1 zero_time) as [t1|] eqn:E; [|discriminate H].
    destruct ((t_day t1 <? 1) || (daysIn (t_month t1) (t_year t1) <? t_day t1)) eqn:D; [discriminate H|]. injection H as <-.
    apply core_sound in E as (w & r & t2 & -> & F & P). cbn [parse_chunks] in P.
    destruct (skip r (str " ")) as [r1|] eqn:K; [|discriminate P]. cbn [parse_std] in P.
    destruct (lookup_day r1) as [r2|] eqn:L; [|discriminate P].
    apply skip_space in K as [[-> ->]|(sp & -> & G & _)]; [discriminate L|]. apply lookup_day_sound in L as (dn & -> & N).
    destruct (skip r2 (str "]")) as [r3|] eqn:K; [|discriminate P]. apply (skip_char "]" _ _ eq_refl) in K. subst r2.
    destruct r3; [|discriminate P]. injection P as <-. exists w, sp, dn. split; [reflexivity|]. split; [apply spells_fields; now split|]. now split.
  - intros (w & sp & dn & -> & S & G & N). apply spells_fields in S as [F D]. rewrite (proj2 (skip_char "[" _ _ eq_refl) eq_refl).
    rewrite (core_complete [(str " ", StdWeekDay)] (str "]") w t); [|exact F|].
    2: { destruct (gap_cons _ G) as [s ->]. cbn [app]. split; [now apply not_digit_c|intros (x & H); discriminate H]. }
    cbn [parse_chunks]. rewrite (proj2 (skip_space (sp ++ dn ++ str "]") (dn ++ str "]"))).
    2: { right. exists sp. split; [reflexivity|]. split; [exact G|]. destruct N as (d & I' & Fd). now apply (same_letter_not_space dn d). }
    cbn [parse_std]. rewrite (lookup_day_complete dn (str "]") N). change (skip (str "]") (str "]")) with (Some (@nil byte)). cbv beta iota. rewrite D. reflexivity.
Qed.
Theorem Parse_short v t : Parse layout_comment v = Some t <-> spells_short v t.
Proof.
  unfold Parse. change (l_tail layout_comment) with (@nil byte). fold zero_time.
  change (l_chunks layout_comment) with [([], StdZeroMonth); (str "/", StdZeroDay); (str " ", StdHour); (str ":", StdZeroMinute)].
  unfold zero_time. cbn [parse_chunks]. cbn [parse_std]. split.
  - intros H. change (skip v []) with (Some v) in H. cbv beta iota in H.
    destruct (getnum v true) as [[m v1]|] eqn:E1; [|discriminate H]. apply getnum_fixed in E1 as (mm & -> & Wm).
    destruct ((m =? 0) || (12 <? m)) eqn:Rm; [discriminate H|]. cbv beta iota in H.
    destruct (skip v1 (str "/")) as [v2|] eqn:K1; [|discriminate H]. apply (skip_char "/" _ _ eq_refl) in K1. subst v1. cbn [t_year t_month t_day t_hour t_min t_sec t_nsec] in H.
    destruct (getnum v2 true) as [[d v3]|] eqn:E2; [|discriminate H]. apply getnum_fixed in E2 as (dd & -> & Wd). cbv beta iota in H.
    destruct (skip v3 (str " ")) as [v6|] eqn:K3; [|discriminate H]. cbn [t_year t_month t_day t_hour t_min t_sec t_nsec] in H.
    destruct (getnum v6 false) as [[h v7]|] eqn:E3; [|discriminate H].
    apply skip_space in K3 as [[-> ->]|(sp & -> & G & _)]; [discriminate E3|].
    apply getnum_free in E3 as (hh & -> & Wh). destruct (24 <=? h) eqn:Rh; [discriminate H|]. cbv beta iota in H.
    destruct (skip v7 (str ":")) as [v8|] eqn:K4; [|discriminate H]. apply (skip_char ":" _ _ eq_refl) in K4. subst v7. cbn [t_year t_month t_day t_hour t_min t_sec t_nsec] in H.
    destruct (getnum v8 true) as [[mi v9]|] eqn:E4; [|discriminate H]. apply getnum_fixed in E4 as (ii & -> & Wi).
    destruct (60 <=? mi) eqn:Ri; [discriminate H|]. cbv beta iota in H. cbn [t_year t_month t_day t_hour t_min t_sec t_nsec] in H.
    change (skip v9 []) with (Some v9) in H. cbv beta iota in H. destruct v9; [|discriminate H].
    remember (Time 0 m d h mi 0 0) as t1 eqn:T.
    destruct ((t_day t1 <? 1) || (daysIn (t_month t1) (t_year t1) <? t_day t1)) eqn:D; [discriminate H|]. injection H as <-.
    apply calendar_check in D; [|rewrite T; cbn [t_month]; clear - Rm; lia..].
    rewrite T in D |- *. cbn [t_year t_month t_day t_hour t_min t_sec t_nsec] in *. split; [reflexivity|]. split; [reflexivity|]. split; [reflexivity|].
    exists mm, dd, sp, hh, ii. rewrite app_nil_r. cbn [t_year t_month t_day t_hour t_min t_sec t_nsec]. split; [reflexivity|]. split; [exact Wm|]. split; [exact Wd|]. split; [exact G|]. split; [tauto|].
    split; [exact Wi|]. unfold calendar_time. cbn [t_year t_month t_day t_hour t_min t_sec t_nsec]. split; [exact D|clear - Rh Ri; lia].
  - intros (Y & Sc & Ns & mm & dd & sp & hh & mi & -> & Wm & Wd & G & Wh & Wi & (D & Rh & Ri & Rs)).
    assert (M : 1 <= t_month t <= 12) by (destruct D as (k & L & _); now apply month_length_m in L).
    apply calendar_check in D; [|lia|lia].
    cbn [skip].
    rewrite (proj2 (getnum_fixed _ _ _) (ex_intro _ mm (conj eq_refl Wm))).
    replace ((t_month t =? 0) || (12 <? t_month t)) with false by lia. cbv beta iota.
    rewrite (proj2 (skip_char "/" _ _ eq_refl) eq_refl). cbn [t_year t_month t_day t_hour t_min t_sec t_nsec].
    rewrite (proj2 (getnum_fixed _ _ _) (ex_intro _ dd (conj eq_refl Wd))). cbv beta iota.
    assert (Hd : digit_first (hh ++ ":"%byte :: mi)) by (destruct Wh as [Wh|Wh]; exact (width_digit _ _ _ _ Wh)).
    rewrite (proj2 (skip_space _ _) (or_intror (ex_intro _ sp (conj eq_refl (conj G (digit_not_space _ Hd)))))). cbn [t_year t_month t_day t_hour t_min t_sec t_nsec].
    rewrite (proj2 (getnum_free (hh ++ ":"%byte :: mi) (t_hour t) (":"%byte :: mi))).
    2: { exists hh. split; [reflexivity|]. destruct Wh as [Wh|Wh]; [right; split; [exact Wh|now apply not_digit_c]|now left]. }
    replace (24 <=? t_hour t) with false by lia. cbv beta iota.
    rewrite (proj2 (skip_char ":" _ _ eq_refl) eq_refl). cbn [t_year t_month t_day t_hour t_min t_sec t_nsec].
    rewrite (proj2 (getnum_fixed mi (t_min t) []) (ex_intro _ mi (conj (eq_sym (app_nil_r mi)) Wi))).
    replace (60 <=? t_min t) with false by lia. cbv beta iota. cbn [t_year t_month t_day t_hour t_min t_sec t_nsec].
    destruct t as [ty tm td th ti ts tn]. cbn [t_year t_month t_day t_hour t_min t_sec t_nsec] in *. subst ty ts tn. now rewrite D.
Qed.

(** ** Format *)
Lemma digit_b k : k < 10 -> b2n (digit k) = 48 + k.
Proof. intros H. unfold digit. rewrite b2n_n2b. apply N.mod_small. lia. Qed.
Lemma dec_digits_spec fuel n acc : n < 10 ^ N.of_nat fuel -> (0 < fuel)%nat ->
  exists d, dec_digits fuel n acc = d ++ acc /\ numeral d n /\ forall k, (0 < k)%nat -> n < 10 ^ N.of_nat k -> (length d <= k)%nat.
Proof.
  revert n acc. induction fuel as [|fuel IH]; intros n acc H P; [lia|]. cbn [dec_digits]. destruct (n <? 10) eqn:E.
  - exists [digit n]. split; [reflexivity|]. split; [apply NumOne; [apply digit_b|]; lia|]. intros k K _. cbn. lia.
  - assert (D : n / 10 < 10 ^ N.of_nat fuel).
    { apply N.div_lt_upper_bound; [lia|]. replace (10 * 10 ^ N.of_nat fuel) with (10 ^ N.of_nat (S fuel)); [exact H|].
      rewrite Nat2N.inj_succ, N.pow_succ_r'. reflexivity. }
    assert (P' : (0 < fuel)%nat) by (destruct fuel; [cbn in H; lia|lia]).
    destruct (IH (n / 10) (digit (n mod 10) :: acc) D P') as (d & -> & Nm & L).
    assert (M : n mod 10 < 10) by (apply N.mod_lt; lia).
    exists (d ++ [digit (n mod 10)]). rewrite <- app_assoc. split; [reflexivity|]. split.
    + rewrite (N.div_mod' n 10) at 2. apply NumMore; [exact Nm|now apply digit_b|exact M].
    + intros k K H'. rewrite app_length. cbn [length]. destruct k as [|k]; [lia|]. destruct k as [|k]; [cbn in H'; lia|].
      assert (length d <= S k)%nat; [|lia]. apply L; [lia|]. apply N.div_lt_upper_bound; [lia|].
      replace (10 * 10 ^ N.of_nat (S k)) with (10 ^ N.of_nat (S (S k))); [exact H'|]. rewrite (Nat2N.inj_succ (S k)), N.pow_succ_r'. reflexivity.
Qed.
Lemma size_bound n : n < 10 ^ N.of_nat (S (N.to_nat (N.size n))).
Proof.
  rewrite Nat2N.inj_succ, N2Nat.id. pose proof (N.size_gt n) as H. 
  assert (2 ^ N.size n <= 10 ^ N.succ (N.size n)); [|lia].
  transitivity (10 ^ N.size n); [apply N.pow_le_mono_l; lia|apply N.pow_le_mono_r; lia].
Qed.
Lemma decimal_spec n : numeral (decimal n) n /\ forall k, (0 < k)%nat -> n < 10 ^ N.of_nat k -> (length (decimal n) <= k)%nat.
Proof.
  unfold decimal. destruct (dec_digits_spec (S (N.to_nat (N.size n))) n [] (size_bound n) ltac:(lia)) as (d & -> & H).
  now rewrite app_nil_r.
Qed.
Lemma zeros_numeral k s n : numeral s n -> numeral (repeat "0"%byte k ++ s) n.
Proof.
  intros H. induction k as [|k IH]; [exact H|]. cbn [repeat app]. change ("0"%byte :: repeat "0"%byte k ++ s) with ([] ++ ["0"%byte] ++ (repeat "0"%byte k ++ s)).
  remember (repeat "0"%byte k ++ s) as r. clear - IH. induction IH as [b j B J|r m b j IH IH' B J].
  - change ([] ++ ["0"%byte] ++ [b]) with (["0"%byte] ++ [b]). change j with (10 * 0 + j). apply NumMore; [|exact B|exact J]. now apply NumOne.
  - cbn [app] in *. change ("0"%byte :: r ++ [b]) with (("0"%byte :: r) ++ [b]). now apply NumMore.
Qed.
Lemma appendInt_width n k : (0 < k)%nat -> n < 10 ^ N.of_nat k -> width k (appendInt n k) n.
Proof.
  intros K H. destruct (decimal_spec n) as [Nm L]. specialize (L k K H). unfold appendInt. split; [now apply zeros_numeral|].
  rewrite app_length, repeat_length. lia.
Qed.
Lemma weekday_lt t : weekday t < 7.
Proof. apply N.mod_lt. lia. Qed.
Lemma weekday_name t : day_name (nth (N.to_nat (weekday t)) shortDayNames []).
Proof.
  exists (nth (N.to_nat (weekday t)) shortDayNames []). split.
  - apply (nth_In shortDayNames). change (length shortDayNames) with 7%nat. pose proof (weekday_lt t). lia.
  - induction (nth (N.to_nat (weekday t)) shortDayNames []) as [|b s IH]; constructor; [now left|exact IH].
Qed.
Definition plain (t : time) : Prop := calendar_time t /\ t_year t < 10000 /\ t_nsec t = 0.
Lemma format_login t : plain t -> spells (Format layout_login t) t /\ length (Format layout_login t) = 19%nat.
Proof.
  intros (C & Y & Z). pose proof C as ((k & L & D) & Rh & Ri & Rs). apply month_length_m in L as [M K].
  assert (E : Format layout_login t = appendInt (t_month t) 2 ++ "/"%byte :: appendInt (t_day t) 2 ++ "/"%byte :: appendInt (t_year t) 4 ++ [" "%byte] ++
    appendInt (t_hour t) 2 ++ ":"%byte :: appendInt (t_min t) 2 ++ ":"%byte :: appendInt (t_sec t) 2 ++ []).
  { unfold Format. cbn [layout_login l_chunks l_tail map concat fst snd format_std]. rewrite !app_nil_r, <- !app_assoc. reflexivity. }
  assert (Wm : width 2 (appendInt (t_month t) 2) (t_month t)) by (apply appendInt_width; cbn; lia).
  assert (Wd : width 2 (appendInt (t_day t) 2) (t_day t)) by (apply appendInt_width; cbn; lia).
  assert (Wy : width 4 (appendInt (t_year t) 4) (t_year t)) by (apply appendInt_width; cbn; lia).
  assert (Wh : width 2 (appendInt (t_hour t) 2) (t_hour t)) by (apply appendInt_width; cbn; lia).
  assert (Wi : width 2 (appendInt (t_min t) 2) (t_min t)) by (apply appendInt_width; cbn; lia).
  assert (Ws : width 2 (appendInt (t_sec t) 2) (t_sec t)) by (apply appendInt_width; cbn; lia).
  split.
  - eexists _, _, _, _, _, _, _, _. split; [exact E|]. split; [exact Wm|]. split; [exact Wd|]. split; [exact Wy|]. split; [now exists 0%nat|].
    split; [right; exact Wh|]. split; [exact Wi|]. split; [exact Ws|]. split; [left; now split|exact C].
  - rewrite E. repeat (rewrite app_length || cbn [length]).
    rewrite (proj2 Wm), (proj2 Wd), (proj2 Wy), (proj2 Wh), (proj2 Wi), (proj2 Ws). reflexivity.
Qed.
Lemma format_bad_eq t : Format layout_bad t = "["%byte :: Format layout_login t ++ [" "%byte] ++ nth (N.to_nat (weekday t)) shortDayNames [] ++ str "]".
Proof.
  unfold Format. cbn [layout_login layout_bad l_chunks l_tail map concat fst snd format_std]. rewrite !app_nil_r, <- !app_assoc. reflexivity.
Qed.
Lemma format_bad t : plain t -> spells_bracketed (Format layout_bad t) t /\ length (Format layout_bad t) = 25%nat.
Proof.
  intros P. destruct (format_login t P) as [S L]. rewrite format_bad_eq. split.
  - exists (Format layout_login t), [" "%byte], (nth (N.to_nat (weekday t)) shortDayNames []). split; [reflexivity|]. split; [exact S|].
    split; [now exists 0%nat|apply weekday_name].
  - cbn [length]. rewrite !app_length, L, (day_name_3 _ (weekday_name t)). reflexivity.
Qed.

Lemma ceil_step k y : 0 < k -> (y + 1 + (k - 1)) / k = (y + (k - 1)) / k + (if y mod k =? 0 then 1 else 0).
Proof.
  intros K. assert (NZ : k <> 0) by lia. pose proof (N.div_mod' y k) as D. pose proof (N.mod_lt y k NZ) as M.
  set (q := y / k) in *. set (r := y mod k) in *. clearbody q r.
  replace (y + 1 + (k - 1)) with (r + (q + 1) * k) by lia. rewrite N.div_add by exact NZ. rewrite (N.div_small r k M).
  destruct (r =? 0) eqn:R.
  - replace (y + (k - 1)) with ((k - 1) + q * k) by lia. rewrite N.div_add by exact NZ. rewrite (N.div_small (k - 1) k) by lia. lia.
  - replace (y + (k - 1)) with ((r - 1) + (q + 1) * k) by lia. rewrite N.div_add by exact NZ. rewrite (N.div_small (r - 1) k) by lia. lia.
Qed.
(** The weekday moves on by one from each day to the next. *)
Lemma day_number_next t t' : 1 <= t_day t -> 1 <= t_month t -> next_day (date_of t) (date_of t') -> day_number t' = day_number t + 1.
Proof.
  intros D1 M1 H. unfold date_of in H. destruct t as [y m d h i s n], t' as [y' m' d' h' i' s' n']. cbn [t_year t_month t_day] in *.
  unfold day_number. cbn [t_year t_month t_day]. inversion H as [? ? ? k L K|? ? ? L K|]; subst; clear H.
  - lia.
  - generalize (365 * y' + (y' + 3) / 4 - (y' + 99) / 100 + (y' + 399) / 400). intros A. pose proof (isLeap_spec y') as Q.
    destruct (isLeap y'); destruct L as [|Lp|Lp| | | | | | | | | |]; try (cbn in K; lia);
      try (exfalso; apply Q in Lp; discriminate Lp); try (exfalso; apply Lp, Q; reflexivity);
      match goal with |- context [N.to_nat ?x] => change (N.to_nat x) with (Nat.pred (N.to_nat (x + 1))) end; vm_compute N.to_nat; cbn; lia.
  - change ((2 <? 12) && isLeap y) with (isLeap y). change ((2 <? 1) && isLeap (y + 1)) with false.
    change (nth (N.to_nat (1 - 1)) daysBefore 0) with 0. change (nth (N.to_nat (12 - 1)) daysBefore 0) with 334. unfold isLeap.
    pose proof (ceil_step 4 y ltac:(lia)) as S4. change (4 - 1) with 3 in S4.
    pose proof (ceil_step 100 y ltac:(lia)) as S100. change (100 - 1) with 99 in S100.
    pose proof (ceil_step 400 y ltac:(lia)) as S400. change (400 - 1) with 399 in S400.
    assert (I1 : y mod 400 = 0 -> y mod 100 = 0).
    { intros H. apply N.mod_divide in H as [q Q]; [|lia]. apply N.mod_divide; [lia|]. exists (q * 4). lia. }
    assert (I2 : y mod 100 = 0 -> y mod 4 = 0).
    { intros H. apply N.mod_divide in H as [q Q]; [|lia]. apply N.mod_divide; [lia|]. exists (q * 25). lia. }
    assert (B : (y + 99) / 100 <= y).
    { destruct (N.eq_dec y 0) as [->|NZ]; [reflexivity|]. apply N.div_le_upper_bound; lia. }
    rewrite S4, S100, S400. generalize dependent ((y + 3) / 4). generalize dependent ((y + 99) / 100). generalize dependent ((y + 399) / 400).
    intros q400 _ q100 _ B q4 _. destruct (y mod 4 =? 0) eqn:E4; destruct (y mod 100 =? 0) eqn:E100; destruct (y mod 400 =? 0) eqn:E400;
      rewrite ?N.eqb_eq, ?N.eqb_neq in *; cbn [andb orb negb]; try lia.
Qed.
