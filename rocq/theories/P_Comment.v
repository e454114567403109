(** * Proofs for comment lines *)
From Coq Require Import Lia ZifyBool ZifyNat ZifyN.
From Verif Require Import M_Base M_Text M_Path M_Utf8 M_Regex M_Time M_Comment P_Base P_Text P_Utf8 P_Regex S_Text S_Utf8 S_Time P_Time S_Ansi P_Ansi S_Comment.
Open Scope N_scope.

(** ** The expression *)
Definition r_alpha (x : sym) : Prop := 65 <= fst x <= 90 \/ 97 <= fst x <= 122.
Definition r_alnum (x : sym) : Prop := r_alpha x \/ r_digit x.
Definition r_blank (x : sym) : Prop := In (fst x) [9; 10; 12; 13; 32].
Definition r_author (o : list sym) : Prop := exists l r, o = l :: r /\ r_alpha l /\ r <> [] /\ Forall r_alnum r.
Definition r_stamp (v : list sym) : Prop :=
  exists a b s c d sp e f k g h, v = [a; b; s; c; d; sp; e; f; k; g; h] /\ Forall r_digit [a; b; c; d; e; f; g; h] /\ r_blank sp /\ fst s = 47 /\ fst k = 58.
Lemma alpha_class (x : sym) : in_ranges (fst x) [lower_r; upper_r] = true <-> r_alpha x.
Proof.
  unfold r_alpha. cbn. unfold lower_r, upper_r, range. cbn [fst snd]. change (b2n "a") with 97. change (b2n "z") with 122. change (b2n "A") with 65. change (b2n "Z") with 90. lia.
Qed.
Lemma alnum_class' (x : sym) : in_ranges (fst x) [lower_r; upper_r; digit_r] = true <-> r_alnum x.
Proof. rewrite alnum_class. unfold r_word, r_alnum, r_alpha, r_digit. lia. Qed.
Lemma blank_class (x : sym) : in_ranges (fst x) [(9, 10); (12, 13); (32, 32)] = true <-> r_blank x.
Proof. unfold r_blank. cbn. lia. Qed.
Lemma lang_seq a b w cs : lang (Seq a b) w cs <-> exists w1 w2 c1 c2, w = w1 ++ w2 /\ cs = c2 ++ c1 /\ lang a w1 c1 /\ lang b w2 c2.
Proof. split; [intros H; inversion H; subst; eauto 8|]. intros (w1 & w2 & c1 & c2 & -> & -> & A & B). now constructor. Qed.
Lemma lang_cap i a w cs : lang (Cap i a) w cs <-> exists c, cs = (i, w) :: c /\ lang a w c.
Proof. split; [intros H; inversion H; subst; eauto|]. intros (c & -> & A). now constructor. Qed.
Lemma lang_star_dot w cs : lang (Star Dot) w cs <-> Forall (fun x => fst x <> 10) w /\ cs = [].
Proof.
  split.
  - remember (Star Dot) as r eqn:R. induction 1; inversion R; subst; [now split|]. inversion H0; subst. destruct (IHlang2 eq_refl) as [F ->]. split; [|reflexivity]. now constructor.
  - intros [F ->]. induction F as [|x w X _ IH]; [constructor|]. apply (LStarCons _ [x] w [] []); [discriminate|now constructor|exact IH].
Qed.
Lemma author_word w cs : lang c_id w cs <-> r_author w /\ cs = [].
Proof.
  unfold c_id, Plus. rewrite lang_seq. split.
  - intros (w1 & w2 & c1 & c2 & -> & -> & A & B). apply lang_cls in A as (x & -> & X & ->). apply lang_seq in B as (w3 & w4 & c3 & c4 & -> & -> & C & D).
    apply lang_cls in C as (y & -> & Y & ->). apply lang_star_cls in D as [D ->]. split; [|reflexivity]. exists x, (y :: w4). split; [reflexivity|]. split; [now apply alpha_class|]. split; [discriminate|].
    constructor; [now apply alnum_class'|]. refine (Forall_impl _ _ D). intros z. apply alnum_class'.
  - intros [(l & r & -> & L & N & F) ->]. destruct r as [|y r]; [contradiction|]. inversion F; subst. exists [l], (y :: r), [], []. split; [reflexivity|]. split; [reflexivity|]. split; [constructor; now apply alpha_class|].
    apply lang_seq. exists [y], r, [], []. split; [reflexivity|]. split; [reflexivity|]. split; [constructor; now apply alnum_class'|]. apply lang_star_cls. split; [|reflexivity]. refine (Forall_impl _ _ H2). intros z. apply alnum_class'.
Qed.
Lemma lang_cls_seq rs b w cs : lang (Seq (Cls rs) b) w cs <-> exists x w', w = x :: w' /\ in_ranges (fst x) rs = true /\ lang b w' cs.
Proof.
  rewrite lang_seq. split.
  - intros (w1 & w2 & c1 & c2 & -> & -> & A & B). apply lang_cls in A as (x & -> & X & ->). rewrite app_nil_r. exists x, w2. auto.
  - intros (x & w' & -> & X & B). exists [x], w', [], cs. rewrite app_nil_r. split; [reflexivity|]. split; [reflexivity|]. split; [now constructor|exact B].
Qed.
Lemma stamp_word w cs : lang c_stamp w cs <-> r_stamp w /\ cs = [].
Proof.
  unfold c_stamp, c_digit, chr, c_space. rewrite !lang_cls_seq. split.
  - intros (a & w1 & -> & A & H). apply lang_cls_seq in H as (b & w2 & -> & B & H). apply lang_cls_seq in H as (s & w3 & -> & S' & H). apply lang_cls_seq in H as (c & w4 & -> & C & H).
    apply lang_cls_seq in H as (d & w5 & -> & D & H). apply lang_cls_seq in H as (sp & w6 & -> & SP & H). apply lang_cls_seq in H as (e & w7 & -> & E & H). apply lang_cls_seq in H as (f & w8 & -> & F & H).
    apply lang_cls_seq in H as (k & w9 & -> & K & H). apply lang_cls_seq in H as (g & w10 & -> & G & H). apply lang_cls in H as (h & -> & H & ->).
    split; [|reflexivity]. exists a, b, s, c, d, sp, e, f, k, g, h. split; [reflexivity|]. apply digit_class in A, B, C, D, E, F, G, H. apply blank_class in SP. apply single_class in S', K.
    split; [repeat (constructor; [assumption|]); constructor|]. split; [exact SP|]. split; [exact S'|exact K].
  - intros [(a & b & s & c & d & sp & e & f & k & g & h & -> & F & SP & S' & K) ->].
    repeat match goal with H : Forall r_digit (_ :: _) |- _ => apply Forall_cons_iff in H as [? H] end.
    repeat match goal with H : r_digit _ |- _ => apply digit_class in H end. apply blank_class in SP.
    eexists _, _. split; [reflexivity|]. split; [assumption|]. repeat (apply lang_cls_seq; eexists _, _; split; [reflexivity|]; split; [first [assumption|apply single_class; assumption]|]). now constructor.
Qed.
Lemma comment_word w cs : lang userCommentPattern w cs <-> exists o k m st, w = o ++ k :: m ++ st /\ r_author o /\ fst k = 58 /\ Forall (fun x => fst x <> 10) m /\ r_stamp st /\
  cs = [(2%nat, st); (1%nat, o)].
Proof.
  unfold userCommentPattern, chr. rewrite lang_seq. split.
  - intros (o & w2 & c1 & c2 & -> & -> & A & B). apply lang_cap in A as (c & -> & A). apply author_word in A as [A ->].
    apply lang_cls_seq in B as (k & w3 & -> & K & B). apply single_class in K. apply lang_seq in B as (m & st & c3 & c4 & -> & -> & M & St). apply lang_star_dot in M as [M ->].
    apply lang_cap in St as (c5 & -> & St). apply stamp_word in St as [St ->]. exists o, k, m, st. repeat split; assumption.
  - intros (o & k & m & st & -> & A & K & M & St & ->). exists o, (k :: m ++ st), [(1%nat, o)], [(2%nat, st)]. split; [reflexivity|]. split; [reflexivity|]. split.
    + apply lang_cap. exists []. split; [reflexivity|]. now apply author_word.
    + apply lang_cls_seq. exists k, (m ++ st). split; [reflexivity|]. split; [now apply single_class|]. apply lang_seq. exists m, st, [], [(2%nat, st)]. split; [reflexivity|]. split; [reflexivity|].
      split; [now apply lang_star_dot|]. apply lang_cap. exists []. split; [reflexivity|]. now apply stamp_word.
Qed.
Definition after_author : re := Seq (chr ":") (Seq (Star Dot) (Cap 2 c_stamp)).
Lemma after_longest : longest_first after_author.
Proof.
  unfold after_author. apply (longest_fixed_seq 1); [apply fixed_cls|]. apply (longest_seq_fixed 11).
  - apply (longest_star_fixed 1). apply fixed_dot.
  - apply fixed_cap. unfold c_stamp. do 10 (apply (fixed_seq 1); [apply fixed_cls|]). apply fixed_cls.
Qed.
Lemma best_flat f (l : list state) x0 : best (f x0) -> (forall x, In x l -> f x <> [] -> x = x0) -> best (flat_map f l).
Proof.
  intros B U.
  assert (K : forall y, In y (flat_map f l) -> In y (f x0)).
  { intros y Y. apply in_flat_map in Y as (x & X & Y). rewrite <- (U x X); [exact Y|]. intros Z. rewrite Z in Y. contradiction. }
  induction l as [|x l IH]; [exact I|]. cbn [flat_map] in *. destruct (f x) as [|z q] eqn:E.
  - cbn [app] in *. apply IH; [|exact K]. intros y Y. apply U. now right.
  - assert (x = x0) by (apply U; [now left|]; rewrite E; discriminate). subst x. rewrite E in *. cbn [app best] in *. intros y Y. apply B. apply K. exact Y.
Qed.
Lemma alnum_not_colon o (x : sym) : r_author o -> In x o -> fst x <> 58.
Proof.
  intros (l & r & -> & L & _ & F) [<-|X]; [unfold r_alpha in L; lia|]. rewrite Forall_forall in F. specialize (F _ X). unfold r_alnum, r_alpha, r_digit in F. lia.
Qed.
Lemma split_first' {A} (P : A -> Prop) u x r v y t :
  u ++ x :: r = v ++ y :: t -> (forall a, In a u -> ~ P a) -> P x -> (forall a, In a v -> ~ P a) -> P y -> u = v /\ r = t /\ x = y.
Proof.
  revert v. induction u as [|a u IH]; intros [|b v] E U X V Y; cbn [app] in E.
  - injection E. auto.
  - injection E as -> E. exfalso. apply (V b); [now left|exact X].
  - injection E as -> E. exfalso. apply (U y); [now left|exact Y].
  - injection E as -> E. destruct (IH v E) as (-> & -> & ->); auto; intros c C; [apply U|apply V]; now right.
Qed.
Lemma comment_best s c : best (paths userCommentPattern (s, c)).
Proof.
  unfold userCommentPattern. fold after_author. cbn [paths]. fold (paths (Cap 1 c_id) (s, c)). change (map _ (paths c_id (s, c))) with (paths (Cap 1 c_id) (s, c)).
  assert (U : forall x y, In x (paths (Cap 1 c_id) (s, c)) -> In y (paths (Cap 1 c_id) (s, c)) -> paths after_author x <> [] -> paths after_author y <> [] -> x = y).
  { intros [x cx] [y cy] X Y NX NY. apply paths_lang in X as (wx & csx & Ex & Wx & ->). apply paths_lang in Y as (wy & csy & Ey & Wy & ->).
    apply lang_cap in Wx as (? & -> & Wx). apply author_word in Wx as [Ax ->]. apply lang_cap in Wy as (? & -> & Wy). apply author_word in Wy as [Ay ->].
    assert (G : forall z cz, paths after_author (z, cz) <> [] -> exists k t, z = k :: t /\ fst k = 58).
    { intros z cz N. destruct (paths after_author (z, cz)) as [|[z' cz'] l] eqn:E; [contradiction|]. assert (In (z', cz') (paths after_author (z, cz))) as H by (rewrite E; now left).
      apply paths_lang in H as (w & cs & -> & W & _). apply lang_cls_seq in W as (k & w' & -> & K & _). exists k, (w' ++ z'). split; [reflexivity|]. now apply single_class in K. }
    destruct (G _ _ NX) as (kx & tx & -> & Kx). destruct (G _ _ NY) as (ky & ty & -> & Ky). rewrite Ex in Ey.
    destruct (split_first' (fun z : sym => fst z = 58) wx kx tx wy ky ty Ey) as (-> & -> & ->); auto; intros a A; [exact (alnum_not_colon wx a Ax A)|exact (alnum_not_colon wy a Ay A)]. }
  destruct (flat_map (paths after_author) (paths (Cap 1 c_id) (s, c))) as [|z q] eqn:E; [exact I|]. rewrite <- E.
  assert (Z : In z (flat_map (paths after_author) (paths (Cap 1 c_id) (s, c)))) by (rewrite E; now left). apply in_flat_map in Z as (x0 & X0 & Z).
  apply (best_flat _ _ x0); [apply ordered_best, after_longest|]. intros x X N. apply U; auto. intros Q. rewrite Q in Z. contradiction.
Qed.

(** ** Finding *)
Lemma find_some r s w c : find_match r s = Some (w, c) -> exists pre t' l, s = pre ++ w ++ t' /\ paths r (w ++ t', []) = (t', c) :: l /\
  (forall p u, s = p ++ u -> paths r (u, []) <> [] -> (length pre <= length p)%nat).
Proof.
  revert w c. induction s as [|x s IH]; intros w c H; cbn [find_match] in H.
  - destruct (paths r ([], [])) as [|[s' c'] l] eqn:E; [discriminate H|]. injection H as <- <-. assert (M : In (s', c') (paths r ([], []))) by (rewrite E; now left).
    apply paths_lang in M as (w & cs & Ew & _). symmetry in Ew. apply app_eq_nil in Ew as [-> ->]. exists [], [], l. cbn. split; [reflexivity|]. split; [exact E|]. intros; lia.
  - destruct (paths r (x :: s, [])) as [|[s' c'] l] eqn:E.
    + destruct (IH _ _ H) as (pre & t' & l & -> & P & M). exists (x :: pre), t', l. split; [reflexivity|]. split; [exact P|]. intros [|y p] u Eu N.
      * cbn [app] in Eu. subst u. contradiction.
      * cbn [app] in Eu. injection Eu as <- Eu. specialize (M p u Eu N). cbn [length]. lia.
    + injection H as <- <-. assert (M : In (s', c') (paths r (x :: s, []))) by (rewrite E; now left). apply paths_lang in M as (w & cs & Ew & _). exists [], s', l. rewrite Ew in E |- *. rewrite taken_app.
      split; [reflexivity|]. split; [exact E|]. intros; cbn; lia.
Qed.
Lemma find_none r s p u : find_match r s = None -> s = p ++ u -> paths r (u, []) = [].
Proof.
  revert p. induction s as [|x s IH]; intros p H E; cbn [find_match] in H.
  - symmetry in E. apply app_eq_nil in E as [-> ->]. destruct (paths r ([], [])) as [|[s' c'] l]; [reflexivity|discriminate H].
  - destruct (paths r (x :: s, [])) as [|[s' c'] l] eqn:Q; [|discriminate H]. destruct p as [|y p]; cbn [app] in E.
    + now subst u.
    + injection E as <- E. exact (IH p H E).
Qed.

(** ** Bytes and symbols *)
Lemma symbols_low s : Forall (fun x : sym => forall b q, snd x = b :: q -> b2n b < 128 -> x = asym b) (symbols s).
Proof.
  induction s as [|s c w D IH] using symbols_ind; [constructor|]. rewrite (symbols_cons s c w D). constructor; [|exact IH]. cbn [snd]. intros b q E L.
  destruct s as [|b0 s]; [discriminate D|]. pose proof (decode_width _ _ _ D) as W. destruct w as [|w]; [lia|]. cbn [firstn] in E. injection E as -> E.
  unfold decode_rune in D. replace (b2n b <? 128) with true in D by lia. injection D as <- <-. reflexivity.
Qed.
Lemma r_no_newline w s t : symbols s = w ++ t -> (Forall (fun x => fst x <> 10) w <-> ~ In x0a (flat w)).
Proof.
  intros E. pose proof (symbols_low s) as L. pose proof (symbols_proper s) as P. rewrite E in L, P. apply Forall_app in L as [L _]. apply Forall_app in P as [P _]. clear E.
  induction w as [|x w IH]; [split; [intros _ []|intros _; constructor]|]. inversion L as [|? ? Lx Lw]; inversion P as [|? ? Px Pw]; subst. unfold flat in *. cbn [map concat]. rewrite in_app_iff. split.
  - intros F [H|H]; inversion F as [|? ? Fx Fw]; subst; [|now apply (proj1 (IH Lw Pw) Fw)]. destruct Px as (_ & _ & T & N). destruct (snd x) as [|b q] eqn:Sx; [contradiction|]. destruct (T b q eq_refl) as [T1 _].
    destruct H as [->|H]; [specialize (Lx _ _ eq_refl eq_refl); subst x; now apply Fx|]. rewrite forallb_forall in T1. specialize (T1 _ H). discriminate T1.
  - intros H. constructor; [|apply IH; tauto]. intros X. apply H. left. destruct Px as (A & _). rewrite A by (rewrite X; reflexivity). rewrite X. now left.
Qed.
Lemma alpha_byte b : r_alpha (asym b) <-> letter b.
Proof. unfold r_alpha, letter, asym. cbn [fst]. tauto. Qed.
Lemma alnum_byte b : r_alnum (asym b) <-> letter b \/ decimal b.
Proof. unfold r_alnum. rewrite alpha_byte. unfold r_digit, decimal, asym. cbn [fst]. tauto. Qed.
Lemma author_bytes o : r_author (map asym o) <-> author o.
Proof.
  unfold r_author, author. split.
  - intros (l & r & E & L & N & F). destruct o as [|b o]; [discriminate E|]. cbn [map] in E. injection E as <- <-. exists b, o. split; [reflexivity|]. split; [now apply alpha_byte|]. split; [intros ->; now apply N|].
    apply (Forall_asym r_alnum); [exact alnum_byte|exact F].
  - intros (l & r & -> & L & N & F). exists (asym l), (map asym r). split; [reflexivity|]. split; [now apply alpha_byte|]. split; [intros Q; apply map_eq_nil in Q; contradiction|].
    apply (Forall_asym r_alnum _ r alnum_byte). exact F.
Qed.
Lemma blank_byte b : r_blank (asym b) <-> blank b.
Proof.
  unfold r_blank, blank, asym. cbn [fst]. change [9; 10; 12; 13; 32] with (map b2n [x09; x0a; x0c; x0d; x20]). split; [|apply in_map].
  intros H. apply in_map_iff in H as (b' & E & H). apply b2n_inj in E. now subst.
Qed.
Lemma stamp_bytes v : r_stamp (map asym v) <-> stamp v.
Proof.
  unfold r_stamp, stamp. split.
  - intros (a & b & s & c & d & sp & e & f & k & g & h & E & F & SP & S' & K).
    do 11 (destruct v as [|? v]; [discriminate E|]). destruct v; [|discriminate E]. cbn [map] in E. injection E as <- <- <- <- <- <- <- <- <- <- <-.
    cbn [asym fst] in S', K. apply b2n_inj in S' || (change 47 with (b2n "/") in S'; apply b2n_inj in S'). change 58 with (b2n ":") in K. apply b2n_inj in K. subst.
    do 9 eexists. split; [reflexivity|]. split; [|now apply blank_byte]. exact (proj1 (Forall_asym r_digit decimal [_; _; _; _; _; _; _; _] (fun b => conj (fun H => H) (fun H => H))) F).
  - intros (a & b & c & d & sp & e & f & g & h & -> & F & SP). do 11 eexists. split; [reflexivity|]. split; [|split; [now apply blank_byte|split; reflexivity]].
    exact (proj2 (Forall_asym r_digit decimal [_; _; _; _; _; _; _; _] (fun b => conj (fun H => H) (fun H => H))) F).
Qed.
Lemma author_ascii o : author o -> Forall (fun b => b2n b < 128) o.
Proof.
  intros (l & r & -> & L & _ & F). constructor; [unfold letter in L; lia|]. refine (Forall_impl _ _ F). unfold letter, decimal. intros; cbv beta in *; lia.
Qed.
Lemma blank_ascii b : blank b -> b2n b < 128.
Proof. intros H. apply blank_byte in H. unfold r_blank, asym in H. cbn in H. lia. Qed.
Lemma stamp_ascii v : stamp v -> Forall (fun b => b2n b < 128) v.
Proof.
  intros (a & b & c & d & sp & e & f & g & h & -> & F & SP). apply blank_ascii in SP.
  repeat match goal with H : Forall decimal (_ :: _) |- _ => apply Forall_cons_iff in H as [? H] end. unfold decimal in *.
  repeat (constructor; [first [reflexivity|lia]|]). constructor.
Qed.
Lemma r_author_small o : r_author o -> Forall (fun x => fst x < 128) o.
Proof. intros (l & r & -> & L & _ & F). constructor; [unfold r_alpha in L; lia|]. refine (Forall_impl _ _ F). unfold r_alnum, r_alpha, r_digit. intros; cbv beta in *; lia. Qed.
Lemma r_stamp_small v : r_stamp v -> Forall (fun x => fst x < 128) v.
Proof.
  intros (a & b & s & c & d & sp & e & f & k & g & h & -> & F & SP & S' & K). unfold r_blank in SP. cbn in SP.
  repeat match goal with H : Forall r_digit (_ :: _) |- _ => apply Forall_cons_iff in H as [? H] end. unfold r_digit in *.
  repeat (constructor; [lia|]). constructor.
Qed.
Lemma stamp_first st : stamp st -> exists b r, st = b :: r /\ tail_byte b = false.
Proof. intros H. pose proof (stamp_ascii st H) as A. destruct H as (a & b & c & d & sp & e & f & g & h & -> & _). inversion A; subst. eexists _, _. split; [reflexivity|]. unfold tail_byte. lia. Qed.
Lemma author_first o : author o -> exists b r, o = b :: r /\ tail_byte b = false.
Proof. intros H. pose proof (author_ascii o H) as A. destruct H as (l & r & -> & _). inversion A; subst. eexists _, _. split; [reflexivity|]. unfold tail_byte. lia. Qed.
(** a reading of the bytes is a reading of the symbols *)
Lemma reads_symbols d pre o m st post : reads d pre o m st post ->
  symbols d = symbols pre ++ map asym o ++ asym ":" :: symbols m ++ map asym st ++ symbols post /\
  lang userCommentPattern (map asym o ++ asym ":" :: symbols m ++ map asym st) [(2%nat, map asym st); (1%nat, map asym o)].
Proof.
  intros (-> & A & N & St). destruct (author_first o A) as (b0 & o' & Eo & T0). destruct (stamp_first st St) as (b1 & st' & Est & T1). split.
  - rewrite symbols_app by (intros x t E; rewrite Eo in E; cbn [app] in E; injection E as <- _; exact T0). f_equal. rewrite symbols_asciis by now apply author_ascii. f_equal.
    rewrite symbols_ascii by reflexivity. f_equal. rewrite symbols_app by (intros x t E; rewrite Est in E; cbn [app] in E; injection E as <- _; exact T1). f_equal. now rewrite symbols_asciis by now apply stamp_ascii.
  - apply comment_word. exists (map asym o), (asym ":"), (symbols m), (map asym st). split; [reflexivity|]. split; [now apply author_bytes|]. split; [reflexivity|]. split; [|split; [now apply stamp_bytes|reflexivity]].
    apply (r_no_newline (symbols m) m []); [now rewrite app_nil_r|]. now rewrite flat_symbols.
Qed.
Lemma symbols_reads d pre w t cs : symbols d = pre ++ w ++ t -> lang userCommentPattern w cs ->
  exists o m st post ms, reads d (flat pre) o m st post /\ t = symbols post /\ w = map asym o ++ asym ":" :: ms ++ map asym st /\ m = flat ms /\ cs = [(2%nat, map asym st); (1%nat, map asym o)].
Proof.
  intros E W. apply comment_word in W as (o & k & m & st & -> & A & K & M & St & ->).
  pose proof (symbols_proper d) as P. rewrite E in P. apply Forall_app in P as [_ P]. apply Forall_app in P as [P _]. apply Forall_app in P as [Po P]. inversion P as [|? ? Pk P']; subst. apply Forall_app in P' as [_ Ps].
  destruct (proper_asciis o Po (r_author_small o A)) as [o' ->]. destruct (proper_asciis st Ps (r_stamp_small st St)) as [st' ->]. destruct (proper_ascii k Pk) as [k' ->]; [rewrite K; reflexivity|].
  assert (k' = ":"%byte) by (apply b2n_inj; exact K). subst k'.
  assert (E' : symbols d = (pre ++ map asym o' ++ asym ":" :: m ++ map asym st') ++ t) by (rewrite E; rewrite <- !app_assoc; reflexivity).
  destruct (symbols_split _ _ _ E') as (post & -> & ->). exists o', (flat m), st', post, m. split; [|repeat split].
  split.
  - rewrite !flat_app. change (flat (asym ":" :: m ++ map asym st')) with (":"%byte :: flat (m ++ map asym st')). rewrite flat_app, !flat_asym. rewrite <- !app_assoc. cbn [app]. now rewrite <- !app_assoc.
  - split; [now apply author_bytes|]. split; [|now apply stamp_bytes].
    assert (E2 : symbols (flat (pre ++ map asym o' ++ asym ":" :: m ++ map asym st') ++ post) = (pre ++ map asym o' ++ [asym ":"]) ++ m ++ map asym st' ++ symbols post).
    { rewrite E'. rewrite <- !app_assoc. cbn [app]. now rewrite <- !app_assoc. }
    destruct (symbols_split _ _ _ E2) as (u & _ & Eu). symmetry in Eu. now apply (r_no_newline m u _ Eu).
Qed.
Lemma prefix_length (p p' q q' : list sym) : p ++ q = p' ++ q' -> (length (flat p') < length (flat p))%nat -> (length p' < length p)%nat.
Proof.
  intros E L. apply two_prefixes in E as [(d & -> & _)|(d & N & -> & _)].
  - rewrite flat_app, app_length in L. lia.
  - rewrite app_length. destruct d; [contradiction|cbn; lia].
Qed.
Lemma flat_nil d : Forall proper_sym d -> flat d = [] -> d = [].
Proof. intros P E. destruct d as [|x d]; [reflexivity|]. inversion P as [|? ? (_ & _ & _ & N) _]; subst. unfold flat in E. cbn [map concat] in E. apply app_eq_nil in E as [E _]. contradiction. Qed.
Lemma same_flat (p p' q q' : list sym) : p ++ q = p' ++ q' -> Forall proper_sym (p ++ q) -> flat p = flat p' -> p = p' /\ q = q'.
Proof.
  intros E P F. assert (P' := P). rewrite E in P'. apply Forall_app in P as [P _]. apply Forall_app in P' as [P' _]. apply two_prefixes in E as [(d & -> & ->)|(d & N & -> & ->)].
  - apply Forall_app in P' as [_ P']. rewrite flat_app in F. rewrite <- (app_nil_r (flat p)) in F at 1. apply app_inv_head in F. rewrite (flat_nil d P' (eq_sym F)). split; [now rewrite app_nil_r|reflexivity].
  - apply Forall_app in P as [_ P]. rewrite flat_app in F. rewrite <- (app_nil_r (flat p')) in F at 2. apply app_inv_head in F. rewrite (flat_nil d P F) in N. contradiction.
Qed.
Lemma find_found d : match FindStringSubmatch userCommentPattern d with
  | None => no_comment d
  | Some (whole, g) => exists mid, found d (g 1%nat) mid (g 2%nat) /\ whole = g 1%nat ++ ":"%byte :: mid ++ g 2%nat
  end.
Proof.
  unfold FindStringSubmatch. destruct (find_match userCommentPattern (symbols d)) as [[w c]|] eqn:F.
  - destruct (find_some _ _ _ _ F) as (pre & t' & l & E & P & M).
    assert (I0 : In (t', c) (paths userCommentPattern (w ++ t', []))) by (rewrite P; now left). apply paths_lang in I0 as (w' & cs & Ew & W & ->). apply app_inv_tail in Ew. subst w'. rewrite app_nil_r in *.
    destruct (symbols_reads _ _ _ _ _ E W) as (o & m & st & post & ms & R & -> & -> & -> & ->).
    unfold group. cbn [find fst snd Nat.eqb]. rewrite !flat_asym. exists (flat ms). split.
    + exists (flat pre), post. split; [exact R|]. split.
      * intros pre' o' m' st' post' R'. destruct (reads_symbols _ _ _ _ _ _ R') as [E' W'].
        assert (N : paths userCommentPattern (map asym o' ++ asym ":" :: symbols m' ++ map asym st' ++ symbols post', []) <> []).
        { intros Q. assert (I0 : In (symbols post', [(2%nat, map asym st'); (1%nat, map asym o')]) (paths userCommentPattern (map asym o' ++ asym ":" :: symbols m' ++ map asym st' ++ symbols post', []))).
          { apply paths_lang. eexists _, _. split; [|split; [exact W'|reflexivity]]. rewrite <- app_assoc. cbn [app]. now rewrite <- app_assoc. }
          rewrite Q in I0. contradiction. }
        specialize (M _ _ E' N). destruct (le_lt_dec (length (flat pre)) (length pre')) as [G|G]; [exact G|]. exfalso. rewrite <- (flat_symbols pre') in G. rewrite E in E'. apply (prefix_length _ _ _ _ E') in G. lia.
      * intros m' st' post' R'. destruct (reads_symbols _ _ _ _ _ _ R') as [E' W']. destruct (reads_symbols _ _ _ _ _ _ R) as [E1 _]. rewrite E1 in E'. apply app_inv_head in E'. apply app_inv_head in E'. injection E' as E'.
        (* the preferred way leaves the fewest symbols *)
        pose proof (comment_best ((map asym o ++ asym ":" :: ms ++ map asym st) ++ symbols post) []) as B. rewrite P in B.
        assert (Esym : map asym o ++ asym ":" :: symbols (flat ms) ++ map asym st ++ symbols post = (map asym o ++ asym ":" :: ms ++ map asym st) ++ symbols post).
        { pose proof (symbols_proper d) as PP. rewrite E in E1. rewrite E in PP. symmetry. refine (proj2 (same_flat _ _ _ _ E1 PP _)). now rewrite flat_symbols. }
        assert (I0 : In (symbols post', [(2%nat, map asym st'); (1%nat, map asym o)]) (paths userCommentPattern ((map asym o ++ asym ":" :: ms ++ map asym st) ++ symbols post, []))).
        { apply paths_lang. eexists _, _. split; [|split; [exact W'|reflexivity]]. rewrite <- Esym. rewrite <- app_assoc. cbn [app]. rewrite E'. now rewrite <- app_assoc. }
        rewrite P in I0. specialize (B _ I0). unfold left_of in B. cbn [fst] in B.
        assert (L : (length (symbols m') <= length (symbols (flat ms)))%nat).
        { apply (f_equal (@length sym)) in E'. rewrite !app_length, !map_length in E'. pose proof (proj2 (proj2 (proj2 R))) as S1. pose proof (proj2 (proj2 (proj2 R'))) as S2.
          assert (L1 : length st = 11%nat) by (destruct S1 as (? & ? & ? & ? & ? & ? & ? & ? & ? & -> & _); reflexivity).
          assert (L2 : length st' = 11%nat) by (destruct S2 as (? & ? & ? & ? & ? & ? & ? & ? & ? & -> & _); reflexivity). lia. }
        destruct (le_lt_dec (length m') (length (flat ms))) as [G|G]; [exact G|]. exfalso. rewrite <- (flat_symbols m'), <- (flat_symbols (flat ms)) in G. symmetry in E'. apply (prefix_length _ _ _ _ E') in G. lia.
    + rewrite flat_app. change (flat (asym ":" :: ms ++ map asym st)) with (":"%byte :: flat (ms ++ map asym st)). now rewrite flat_app, !flat_asym.
  - intros pre o m st post R. destruct (reads_symbols _ _ _ _ _ _ R) as [E' W']. pose proof (find_none _ _ _ _ F E') as N.
    assert (I0 : In (symbols post, [(2%nat, map asym st); (1%nat, map asym o)]) (paths userCommentPattern (map asym o ++ asym ":" :: symbols m ++ map asym st ++ symbols post, []))).
    { apply paths_lang. eexists _, _. split; [|split; [exact W'|reflexivity]]. rewrite <- app_assoc. cbn [app]. now rewrite <- app_assoc. }
    rewrite N in I0. contradiction.
Qed.
