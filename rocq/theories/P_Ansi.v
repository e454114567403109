(** * Proofs for stripping control sequences *)
From Coq Require Import Lia ZifyBool ZifyNat ZifyN.
From Verif Require Import M_Base M_Utf8 M_Regex M_Comment P_Base P_Text P_Utf8 P_Regex S_Ansi.
Open Scope N_scope.

(** ** Classes of runes *)
Definition r_punct (x : sym) : Prop := in_ranges (fst x) (singles (str "[]()#;?")) = true.
Definition r_digit (x : sym) : Prop := 48 <= fst x <= 57.
Definition r_word (x : sym) : Prop := 65 <= fst x <= 90 \/ 97 <= fst x <= 122 \/ 48 <= fst x <= 57 \/ fst x = 59.
Definition r_final (x : sym) : Prop :=
  in_ranges (fst x) ([digit_r; range "A" "P"; single "R"; single "Z"; single "c"; range "f" "n"] ++ singles (str "tqry=><~")) = true.
Lemma digit_class (x : sym) : in_ranges (fst x) [digit_r] = true <-> r_digit x.
Proof. unfold r_digit. cbn. unfold digit_r, range. cbn [fst snd]. change (b2n "0") with 48. change (b2n "9") with 57. lia. Qed.
Lemma alnum_class (x : sym) : in_ranges (fst x) [lower_r; upper_r; digit_r] = true <-> r_word x /\ fst x <> 59.
Proof.
  unfold r_word. cbn. unfold digit_r, lower_r, upper_r, range. cbn [fst snd]. change (b2n "0") with 48. change (b2n "9") with 57.
  change (b2n "a") with 97. change (b2n "z") with 122. change (b2n "A") with 65. change (b2n "Z") with 90. lia.
Qed.
Lemma single_class n (x : sym) : in_ranges (fst x) [(n, n)] = true <-> fst x = n.
Proof. cbn. lia. Qed.
Lemma punct_val x : r_punct x <-> In (fst x) [91; 93; 40; 41; 35; 59; 63].
Proof.
  unfold r_punct. cbn. change (b2n "[") with 91. change (b2n "]") with 93. change (b2n "(") with 40. change (b2n ")") with 41. change (b2n "#") with 35.
  change (b2n ";") with 59. change (b2n "?") with 63. lia.
Qed.
Lemma final_val x : r_final x <-> 48 <= fst x <= 57 \/ 65 <= fst x <= 80 \/ 102 <= fst x <= 110 \/ In (fst x) [82; 90; 99; 116; 113; 114; 121; 61; 62; 60; 126].
Proof.
  unfold r_final, digit_r, range. cbn. unfold single. change (b2n "0") with 48. change (b2n "9") with 57. change (b2n "A") with 65. change (b2n "P") with 80.
  change (b2n "R") with 82. change (b2n "Z") with 90. change (b2n "c") with 99. change (b2n "f") with 102. change (b2n "n") with 110.
  change (b2n "t") with 116. change (b2n "q") with 113. change (b2n "r") with 114. change (b2n "y") with 121. change (b2n "=") with 61. change (b2n ">") with 62.
  change (b2n "<") with 60. change (b2n "~") with 126. cbn [fst snd]. lia.
Qed.

(** ** Words *)
Lemma lang_cls rs w cs : lang (Cls rs) w cs -> exists x, w = [x] /\ in_ranges (fst x) rs = true /\ cs = [].
Proof. intros H. inversion H; subst. eauto. Qed.
Lemma lang_star_cls rs w cs : lang (Star (Cls rs)) w cs <-> Forall (fun x => in_ranges (fst x) rs = true) w /\ cs = [].
Proof.
  split.
  - remember (Star (Cls rs)) as r eqn:R. induction 1; inversion R; subst; [now split|].
    apply lang_cls in H0 as (x & -> & X & ->). destruct (IHlang2 eq_refl) as [F ->]. split; [|reflexivity]. now constructor.
  - intros [F ->]. induction F as [|x w X _ IH]; [constructor|]. apply (LStarCons _ [x] w [] []); [discriminate|now constructor|exact IH].
Qed.
Lemma lang_upto rs k w cs : lang (upto (Cls rs) k) w cs <-> (length w <= k)%nat /\ Forall (fun x => in_ranges (fst x) rs = true) w /\ cs = [].
Proof.
  revert w cs. induction k as [|k IH]; intros w cs; cbn [upto].
  - split; [intros H; inversion H; subst; repeat split; [cbn; lia|constructor]|]. intros (L & _ & ->). destruct w; [constructor|cbn in L; lia].
  - split.
    + intros H. inversion H as [| | | |? ? ? ? H1|? ? ? ? H1| | |]; subst; [|inversion H1; subst; repeat split; [cbn; lia|constructor]].
      inversion H1 as [| | |? ? w1 w2 c1 c2 A B| | | | |]; subst. apply lang_cls in A as (x & -> & X & ->). apply IH in B as (L & F & ->). repeat split; [cbn; lia|now constructor].
    + intros (L & F & ->). destruct w as [|x w]; [apply LAltR; constructor|]. inversion F; subst. apply LAltL. apply (LSeq _ _ [x] w [] []); [now constructor|].
      apply IH. repeat split; [cbn in L; lia|assumption].
Qed.
Lemma bell_word w : (exists cs, lang ansi_bell w cs) <-> exists q x, w = q ++ [x] /\ Forall r_word q /\ fst x = 7.
Proof.
  unfold ansi_bell. split.
  - intros [cs H]. inversion H as [| | |? ? w1 w2 c1 c2 A B| | | | |]; subst. apply lang_cls in B as (x & -> & X & ->). apply single_class in X.
    exists w1, x. split; [reflexivity|]. split; [|exact X]. clear H. unfold Opt in A.
    inversion A as [| | | |? ? ? ? H1|? ? ? ? H1| | |]; subst; [|inversion H1; constructor].
    inversion H1 as [| | |? ? u v d1 d2 U V| | | | |]; subst. apply lang_star_cls in U as [U ->]. apply Forall_app. split.
    { refine (Forall_impl _ _ U). intros y Y. apply alnum_class in Y. tauto. }
    clear - V. remember (Star _) as r eqn:R. induction V; inversion R; subst; [constructor|]. apply Forall_app. split; [|now apply IHV2].
    inversion V1 as [| | |? ? u v d1 d2 U V| | | | |]; subst. unfold chr in U. apply lang_cls in U as (y & -> & Y & _). apply single_class in Y. apply lang_star_cls in V as [V ->].
    constructor; [right; right; right; exact Y|]. refine (Forall_impl _ _ V). intros z Z. apply alnum_class in Z. tauto.
  - intros (q & x & -> & F & X). assert (K : exists cs, lang (Seq (Star c_alnum) (Star (Seq (chr ";") (Star c_alnum)))) q cs).
    { induction F as [|y q Y _ IH].
      - exists []. apply (LSeq _ _ [] [] [] []); constructor.
      - destruct IH as [cs IH]. inversion IH as [| | |? ? u v d1 d2 U V| | | | |]; subst. apply lang_star_cls in U as [U ->].
        destruct (fst y =? 59) eqn:E.
        + exists ((d2 ++ []) ++ []). apply (LSeq _ _ [] (y :: u ++ v)); [constructor|]. change (y :: u ++ v) with ((y :: u) ++ v).
          apply LStarCons; [discriminate| |exact V]. apply (LSeq _ _ [y] u [] []); [constructor; apply single_class; change (b2n ";") with 59; lia|]. now apply lang_star_cls.
        + exists (d2 ++ []). apply (LSeq _ _ (y :: u) v); [|exact V]. apply lang_star_cls. split; [|reflexivity]. constructor; [|exact U]. apply alnum_class. split; [exact Y|lia]. }
    destruct K as [cs K]. exists ([] ++ cs). apply LSeq; [now apply LAltL|]. constructor. now apply single_class.
Qed.
Definition r_params (q : list sym) : Prop :=
  q = [] \/ exists n ns, q = n ++ concat (map (fun p => fst p :: snd p) ns) /\ (1 <= length n <= 4)%nat /\ Forall r_digit n /\
    Forall (fun p => fst (fst p) = 59 /\ (length (snd p) <= 4)%nat /\ Forall r_digit (snd p)) ns.
Lemma digits_class w : Forall (fun x => in_ranges (fst x) [digit_r] = true) w <-> Forall r_digit w.
Proof. split; apply Forall_impl; intros x; apply digit_class. Qed.
Lemma final_word w : (exists cs, lang ansi_final w cs) <-> exists q x, w = q ++ [x] /\ r_params q /\ r_final x.
Proof.
  unfold ansi_final. split.
  - intros [cs H]. inversion H as [| | |? ? w1 w2 c1 c2 A B| | | | |]; subst. apply lang_cls in B as (x & -> & X & ->).
    exists w1, x. split; [reflexivity|]. split; [|exact X]. clear H. unfold Opt in A.
    inversion A as [| | | |? ? ? ? H1|? ? ? ? H1| | |]; subst; [|inversion H1; left; reflexivity].
    inversion H1 as [| | |? ? u v d1 d2 U V| | | | |]; subst. unfold from1to in U. inversion U as [| | |? ? u1 u2 e1 e2 U1 U2| | | | |]; subst.
    apply lang_cls in U1 as (y & -> & Y & ->). apply (lang_upto [digit_r] 3) in U2 as (L & F & ->). right.
    assert (K : exists ns, v = concat (map (fun p => fst p :: snd p) ns) /\ Forall (fun p : sym * list sym => fst (fst p) = 59 /\ (length (snd p) <= 4)%nat /\ Forall r_digit (snd p)) ns).
    { clear - V. remember (Star _) as r eqn:R. induction V; inversion R; subst; [exists []; split; [reflexivity|constructor]|].
      destruct (IHV2 eq_refl) as (ns & -> & N). inversion V1 as [| | |? ? u v d1 d2 U V| | | | |]; subst. apply lang_cls in U as (z & -> & Z & ->). apply (lang_upto [digit_r] 4) in V as (L & F & ->).
      exists ((z, v) :: ns). split; [reflexivity|]. constructor; [|exact N]. cbn [fst snd]. apply single_class in Z. repeat split; [exact Z|exact L|now apply digits_class]. }
    destruct K as (ns & -> & N). exists (y :: u2), ns. split; [reflexivity|]. cbn [pred] in L. split; [cbn [length]; lia|]. split; [|exact N]. constructor; [now apply digit_class|now apply digits_class].
  - intros (q & x & -> & [->|(n & ns & -> & L & N & M)] & X).
    + exists ([] ++ []). apply LSeq; [apply LAltR; constructor|]. now constructor.
    + destruct n as [|y n]; [cbn in L; lia|]. inversion N; subst.
      assert (K : exists cs, lang (Star (Seq (chr ";") (upto c_digit 4))) (concat (map (fun p => fst p :: snd p) ns)) cs).
      { induction M as [|[z m] ns (Z & ML & MD) _ [cs IH]]; [exists []; constructor|]. cbn [map concat fst snd] in *. exists (cs ++ ([] ++ [])).
        apply LStarCons; [discriminate| |exact IH]. apply (LSeq _ _ [z] m); [constructor; now apply single_class|]. apply lang_upto. repeat split; [exact ML|now apply digits_class]. }
      destruct K as [cs K]. exists ([] ++ (cs ++ ([] ++ []))). apply LSeq; [apply LAltL|now constructor]. apply LSeq; [|exact K].
      apply (LSeq _ _ [y] n); [constructor; now apply digit_class|]. apply lang_upto. cbn [pred length] in *. repeat split; [lia|now apply digits_class].
Qed.
Lemma final_no_bell w x : (exists cs, lang ansi_final w cs) -> In x w -> fst x <> 7.
Proof.
  intros H. apply final_word in H as (q & e & -> & P & E). rewrite in_app_iff. intros [X|[<-|[]]]; [|apply final_val in E; cbn in E; lia].
  destruct P as [->|(n & ns & -> & _ & N & M)]; [contradiction|]. apply in_app_or in X as [X|X].
  - rewrite Forall_forall in N. specialize (N _ X). unfold r_digit in N. lia.
  - apply in_concat in X as (l & L & X). apply in_map_iff in L as (p & <- & P). rewrite Forall_forall in M. destruct (M _ P) as (Z & _ & D). destruct X as [X|X]; [subst x; intros Q; assert (W : 59 = 7) by (etransitivity; [symmetry; exact Z|exact Q]); discriminate W|].
    rewrite Forall_forall in D. specialize (D _ X). unfold r_digit in D. lia.
Qed.
Lemma final_first w x w' : (exists cs, lang ansi_final w cs) -> w = x :: w' -> ~ r_punct x.
Proof.
  intros H -> P. apply final_word in H as (q & e & E & Q & F). apply punct_val in P. cbn in P.
  assert (K : r_digit x \/ r_final x).
  { destruct Q as [->|(n & ns & -> & L & N & M)]; [injection E as -> _; now right|]. destruct n as [|y n]; [cbn in L; lia|]. injection E as -> _. inversion N; subst. now left. }
  destruct K as [K|K]; [unfold r_digit in K; lia|]. apply final_val in K. cbn in K. lia.
Qed.

(** ** The preferred match is the longest *)
Definition best (l : list state) : Prop := match l with [] => True | x :: _ => forall y, In y l -> (left_of x <= left_of y)%nat end.
Lemma ordered_best l : ordered l -> best l.
Proof. destruct l as [|x l]; [easy|]. intros O y. now apply ordered_head. Qed.
Definition starts (P : sym -> Prop) (s : state) : Prop := exists x t, fst s = x :: t /\ P x.
(** all but the first way start with a symbol of a class *)
Definition rest_starts (P : sym -> Prop) (l : list state) : Prop := match l with [] => False | _ :: l' => Forall (starts P) l' end.
Lemma upto_rest rs k s : rest_starts (fun x => in_ranges (fst x) rs = true) (paths (upto (Cls rs) k) s).
Proof.
  revert s. induction k as [|k IH]; intros s; [cbn; constructor|]. cbn [upto Opt paths]. destruct s as [[|x t] c]; cbn [fst snd flat_map app].
  - constructor.
  - destruct (in_ranges (fst x) rs) eqn:R; cbn [flat_map app]; [|constructor]. rewrite app_nil_r. specialize (IH (t, c)). destruct (paths (upto (Cls rs) k) (t, c)) as [|z l]; [contradiction|].
    cbn [app rest_starts] in *. apply Forall_app. split; [exact IH|]. constructor; [|constructor]. exists x, t. now split.
Qed.
Lemma ordered_then (P : sym -> Prop) f l : ordered l -> rest_starts P l ->
  (forall s, ordered (f s)) -> (forall s y, In y (f s) -> (left_of y <= left_of s)%nat) -> (forall s, starts P s -> f s = [s] \/ f s = []) -> ordered (flat_map f l).
Proof.
  intros O R F1 F2 F3. destruct l as [|x l]; [exact I|]. cbn [flat_map]. apply ordered_app. cbn [rest_starts] in R. destruct O as [O1 O2].
  split; [apply F1|]. split.
  - clear O1. induction R as [|y l Y R IH]; [exact I|]. cbn [flat_map]. destruct O2 as [O2 O3]. apply ordered_app. split; [apply F1|]. split; [now apply IH|].
    intros a b A B. destruct (F3 y Y) as [E|E]; rewrite E in A; [|contradiction]. destruct A as [<-|[]]. apply in_flat_map in B as (z & Z & B).
    specialize (O2 _ Z). rewrite Forall_forall in R. destruct (F3 z (R _ Z)) as [E'|E']; rewrite E' in B; [|contradiction]. destruct B as [<-|[]]. exact O2.
  - intros a b A B. apply F2 in A. apply in_flat_map in B as (z & Z & B). specialize (O1 _ Z). rewrite Forall_forall in R.
    destruct (F3 z (R _ Z)) as [E'|E']; rewrite E' in B; [|contradiction]. destruct B as [<-|[]]. lia.
Qed.
Lemma upto_longest rs k : longest_first (upto (Cls rs) k).
Proof. apply (longest_upto 1). apply fixed_cls. Qed.
(** one more parameter *)
Definition more : re := Seq (chr ";") (upto c_digit 4).
Lemma more_paths s : paths more s = [] \/ (exists x t, fst s = x :: t /\ fst x = 59) /\ rest_starts r_digit (paths more s).
Proof.
  unfold more, chr. cbn [paths]. change (b2n ";") with 59. destruct s as [[|x t] c]; cbn [fst snd]; [now left|]. destruct (in_ranges (fst x) [(59, 59)]) eqn:R; [|now left].
  right. split; [exists x, t; split; [reflexivity|]; now apply single_class|]. cbn [flat_map]. rewrite app_nil_r.
  pose proof (upto_rest [digit_r] 4 (t, c)) as U. fold c_digit in U. destruct (paths (upto c_digit 4) (t, c)); [exact U|]. cbn [rest_starts] in *.
  refine (Forall_impl _ _ U). intros a (y & u & E & Y). exists y, u. split; [exact E|]. now apply digit_class.
Qed.
Lemma more_digit s : starts r_digit s -> paths more s = [].
Proof. intros (x & t & E & D). destruct (more_paths s) as [->|[(x' & t' & E' & X) _]]; [reflexivity|]. rewrite E in E'. injection E' as -> ->. unfold r_digit in D. lia. Qed.
Lemma iter_more_digit fuel s : starts r_digit s -> iter (paths more) fuel s = [s].
Proof. intros D. destruct fuel as [|fuel]; [reflexivity|]. cbn [iter]. now rewrite (more_digit s D). Qed.
Lemma more_longest : longest_first more.
Proof. unfold more. apply (longest_fixed_seq 1); [apply fixed_cls|apply upto_longest]. Qed.
Lemma iter_more_longest fuel s : ordered (iter (paths more) fuel s).
Proof.
  revert s. induction fuel as [|fuel IH]; intros s; cbn [iter]; [split; [intros y []|exact I]|]. apply ordered_app. split; [|split; [split; [intros y []|exact I]|]].
  - destruct (more_paths s) as [->|[_ R]]; [exact I|]. apply (ordered_then r_digit); [apply more_longest|exact R| | |].
    + intros x. destruct (_ <? _)%nat; [apply IH|exact I].
    + intros x y. destruct (_ <? _)%nat; [|intros []]. intros Y. exact (iter_suffix _ _ _ (left_suffix more) _ Y).
    + intros x X. destruct (_ <? _)%nat; [left; now apply iter_more_digit|now right].
  - intros x y X [<-|[]]. apply in_flat_map in X as (z & Z & X). destruct (_ <? _)%nat; [|contradiction].
    apply (iter_suffix _ _ _ (left_suffix more)) in X. apply left_suffix in Z. lia.
Qed.
Lemma from1to_rest s : paths (from1to c_digit 4) s = [] \/ rest_starts r_digit (paths (from1to c_digit 4) s).
Proof.
  unfold from1to. cbn [pred]. cbn [paths]. unfold c_digit at 2 4. cbn [paths]. destruct s as [[|x t] c]; cbn [fst snd]; [now left|]. destruct (in_ranges (fst x) [digit_r]) eqn:R; [|now left].
  right. cbn [flat_map]. rewrite app_nil_r. pose proof (upto_rest [digit_r] 3 (t, c)) as U. fold c_digit in U. destruct (paths (upto c_digit 3) (t, c)); [exact U|]. cbn [rest_starts] in *.
  refine (Forall_impl _ _ U). intros a (y & u & E & Y). exists y, u. split; [exact E|]. now apply digit_class.
Qed.
Lemma final_longest : longest_first ansi_final.
Proof.
  unfold ansi_final. apply (longest_seq_fixed 1); [|apply fixed_cls]. apply longest_opt. fold more. intros s. cbn [paths].
  destruct (from1to_rest s) as [E|R]; [rewrite E; exact I|]. apply (ordered_then r_digit).
  - unfold from1to. apply (longest_fixed_seq 1); [apply fixed_cls|apply upto_longest].
  - exact R.
  - intros x. apply iter_more_longest.
  - intros x y Y. exact (iter_suffix _ _ _ (left_suffix more) _ Y).
  - intros x X. left. now apply iter_more_digit.
Qed.

Lemma split_first {A} (P : A -> Prop) u x r v y t :
  u ++ x :: r = v ++ y :: t -> (forall a, In a u -> ~ P a) -> P x -> (forall a, In a v -> ~ P a) -> P y -> r = t.
Proof.
  revert v. induction u as [|a u IH]; intros [|b v] E U X V Y; cbn [app] in E.
  - now injection E.
  - injection E as -> E. exfalso. apply (V b); [now left|exact X].
  - injection E as -> E. exfalso. apply (U y); [now left|exact Y].
  - injection E as -> E. apply (IH v E); auto; intros c C; [apply U|apply V]; now right.
Qed.
Lemma two_prefixes {A} (p q r s : list A) : p ++ q = r ++ s -> (exists d, r = p ++ d /\ q = d ++ s) \/ (exists d, d <> [] /\ p = r ++ d /\ s = d ++ q).
Proof.
  revert r. induction p as [|a p IH]; intros r E.
  - left. exists r. now split.
  - destruct r as [|b r]; cbn [app] in E.
    + right. exists (a :: p). repeat split; [discriminate|now symmetry].
    + injection E as -> E. destruct (IH _ E) as [(d & -> & ->)|(d & N & -> & ->)]; [left|right]; exists d; auto.
Qed.
Definition body : re := Alt ansi_bell ansi_final.
Lemma body_best s : best (paths body s).
Proof.
  unfold body. destruct s as [s c]. cbn [paths].
  assert (B : forall a b, In a (paths ansi_bell (s, c)) -> In b (paths body (s, c)) -> (left_of a <= left_of b)%nat).
  { intros [a ca] [b cb] Ha Hb. apply paths_lang in Ha as (wa & csa & -> & La & ->). apply paths_lang in Hb as (wb & csb & E & Lb & ->).
    assert (La' : exists cs, lang ansi_bell wa cs) by eauto. apply bell_word in La' as (q & x & -> & Q & X).
    assert (NQ : forall y, In y q -> fst y <> 7).
    { intros y Y. rewrite Forall_forall in Q. specialize (Q _ Y). unfold r_word in Q. lia. }
    unfold left_of. cbn [fst]. inversion Lb as [| | | |? ? ? ? L1|? ? ? ? L1| | |]; subst.
    - assert (Lb' : exists cs, lang ansi_bell wb cs) by eauto. apply bell_word in Lb' as (q' & x' & -> & Q' & X'). rewrite <- !app_assoc in E. cbn [app] in E.
      rewrite (split_first (fun y : sym => fst y = 7) q x a q' x' b E); [lia| | | |]; auto.
      intros y Y. rewrite Forall_forall in Q'. specialize (Q' _ Y). unfold r_word in Q'. lia.
    - assert (Lb' : exists cs, lang ansi_final wb cs) by eauto. rewrite <- app_assoc in E. cbn [app] in E. apply two_prefixes in E as [(d & -> & E)|(d & N & -> & ->)].
      + destruct d as [|z d]; [cbn [app] in E; subst b; cbn [length]; lia|]. cbn [app] in E. injection E as -> E. exfalso.
        apply (final_no_bell _ z Lb'); [apply in_or_app; right; now left|exact X].
      + rewrite app_length. cbn [length]. lia. }
  destruct (paths ansi_bell (s, c)) as [|a l] eqn:E.
  - cbn [app]. apply ordered_best. apply final_longest.
  - cbn [app best]. intros y Y. apply B; [now left|]. unfold body. cbn [paths]. rewrite E. exact Y.
Qed.
(** the punctuation: the longest run is tried first, and no shorter one helps *)
Lemma star_punct_head s c : exists p t l, s = p ++ t /\ Forall r_punct p /\ (forall x u, t = x :: u -> ~ r_punct x) /\
  paths (Star c_punct) (s, c) = (t, c) :: l /\ (forall y, In y l -> exists p1 p2, p = p1 ++ p2 /\ p2 <> [] /\ y = (p2 ++ t, c)).
Proof.
  unfold c_punct. cbn [paths fst]. remember (length s) as fuel eqn:Hf. assert (L : (length s <= fuel)%nat) by lia. clear Hf. revert s L. induction fuel as [|fuel IH]; intros s L.
  - destruct s; [|cbn in L; lia]. exists [], [], []. split; [reflexivity|]. split; [constructor|]. split; [intros x u Q; discriminate Q|]. split; [reflexivity|intros y []].
  - cbn [iter]. destruct s as [|x s]; cbn [paths fst snd flat_map app].
    + exists [], [], []. split; [reflexivity|]. split; [constructor|]. split; [intros x u Q; discriminate Q|]. split; [reflexivity|intros y []].
    + destruct (in_ranges (fst x) (singles (str "[]()#;?"))) eqn:R; cbn [flat_map app].
      * cbn [fst]. replace (length s <? length (x :: s))%nat with true by (cbn; lia). destruct (IH s) as (p & t & l & E & F & N & Q & G); [cbn in L; lia|]. rewrite Q. cbn [app].
        rewrite app_nil_r. exists (x :: p), t, (l ++ [(x :: s, c)]). split; [now rewrite E|]. split; [now constructor|]. split; [exact N|]. split; [reflexivity|].
        intros y Y. apply in_app_or in Y as [Y|[<-|[]]].
        -- destruct (G y Y) as (p1 & p2 & -> & N2 & ->). exists (x :: p1), p2. repeat split; auto.
        -- exists [], (x :: p). repeat split; [discriminate|]. now rewrite E.
      * exists [], (x :: s), []. split; [reflexivity|]. split; [constructor|]. split; [intros y u [= <- <-]; unfold r_punct; congruence|]. split; [reflexivity|intros y []].
Qed.
Lemma body_skips p t c y : Forall r_punct p -> p <> [] -> In y (paths body (p ++ t, c)) -> exists y', In y' (paths body (t, c)) /\ fst y' = fst y.
Proof.
  intros P N Y. destruct y as [r c']. apply paths_lang in Y as (w & cs & E & W & ->). destruct p as [|x p]; [contradiction|].
  unfold body in W. inversion W as [| | | |? ? ? ? L1|? ? ? ? L1| | |]; subst.
  - assert (L2 : exists cs, lang ansi_bell w cs) by eauto. apply bell_word in L2 as (q & b & -> & Q & B). rewrite <- app_assoc in E. cbn [app] in E.
    apply (two_prefixes (x :: p) t q (b :: r)) in E as [(d & -> & ->)|(d & D & E & F)].
    + apply Forall_app in Q as [_ Q]. assert (L3 : exists cs, lang ansi_bell (d ++ [b]) cs) by (apply bell_word; eauto). destruct L3 as [cs3 L3].
      exists (r, cs3 ++ c). split; [|reflexivity]. apply paths_lang. exists (d ++ [b]), cs3. split; [now rewrite <- app_assoc|]. split; [now apply LAltL|reflexivity].
    + exfalso. destruct d as [|z d]; [contradiction|]. injection F as <- _. rewrite E in P. apply Forall_app in P as [_ P]. inversion P as [|? ? PB _]; subst. apply punct_val in PB. cbn in PB. lia.
  - exfalso. assert (L2 : exists cs, lang ansi_final w cs) by eauto. destruct w as [|z w].
    { apply final_word in L2 as (q & e & F & _). destruct q; discriminate F. }
    cbn [app] in E. injection E as -> _. inversion P; subst. now apply (final_first _ z w L2 eq_refl).
Qed.
Lemma ansi_best s c : best (paths ansi (s, c)).
Proof.
  unfold ansi. fold body. cbn [paths]. unfold c_intro. cbn [paths fst snd]. destruct s as [|x s]; [exact I|]. destruct (in_ranges (fst x) _); [|exact I]. cbn [flat_map]. rewrite app_nil_r.
  change (best (flat_map (paths body) (paths (Star c_punct) (s, c)))).
  destruct (star_punct_head s c) as (p & t & l & -> & P & N & E & G). rewrite E. cbn [flat_map].
  assert (K : forall y, In y (flat_map (paths body) l) -> exists y', In y' (paths body (t, c)) /\ fst y' = fst y).
  { intros y Y. apply in_flat_map in Y as (z & Z & Y). destruct (G z Z) as (p1 & p2 & -> & N2 & ->). apply Forall_app in P as [_ P]. now apply (body_skips p2). }
  pose proof (body_best (t, c)) as B. destruct (paths body (t, c)) as [|a q] eqn:Eb.
  - cbn [app]. destruct (flat_map (paths body) l) as [|y m]; [exact I|]. destruct (K y (or_introl eq_refl)) as (y' & [] & _).
  - cbn [app best] in *. intros y Y. change (a :: q ++ flat_map (paths body) l) with ((a :: q) ++ flat_map (paths body) l) in Y. apply in_app_or in Y as [Y|Y]; [now apply B|]. destruct (K y Y) as (y' & Y' & F). unfold left_of. rewrite <- F. now apply B.
Qed.

(** ** Words in bytes *)
Lemma ansi_word w : (exists cs, lang ansi w cs) <-> exists i p q e, w = i :: p ++ q ++ [e] /\ (fst i = 0x1B \/ fst i = 0x9B) /\ Forall r_punct p /\
  (fst e = 7 /\ Forall r_word q \/ r_final e /\ r_params q).
Proof.
  unfold ansi. fold body. split.
  - intros [cs H]. inversion H as [| | |? ? w1 w2 c1 c2 A B| | | | |]; subst. apply lang_cls in A as (i & -> & X & ->).
    inversion B as [| | |? ? w3 w4 c3 c4 C D| | | | |]; subst. apply lang_star_cls in C as [C ->].
    assert (Hi : fst i = 0x1B \/ fst i = 0x9B) by (cbn in X; lia).
    unfold body in D. inversion D as [| | | |? ? ? ? L1|? ? ? ? L1| | |]; subst.
    + assert (L2 : exists cs, lang ansi_bell w4 cs) by eauto. apply bell_word in L2 as (q & b & -> & Q & Hb). exists i, w3, q, b. split; [reflexivity|]. split; [exact Hi|]. split; [exact C|]. left. now split.
    + assert (L2 : exists cs, lang ansi_final w4 cs) by eauto. apply final_word in L2 as (q & b & -> & Q & Hb). exists i, w3, q, b. split; [reflexivity|]. split; [exact Hi|]. split; [exact C|]. right. now split.
  - intros (i & p & q & e & -> & Hi & P & K).
    assert (L : exists cs, lang body (q ++ [e]) cs).
    { destruct K as [[E Q]|[E Q]].
      - assert (L3 : exists cs, lang ansi_bell (q ++ [e]) cs) by (apply bell_word; eauto). destruct L3 as [cs L3]. exists cs. now apply LAltL.
      - assert (L3 : exists cs, lang ansi_final (q ++ [e]) cs) by (apply final_word; eauto). destruct L3 as [cs L3]. exists cs. now apply LAltR. }
    destruct L as [cs L]. exists ((cs ++ []) ++ []). apply (LSeq _ _ [i]); [constructor; cbn; lia|]. apply LSeq; [now apply lang_star_cls|exact L].
Qed.
Lemma proper_ascii x : proper_sym x -> fst x < 128 -> exists b, x = asym b.
Proof. intros (P & _) L. destruct x as [n l]. cbn [fst snd] in *. rewrite (P L). exists (n2b n). unfold asym. rewrite b2n_n2b. rewrite N.mod_small by lia. reflexivity. Qed.
Lemma proper_asciis w : Forall proper_sym w -> Forall (fun x => fst x < 128) w -> exists s, w = map asym s.
Proof.
  induction w as [|x w IH]; intros P L; [exists []; reflexivity|]. inversion P; inversion L; subst. destruct (proper_ascii x) as [b ->]; auto. destruct IH as [s ->]; auto. exists (b :: s). reflexivity.
Qed.
Lemma flat_asym s : flat (map asym s) = s.
Proof. induction s as [|b s IH]; [reflexivity|]. cbn [map]. unfold flat in *. cbn [map concat snd asym app]. now rewrite IH. Qed.
Lemma punct_byte b : r_punct (asym b) <-> punctuation b.
Proof.
  rewrite punct_val. unfold punctuation, asym. cbn [fst]. split.
  - intros H. change [91; 93; 40; 41; 35; 59; 63] with (map b2n (str "[]()#;?")) in H. apply in_map_iff in H as (b' & E & H). apply b2n_inj in E. now subst.
  - intros H. change [91; 93; 40; 41; 35; 59; 63] with (map b2n (str "[]()#;?")). now apply in_map.
Qed.
Lemma final_byte b : r_final (asym b) <-> final b.
Proof.
  rewrite final_val. unfold final, decimal, asym. cbn [fst].
  assert (K : In (b2n b) [82; 90; 99; 116; 113; 114; 121; 61; 62; 60; 126] <-> In b (str "RZctqry=><~")).
  { change [82; 90; 99; 116; 113; 114; 121; 61; 62; 60; 126] with (map b2n (str "RZctqry=><~")). split; [|apply in_map]. intros H. apply in_map_iff in H as (b' & E & H). apply b2n_inj in E. now subst. }
  rewrite K. tauto.
Qed.
Lemma word_byte_class b : r_word (asym b) <-> word_byte b.
Proof.
  unfold r_word, word_byte, letter, decimal, asym. cbn [fst]. assert (K : b2n b = 59 <-> b = ";"%byte) by (split; [intros E; apply b2n_inj; exact E|intros ->; reflexivity]). rewrite <- K. tauto.
Qed.
Lemma Forall_asym (P : sym -> Prop) (Q : byte -> Prop) s : (forall b, P (asym b) <-> Q b) -> Forall P (map asym s) <-> Forall Q s.
Proof. intros H. rewrite Forall_map. split; apply Forall_impl; intros b; apply H. Qed.
Lemma params_bytes q : r_params (map asym q) <-> parameters q.
Proof.
  unfold r_params, parameters, number. split.
  - intros [E|(n & ns & E & L & N & M)]; [left; now destruct q|]. right. revert E.
    assert (K : forall q ns, Forall (fun p : sym * list sym => fst (fst p) = 59 /\ (length (snd p) <= 4)%nat /\ Forall r_digit (snd p)) ns ->
      map asym q = concat (map (fun p => fst p :: snd p) ns) -> exists ms, q = concat (map (fun m => ";"%byte :: m) ms) /\ Forall (fun n => (0 <= length n <= 4)%nat /\ Forall decimal n) ms).
    { clear. intros q ns. revert q. induction ns as [|[z m] ns IH]; intros q M E; [exists []; split; [now destruct q|constructor]|]. inversion M as [|? ? (Z & L & D) M']; subst. cbn [map concat fst snd] in *.
      destruct q as [|b q]; [discriminate E|]. cbn [map app] in E. injection E as E0 E. apply map_eq_app in E as (q1 & q2 & -> & E1 & E2). destruct (IH q2 M' E2) as (ms & -> & F).
      exists (q1 :: ms). rewrite <- E0 in Z. cbn [asym fst] in Z. assert (b = ";"%byte) by (apply b2n_inj; exact Z). subst b. split; [reflexivity|]. constructor; [|exact F].
      rewrite <- E1 in L, D. rewrite map_length in L. split; [lia|]. apply (Forall_asym r_digit decimal); [|exact D]. intros b. reflexivity. }
    intros E. apply map_eq_app in E as (q1 & q2 & -> & <- & E2). destruct (K q2 ns M E2) as (ms & -> & F). exists q1, ms. split; [reflexivity|]. rewrite map_length in L. split; [|exact F].
    split; [exact L|]. apply (Forall_asym r_digit decimal); [|exact N]. intros b. reflexivity.
  - intros [->|(n & ns & -> & [L N] & M)]; [now left|]. right. exists (map asym n), (map (fun m => (asym ";"%byte, map asym m)) ns). split.
    + rewrite map_app, concat_map, !map_map. reflexivity.
    + rewrite map_length. split; [exact L|]. split; [apply (Forall_asym r_digit decimal); [reflexivity|exact N]|]. rewrite Forall_map. refine (Forall_impl _ _ M). intros m [Lm Dm]. cbn [fst snd].
      split; [reflexivity|]. rewrite map_length. split; [lia|]. apply (Forall_asym r_digit decimal); [reflexivity|exact Dm].
Qed.
Lemma punct_small x : r_punct x -> fst x < 128.
Proof. intros H. apply punct_val in H. cbn in H. lia. Qed.
Lemma final_small x : r_final x -> fst x < 128.
Proof. intros H. apply final_val in H. cbn in H. lia. Qed.
Lemma params_small q : r_params q -> Forall (fun x => fst x < 128) q.
Proof.
  intros [->|(n & ns & -> & _ & N & M)]; [constructor|]. apply Forall_app. split; [refine (Forall_impl _ _ N); unfold r_digit; intros; cbv beta in *; lia|].
  apply Forall_concat. rewrite Forall_map. refine (Forall_impl _ _ M). intros p (Z & _ & D). constructor; [eapply N.eq_le_incl in Z; refine (N.le_lt_trans _ _ _ Z _); reflexivity|]. refine (Forall_impl _ _ D). unfold r_digit; intros; cbv beta in *; lia.
Qed.
Lemma small_bytes (P : byte -> Prop) s : (forall b, P b -> b2n b < 128) -> Forall P s -> Forall (fun b => b2n b < 128) s.
Proof. intros H. apply Forall_impl. exact H. Qed.
(** the matches at the start of a text are its prefixes that are control sequences *)
Lemma match_control s r c : In (r, c) (paths ansi (symbols s, [])) -> exists k t, s = k ++ t /\ r = symbols t /\ control k.
Proof.
  intros H. apply paths_lang in H as (w & cs & E & W & _). destruct (symbols_split _ _ _ E) as (t & -> & ->). exists (flat w), t. split; [reflexivity|]. split; [reflexivity|].
  assert (P : Forall proper_sym w). { pose proof (symbols_proper (flat w ++ t)) as P. rewrite E in P. now apply Forall_app in P as [P _]. }
  assert (W' : exists cs, lang ansi w cs) by eauto. apply ansi_word in W' as (i & p & q & e & -> & Hi & Hp & K). clear - P Hi Hp K.
  inversion P as [|? ? Pi P1]; subst. apply Forall_app in P1 as [Pp P2]. apply Forall_app in P2 as [Pq Pe]. inversion Pe as [|? ? Pe' _]; subst.
  destruct (proper_asciis p Pp) as [p' ->]. { refine (Forall_impl _ _ Hp). exact punct_small. }
  assert (Q : exists q', q = map asym q').
  { apply proper_asciis; [exact Pq|]. destruct K as [[_ K]|[_ K]]; [|now apply params_small]. refine (Forall_impl _ _ K). unfold r_word; intros; cbv beta in *; lia. }
  destruct Q as [q' ->]. destruct (proper_ascii e Pe') as [e' ->]. { destruct K as [[K _]|[K _]]; [rewrite K; reflexivity|now apply final_small]. }
  exists (snd i), p', q', e'. split.
  { unfold flat. cbn [map concat]. f_equal. fold (flat (map asym p' ++ map asym q' ++ [asym e'])). rewrite !flat_app, !flat_asym. reflexivity. }
  split.
  { destruct Pi as (A & B & _). destruct Hi as [Hi|Hi]; [left; rewrite A, Hi by lia; reflexivity|right; rewrite B by exact Hi; reflexivity]. }
  split; [apply (Forall_asym r_punct punctuation); [exact punct_byte|exact Hp]|]. destruct K as [[K1 K2]|[K1 K2]].
  - left. split; [apply b2n_inj; exact K1|]. apply (Forall_asym r_word word_byte); [exact word_byte_class|exact K2].
  - right. split; [now apply final_byte|now apply params_bytes].
Qed.
Lemma params_ascii q : parameters q -> Forall (fun b => b2n b < 128) q.
Proof.
  intros [->|(n & ns & -> & [_ N] & M)]; [constructor|]. apply Forall_app. split; [refine (Forall_impl _ _ N); unfold decimal; intros; cbv beta in *; lia|].
  apply Forall_concat. rewrite Forall_map. refine (Forall_impl _ _ M). intros m [_ D]. constructor; [reflexivity|]. refine (Forall_impl _ _ D). unfold decimal; intros; cbv beta in *; lia.
Qed.
Lemma punct_ascii b : punctuation b -> b2n b < 128.
Proof. intros H. apply punct_byte in H. apply punct_small in H. exact H. Qed.
Lemma final_ascii b : final b -> b2n b < 128.
Proof. intros H. apply final_byte in H. apply final_small in H. exact H. Qed.
Lemma word_ascii b : word_byte b -> b2n b < 128.
Proof. unfold word_byte, letter, decimal. intros [[H|H]|[H| ->]]; [lia|lia|lia|reflexivity]. Qed.
Lemma control_match k t : control k -> exists c, In (symbols t, c) (paths ansi (symbols (k ++ t), [])).
Proof.
  intros (i & p & q & e & -> & Hi & Hp & K).
  assert (A : Forall (fun b => b2n b < 128) (p ++ q ++ [e])).
  { apply Forall_app. split; [exact (small_bytes _ _ punct_ascii Hp)|]. apply Forall_app. split.
    - destruct K as [[_ K]|[_ K]]; [exact (small_bytes _ _ word_ascii K)|now apply params_ascii].
    - constructor; [|constructor]. destruct K as [[-> _]|[K _]]; [reflexivity|now apply final_ascii]. }
  assert (X : exists x, symbols ((i ++ p ++ q ++ [e]) ++ t) = x :: map asym (p ++ q ++ [e]) ++ symbols t /\ (fst x = 0x1B \/ fst x = 0x9B)).
  { rewrite <- app_assoc. destruct Hi as [-> | ->].
    - exists (asym x1b). cbn [app]. rewrite symbols_ascii by reflexivity. rewrite symbols_asciis by exact A. split; [reflexivity|now left].
    - exists (0x9B, [xc2; x9b]). cbn [app]. change (xc2 :: x9b :: (p ++ q ++ [e]) ++ t) with (n2b 0xC2 :: n2b 0x9B :: (p ++ q ++ [e]) ++ t). rewrite symbols_csi. rewrite symbols_asciis by exact A. split; [reflexivity|now right]. }
  destruct X as (x & -> & Hx). assert (L : exists cs, lang ansi (x :: map asym (p ++ q ++ [e])) cs).
  { apply ansi_word. exists x, (map asym p), (map asym q), (asym e). split; [now rewrite !map_app|]. split; [exact Hx|]. split; [apply (Forall_asym r_punct punctuation); [exact punct_byte|exact Hp]|].
    destruct K as [[-> K2]|[K1 K2]]; [left|right]; (split; [|]); try reflexivity; [apply (Forall_asym r_word word_byte); [exact word_byte_class|exact K2]|now apply final_byte|now apply params_bytes]. }
  destruct L as [cs L]. exists (cs ++ []). apply paths_lang. exists (x :: map asym (p ++ q ++ [e])), cs. split; [reflexivity|]. now split.
Qed.
Lemma control_first k : control k -> exists b k', k = b :: k' /\ (b = x1b \/ b = xc2).
Proof. intros (i & p & q & e & -> & [-> | ->] & _); eexists _, _; (split; [reflexivity|]); auto. Qed.
Lemma symbols_len a b : length (symbols a) = length (symbols (a ++ b)) -> (forall x t, b = x :: t -> tail_byte x = false) -> b = [].
Proof.
  intros E N. rewrite (symbols_app a b N), app_length in E. destruct b as [|x b]; [reflexivity|]. exfalso.
  destruct (decode_rune (x :: b)) as [[c w]|] eqn:D.
  - rewrite (symbols_cons _ _ _ D) in E. cbn in E. lia.
  - unfold decode_rune in D. repeat (match type of D with context [if ?x then _ else _] => destruct x | context [match ?x with [] => _ | _ :: _ => _ end] => destruct x end); discriminate D.
Qed.
Lemma not_control_tail b s c s' : tail_byte b = true -> b :: s = c ++ s' -> ~ control c.
Proof.
  intros T E K. destruct (control_first c K) as (b' & k & -> & B). cbn [app] in E. injection E as -> _. destruct B as [-> | ->]; discriminate T.
Qed.
Lemma filtered_tails r s t : forallb tail_byte r = true -> filtered s t -> filtered (r ++ s) (r ++ t).
Proof.
  induction r as [|b r IH]; intros T F; [exact F|]. cbn [forallb] in T. apply andb_prop in T as [T1 T2]. cbn [app]. apply FKeep; [|now apply IH].
  intros c s' E. exact (not_control_tail _ _ _ _ T1 E).
Qed.
Lemma drop_all_filtered fuel s : (length (symbols s) <= fuel)%nat -> filtered s (flat (drop_all ansi fuel (symbols s))).
Proof.
  revert s. induction fuel as [|fuel IH]; intros s L.
  - cbn [drop_all]. destruct (symbols s) eqn:E; [|cbn in L; lia]. rewrite <- (flat_symbols s), E. constructor.
  - cbn [drop_all]. destruct (symbols s) as [|x r] eqn:E.
    + rewrite <- (flat_symbols s), E. constructor.
    + rewrite <- E. destruct (paths ansi (symbols s, [])) as [|[s' c'] l] eqn:Pth.
      * change (x :: r) with ([x] ++ r) in E. destruct (symbols_split _ _ _ E) as (t & Es & ->). unfold flat in Es. cbn [map concat] in Es. rewrite app_nil_r in Es.
        assert (Px : proper_sym x). { pose proof (symbols_proper s) as P. rewrite E in P. inversion P; assumption. }
        destruct Px as (_ & _ & T & N). destruct (snd x) as [|b q] eqn:Sx; [contradiction|]. destruct (T b q eq_refl) as [T1 _].
        change (flat (x :: drop_all ansi fuel (symbols t))) with (snd x ++ flat (drop_all ansi fuel (symbols t))). rewrite Sx, Es. cbn [app].
        apply FKeep.
        -- intros c s' Ec Kc. destruct (control_match c s' Kc) as [c0 M]. assert (E2 : s = c ++ s') by (rewrite Es; exact Ec). rewrite <- E2, Pth in M. exact M.
        -- apply filtered_tails; [exact T1|]. apply IH. cbn in L. lia.
      * assert (M : In (s', c') (paths ansi (symbols s, []))) by (rewrite Pth; now left). destruct (match_control _ _ _ M) as (k & t & -> & -> & K).
        apply FDrop; [exact K| |].
        -- intros k' t' E2 K'. destruct (control_match k' t' K') as [c0 M']. rewrite <- E2 in M'. pose proof (ansi_best (symbols (k ++ t)) []) as B. rewrite Pth in B, M'. specialize (B _ M').
           unfold left_of in B. cbn [fst] in B. apply two_prefixes in E2 as [(d & -> & ->)|(d & D & -> & ->)]; [|rewrite app_length; lia].
           destruct d as [|y d]; [rewrite app_nil_r; lia|]. exfalso.
           (* the longer sequence leaves fewer symbols *)
           assert (Ad : Forall (fun b => b2n b < 128) (y :: d)).
           { destruct K' as (i & p & q & e & E3 & Hi & Hp & Kk). apply Forall_forall. intros z Z.
             assert (Hz : In z (p ++ q ++ [e])).
             { destruct K as (i0 & p0 & q0 & e0 & -> & Hi0 & _). rewrite <- app_assoc in E3.
               assert (i = i0 /\ p ++ q ++ [e] = (p0 ++ q0 ++ [e0]) ++ y :: d) as [_ E4].
               { destruct Hi as [-> | ->], Hi0 as [-> | ->]; cbn [app] in E3; injection E3; intros; try discriminate; auto. }
               rewrite E4. apply in_or_app. now right. }
             apply in_app_or in Hz as [Hz|Hz]; [rewrite Forall_forall in Hp; now apply punct_ascii, Hp|]. apply in_app_or in Hz as [Hz|[<-|[]]].
             - destruct Kk as [[_ Q]|[_ Q]]; [rewrite Forall_forall in Q; now apply word_ascii, Q|]. apply params_ascii in Q. rewrite Forall_forall in Q. now apply Q.
             - destruct Kk as [[-> _]|[Q _]]; [reflexivity|now apply final_ascii]. }
           rewrite (symbols_asciis (y :: d) t' Ad), app_length, map_length in B. cbn [length] in B. lia.
        -- apply IH. rewrite <- E in L. apply paths_lang in M as (w & cs & Ew & W & _). rewrite Ew, app_length in L. assert (W' : exists cs, lang ansi w cs) by eauto.
           apply ansi_word in W' as (i & p & q & e & -> & _). cbn [length] in L. lia.
Qed.
Lemma filtered_fun s t t' : filtered s t -> filtered s t' -> t = t'.
Proof.
  intros H. revert t'. induction H as [|c s t K B H IH|b s t N H IH]; intros t' H'.
  - inversion H' as [|c s t K B F E|]; subst; [reflexivity|]. destruct (control_first c K) as (b & k & -> & _). discriminate E.
  - inversion H' as [E|c' s' ? K' B' F E|b' s' ? N' F E]; subst.
    + destruct (control_first c K) as (b & k & -> & _). discriminate E.
    + assert (Lc : length c = length c').
      { pose proof (B c' s' (eq_sym E) K'). pose proof (B' c s E K). lia. }
      assert (Ec : c = c' /\ s = s').
      { assert (firstn (length c) (c ++ s) = firstn (length c') (c' ++ s')) as E1 by (rewrite Lc, E; reflexivity). rewrite !firstn_app, !Nat.sub_diag, !firstn_all in E1. cbn in E1. rewrite !app_nil_r in E1. split; [exact E1|].
        subst c'. now apply app_inv_head in E. }
      destruct Ec as [<- <-]. now apply IH.
    + exfalso. apply (N' c s); [|exact K]. congruence.
  - inversion H' as [|c' s' ? K' B' F E|b' s' ? N' F E]; subst.
    + exfalso. apply (N c' s'); [|exact K']. congruence.
    + f_equal. now apply IH.
Qed.
Lemma filter_spec s t : FilterStringANSI s = t <-> filtered s t.
Proof.
  assert (K : filtered s (FilterStringANSI s)) by (unfold FilterStringANSI, ReplaceAllWithNothing; apply drop_all_filtered; lia).
  split; [intros <-; exact K|]. intros F. exact (filtered_fun _ _ _ K F).
Qed.
