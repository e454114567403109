(** * C29: comment lines *)
From Coq Require Import Lia ZifyBool ZifyNat ZifyN.
From Verif Require Import M_Base M_Text M_Path M_Utf8 M_Regex M_Time M_Comment P_Base P_Text P_Utf8 P_Regex S_Text S_Utf8 S_Time P_Time S_Ansi P_Ansi S_Comment P_Comment.
Open Scope N_scope.

Lemma stamp_len st : stamp st -> length st = 11%nat.
Proof. intros (? & ? & ? & ? & ? & ? & ? & ? & ? & -> & _). reflexivity. Qed.
Lemma has_prefix_iff p s : has_prefix p s = true <-> exists r, s = p ++ r.
Proof.
  revert s. induction p as [|a p IH]; intros s; cbn [has_prefix]; [split; [intros _; now exists s|reflexivity]|]. destruct s as [|b s]; [split; [discriminate|intros (r & E); discriminate E]|].
  rewrite andb_true_iff, IH, byte_eqb_eq. split; [intros [-> (r & ->)]; now exists r|]. intros (r & E). cbn [app] in E. injection E as -> ->. split; [reflexivity|now exists r].
Qed.
Lemma before_first sep s : (exists b r, s = b ++ sep ++ r) -> first_part sep s (before sep s).
Proof.
  intros H. unfold first_part. induction s as [|x s IH].
  - destruct H as (b & r & E). symmetry in E. apply app_eq_nil in E as [-> E]. apply app_eq_nil in E as [-> ->]. cbn. split; [now exists []|]. intros; lia.
  - cbn [before]. destruct (has_prefix sep (x :: s)) eqn:P.
    + apply has_prefix_iff in P as (r & E). cbn [app length]. split; [now exists r|]. intros; lia.
    + destruct H as (b & r & E). destruct b as [|y b]; cbn [app] in E.
      * exfalso. assert (has_prefix sep (x :: s) = true) by (apply has_prefix_iff; exists r; exact E). congruence.
      * injection E as <- E. destruct IH as [(r' & E') M]; [eauto|]. split; [exists r'; cbn [app]; now rewrite <- E'|]. intros [|z b'] r2 E2; cbn [app] in E2.
        -- exfalso. assert (has_prefix sep (x :: s) = true) by (apply has_prefix_iff; exists r2; exact E2). congruence.
        -- injection E2 as <- E2. specialize (M _ _ E2). cbn [length]. lia.
Qed.
Lemma first_part_fun st s b b' : first_part st s b -> first_part st s b' -> b = b'.
Proof.
  intros [(r & E) M] [(r' & E') M']. pose proof (M _ _ E'). pose proof (M' _ _ E). rewrite E in E'. apply two_prefixes in E' as [(d & -> & _)|(d & N & -> & _)].
  - rewrite app_length in *. destruct d; [now rewrite app_nil_r|cbn in *; lia].
  - rewrite app_length in *. destruct d; [contradiction|cbn in *; lia].
Qed.
Lemma alnum_byte_not b : letter b \/ decimal b -> b <> "/"%byte /\ b <> ":"%byte /\ b <> x0a.
Proof. unfold letter, decimal. intros H. repeat split; intros ->; vm_compute in H; destruct H as [[[A B]|[A B]]|[A B]]; congruence. Qed.
Lemma decimal_not_colon b : decimal b -> b <> ":"%byte.
Proof. intros H. apply alnum_byte_not. now right. Qed.
Lemma before_author st o x : stamp st -> Forall (fun b => letter b \/ decimal b) o -> before st (o ++ ":"%byte :: x) = o ++ ":"%byte :: before st x.
Proof.
  intros St F. assert (K : forall u, Forall (fun b => letter b \/ decimal b) u -> has_prefix st (u ++ ":"%byte :: x) = false).
  { intros u U. destruct (has_prefix st (u ++ ":"%byte :: x)) eqn:P; [|reflexivity]. exfalso. apply has_prefix_iff in P as (r & E).
    destruct St as (a & b & c & d & sp & e & f & g & h & -> & D & _). inversion D as [|? ? Da D2]; inversion D2 as [|? ? Db _]; subst. cbn [app] in E.
    destruct u as [|u1 [|u2 [|u3 u]]]; cbn [app] in E; injection E; intros; subst.
    - now apply (decimal_not_colon _ Da).
    - now apply (decimal_not_colon _ Db).
    - discriminate.
    - inversion U as [|? ? _ U2]; inversion U2 as [|? ? _ U3]; inversion U3 as [|? ? Hu _]; subst. destruct (alnum_byte_not _ Hu) as [Q _]; now apply Q. }
  induction F as [|b o B F IH]; cbn [app before].
  - specialize (K [] (Forall_nil _)). cbn [app] in K. now rewrite K.
  - specialize (K (b :: o) (Forall_cons _ B F)). cbn [app] in K. now rewrite K, IH.
Qed.
Lemma author_alnum o : author o -> Forall (fun b => letter b \/ decimal b) o.
Proof. intros (l & r & -> & L & _ & F). constructor; [now left|exact F]. Qed.
Lemma author_no_colon o : author o -> ~ In ":"%byte o.
Proof. intros A H. apply author_alnum in A. rewrite Forall_forall in A. specialize (A _ H). exact (proj1 (proj2 (alnum_byte_not _ A)) eq_refl). Qed.
Lemma later_pieces_spec ps : later_pieces ps = concat (map (fun t => t ++ str ":") (map TrimSpace ps)).
Proof. induction ps as [|p ps IH]; [reflexivity|]. cbn [later_pieces map concat]. rewrite IH. now rewrite <- app_assoc. Qed.
Lemma trims ps ts : Forall2 trimmed ps ts <-> ts = map TrimSpace ps.
Proof.
  split.
  - induction 1 as [|p t ps ts T _ IH]; [reflexivity|]. cbn [map]. rewrite IH. f_equal. symmetry. now apply TrimSpace_spec.
  - intros ->. induction ps as [|p ps IH]; constructor; [now apply TrimSpace_spec|exact IH].
Qed.
Lemma reported_spec o mid st txt : author o -> stamp st ->
  comment_text (split_on ":" (before st (o ++ ":"%byte :: mid ++ st))) = txt <-> reported mid st txt.
Proof.
  intros A St. rewrite (before_author st o (mid ++ st) St (author_alnum o A)). rewrite (split_app ":" o _ (author_no_colon o A)). unfold comment_text. cbn [tl].
  assert (FP : first_part st (mid ++ st) (before st (mid ++ st))) by (apply before_first; exists mid, []; now rewrite app_nil_r).
  destruct (split_on ":" (before st (mid ++ st))) as [|p ps] eqn:E; [now apply split_nonempty in E|]. rewrite later_pieces_spec. split.
  - intros <-. exists (before st (mid ++ st)), p, ps, (TrimSpace p), (map TrimSpace ps). split; [exact FP|]. split; [apply cuts_split; now symmetry|]. split; [now apply TrimSpace_spec|]. split; [now apply trims|reflexivity].
  - intros (body & p' & ps' & tp & tps & FP' & C & Tp & Tps & ->). rewrite <- (first_part_fun _ _ _ _ FP FP') in C. apply cuts_split in C. rewrite E in C. injection C as -> ->.
    apply trims in Tps. apply TrimSpace_spec in Tp. now rewrite <- Tp, Tps.
Qed.
Lemma found_fun d o m st o' m' st' : found d o m st -> found d o' m' st' -> o = o' /\ m = m' /\ st = st'.
Proof.
  intros (pre & post & R & L & M) (pre' & post' & R' & L' & M'). pose proof (L _ _ _ _ _ R') as L1. pose proof (L' _ _ _ _ _ R) as L2.
  assert (pre = pre').
  { destruct R as [E _], R' as [E' _]. rewrite E in E'. apply two_prefixes in E' as [(d' & -> & _)|(d' & N & -> & _)].
    - rewrite app_length in *. destruct d'; [now rewrite app_nil_r|cbn in *; lia].
    - rewrite app_length in *. destruct d'; [contradiction|cbn in *; lia]. }
  subst pre'. assert (o = o').
  { destruct R as (E & A & _), R' as (E' & A' & _). rewrite E in E'. apply app_inv_head in E'.
    destruct (split_first' (fun b => b = ":"%byte) o ":"%byte _ o' ":"%byte _ E') as (-> & _ & _); auto; intros b B ->; [now apply (author_no_colon o)|now apply (author_no_colon o')]. }
  subst o'. pose proof (M _ _ _ R') as M1. pose proof (M' _ _ _ R) as M2. destruct R as (E & A & _ & St), R' as (E' & A' & _ & St'). rewrite E in E'. apply app_inv_head in E'. apply app_inv_head in E'. injection E' as E'.
  assert (m = m').
  { apply two_prefixes in E' as [(d' & -> & _)|(d' & N & -> & _)].
    - rewrite app_length in *. destruct d'; [now rewrite app_nil_r|cbn in *; lia].
    - rewrite app_length in *. destruct d'; [contradiction|cbn in *; lia]. }
  subst m'. apply app_inv_head in E'. split; [reflexivity|]. split; [reflexivity|].
  apply stamp_len in St, St'. apply two_prefixes in E' as [(d' & -> & _)|(d' & N & -> & _)].
  - rewrite app_length in *. destruct d'; [now rewrite app_nil_r|cbn in *; lia].
  - rewrite app_length in *. destruct d'; [contradiction|cbn in *; lia].
Qed.
Lemma found_author d o m st : found d o m st -> author o /\ stamp st.
Proof. intros (pre & post & (_ & A & _ & St) & _). now split. Qed.
Lemma found_not_none d o m st : found d o m st -> ~ no_comment d.
Proof. intros (pre & post & R & _) N. exact (N _ _ _ _ _ R). Qed.

(** What parsing a line answers, in every case. *)
Lemma parse_cases d :
  (no_comment d /\ parseUserComment d = Err ENotUserComment) \/
  (exists o m st, found d o m st /\
    ((exists t, spells_short st t /\ parseUserComment d = Ok (o, t, comment_text (split_on ":" (before st (o ++ ":"%byte :: m ++ st))))) \/
     ((forall t, ~ spells_short st t) /\ parseUserComment d = Err EBadTime))).
Proof.
  unfold parseUserComment. pose proof (find_found d) as F. destruct (FindStringSubmatch userCommentPattern d) as [[whole g]|]; [|left; now split].
  right. destruct F as (m & F & ->). exists (g 1%nat), m, (g 2%nat). split; [exact F|]. destruct (found_author _ _ _ _ F) as [(l & r & Eo & _) _].
  destruct (Parse layout_comment (g 2%nat)) as [t|] eqn:P.
  - left. exists t. split; [now apply Parse_short|]. rewrite Eo. reflexivity.
  - right. split; [intros t T; apply Parse_short in T; congruence|]. now rewrite Eo.
Qed.
Theorem C29_parse_exact d o t txt :
  parseUserComment d = Ok (o, t, txt) <-> exists m st, found d o m st /\ spells_short st t /\ reported m st txt.
Proof.
  split.
  - intros H. destruct (parse_cases d) as [[_ E]|(o' & m & st & F & [(t' & T & E)|[_ E]])]; rewrite E in H; try discriminate H. injection H as -> -> H.
    exists m, st. split; [exact F|]. split; [exact T|]. destruct (found_author _ _ _ _ F) as [A St]. now apply (reported_spec o m st txt A St).
  - intros (m & st & F & T & R). destruct (parse_cases d) as [[N _]|(o' & m' & st' & F' & K)]; [now apply found_not_none in F|].
    destruct (found_fun _ _ _ _ _ _ _ F F') as (<- & <- & <-). destruct K as [(t' & T' & E)|[N _]]; [|now apply N in T]. rewrite E.
    destruct (found_author _ _ _ _ F) as [A St]. apply (reported_spec o m st txt A St) in R. rewrite R. apply Parse_short in T, T'. rewrite T in T'. now injection T' as ->.
Qed.
Print Assumptions C29_parse_exact.
(** Malformed lines are reported as such, and nothing else happens. *)
Theorem C29_not_a_comment d : parseUserComment d = Err ENotUserComment <-> no_comment d.
Proof.
  split.
  - intros H. destruct (parse_cases d) as [[N _]|(o' & m & st & F & [(t' & T & E)|[_ E]])]; [exact N| |]; rewrite E in H; discriminate H.
  - intros N. destruct (parse_cases d) as [[_ E]|(o' & m & st & F & _)]; [exact E|]. now apply found_not_none in F.
Qed.
Print Assumptions C29_not_a_comment.
Theorem C29_other_answers d :
  (exists o t txt, parseUserComment d = Ok (o, t, txt)) \/ parseUserComment d = Err ENotUserComment \/
  (parseUserComment d = Err EBadTime /\ exists o m st, found d o m st /\ forall t, ~ spells_short st t).
Proof.
  destruct (parse_cases d) as [[_ E]|(o' & m & st & F & [(t' & T & E)|[N E]])]; [right; left; exact E|left; rewrite E; eauto|right; right]. split; [exact E|]. eauto.
Qed.
Print Assumptions C29_other_answers.

(** ** A line made of a mark, an author, a colon, a text, a stamp and something behind *)
Lemma app_last_case {A} (l : list A) : l = [] \/ exists l' x, l = l' ++ [x].
Proof. destruct l using rev_ind; [now left|right; eauto]. Qed.
Lemma line_found mk o txt st post : mark mk -> author o -> ~ In x0a txt -> stamp st -> ~ In "/"%byte post ->
  found (mk ++ o ++ ":"%byte :: txt ++ st ++ post) o txt st.
Proof.
  intros [Mk1 Mk2] A NN St NP. exists mk, post. split; [split; [reflexivity|]; now repeat split|]. split.
  - intros pre' o' m' st' post' (E & A' & _). destruct (le_lt_dec (length mk) (length pre')) as [G|G]; [exact G|]. exfalso.
    apply two_prefixes in E as [(d & -> & _)|(d & N & -> & E)]; [rewrite app_length in G; lia|].
    (* the author read would be the end of the mark and the author *)
    destruct (app_last_case d) as [->|(d' & y & ->)]; [contradiction|]. apply (Mk2 (pre' ++ d') y); [now rewrite app_assoc|].
    assert (In y o').
    { destruct (split_first' (fun b => b = ":"%byte) o' ":"%byte _ ((d' ++ [y]) ++ o) ":"%byte (txt ++ st ++ post) (eq_trans E (app_assoc _ _ _))) as (-> & _ & _); auto.
      - intros b B ->. now apply (author_no_colon o').
      - intros b B ->. apply in_app_or in B as [B|B]; [apply Mk1; apply in_or_app; now right|now apply (author_no_colon o)].
      - rewrite !in_app_iff. left. right. now left. }
    apply author_alnum in A'. rewrite Forall_forall in A'. now apply A'.
  - intros m' st' post' (E & _ & _ & St'). apply app_inv_head in E. apply app_inv_head in E. injection E as E.
    destruct (le_lt_dec (length m') (length txt)) as [G|G]; [exact G|]. exfalso.
    apply two_prefixes in E as [(d & -> & E)|(d & N & -> & _)]; [|rewrite app_length in G; lia]. rewrite app_length in G. destruct d as [|d0 d]; [cbn in G; lia|].
    assert (N1 : nth_error (st ++ post) (S (length d) + 2) = Some "/"%byte).
    { rewrite E. rewrite nth_error_app2 by (cbn [length]; lia). replace (S (length d) + 2 - length (d0 :: d))%nat with 2%nat by (cbn [length]; lia). destruct St' as (? & ? & ? & ? & ? & ? & ? & ? & ? & -> & _). reflexivity. }
    destruct (le_lt_dec (length st) (S (length d) + 2)) as [G2|G2].
    + rewrite nth_error_app2 in N1 by exact G2. apply nth_error_In in N1. contradiction.
    + rewrite nth_error_app1 in N1 by exact G2. destruct St as (a & b & c & e & sp & f & g & h & i & -> & D & B). cbn [length] in G2. 
      repeat match goal with H : Forall decimal (_ :: _) |- _ => apply Forall_cons_iff in H as [? H] end.
      assert (Z : forall x, decimal x -> x <> "/"%byte) by (intros x X; now apply alnum_byte_not; right).
      assert (ZB : sp <> "/"%byte) by (intros ->; unfold blank in B; vm_compute in B; repeat (destruct B as [B|B]; [discriminate B|]); exact B).
      do 8 (destruct d as [|? d]; [cbn in N1; injection N1 as N1; try discriminate N1; try contradiction; revert N1; apply Z; assumption|]). cbn [length] in G2. lia.
Qed.
Lemma only_first txt st j c : nth_error st j = Some c -> (forall k, nth_error st k = Some c -> k = j) -> ~ In c txt -> first_part st (txt ++ st) txt.
Proof.
  intros J U NC. split; [exists []; now rewrite app_nil_r|]. intros b r E. destruct (le_lt_dec (length txt) (length b)) as [G|G]; [exact G|]. exfalso.
  assert (Lj : (j < length st)%nat) by (apply nth_error_Some; congruence).
  assert (N1 : nth_error (txt ++ st) (length b + j) = Some c).
  { rewrite E. rewrite nth_error_app2 by lia. replace (length b + j - length b)%nat with j by lia. now rewrite nth_error_app1. }
  destruct (le_lt_dec (length txt) (length b + j)) as [G2|G2].
  - rewrite nth_error_app2 in N1 by exact G2. apply U in N1. lia.
  - rewrite nth_error_app1 in N1 by exact G2. apply nth_error_In in N1. contradiction.
Qed.
Lemma stamp_marks st : stamp st -> (nth_error st 8 = Some ":"%byte /\ forall k, nth_error st k = Some ":"%byte -> k = 8%nat) /\
  (nth_error st 2 = Some "/"%byte /\ forall k, nth_error st k = Some "/"%byte -> k = 2%nat).
Proof.
  intros (a & b & c & e & sp & f & g & h & i & -> & D & B).
  repeat match goal with H : Forall decimal (_ :: _) |- _ => apply Forall_cons_iff in H as [? H] end.
  assert (ZB : sp <> ":"%byte /\ sp <> "/"%byte) by (split; intros ->; unfold blank in B; vm_compute in B; repeat (destruct B as [B|B]; [discriminate B|]); exact B). destruct ZB as [Z1 Z2].
  assert (Z : forall x, decimal x -> x <> "/"%byte /\ x <> ":"%byte) by (intros x X; split; now apply alnum_byte_not; right).
  split; (split; [reflexivity|]); intros k N1;
  do 11 (destruct k as [|k]; [cbn in N1; try reflexivity; try discriminate N1; injection N1 as N1; try discriminate N1; try contradiction; exfalso; revert N1; apply Z; assumption|]); destruct k; discriminate N1.
Qed.
(** The headline: mark, author, colon, text without colons and newlines, stamp. *)
Theorem C29_line_parsed_partial mk o txt st post t tt :
  mark mk -> author o -> ~ In ":"%byte txt -> ~ In x0a txt -> stamp st -> ~ In "/"%byte post -> spells_short st t -> trimmed txt tt ->
  parseUserComment (mk ++ o ++ ":"%byte :: txt ++ st ++ post) = Ok (o, t, tt).
Proof.
  intros Mk A NC NN St NP T Tt. apply C29_parse_exact. exists txt, st. split; [now apply line_found|]. split; [exact T|]. destruct (stamp_marks st St) as [[S1 S2] _].
  exists txt, txt, [], tt, []. split; [now apply (only_first txt st 8 ":"%byte)|]. split; [split; [discriminate|]; split; [reflexivity|]; constructor; [exact NC|constructor]|]. split; [exact Tt|]. split; [constructor|]. cbn. now rewrite app_nil_r.
Qed.
Print Assumptions C29_line_parsed_partial.
(** With colons in the text the parts are run together and each colon moves behind the
    part that follows it. *)
Theorem C29_text_with_colons mk o txt st post t p ps tp tps :
  mark mk -> author o -> ~ In "/"%byte txt -> ~ In x0a txt -> stamp st -> ~ In "/"%byte post -> spells_short st t ->
  cuts ":" txt (p :: ps) -> trimmed p tp -> Forall2 trimmed ps tps ->
  parseUserComment (mk ++ o ++ ":"%byte :: txt ++ st ++ post) = Ok (o, t, tp ++ concat (map (fun t => t ++ str ":") tps)).
Proof.
  intros Mk A NC NN St NP T C Tp Tps. apply C29_parse_exact. exists txt, st. split; [now apply line_found|]. split; [exact T|]. destruct (stamp_marks st St) as [_ [S1 S2]].
  exists txt, p, ps, tp, tps. split; [now apply (only_first txt st 2 "/"%byte)|]. repeat split; assumption || apply C.
Qed.
Print Assumptions C29_text_with_colons.

Definition push := map n2b [0xE6; 0x8E; 0xA8; 0x20].          (* a mark *)
Definition the_stamp := str "05/15 01:06".
Definition the_time : time := Time 0 5 15 1 6 0 0.
Lemma push_mark : mark push.
Proof.
  split; [intros H; vm_compute in H; repeat (destruct H as [H|H]; [discriminate H|]); exact H|]. intros a b E. change push with (map n2b [0xE6; 0x8E; 0xA8] ++ [" "%byte]) in E. apply app_inj_tail in E as [_ <-].
  unfold letter, decimal. cbn. lia.
Qed.
Lemma pichu_author : author (str "pichu").
Proof. exists "p"%byte, (str "ichu"). split; [reflexivity|]. split; [unfold letter; cbn; lia|]. split; [discriminate|]. repeat (constructor; [left; unfold letter; cbn; lia|]). constructor. Qed.
Lemma the_stamp_ok : stamp the_stamp /\ spells_short the_stamp the_time.
Proof.
  split; [|apply Parse_short; vm_compute; reflexivity]. do 9 eexists. split; [reflexivity|]. split; [repeat (constructor; [unfold decimal; cbn; lia|]); constructor|]. unfold blank. cbn. tauto.
Qed.
(** Colons in the text are misplaced. *)
Theorem C29_colon_refuted : exists mk o txt st t tt, mark mk /\ author o /\ ~ In x0a txt /\ stamp st /\ spells_short st t /\ trimmed txt tt /\
  exists tt', parseUserComment (mk ++ o ++ ":"%byte :: txt ++ st) = Ok (o, t, tt') /\ tt' <> tt.
Proof.
  exists push, (str "pichu"), (str " 9:30 sharp "), the_stamp, the_time, (str "9:30 sharp"). split; [exact push_mark|]. split; [exact pichu_author|]. split; [intros H; vm_compute in H; repeat (destruct H as [H|H]; [discriminate H|]); exact H|].
  split; [apply the_stamp_ok|]. split; [apply the_stamp_ok|]. split; [apply TrimSpace_spec; vm_compute; reflexivity|]. exists (str "930 sharp:"). split; [vm_compute; reflexivity|discriminate].
Qed.
Print Assumptions C29_colon_refuted.
(** A text that mentions its own time is cut there. *)
Theorem C29_repeated_stamp_refuted : exists mk o txt st t tt, mark mk /\ author o /\ ~ In x0a txt /\ stamp st /\ spells_short st t /\ trimmed txt tt /\
  exists tt', parseUserComment (mk ++ o ++ ":"%byte :: txt ++ st) = Ok (o, t, tt') /\ (length tt' < length tt)%nat.
Proof.
  exists push, (str "pichu"), (str " since 05/15 01:06 I wait "), the_stamp, the_time, (str "since 05/15 01:06 I wait"). split; [exact push_mark|]. split; [exact pichu_author|]. split; [intros H; vm_compute in H; repeat (destruct H as [H|H]; [discriminate H|]); exact H|].
  split; [apply the_stamp_ok|]. split; [apply the_stamp_ok|]. split; [apply TrimSpace_spec; vm_compute; reflexivity|]. exists (str "since"). split; [vm_compute; reflexivity|cbn; lia].
Qed.
Print Assumptions C29_repeated_stamp_refuted.
(** An id of one letter is not recognised. *)
Theorem C29_one_letter_refuted : exists mk txt st t, mark mk /\ stamp st /\ spells_short st t /\ parseUserComment (mk ++ str "a" ++ ":"%byte :: txt ++ st) = Err ENotUserComment.
Proof. exists push, (str " hi "), the_stamp, the_time. split; [exact push_mark|]. split; [apply the_stamp_ok|]. split; [apply the_stamp_ok|]. vm_compute. reflexivity. Qed.
Print Assumptions C29_one_letter_refuted.
(** Reading and recording a comment keeps order, board and file name. *)
Theorem C29_record order data board filename c :
  NewUserCommentRecord order data board filename = Ok c <->
  uc_order c = order /\ uc_board c = board /\ uc_file c = filename /\ uc_ip c = [] /\ parseUserComment data = Ok (uc_owner c, uc_time c, uc_text c).
Proof.
  unfold NewUserCommentRecord. destruct (parseUserComment data) as [[[o t] x]|e| |]; split; try discriminate; try (intros (_ & _ & _ & _ & Q); discriminate Q).
  - intros [= <-]. cbn. repeat split.
  - destruct c as [c1 c2 c3 c4 c5 c6 c7]. cbn. intros (-> & -> & -> & -> & [= -> -> ->]). reflexivity.
Qed.
Print Assumptions C29_record.
Example C29_nonvacuous :
  mark push /\ author (str "pichu") /\ ~ In ":"%byte (str " hello, world/ ") /\ ~ In x0a (str " hello, world/ ") /\ stamp the_stamp /\ ~ In "/"%byte (str "  ") /\ spells_short the_stamp the_time /\
  trimmed (str " hello, world/ ") (str "hello, world/") /\
  parseUserComment (push ++ str "pichu" ++ ":"%byte :: str " hello, world/ " ++ the_stamp ++ str "  ") = Ok (str "pichu", the_time, str "hello, world/") /\
  parseUserComment (str "just a line: 12/31") = Err ENotUserComment /\
  parseUserComment (str "pichu: x 13/01 00:00") = Err EBadTime.
Proof.
  assert (N : forall b s, existsb (Byte.eqb b) s = false -> ~ In b s).
  { intros b s E H. assert (existsb (Byte.eqb b) s = true) by (apply existsb_exists; exists b; split; [exact H|now apply byte_eqb_eq]). congruence. }
  split; [exact push_mark|]. split; [exact pichu_author|]. split; [now apply N|]. split; [now apply N|]. split; [apply the_stamp_ok|]. split; [now apply N|]. split; [apply the_stamp_ok|].
  split; [apply TrimSpace_spec; vm_compute; reflexivity|]. repeat split; vm_compute; reflexivity.
Qed.
