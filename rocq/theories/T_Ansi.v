(** * C28: stripping control sequences *)
From Coq Require Import Lia ZifyBool ZifyNat ZifyN.
From Verif Require Import M_Base M_Utf8 M_Regex M_Comment P_Base P_Text P_Utf8 P_Regex S_Ansi P_Ansi.
Open Scope N_scope.

(** The result is the text read from the left with the longest control sequence dropped
    wherever one starts. *)
Theorem C28_exact s t : FilterStringANSI s = t <-> filtered s t.
Proof. apply filter_spec. Qed.
Print Assumptions C28_exact.

Lemma subsequence_skip c t s : subsequence t s -> subsequence t (c ++ s).
Proof. intros H. induction c as [|b c IH]; [exact H|]. cbn [app]. now constructor. Qed.
Theorem C28_subsequence s : subsequence (FilterStringANSI s) s.
Proof.
  assert (F : filtered s (FilterStringANSI s)) by now apply filter_spec. induction F as [|c s t _ _ _ IH|b s t _ _ IH]; [constructor|now apply subsequence_skip|now constructor].
Qed.
Print Assumptions C28_subsequence.

Lemma control_intro c : control c -> exists i r, c = i ++ r /\ introducer i.
Proof. intros (i & p & q & e & -> & Hi & _). eauto. Qed.
Lemma no_intro_tail b s : no_intro (b :: s) -> no_intro s.
Proof. intros [A B]. split; [intros H; apply A; now right|]. intros a c E. apply (B (b :: a) c). cbn [app]. now rewrite E. Qed.
Lemma keep_plain s u t : no_intro s -> filtered u t -> (forall b v, u = b :: v -> b <> x9b) -> filtered (s ++ u) (s ++ t).
Proof.
  intros N F G. induction s as [|b s IH]; [exact F|]. cbn [app]. apply FKeep; [|apply IH; exact (no_intro_tail _ _ N)].
  intros c s' E K. destruct (control_intro c K) as (i & r & -> & [-> | ->]); cbn [app] in E; injection E as -> E.
  - apply (proj1 N). now left.
  - destruct s as [|b2 s]; cbn [app] in E.
    + exact (G _ _ E eq_refl).
    + injection E as -> E. now apply (proj2 N [] s).
Qed.
(** A text without ESC and without U+009B is returned unchanged. *)
Theorem C28_plain_unchanged s : no_intro s -> FilterStringANSI s = s.
Proof.
  intros N. apply filter_spec. pose proof (keep_plain s [] [] N FNil) as K. rewrite app_nil_r in K. apply K. intros b v Q. discriminate Q.
Qed.
Print Assumptions C28_plain_unchanged.

Lemma colour_split n ns : number 0 n -> Forall (number 0) ns -> exists p q, n ++ concat (map (fun m => ";"%byte :: m) ns) = p ++ q /\ Forall punctuation p /\ parameters q.
Proof.
  intros N M. revert n N. induction M as [|m ns Hm M IH]; intros n N.
  - exists [], n. split; [cbn; apply app_nil_r|]. split; [constructor|]. destruct n as [|d n]; [now left|]. right. exists (d :: n), []. split; [cbn; now rewrite app_nil_r|].
    destruct N as [N1 N2]. split; [split; [cbn in *; lia|exact N2]|constructor].
  - destruct n as [|d n].
    + destruct (IH m Hm) as (p & q & E & P & Q). exists (";"%byte :: p), q. cbn [app map concat]. rewrite E. split; [reflexivity|]. split; [|exact Q]. constructor; [|exact P]. unfold punctuation. cbn. tauto.
    + exists [], (d :: n ++ concat (map (fun m => ";"%byte :: m) (m :: ns))). split; [reflexivity|]. split; [constructor|]. right. exists (d :: n), (m :: ns). split; [reflexivity|].
      destruct N as [N1 N2]. split; [split; [cbn in *; lia|exact N2]|now constructor].
Qed.
Lemma colour_control c : colour c -> control c.
Proof.
  intros (n & ns & -> & N & M). destruct (colour_split n ns N M) as (p & q & E & P & Q). rewrite E. exists [x1b], ("["%byte :: p), q, "m"%byte. split; [cbn [app str]; now rewrite <- !app_assoc|].
  split; [now left|]. split; [constructor; [unfold punctuation; cbn; tauto|exact P]|]. right. split; [|exact Q]. unfold final. right. right. left. cbn. lia.
Qed.
Definition quiet (b : byte) : Prop := punctuation b \/ decimal b.
Lemma params_quiet q : parameters q -> Forall quiet q.
Proof.
  assert (D : forall n, Forall decimal n -> Forall quiet n) by (intros n; apply Forall_impl; intros b; now right).
  intros [->|(n & ns & -> & [_ N] & M)]; [constructor|]. apply Forall_app. split; [now apply D|]. apply Forall_concat. rewrite Forall_map. refine (Forall_impl _ _ M).
  intros m [_ Dm]. constructor; [left; unfold punctuation; cbn; tauto|now apply D].
Qed.
Lemma quiet_not_m : ~ quiet "m"%byte.
Proof. intros [H|H]; [unfold punctuation in H; cbn in H; repeat (destruct H as [H|H]; [discriminate H|]); exact H|unfold decimal in H; cbn in H; lia]. Qed.
Lemma colour_longest c s c' s' : colour c -> ~ In x07 (c ++ s) -> c ++ s = c' ++ s' -> control c' -> (length c' <= length c)%nat.
Proof.
  intros Cc NB E K. assert (NB' : ~ In x07 c') by (intros H; apply NB; rewrite E; apply in_or_app; now left).
  apply two_prefixes in E as [(d & Ed & _)|(d & _ & -> & _)]; [|rewrite app_length; lia].
  destruct d as [|y d]; [rewrite Ed, app_nil_r; lia|]. exfalso. destruct Cc as (n & ns & -> & N & M). remember (n ++ _) as u eqn:Hu. clear Hu.
  destruct K as (i & p & q & e & Ec & Hi & Hp & [[-> _]|[_ Kq]]).
  - apply NB'. rewrite Ec. rewrite !in_app_iff. right. right. right. now left.
  - rewrite Ed in Ec. destruct Hi as [-> | ->]; cbn [app] in Ec; [|discriminate Ec]. injection Ec as Ec.
    apply quiet_not_m. assert (Q : Forall quiet (p ++ q)).
    { apply Forall_app. split; [refine (Forall_impl _ _ Hp); intros b; now left|now apply params_quiet]. }
    assert (R : removelast (("["%byte :: u ++ str "m") ++ y :: d) = p ++ q).
    { cbn [app]. rewrite Ec, app_assoc. apply removelast_last. }
    rewrite removelast_app in R by discriminate. rewrite Forall_forall in Q. apply Q. rewrite <- R. apply in_or_app. left. right. apply in_or_app. right. now left.
Qed.
Lemma colour_no_bell c : colour c -> ~ In x07 c.
Proof.
  intros (n & ns & -> & N & M) [H|[H|H]]; [discriminate H|discriminate H|]. apply in_app_or in H as [H|[H|[]]]; [|discriminate H].
  destruct (colour_split n ns N M) as (p & q & E & P & Q). rewrite E in H. apply params_quiet in Q. apply in_app_or in H as [H|H].
  - rewrite Forall_forall in P. specialize (P _ H). unfold punctuation in P. cbn in P. repeat (destruct P as [P|P]; [discriminate P|]). exact P.
  - rewrite Forall_forall in Q. destruct (Q _ H) as [Z|Z]; [unfold punctuation in Z; cbn in Z; repeat (destruct Z as [Z|Z]; [discriminate Z|]); exact Z|unfold decimal in Z; cbn in Z; lia].
Qed.
(** A text made of plain pieces and colour sequences loses exactly the colour sequences. *)
Theorem C28_colours_removed l last :
  Forall (fun p => plain (fst p) /\ colour (snd p)) l -> plain last ->
  FilterStringANSI (coloured l last) = concat (map fst l) ++ last.
Proof.
  intros F P. apply filter_spec. unfold coloured. induction F as [|[p c] l [Hp Hc] F IH]; cbn [map concat fst snd app].
  - destruct P as (A & _ & B). pose proof (keep_plain last [] [] (conj A B) FNil) as K. rewrite app_nil_r in K. apply K. intros b v Q. discriminate Q.
  - cbn [fst snd] in Hp, Hc. rewrite <- !app_assoc. apply keep_plain; [split; apply Hp| |].
    + apply FDrop; [now apply colour_control| |exact IH]. intros c' s' E K. refine (colour_longest _ _ _ _ Hc _ E K).
      rewrite in_app_iff. intros [H|H]; [now apply (colour_no_bell c)|]. apply in_app_or in H as [H|H]; [|now apply P].
      apply in_concat in H as (x & X & H). apply in_map_iff in X as (pc & <- & X). rewrite Forall_forall in F. destruct (F _ X) as [F1 F2]. apply in_app_or in H as [H|H]; [now apply F1|].
      now apply (colour_no_bell (snd pc)).
    + destruct Hc as (n & ns & -> & _). intros b v [= <- _]. discriminate.
Qed.
Print Assumptions C28_colours_removed.

(** Stripping again changes nothing when no introducer was left ... *)
Theorem C28_idempotent_partial s : no_intro (FilterStringANSI s) -> FilterStringANSI (FilterStringANSI s) = FilterStringANSI s.
Proof. apply C28_plain_unchanged. Qed.
Print Assumptions C28_idempotent_partial.
Lemma no_intro_concat l last : Forall (fun p : bytes * bytes => plain (fst p) /\ colour (snd p)) l -> plain last ->
  (forall p b v, In p l -> fst p = b :: v -> b <> x9b) -> (forall b v, last = b :: v -> b <> x9b) -> no_intro (concat (map fst l) ++ last).
Proof.
  intros F P G GL. assert (K : no_intro (concat (map fst l) ++ last) /\ forall b v, concat (map fst l) ++ last = b :: v -> b <> x9b).
  { induction F as [|[p c] l [Hp _] F IH]; cbn [map concat fst app].
    - split; [split; apply P|exact GL].
    - destruct IH as [[I1 I2] I3]; [intros q b v Q; apply G; now right|]. cbn [fst] in Hp. rewrite <- app_assoc. remember (concat (map fst l) ++ last) as u eqn:Hu. clear Hu.
      destruct Hp as (A & _ & B). split; [split|].
      + rewrite in_app_iff. tauto.
      + intros a b E. apply two_prefixes in E as [(d & -> & E)|(d & N & -> & E)]; [exact (I2 _ _ E)|]. destruct d as [|d0 [|d1 d]]; [contradiction| |].
        * injection E as <- E. exact (I3 _ _ (eq_sym E) eq_refl).
        * injection E as <- <- _. exact (B a d eq_refl).
      + intros b v. destruct p as [|b0 p]; cbn [app]; [apply I3|]. intros [= <- _]. apply (G (b0 :: p, c) b0 p); [now left|reflexivity]. }
  apply K.
Qed.
(** ... so for coloured text whose pieces are valid UTF-8 it never does. *)
Theorem C28_coloured_idempotent_partial l last :
  Forall (fun p => plain (fst p) /\ colour (snd p)) l -> plain last ->
  (forall p b v, In p l -> fst p = b :: v -> b <> x9b) -> (forall b v, last = b :: v -> b <> x9b) ->
  let t := FilterStringANSI (coloured l last) in FilterStringANSI t = t.
Proof.
  intros F P G GL. cbv zeta. apply C28_idempotent_partial. rewrite (C28_colours_removed l last F P). now apply no_intro_concat.
Qed.
Print Assumptions C28_coloured_idempotent_partial.
(** In general it does: "ESC ESC [ m [ m". *)
Theorem C28_idempotent_refuted : exists s, FilterStringANSI (FilterStringANSI s) <> FilterStringANSI s.
Proof. exists (map n2b [27; 27; 91; 109; 91; 109]). vm_compute. discriminate. Qed.
Print Assumptions C28_idempotent_refuted.
(** A bell later in the text swallows the letters up to it. *)
Theorem C28_bell_eats_text_refuted : exists c p, colour c /\ no_intro p /\ FilterStringANSI (c ++ p) = [] /\ p <> [].
Proof.
  exists (x1b :: str "[1m"), (str "HELLO" ++ [x07]). split.
  - exists (str "1"), []. split; [reflexivity|]. split; [split; [cbn; lia|repeat constructor; vm_compute; discriminate]|constructor].
  - split; [split; [intros H; vm_compute in H; repeat (destruct H as [H|H]; [discriminate H|]); exact H|]|split; [vm_compute; reflexivity|discriminate]].
    intros a b E. assert (I : In xc2 (str "HELLO" ++ [x07])) by (rewrite E; apply in_or_app; right; now left). vm_compute in I. repeat (destruct I as [I|I]; [discriminate I|]). exact I.
Qed.
Print Assumptions C28_bell_eats_text_refuted.
(** A number of five digits ends the sequence early, leaving the "m". *)
Example C28_five_digits : FilterStringANSI (x1b :: str "[12345mred") = str "mred".
Proof. vm_compute. reflexivity. Qed.
Example C28_nonvacuous :
  let l := [(str "a[1;", x1b :: str "[1;31m"); (map n2b [0xE6; 0xB8; 0xAC], x1b :: str "[;;m")] in let last := str "end m" in
  (Forall (fun p => plain (fst p) /\ colour (snd p)) l /\ plain last) /\
  FilterStringANSI (coloured l last) = str "a[1;" ++ map n2b [0xE6; 0xB8; 0xAC] ++ str "end m" /\
  no_intro (FilterStringANSI (coloured l last)).
Proof.
  assert (D : forall s, forallb (fun b => negb (Byte.eqb b x1b) && negb (Byte.eqb b x07) && negb (Byte.eqb b xc2)) s = true -> plain s).
  { intros s H. rewrite forallb_forall in H. unfold plain. split; [|split].
    - intros I. specialize (H _ I). discriminate H.
    - intros I. specialize (H _ I). discriminate H.
    - intros a b E. assert (I : In xc2 s) by (rewrite E; apply in_or_app; right; now left). specialize (H _ I). discriminate H. }
  cbv zeta. split; [split|split].
  - constructor; [|constructor; [|constructor]]; cbn [fst snd]; (split; [apply D; reflexivity|]).
    + exists (str "1"), [str "31"]. split; [reflexivity|]. split; [split; [cbn; lia|repeat constructor; vm_compute; discriminate]|]. constructor; [split; [cbn; lia|repeat constructor; vm_compute; discriminate]|constructor].
    + exists [], [[]; []]. split; [reflexivity|]. split; [split; [cbn; lia|constructor]|]. constructor; [split; [cbn; lia|constructor]|]. constructor; [split; [cbn; lia|constructor]|constructor].
  - apply D. reflexivity.
  - vm_compute. reflexivity.
  - assert (P : plain (FilterStringANSI (coloured [(str "a[1;", x1b :: str "[1;31m"); (map n2b [0xE6; 0xB8; 0xAC], x1b :: str "[;;m")] (str "end m")))) by (apply D; vm_compute; reflexivity).
    split; apply P.
Qed.
