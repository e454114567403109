(** * Trimming white space *)
From Coq Require Import Lia ZifyBool ZifyNat ZifyN.
From Verif Require Import M_Base M_Utf8 S_Utf8 P_Base P_Text.
Open Scope N_scope.

Lemma white_spaces w : white w <-> In w spaces.
Proof.
  split.
  - destruct 1 as [n H|n H| |n H|n H| |].
    + assert (C : n = 9 \/ n = 10 \/ n = 11 \/ n = 12 \/ n = 13 \/ n = 32) by lia. decompose [or] C; subst; vm_compute; tauto.
    + destruct H; subst; vm_compute; tauto.
    + vm_compute; tauto.
    + assert (C : n = 0x80 \/ n = 0x81 \/ n = 0x82 \/ n = 0x83 \/ n = 0x84 \/ n = 0x85 \/ n = 0x86 \/ n = 0x87 \/ n = 0x88 \/ n = 0x89 \/ n = 0x8A) by lia.
      decompose [or] C; subst; vm_compute; tauto.
    + decompose [or] H; subst; vm_compute; tauto.
    + vm_compute; tauto.
    + vm_compute; tauto.
  - unfold spaces. rewrite in_app_iff, !in_map_iff. intros [(n & <- & H)|(l & <- & H)].
    + apply WAscii. cbn [In] in H. lia.
    + cbn [In] in H. repeat destruct H as [H|H]; try contradiction; subst l;
        first [apply WOgham|apply WMath|apply WIdeographic|apply (WLatin 0x85); lia|apply (WLatin 0xA0); lia|apply WQuad; lia|apply WSeparator; lia].
Qed.

Lemma is_prefix_spec p s : is_prefix p s = true <-> exists u, s = p ++ u.
Proof.
  revert s. induction p as [|a p IH]; intros s; cbn [is_prefix].
  - split; [intros _; now exists s|reflexivity].
  - destruct s as [|b s]; [split; [discriminate|intros (u & H); discriminate]|]. rewrite andb_true_iff, byte_eqb_eq, IH. split.
    + intros [-> (u & ->)]. now exists u.
    + intros (u & [= -> ->]). split; [reflexivity|now exists u].
Qed.

(** A set of non-empty words of which none starts another. *)
Definition code (ws : list bytes) : Prop :=
  (forall w, In w ws -> w <> []) /\ (forall w w' u u', In w ws -> In w' ws -> w ++ u = w' ++ u' -> w = w').
Definition codeb (ws : list bytes) : bool :=
  forallb (fun w => negb (beqb w []) && forallb (fun w' => beqb w w' || negb (is_prefix w w')) ws) ws.
Lemma codeb_code ws : codeb ws = true -> code ws.
Proof.
  intros H. unfold codeb in H. rewrite forallb_forall in H. split.
  - intros w I' ->. specialize (H [] I'). discriminate H.
  - assert (P : forall w w', In w ws -> In w' ws -> is_prefix w w' = true -> w = w').
    { intros w w' I1 I2 P. specialize (H w I1). apply andb_prop in H as [_ H]. rewrite forallb_forall in H. specialize (H w' I2).
      rewrite P, orb_false_r in H. now apply beqb_eq. }
    intros w w' u u' I1 I2 E. destruct (Nat.le_ge_cases (length w) (length w')) as [L|L].
    + apply P; auto. apply is_prefix_spec. exists (skipn (length w) w'). rewrite <- (firstn_skipn (length w) w') at 1. f_equal.
      assert (F := f_equal (firstn (length w)) E). rewrite !firstn_app, firstn_all, Nat.sub_diag, app_nil_r in F.
      replace (length w - length w')%nat with 0%nat in F by lia. rewrite !firstn_O, !app_nil_r in F. now symmetry.
    + symmetry. apply P; auto. apply is_prefix_spec. exists (skipn (length w') w). rewrite <- (firstn_skipn (length w') w) at 1. f_equal.
      assert (F := f_equal (firstn (length w')) E). rewrite !firstn_app, firstn_all, Nat.sub_diag, app_nil_r in F.
      replace (length w' - length w)%nat with 0%nat in F by lia. now rewrite !firstn_O, !app_nil_r in F.
Qed.
Lemma strip_sound ws : (forall w, In w ws -> w <> []) -> forall fuel s, (length s <= fuel)%nat ->
  exists l, s = concat l ++ strip ws fuel s /\ Forall (fun w => In w ws) l /\ forall w u, In w ws -> strip ws fuel s <> w ++ u.
Proof.
  intros NE. induction fuel as [|fuel IH]; intros s L; cbn [strip].
  - destruct s; [|cbn in L; lia]. exists []. split; [reflexivity|]. split; [constructor|]. intros w u I' E. destruct w; [exact (NE _ I' eq_refl)|discriminate E].
  - destruct (find (fun w => is_prefix w s) ws) as [w|] eqn:F.
    + apply find_some in F as [I' P]. apply is_prefix_spec in P as [u ->]. rewrite skipn_app, skipn_all, Nat.sub_diag. change (skipn 0 u) with u. cbn [app].
      destruct (IH u) as (l & E & F & N). { rewrite app_length in L. specialize (NE w I'). destruct w; [contradiction|cbn in L; lia]. }
      exists (w :: l). split; [cbn [concat]; rewrite <- app_assoc; now rewrite <- E|]. split; [now constructor|exact N].
    + exists []. split; [reflexivity|]. split; [constructor|]. intros w u I' E. pose proof (find_none _ _ F w I') as X. cbv beta in X.
      rewrite (proj2 (is_prefix_spec w s)) in X; [discriminate|now exists u].
Qed.
Lemma strip_complete ws : code ws -> forall l t fuel, (length (concat l ++ t) <= fuel)%nat ->
  Forall (fun w => In w ws) l -> (forall w u, In w ws -> t <> w ++ u) -> strip ws fuel (concat l ++ t) = t.
Proof.
  intros [NE C]. induction l as [|w l IH]; intros t fuel L F N; cbn [concat app] in *.
  - destruct fuel as [|fuel]; [reflexivity|]. cbn [strip]. destruct (find (fun w => is_prefix w t) ws) as [w|] eqn:E; [|reflexivity].
    apply find_some in E as [I' P]. apply is_prefix_spec in P as [u P]. exfalso. exact (N w u I' P).
  - inversion F as [|? ? W F']; subst. rewrite <- app_assoc in *. destruct fuel as [|fuel].
    { rewrite app_length in L. specialize (NE w W). destruct w; [contradiction|cbn in L; lia]. }
    cbn [strip]. destruct (find (fun x => is_prefix x (w ++ concat l ++ t)) ws) as [x|] eqn:E.
    + apply find_some in E as [I' P]. apply is_prefix_spec in P as [u P]. rewrite <- (C _ _ _ _ W I' P).
      rewrite skipn_app, skipn_all, Nat.sub_diag. change (skipn 0 (concat l ++ t)) with (concat l ++ t). cbn [app]. apply IH; auto.
      rewrite app_length in L. specialize (NE w W). destruct w; [contradiction|cbn in L; lia].
    + exfalso. pose proof (find_none _ _ E w W) as X. cbv beta in X. rewrite (proj2 (is_prefix_spec _ _)) in X; [discriminate|eauto].
Qed.
Lemma spaces_code : code spaces.
Proof. apply codeb_code. vm_compute. reflexivity. Qed.
Lemma rev_spaces_code : code (map (@rev byte) spaces).
Proof. apply codeb_code. vm_compute. reflexivity. Qed.
Lemma in_rev_spaces w : In w (map (@rev byte) spaces) <-> In (rev w) spaces.
Proof. rewrite in_map_iff. split; [intros (x & <- & H); now rewrite rev_involutive|intros H; exists (rev w); now rewrite rev_involutive]. Qed.
Lemma rev_concat (l : list bytes) : rev (concat l) = concat (map (@rev byte) (rev l)).
Proof. induction l as [|w l IH]; [reflexivity|]. cbn [concat rev]. rewrite rev_app_distr, IH, map_app, concat_app. cbn. now rewrite app_nil_r. Qed.

(** no byte after the first of an encoding can start one *)
Definition tail_byte (b : byte) : bool := (128 <=? b2n b) && (b2n b <=? 191).
Lemma spaces_shape w : In w spaces -> exists b r, w = b :: r /\ tail_byte b = false /\ forallb tail_byte r = true.
Proof.
  assert (F : forallb (fun w => match w with b :: r => negb (tail_byte b) && forallb tail_byte r | [] => false end) spaces = true) by (vm_compute; reflexivity).
  rewrite forallb_forall in F. intros H. specialize (F w H). destruct w as [|b r]; [discriminate|]. apply andb_prop in F as [A B].
  exists b, r. split; [reflexivity|]. split; [now apply negb_true_iff|exact B].
Qed.
Lemma prefix_cases {A} (w t r u : list A) : t ++ r = w ++ u -> (exists v, t = w ++ v) \/ (exists v, w = t ++ v /\ v <> [] /\ r = v ++ u).
Proof.
  revert t. induction w as [|a w IH]; intros t E; [left; now exists t|]. destruct t as [|b t].
  - right. exists (a :: w). repeat split; [discriminate|exact E].
  - injection E as -> E. destruct (IH _ E) as [[v ->]|(v & -> & N & ->)]; [left; now exists v|right; now exists v].
Qed.
Lemma TrimSpace_spec s t : TrimSpace s = t <-> trimmed s t.
Proof.
  unfold TrimSpace, trim_left_space, trim_right_space. split.
  - intros <-. destruct (strip_sound spaces (proj1 spaces_code) (length s) s (Nat.le_refl _)) as (l & E & F & N).
    set (m := strip spaces (length s) s) in *. 
    destruct (strip_sound (map (@rev byte) spaces) (proj1 rev_spaces_code) (length m) (rev m)) as (r & E' & F' & N'); [now rewrite rev_length|].
    set (q := strip (map (@rev byte) spaces) (length m) (rev m)) in *.
    assert (M : m = rev q ++ rev (concat r)) by (rewrite <- rev_app_distr, <- E'; symmetry; apply rev_involutive).
    rewrite rev_concat in M. exists l, (map (@rev byte) (rev r)). rewrite <- M. split; [exact E|]. split; [|split; [|split]].
    + eapply Forall_impl; [|exact F]. intros w H. now apply white_spaces.
    + apply Forall_map, Forall_rev. eapply Forall_impl; [|exact F']. intros w H. apply white_spaces. now apply in_rev_spaces.
    + intros w u W H. apply white_spaces in W. apply (N w (u ++ concat (map (@rev byte) (rev r))) W). rewrite M, H. now rewrite app_assoc.
    + intros w u W H. apply white_spaces in W. apply (N' (rev w) (rev u)). { apply in_rev_spaces. now rewrite rev_involutive. }
      rewrite <- rev_app_distr, <- H. symmetry. apply rev_involutive.
  - intros (l & r & -> & F & F' & N & N').
    assert (Fs : Forall (fun w => In w spaces) l) by (eapply Forall_impl; [|exact F]; intros w; apply white_spaces).
    assert (Fs' : Forall (fun w => In w spaces) r) by (eapply Forall_impl; [|exact F']; intros w; apply white_spaces).
    destruct t as [|a t].
    + cbn [app]. rewrite <- concat_app, <- (app_nil_r (concat (l ++ r))), (strip_complete spaces spaces_code (l ++ r) []).
      * reflexivity.
      * apply Nat.le_refl.
      * apply Forall_app; now split.
      * intros w u I' E. destruct w; [exact (proj1 spaces_code _ I' eq_refl)|discriminate E].
    + rewrite (strip_complete spaces spaces_code l ((a :: t) ++ concat r)); [|apply Nat.le_refl|exact Fs|].
      * rewrite rev_app_distr, rev_concat.
        rewrite (strip_complete _ rev_spaces_code (map (@rev byte) (rev r)) (rev (a :: t))).
        -- apply rev_involutive.
        -- rewrite !app_length, <- rev_concat, !rev_length. cbn [length]. lia.
        -- apply Forall_map, Forall_rev. eapply Forall_impl; [|exact Fs']. intros w H. apply in_rev_spaces. now rewrite rev_involutive.
        -- intros w u I' E. apply in_rev_spaces, white_spaces in I'. apply (N' _ (rev u) I'). rewrite <- rev_app_distr, <- E. symmetry. apply rev_involutive.
      * intros w u I' E. destruct (prefix_cases w (a :: t) (concat r) u E) as [[v V]|(v & V & NV & Er)]; [exact (N w v (proj2 (white_spaces w) I') V)|].
        destruct (spaces_shape w I') as (b & w' & -> & _ & T). cbn [app] in V. injection V as -> ->. rewrite forallb_app in T. apply andb_prop in T as [_ T].
        destruct v as [|c v]; [contradiction|]. cbn [forallb] in T. apply andb_prop in T as [T _].
        destruct r as [|x r]; [discriminate Er|]. inversion Fs' as [|? ? X _]; subst. destruct (spaces_shape x X) as (d & x' & -> & D & _).
        cbn in Er. injection Er as -> _. congruence.
Qed.
Lemma trimmed_fun s t t' : trimmed s t -> trimmed s t' -> t = t'.
Proof. rewrite <- !TrimSpace_spec. congruence. Qed.

(** A string of ASCII characters counts as many runes as bytes. *)
Definition ascii (s : bytes) : Prop := Forall (fun b => b2n b < 128) s.
Lemma count_ascii s fuel : ascii s -> (length s <= fuel)%nat -> count_runes fuel s = lenN s.
Proof.
  revert fuel. induction s as [|b s IH]; intros fuel A L; destruct fuel as [|fuel]; try (cbn in L; lia); try reflexivity.
  inversion A as [|? ? B A']; subst. cbn [count_runes decode_rune]. replace (b2n b <? 128) with true by lia. cbn [skipn].
  rewrite IH; [|exact A'|cbn in L; lia]. unfold lenN. cbn [length]. lia.
Qed.
Lemma RuneCount_ascii s : ascii s -> RuneCount s = lenN s.
Proof. intros A. apply count_ascii; [exact A|lia]. Qed.
