(** * Proofs about form fields and addresses *)
From Verif Require Import M_Base M_Web M_Form S_Text S_Form P_Base.
From Verif Require Import M_Base M_Web M_Form S_Text S_Form P_Base.
From Coq Require Import Lia ZifyBool ZifyNat ZifyN.

Lemma hex_16 : forall i c, (nth_error (str "0123456789ABCDEF") i = Some c \/ nth_error (str "0123456789abcdef") i = Some c) -> unhex c = Some (N.of_nat i) /\ (i < 16)%nat.
Proof.
  intros i c H. do 16 (destruct i as [|i]; [cbn in H; destruct H as [H|H]; injection H as <-; split; (reflexivity || lia)|]).
  exfalso. cbn in H. destruct H as [H|H]; destruct i; discriminate H.
Qed.
Lemma unhex_spec c n : unhex c = Some n <-> hexadecimal c n.
Proof.
  split.
  - intros H. exists (N.to_nat n). split; [now rewrite N2Nat.id|]. revert H. destruct c; vm_compute; intros H; try discriminate H; injection H as <-; vm_compute; auto.
  - intros (i & -> & H). apply (hex_16 i c H).
Qed.
Lemma unhex_small c n : unhex c = Some n -> n < 16.
Proof. intros H. apply unhex_spec in H. destruct H as (i & -> & H). apply hex_16 in H. lia. Qed.
Lemma byte_eqb_spec a b : Byte.eqb a b = true <-> a = b.
Proof. split; [apply Byte.byte_dec_bl|apply Byte.byte_dec_lb]. Qed.
Lemma byte_eqb_neq a b : Byte.eqb a b = false <-> a <> b.
Proof. rewrite <- byte_eqb_spec. destruct (Byte.eqb a b); intuition congruence. Qed.

Lemma spells_unescape plus t v : spells plus t v -> unescape plus t = Some v.
Proof.
  induction 1 as [|h l a b c t v A B C H IH|t v P H IH|c t v N P H IH]; [reflexivity| | |].
  - cbn [unescape]. change (Byte.eqb "%" "%") with true. cbv iota. apply unhex_spec in A, B. rewrite A, B, IH. cbn [option_map]. do 2 f_equal.
    apply b2n_inj. rewrite b2n_n2b, C. pose proof (unhex_small _ _ A). pose proof (unhex_small _ _ B). rewrite N.mod_small; lia.
  - cbn [unescape]. change (Byte.eqb "+" "%") with false. cbv iota. rewrite IH, P. reflexivity.
  - cbn [unescape]. rewrite (proj2 (byte_eqb_neq _ _) N), IH. destruct plus; [|reflexivity]. rewrite (proj2 (byte_eqb_neq _ _) (P eq_refl)). reflexivity.
Qed.
Lemma unescape_spells plus : forall n t v, (length t <= n)%nat -> unescape plus t = Some v -> spells plus t v.
Proof.
  induction n as [|n IH]; intros [|c t] v L H; cbn [length] in L; try lia.
  - injection H as <-. apply SpellsEnd.
  - injection H as <-. apply SpellsEnd.
  - cbn [unescape] in H. destruct (Byte.eqb c "%") eqn:E.
    + apply byte_eqb_spec in E. subst c. destruct t as [|h [|l t]]; try discriminate H. cbn [length] in L.
      destruct (unhex h) as [a|] eqn:A; [|discriminate H]. destruct (unhex l) as [b|] eqn:B; [|discriminate H].
      destruct (unescape plus t) as [v'|] eqn:U; [|discriminate H]. injection H as <-.
      apply (SpellsByte plus h l a b); [now apply unhex_spec|now apply unhex_spec| |apply IH; [lia|exact U]].
      apply unhex_small in A, B. rewrite b2n_n2b, N.mod_small; lia.
    + destruct (unescape plus t) as [v'|] eqn:U; [|discriminate H]. injection H as <-.
      assert (S : spells plus t v') by (apply IH; [lia|exact U]).
      apply byte_eqb_neq in E. destruct (plus && Byte.eqb c "+") eqn:P.
      * apply andb_true_iff in P. destruct P as [P Q]. apply byte_eqb_spec in Q. subst c. now apply SpellsBlank.
      * apply SpellsItself; [exact E| |exact S]. intros ->. cbn in P. now apply byte_eqb_neq.
Qed.
Lemma unescape_iff plus t v : unescape plus t = Some v <-> spells plus t v.
Proof. split; [now apply (unescape_spells plus (length t))|apply spells_unescape]. Qed.
Lemma unescape_none plus t : unescape plus t = None <-> forall v, ~ spells plus t v.
Proof.
  split.
  - intros H v S. apply unescape_iff in S. congruence.
  - intros H. destruct (unescape plus t) as [v|] eqn:E; [|reflexivity]. apply unescape_iff in E. destruct (H v E).
Qed.

(** Cutting. *)
Lemma cut_at_spec P s : match cut_at P s with
  | (a, Some b) => exists c, s = a ++ c :: b /\ P c = true /\ forall x, In x a -> P x = false
  | (a, None) => s = a /\ forall x, In x a -> P x = false end.
Proof.
  induction s as [|c s IH]; [split; [reflexivity|intros x []]|]. cbn [cut_at]. destruct (P c) eqn:E.
  - exists c. split; [reflexivity|]. split; [exact E|intros x []].
  - destruct (cut_at P s) as [a [b|]].
    + destruct IH as (d & -> & D & A). exists d. split; [reflexivity|]. split; [exact D|]. intros x [<-|X]; auto.
    + destruct IH as (-> & A). split; [reflexivity|]. intros x [<-|X]; auto.
Qed.
Lemma cut_at_found P a c b : P c = true -> (forall x, In x a -> P x = false) -> cut_at P (a ++ c :: b) = (a, Some b).
Proof.
  intros C. induction a as [|x a IH]; intros A; cbn [app cut_at]; [now rewrite C|]. rewrite (A x (or_introl eq_refl)), IH; [reflexivity|]. intros y Y. apply A. now right.
Qed.
Lemma cut_at_none P a : (forall x, In x a -> P x = false) -> cut_at P a = (a, None).
Proof.
  induction a as [|x a IH]; intros A; [reflexivity|]. cbn [cut_at]. rewrite (A x (or_introl eq_refl)), IH; [reflexivity|]. intros y Y. apply A. now right.
Qed.
Lemma separates_spec old c : separates old c = true <-> separator old c.
Proof. unfold separates, separator. rewrite orb_true_iff, andb_true_iff, !byte_eqb_spec. reflexivity. Qed.
Lemma separates_not old c : separates old c = false <-> ~ separator old c.
Proof. rewrite <- separates_spec. destruct (separates old c); intuition congruence. Qed.
Lemma existsb_In c p : existsb (Byte.eqb c) p = true <-> In c p.
Proof.
  rewrite existsb_exists. split; [intros (x & I & E); apply byte_eqb_spec in E; now subst|intros I; exists c; split; [exact I|now apply byte_eqb_spec]].
Qed.

(** The name and value of a piece, as the model computes them. *)
Definition name_value (p : bytes) : bytes * bytes := match cut_at (Byte.eqb "=") p with (k, Some v) => (k, v) | (k, None) => (k, []) end.
Lemma named_iff p k v : named p k v <-> name_value p = (k, v) .
Proof.
  unfold named, name_value. split.
  - intros (N & [->|[-> ->]]).
    + rewrite cut_at_found; [reflexivity|reflexivity|]. intros x X. apply byte_eqb_neq. intros Q. subst x. contradiction.
    + rewrite cut_at_none; [reflexivity|]. intros x X. apply byte_eqb_neq. intros Q. subst x. contradiction.
  - pose proof (cut_at_spec (Byte.eqb "=") p) as C. destruct (cut_at (Byte.eqb "=") p) as [a [b|]].
    + destruct C as (c & -> & Q & A). intros [= <- <-]. apply byte_eqb_spec in Q. subst c. split; [|now left]. intros I. apply A in I. discriminate I.
    + destruct C as (-> & A). intros [= <- <-]. split; [|now right]. intros I. apply A in I. discriminate I.
Qed.
Definition piece_field (old : bool) (p : bytes) : option (bytes * bytes) :=
  if negb old && existsb (Byte.eqb ";") p then None
  else match p with
       | [] => None
       | _ => let (k, v) := name_value p in
              match unescape true k, unescape true v with Some k', Some v' => Some (k', v') | _, _ => None end
       end.
Lemma piece_field_spec old p o : field_of old p o <-> piece_field old p = o.
Proof.
  unfold field_of, piece_field. cbv zeta.
  destruct (negb old && existsb (Byte.eqb ";") p) eqn:V.
  { apply andb_true_iff in V. destruct V as [V W]. apply existsb_In in W. apply negb_true_iff in V. destruct o as [[k v]|]; split; intros H; try discriminate H.
    - destruct H as [H _]. destruct H. right. now split.
    - reflexivity.
    - left. right. now split. }
  assert (NV : ~ (old = false /\ In ";"%byte p)).
  { intros [-> I]. apply existsb_In in I. rewrite I in V. discriminate V. }
  clear V. destruct p as [|x p'].
  { destruct o as [[k v]|]; split; intros H; try discriminate H; [destruct H as [H _]; destruct H; now left|reflexivity|left; now left]. }
  set (p := x :: p') in *. assert (NE : p <> []) by discriminate. clearbody p. clear x p'.
  destruct (name_value p) as [kt vt] eqn:NM. pose proof (proj2 (named_iff p kt vt) NM) as ND.
  destruct o as [[k v]|]; split; intros H.
  - destruct H as (_ & kt' & vt' & N' & K & W). apply named_iff in N'. rewrite NM in N'. injection N' as <- <-.
    apply unescape_iff in K, W. now rewrite K, W.
  - destruct (unescape true kt) as [k'|] eqn:K; [|discriminate H]. destruct (unescape true vt) as [v'|] eqn:W; [|discriminate H]. injection H as -> ->.
    split; [intros [E|E]; contradiction|]. exists kt, vt. split; [exact ND|]. split; now apply unescape_iff.
  - destruct H as [[E|E]|(kt' & vt' & N' & H)]; [contradiction|contradiction|]. apply named_iff in N'. rewrite NM in N'. injection N' as <- <-.
    destruct H as [H|H]; apply unescape_none in H; rewrite H; [reflexivity|]. now destruct (unescape true kt).
  - right. exists kt, vt. split; [exact ND|]. destruct (unescape true kt) as [k'|] eqn:K; [|left; now apply unescape_none].
    right. destruct (unescape true vt) eqn:W; [discriminate H|]. now apply unescape_none.
Qed.

Lemma parse_step fuel old query : query <> [] ->
  parse_query (S fuel) old query =
  let (key, rest) := cut_at (separates old) query in
  given (piece_field old key) ++ parse_query fuel old (match rest with Some q => q | None => [] end).
Proof.
  intros N. destruct query as [|c q]; [contradiction|]. cbn [parse_query]. destruct (cut_at (separates old) (c :: q)) as [key rest].
  unfold piece_field, name_value. destruct (negb old && existsb (Byte.eqb ";") key); [reflexivity|].
  destruct key as [|x key]; [reflexivity|]. destruct (cut_at (Byte.eqb "=") (x :: key)) as [k [v|]]; destruct (unescape true k); try reflexivity; destruct (unescape true _); reflexivity.
Qed.
Lemma parse_nil fuel old : parse_query fuel old [] = [].
Proof. now destruct fuel. Qed.

Lemma pieces_parse old text ps : pieces (separator old) text ps -> forall fuel, (length text <= fuel)%nat ->
  parse_query fuel old text = concat (map given (map (piece_field old) ps)).
Proof.
  assert (Z : piece_field old [] = None) by (destruct old; reflexivity).
  induction 1 as [p N|p c t ps N C H IH]; intros fuel L.
  - cbn [map concat]. destruct p as [|x p]; [rewrite Z, parse_nil; reflexivity|]. destruct fuel as [|fuel]; [cbn in L; lia|].
    rewrite parse_step by discriminate. rewrite cut_at_none by (intros y Y; apply separates_not; now apply N). now rewrite parse_nil.
  - rewrite app_length in L. cbn [length] in L. destruct fuel as [|fuel]; [lia|]. cbn [map concat].
    rewrite parse_step by (destruct p; discriminate). rewrite cut_at_found; [|now apply separates_spec|intros y Y; apply separates_not; now apply N].
    rewrite IH by lia. reflexivity.
Qed.
Lemma pieces_exist old : forall n text, (length text <= n)%nat -> exists ps, pieces (separator old) text ps.
Proof.
  induction n as [|n IH]; intros text L.
  - destruct text; [|cbn in L; lia]. exists [[]]. apply PiecesLast. intros c [].
  - pose proof (cut_at_spec (separates old) text) as C. destruct (cut_at (separates old) text) as [a [b|]].
    + destruct C as (c & -> & S & A). rewrite app_length in L. cbn [length] in L. destruct (IH b) as [ps P]; [lia|].
      exists (a :: ps). apply PiecesMore; [|now apply separates_spec|exact P]. intros x X. apply separates_not. now apply A.
    + destruct C as (-> & A). exists [a]. apply PiecesLast. intros x X. apply separates_not. now apply A.
Qed.
Lemma fields_pieces old ps os : Forall2 (field_of old) ps os <-> os = map (piece_field old) ps.
Proof.
  split.
  - induction 1 as [|p o ps os H _ IH]; [reflexivity|]. cbn [map]. apply piece_field_spec in H. congruence.
  - intros ->. induction ps as [|p ps IH]; constructor; [now apply piece_field_spec|exact IH].
Qed.
Lemma parse_exact old text fs : ParseQuery old text = fs <-> fields_of old text fs.
Proof.
  unfold ParseQuery. split.
  - intros <-. destruct (pieces_exist old (length text) text (le_n _)) as [ps P]. exists ps, (map (piece_field old) ps). split; [exact P|].
    split; [now apply fields_pieces|]. now apply pieces_parse.
  - intros (ps & os & P & F & ->). apply fields_pieces in F. subst os. now apply pieces_parse.
Qed.

(** What a client sends. *)
Lemma sends_pieces old text fs : sends text fs -> fs <> [] -> exists ps, pieces (separator old) text ps /\ Forall2 (field_of old) ps (map Some fs).
Proof.
  intros (ps & F & ->) NE. exists ps.
  assert (S : forall p f, sends_field p f -> (forall c, In c p -> ~ separator old c) /\ field_of old p (Some f)).
  { intros p [k v] (kt & vt & -> & K & V & E & A). cbn [fst snd] in K, V. assert (A' : forall c, In c (kt ++ "="%byte :: vt) -> c <> "&"%byte /\ c <> ";"%byte).
    { intros c I. apply in_app_iff in I. cbn [In] in I. destruct I as [I|[<-|I]]; [apply A; apply in_app_iff; now left|split; discriminate|apply A; apply in_app_iff; now right]. }
    split; [intros c I; apply A' in I; unfold separator; intuition congruence|]. split.
    - intros [X|[_ X]]; [now destruct kt|]. apply A' in X. now destruct X as [_ []].
    - exists kt, vt. split; [split; [exact E|now left]|]. split; assumption. }
  induction F as [|p f ps fs H F IH]; [contradiction|]. destruct (S p f H) as [P1 P2]. destruct fs as [|f' fs].
  - inversion F. subst. split; [cbn [join]; now apply PiecesLast|constructor; [exact P2|constructor]].
  - destruct (IH ltac:(discriminate)) as [I1 I2]. split; [|cbn [map]; constructor; assumption].
    inversion F as [|p' x ps' y H' F' E1 E2]; subst. cbn [join]. apply PiecesMore; [exact P1|now left|exact I1].
Qed.
Lemma given_some {A} (l : list A) : concat (map given (map Some l)) = l.
Proof. induction l as [|a l IH]; [reflexivity|]. cbn [map concat given app]. now rewrite IH. Qed.
Lemma sends_fields old text fs : sends text fs -> fields_of old text fs.
Proof.
  intros H. destruct fs as [|f fs].
  - destruct H as (ps & F & ->). inversion F. subst. exists [[]], [None]. split; [apply PiecesLast; intros c []|]. split; [|reflexivity].
    constructor; [left; now left|constructor].
  - destruct (sends_pieces old text (f :: fs) H ltac:(discriminate)) as (ps & P & F). exists ps, (map Some (f :: fs)). split; [exact P|]. split; [exact F|].
    now rewrite given_some.
Qed.

(** Everything can be spelled with digits and capital letters. *)
Definition hexchar (n : N) : byte := nth (N.to_nat n) (str "0123456789ABCDEF") "0"%byte.
Definition percent (c : byte) : bytes := ["%"%byte; hexchar (b2n c / 16); hexchar (b2n c mod 16)].
Lemma hexchar_spec n : n < 16 -> hexadecimal (hexchar n) n.
Proof.
  intros H. exists (N.to_nat n). split; [now rewrite N2Nat.id|]. left. unfold hexchar. apply nth_error_nth'. change (length (str "0123456789ABCDEF")) with 16%nat. lia.
Qed.
Lemma percent_spells plus s : spells plus (concat (map percent s)) s.
Proof.
  induction s as [|c s IH]; [apply SpellsEnd|]. cbn [map concat percent app]. pose proof (Byte.to_N_bounded c). fold (b2n c) in H.
  apply SpellsByte with (a := b2n c / 16) (b := b2n c mod 16); [apply hexchar_spec|apply hexchar_spec| |exact IH].
  - apply N.div_lt_upper_bound; lia.
  - apply N.mod_lt. lia.
  - apply N.div_mod'.
Qed.
Lemma percent_chars s c : In c (concat (map percent s)) -> In c (str "%0123456789ABCDEF").
Proof.
  intros H. apply in_concat in H. destruct H as (p & I & H). apply in_map_iff in I. destruct I as (x & <- & _).
  assert (G : forall n, In (hexchar n) (str "%0123456789ABCDEF")).
  { intros n. unfold hexchar. destruct (nth_in_or_default (N.to_nat n) (str "0123456789ABCDEF") "0"%byte) as [I|E]; [right; exact I|rewrite E; cbn; auto]. }
  cbn [percent In] in H. destruct H as [<-|[<-|[<-|[]]]]; [now left|apply G|apply G].
Qed.
