(** * Property theorems: C73 (redirections of the web service) *)
From Coq Require Import Lia ZifyBool ZifyNat ZifyN.
From Verif Require Import M_Base M_Sys M_Text M_Web M_Mux M_Json M_Jwt M_Form M_Service M_Redirect.
From Verif Require Import S_World S_Text S_Web S_Mux S_Json S_Jwt S_Form S_Service S_Redirect S_Example.
From Verif Require Import P_Base P_Text P_Mux P_Form T_Web T_Mux T_Json T_Jwt T_Form T_Service.
Open Scope N_scope.

(** ** Spelling *)
Lemma hex_digit_spec lower n : n < 16 -> hexadecimal (hex_digit lower n) n.
Proof.
  intros H. exists (N.to_nat n). split; [now rewrite N2Nat.id|]. unfold hex_digit. destruct lower; [right|left]; apply nth_error_nth'; cbn [length str]; change (length (str "0123456789abcdef")) with 16%nat; change (length (str "0123456789ABCDEF")) with 16%nat; lia.
Qed.
Lemma escaped_spells plus lower c t v : spells plus t v -> spells plus (escaped lower c ++ t) (c :: v).
Proof.
  intros H. pose proof (Byte.to_N_bounded c). fold (b2n c) in H0. unfold escaped. cbn [app].
  apply SpellsByte with (a := b2n c / 16) (b := b2n c mod 16); [apply hex_digit_spec|apply hex_digit_spec| |exact H].
  - apply N.div_lt_upper_bound; lia.
  - now apply N.mod_lt.
  - apply N.div_mod. lia.
Qed.
Lemma escape_spells p : spells false (escape p) p.
Proof.
  induction p as [|c p IH]; [constructor|]. unfold escape. cbn [map concat]. destruct (shouldEscape c) eqn:E; [now apply escaped_spells|].
  apply SpellsItself; [|discriminate|exact IH]. intros ->. discriminate E.
Qed.
(** The bytes of an escaped path. *)
Definition path_byte (c : byte) : Prop := shouldEscape c = false \/ c = "%"%byte.
Lemma escape_bytes p : Forall path_byte (escape p).
Proof.
  assert (X : forall n, n < 16 -> path_byte (hex_digit false n)).
  { intros n Hn. left. assert (A : forallb (fun n => negb (shouldEscape (hex_digit false (N.of_nat n)))) (seq 0 16) = true) by (vm_compute; reflexivity).
    rewrite forallb_forall in A. specialize (A (N.to_nat n)). rewrite N2Nat.id in A. apply negb_true_iff, A, in_seq. lia. }
  induction p as [|c p IH]; [constructor|]. unfold escape. cbn [map concat]. apply Forall_app. split; [|exact IH]. destruct (shouldEscape c) eqn:E; [|apply Forall_cons; [now left|constructor]].
  pose proof (Byte.to_N_bounded c). fold (b2n c) in H. unfold escaped. apply Forall_cons; [now right|]. apply Forall_cons; [apply X, N.div_lt_upper_bound; lia|]. apply Forall_cons; [apply X; now apply N.mod_lt|constructor].
Qed.
Lemma path_byte_good c : path_byte c -> 32 <= b2n c < 127 /\ c <> "?"%byte /\ c <> "#"%byte.
Proof. intros [H| ->]; [|repeat split; discriminate]. destruct c; try discriminate H; (split; [vm_compute; split; congruence|split; discriminate]). Qed.

(** Escaping a plain path gives a plain path. *)
Lemma escape_app a b : escape (a ++ b) = escape a ++ escape b.
Proof. unfold escape. now rewrite map_app, concat_app. Qed.
Lemma escape_slash a b : escape (a ++ "/"%byte :: b) = escape a ++ "/"%byte :: escape b.
Proof. now rewrite escape_app. Qed.
Lemma escape_join es : escape (join "/" es) = join "/" (map escape es).
Proof.
  destruct es as [|e es]; [reflexivity|]. revert e. induction es as [|e' es IH]; intros e; [reflexivity|].
  change (join "/" (e :: e' :: es)) with (e ++ "/"%byte :: join "/" (e' :: es)). rewrite escape_slash, IH. reflexivity.
Qed.
Lemma escape_plain es : escape (plain es) = plain (map escape es).
Proof. unfold plain. change (escape ("/"%byte :: join "/" es)) with ("/"%byte :: escape (join "/" es)). now rewrite escape_join. Qed.
Lemma escape_in p c : In c (escape p) -> c = "%"%byte \/ In c p \/ exists n, n < 16 /\ c = hex_digit false n.
Proof.
  induction p as [|x p IH]; intros H; [destruct H|]. unfold escape in H. cbn [map concat] in H. apply in_app_iff in H. destruct H as [H|H].
  - destruct (shouldEscape x); [|destruct H as [->|[]]; right; left; now left]. pose proof (Byte.to_N_bounded x). fold (b2n x) in H0. destruct H as [<-|[<-|[<-|[]]]]; [now left| |]; right; right.
    + exists (b2n x / 16). split; [apply N.div_lt_upper_bound; lia|reflexivity].
    + exists (b2n x mod 16). split; [now apply N.mod_lt|reflexivity].
  - apply IH in H. destruct H as [H|[H|H]]; [now left|right; left; now right|right; now right].
Qed.
Lemma escape_first c p : escape (c :: p) = (if shouldEscape c then escaped false c else [c]) ++ escape p.
Proof. reflexivity. Qed.
Lemma escape_nil p : escape p = [] -> p = [].
Proof. destruct p as [|c p]; [reflexivity|]. rewrite escape_first. destruct (shouldEscape c); discriminate. Qed.
Lemma escape_element e : element e -> element (escape e).
Proof.
  intros (A & B & C & D). repeat split.
  - intros H. apply A. now apply escape_nil.
  - intros H. apply B. destruct e as [|c e]; [contradiction|]. rewrite escape_first in H. destruct (shouldEscape c); [discriminate H|]. injection H as -> H. apply escape_nil in H. now subst e.
  - intros H. apply C. destruct e as [|c e]; [contradiction|]. rewrite escape_first in H. destruct (shouldEscape c); [discriminate H|]. injection H as -> H.
    destruct e as [|d e]; [discriminate H|]. rewrite escape_first in H. destruct (shouldEscape d); [discriminate H|]. injection H as -> H. apply escape_nil in H. now subst e.
  - intros H. apply escape_in in H. destruct H as [H|[H|(n & N & H)]]; [discriminate H|contradiction|].
    assert (X : forallb (fun n => negb (Byte.eqb "/" (hex_digit false (N.of_nat n)))) (seq 0 16) = true) by (vm_compute; reflexivity).
    rewrite forallb_forall in X. specialize (X (N.to_nat n)). rewrite N2Nat.id, <- H in X. assert (Y : In (N.to_nat n) (seq 0 16)) by (apply in_seq; lia). apply X in Y. discriminate Y.
Qed.

(** A path a request is sent to. *)
Definition plain_path (p : bytes) : Prop := exists es, Forall element es /\ (p = plain es \/ es <> [] /\ p = directory es).
Lemma moved_plain s r p : handle s r = Ok (Moved p) -> plain_path p.
Proof.
  intros H. destruct (beqb (r_method r) (str "CONNECT")) eqn:M.
  - unfold handle in H. rewrite M in H. destruct (redirectToPathSlash (r_path r)) eqn:R; [|destruct (serve s r); discriminate H]. injection H as <-.
    apply redirect_iff in R as [-> | ->]; [exists [str "v1"; str "users"]|exists [str "v1"; str "classes"]]; (split; [apply home_elements; (now left) || (now right)|right; split; [discriminate|reflexivity]]).
  - apply beqb_neq in M. destruct (C61_one_spelling (r_path r)) as (q & Q & _). destruct (C61_plain_paths_answered s r q M Q) as [H1 H2].
    destruct (beqb (r_path r) q) eqn:E; [apply beqb_eq in E; rewrite (H1 E) in H; destruct (serve s r); discriminate H|]. apply beqb_neq in E. rewrite (H2 E) in H. injection H as <-.
    destruct Q as (es & _ & F & [(-> & N & _)|[-> _]]); exists es; (split; [exact F|]); [right; now split|now left].
Qed.
Lemma plain_escape p : plain_path p -> plain_path (escape p).
Proof.
  intros (es & F & H). exists (map escape es). split; [apply Forall_map; revert F; apply Forall_impl, escape_element|]. destruct H as [->|[N ->]]; [left; apply escape_plain|right].
  split; [now destruct es|]. unfold directory. rewrite escape_plain, map_app. reflexivity.
Qed.
Lemma Clean_plain es : Forall element es -> Clean (plain es) = plain es.
Proof. intros F. unfold plain at 1. rewrite Clean_ok, <- place_root. change ("/"%byte :: join "/" es) with (plain es). now rewrite place_plain. Qed.
Lemma Clean_directory es : Forall element es -> Clean (directory es) = plain es.
Proof. intros F. unfold directory, plain at 1. rewrite Clean_ok, <- place_root. change ("/"%byte :: join "/" (es ++ [[]])) with (directory es). now rewrite place_directory. Qed.
Lemma tidy_plain p q : plain_path p -> (forall c, In c p -> c <> "?"%byte) ->
  tidy (p ++ match q with Some q => "?"%byte :: q | None => [] end) = p ++ match q with Some q => "?"%byte :: q | None => [] end.
Proof.
  intros (es & F & H) Q. assert (Q' : forall x, In x p -> Byte.eqb "?" x = false) by (intros x I; apply byte_eqb_neq; intros E; now apply (Q x I)).
  assert (CUT : cut_at (Byte.eqb "?") (p ++ match q with Some q => "?"%byte :: q | None => [] end) = (p, q)).
  { destruct q as [q|]; [now apply cut_at_found|rewrite app_nil_r; now apply cut_at_none]. }
  unfold tidy. rewrite CUT. f_equal. destruct H as [->|[N ->]].
  - rewrite Clean_plain by exact F. destruct (Byte.eqb (last (plain es) x00) "/"); reflexivity.
  - rewrite Clean_directory by exact F. rewrite directory_plain by exact N.
    replace (Byte.eqb (last (plain es ++ str "/") x00) "/") with true by (symmetry; apply last_slash; now exists (plain es)).
    destruct (Byte.eqb (last (plain es) x00) "/") eqn:L; [|reflexivity]. apply last_slash in L. apply ends_plain in L; [contradiction|exact F].
Qed.

(** ** Bytes that are not ASCII, in the query *)
Lemma hexesc_cons c s : hexEscapeNonASCII (c :: s) = (if b2n c <? 128 then [c] else escaped true c) ++ hexEscapeNonASCII s.
Proof. reflexivity. Qed.
Lemma hexesc_app a b : hexEscapeNonASCII (a ++ b) = hexEscapeNonASCII a ++ hexEscapeNonASCII b.
Proof. unfold hexEscapeNonASCII. now rewrite map_app, concat_app. Qed.
Lemma hexesc_ascii s : Forall (fun c => b2n c < 128) s -> hexEscapeNonASCII s = s.
Proof. induction 1 as [|c s H F IH]; [reflexivity|]. rewrite hexesc_cons. replace (b2n c <? 128) with true by lia. now rewrite IH. Qed.
Definition new_byte (c : byte) : Prop := In c (str "%0123456789abcdef").
Lemma hex_digit_new n : n < 16 -> new_byte (hex_digit true n).
Proof.
  intros H. right. unfold hex_digit. change (In (nth (N.to_nat n) (str "0123456789abcdef") x00) (str "0123456789abcdef")). apply nth_In. change (length (str "0123456789abcdef")) with 16%nat. lia.
Qed.
Lemma hexesc_in s c : In c (hexEscapeNonASCII s) -> (In c s /\ b2n c < 128) \/ new_byte c.
Proof.
  induction s as [|x s IH]; intros H; [destruct H|]. rewrite hexesc_cons in H. apply in_app_iff in H. destruct H as [H|H].
  - destruct (b2n x <? 128) eqn:E; [destruct H as [->|[]]; left; split; [now left|lia]|]. right. pose proof (Byte.to_N_bounded x). fold (b2n x) in H0.
    destruct H as [<-|[<-|[<-|[]]]]; [now left|apply hex_digit_new, N.div_lt_upper_bound; lia|apply hex_digit_new; now apply N.mod_lt].
  - apply IH in H. destruct H as [[H K]|H]; [left; split; [now right|exact K]|now right].
Qed.
Lemma new_byte_good c : new_byte c -> 32 <= b2n c < 127 /\ c <> "?"%byte /\ c <> "#"%byte /\ c <> "&"%byte /\ c <> ";"%byte /\ c <> "="%byte.
Proof. intros H. unfold new_byte in H. cbn in H. repeat destruct H as [<-|H]; try (split; [vm_compute; split; congruence|repeat split; discriminate]). destruct H. Qed.
Lemma unhex_high c : 128 <= b2n c -> unhex c = None.
Proof. intros H. unfold unhex. cbv zeta. replace (b2n c <=? 57) with false by lia. replace (b2n c <=? 102) with false by lia. replace (b2n c <=? 70) with false by lia. now rewrite !andb_false_r. Qed.
Lemma unescape_percent plus h l s : unhex h = None -> unescape plus ("%"%byte :: h :: l :: s) = None.
Proof. intros H. cbn [unescape]. change (Byte.eqb "%" "%") with true. cbv iota. now rewrite H. Qed.
Lemma unescape_percent2 plus h l s : unhex l = None -> unescape plus ("%"%byte :: h :: l :: s) = None.
Proof. intros H. cbn [unescape]. change (Byte.eqb "%" "%") with true. cbv iota. rewrite H. now destruct (unhex h). Qed.
Lemma hexesc_unescape plus : forall n s, (length s <= n)%nat -> unescape plus (hexEscapeNonASCII s) = unescape plus s.
Proof.
  induction n as [|n IH]; intros s L; [destruct s; [reflexivity|cbn in L; lia]|]. destruct s as [|c s]; [reflexivity|]. cbn [length] in L. rewrite hexesc_cons.
  destruct (b2n c <? 128) eqn:A.
  - cbn [app]. destruct (Byte.eqb c "%") eqn:P.
    + apply byte_eqb_spec in P. subst c. destruct s as [|h s]; [reflexivity|]. rewrite hexesc_cons. destruct (b2n h <? 128) eqn:B.
      * cbn [app]. destruct s as [|l s]; [reflexivity|]. rewrite hexesc_cons. destruct (b2n l <? 128) eqn:C.
        -- cbn [app unescape]. change (Byte.eqb "%" "%") with true. cbv iota. rewrite IH by (cbn [length] in L; lia). reflexivity.
        -- unfold escaped. cbn [app]. rewrite (unescape_percent2 plus h "%" _ eq_refl), (unescape_percent2 plus h l s); [reflexivity|]. apply unhex_high. lia.
      * unfold escaped. cbn [app]. rewrite (unescape_percent plus "%" _ _ eq_refl). destruct s as [|l s]; [reflexivity|]. rewrite (unescape_percent plus h l s); [reflexivity|]. apply unhex_high. lia.
    + cbn [unescape]. rewrite P. rewrite IH by lia. reflexivity.
  - assert (NP : Byte.eqb c "%" = false) by (apply byte_eqb_neq; intros ->; discriminate A). assert (NQ : Byte.eqb c "+" = false) by (apply byte_eqb_neq; intros ->; discriminate A).
    cbn [unescape]. rewrite NP, NQ, andb_false_r. pose proof (Byte.to_N_bounded c). fold (b2n c) in H.
    destruct (unescape plus s) as [v|] eqn:U.
    + cbn [option_map]. apply spells_unescape. apply escaped_spells. apply unescape_iff. rewrite IH by lia. exact U.
    + cbn [option_map]. unfold escaped. cbn [app unescape]. change (Byte.eqb "%" "%") with true. cbv iota. rewrite IH, U by lia. cbn [option_map]. now destruct (unhex (hex_digit true (b2n c / 16))), (unhex (hex_digit true (b2n c mod 16))).
Qed.
Lemma hexesc_cut P s : (forall c, P c = true -> b2n c < 128 /\ ~ new_byte c) ->
  cut_at P (hexEscapeNonASCII s) = (hexEscapeNonASCII (fst (cut_at P s)), option_map hexEscapeNonASCII (snd (cut_at P s))).
Proof.
  intros H. assert (N : forall c, new_byte c -> P c = false) by (intros c I; destruct (P c) eqn:E; [|reflexivity]; apply H in E; tauto).
  pose proof (cut_at_spec P s) as X. destruct (cut_at P s) as [a [b|]]; cbn [fst snd option_map].
  - destruct X as (c & -> & Pc & A). rewrite hexesc_app, hexesc_cons. replace (b2n c <? 128) with true by (apply H in Pc; lia). cbn [app]. apply cut_at_found; [exact Pc|].
    intros x I. apply hexesc_in in I. destruct I as [[I _]|I]; [now apply A|now apply N].
  - destruct X as (-> & A). apply cut_at_none. intros x I. apply hexesc_in in I. destruct I as [[I _]|I]; [now apply A|now apply N].
Qed.
Lemma hexesc_nil s : hexEscapeNonASCII s = [] -> s = [].
Proof. destruct s as [|c s]; [reflexivity|]. rewrite hexesc_cons. destruct (b2n c <? 128); discriminate. Qed.
Lemma hexesc_semicolon s : existsb (Byte.eqb ";") (hexEscapeNonASCII s) = existsb (Byte.eqb ";") s.
Proof.
  apply eq_true_iff_eq. rewrite !existsb_In. split; intros H.
  - apply hexesc_in in H. destruct H as [[H _]|H]; [exact H|]. apply new_byte_good in H. tauto.
  - induction s as [|c s IH]; [destruct H|]. rewrite hexesc_cons. apply in_app_iff. destruct H as [->|H]; [left; now left|right; now apply IH].
Qed.
Lemma hexesc_piece old p : piece_field old (hexEscapeNonASCII p) = piece_field old p.
Proof.
  unfold piece_field. rewrite hexesc_semicolon. destruct (negb old && existsb (Byte.eqb ";") p); [reflexivity|]. destruct p as [|c p]; [reflexivity|].
  destruct (hexEscapeNonASCII (c :: p)) as [|x y] eqn:E; [apply hexesc_nil in E; discriminate E|]. rewrite <- E. clear E x y.
  unfold name_value. rewrite hexesc_cut.
  - destruct (cut_at (Byte.eqb "=") (c :: p)) as [k [v|]]; cbn [fst snd option_map]; rewrite !(hexesc_unescape true _ _ (le_n _)); reflexivity.
  - intros x X. apply byte_eqb_spec in X. subst x. split; [reflexivity|]. intros N. apply new_byte_good in N. tauto.
Qed.
Lemma hexesc_fields old q : ParseQuery old (hexEscapeNonASCII q) = ParseQuery old q.
Proof.
  destruct (pieces_exist old (length q) q (le_n _)) as [ps P].
  assert (P' : pieces (separator old) (hexEscapeNonASCII q) (map hexEscapeNonASCII ps)).
  { assert (K : forall p, (forall c, In c p -> ~ separator old c) -> forall c, In c (hexEscapeNonASCII p) -> ~ separator old c).
    { intros p A c I. apply hexesc_in in I. destruct I as [[I _]|I]; [now apply A|]. apply new_byte_good in I. unfold separator. intuition congruence. }
    clear - P K. induction P as [p A|p c t ps A S P IH]; cbn [map]; [apply PiecesLast; now apply K|].
    rewrite hexesc_app, hexesc_cons. replace (b2n c <? 128) with true by (destruct S as [->|[_ ->]]; reflexivity). cbn [app]. apply PiecesMore; [now apply K|exact S|exact IH]. }
  unfold ParseQuery. rewrite (pieces_parse old _ _ P _ (le_n _)), (pieces_parse old _ _ P' _ (le_n _)). rewrite (map_map hexEscapeNonASCII (piece_field old)). do 2 f_equal. apply map_ext. intros p. now rewrite hexesc_piece.
Qed.

(** ** The location *)
Definition question (q : option bytes) : bytes := match q with Some q => "?"%byte :: q | None => [] end.
Lemma location_is parsed kept target p path query : plain_path p -> addresses target path query ->
  exists q, match q with Some q => q | None => [] end = query /\
    redirect_url parsed kept target p = escape p ++ question q /\
    location parsed kept target p = escape p ++ question (option_map hexEscapeNonASCII q).
Proof.
  intros P A. apply addresses_iff in A. destruct A as (_ & tp & qo & C & _ & E).
  exists (match qo with Some [] => if kept then qo else None | _ => qo end).
  assert (ES : Forall path_byte (escape p)) by apply escape_bytes. rewrite Forall_forall in ES.
  assert (U : redirect_url parsed kept target p = escape p ++ question (match qo with Some [] => if kept then qo else None | _ => qo end)).
  { unfold redirect_url, URL_String. cbv zeta. rewrite C. cbn [snd].
    assert (Q : match qo with None => [] | Some [] => if kept then str "?" else [] | Some query => "?"%byte :: query end = question (match qo with Some [] => if kept then qo else None | _ => qo end)) by (destruct qo as [[|x q]|]; try reflexivity; now destruct kept).
    rewrite Q. destruct parsed; [|reflexivity]. apply tidy_plain; [now apply plain_escape|]. intros c I. apply ES, path_byte_good in I. tauto. }
  split; [destruct qo as [[|x q]|]; cbn in E |- *; try (now symmetry); destruct kept; now symmetry|]. split; [exact U|].
  unfold location. rewrite U, hexesc_app, hexesc_ascii.
  - f_equal. destruct (match qo with Some [] => _ | _ => _ end); reflexivity.
  - apply Forall_forall. intros c I. apply ES, path_byte_good in I. lia.
Qed.

Lemma hash_cut s : exists t, before_hash s t.
Proof.
  pose proof (cut_at_spec (Byte.eqb "#") s) as X. destruct (cut_at (Byte.eqb "#") s) as [a [b|]].
  - destruct X as (c & -> & C & A). apply byte_eqb_spec in C. subst c. exists a. split; [intros I; apply A in I; discriminate I|]. right. now exists b.
  - destruct X as (-> & A). exists a. split; [intros I; apply A in I; discriminate I|now left].
Qed.
Lemma hash_one s t t' : before_hash s t -> before_hash s t' -> t = t'.
Proof.
  assert (K : forall t f t' f', ~ In "#"%byte t -> ~ In "#"%byte t' -> t ++ "#"%byte :: f = t' ++ "#"%byte :: f' -> t = t').
  { intros a f b f' A B E. assert (X : cut_at (Byte.eqb "#") (a ++ "#"%byte :: f) = cut_at (Byte.eqb "#") (b ++ "#"%byte :: f')) by now rewrite E.
    rewrite !cut_at_found in X by (try reflexivity; intros x I; apply byte_eqb_neq; intros <-; contradiction). now injection X. }
  intros [N [->|[f E]]] [N' [E'|[f' E']]].
  - exact E'.
  - exfalso. apply N. rewrite E'. apply in_app_iff. right. now left.
  - exfalso. apply N'. rewrite <- E', E. apply in_app_iff. right. now left.
  - rewrite E in E'. now apply K with (f := f) (f' := f').
Qed.
Lemma hexesc_hash q t : before_hash q t -> before_hash (hexEscapeNonASCII q) (hexEscapeNonASCII t).
Proof.
  intros [N H]. split; [intros I; apply hexesc_in in I; destruct I as [[I _]|I]; [contradiction|]; apply new_byte_good in I; tauto|].
  destruct H as [->|[f ->]]; [now left|]. right. exists (hexEscapeNonASCII f). rewrite hexesc_app. reflexivity.
Qed.
(** What a client asks for. *)
Lemma location_target parsed kept target p path query t : plain_path p -> addresses target path query -> before_hash (location parsed kept target p) t ->
  exists query1 query', before_hash query query1 /\ query' = hexEscapeNonASCII query1 /\ addresses t p query'.
Proof.
  intros P A H. destruct (location_is parsed kept target p path query P A) as (q & Q & _ & L). rewrite L in H.
  assert (ES : Forall path_byte (escape p)) by apply escape_bytes. rewrite Forall_forall in ES.
  assert (NH : ~ In "#"%byte (escape p)) by (intros I; apply ES, path_byte_good in I; tauto). assert (NQ : ~ In "?"%byte (escape p)) by (intros I; apply ES, path_byte_good in I; tauto).
  assert (PE : Forall printable (escape p)) by (apply Forall_forall; intros c I; apply ES, path_byte_good in I; unfold printable; lia).
  pose proof A as [PT _]. destruct (hash_cut query) as [query1 H1]. exists query1, (hexEscapeNonASCII query1). split; [exact H1|]. split; [reflexivity|].
  destruct q as [q|]; cbn [question option_map] in *.
  - subst q. assert (T : t = escape p ++ "?"%byte :: hexEscapeNonASCII query1).
    { apply (hash_one _ _ _ H). destruct (hexesc_hash query query1 H1) as [N1 D]. split; [intros I; apply in_app_iff in I; destruct I as [I|[I|I]]; [contradiction|discriminate I|contradiction]|].
      destruct D as [->|[f ->]]; [now left|right; exists f; now rewrite <- app_assoc]. }
    subst t. split; [|exists (escape p); split; [apply escape_spells|]; split; [exact NQ|now right]].
    apply Forall_app. split; [exact PE|]. constructor; [split; [discriminate|discriminate]|]. apply Forall_forall. intros c I. apply hexesc_in in I.
    destruct I as [[I _]|I]; [|apply new_byte_good in I; unfold printable; lia].
    rewrite Forall_forall in PT. apply PT. destruct A as (_ & tp & _ & _ & [[_ ->]| ->]); [destruct H1 as [_ [E|[f E]]]; [rewrite <- E in I; destruct I|destruct query1; discriminate E]|].
    apply in_app_iff. right. right. destruct H1 as [_ [->|[f ->]]]; [exact I|apply in_app_iff; now left].
  - subst query. assert (query1 = []) by (destruct H1 as [_ [E|[f E]]]; [now symmetry|destruct query1; discriminate E]). subst query1. rewrite app_nil_r in H.
    assert (t = escape p) by (apply (hash_one _ _ _ H); split; [exact NH|now left]). subst t. split; [exact PE|]. exists (escape p). split; [apply escape_spells|]. split; [exact NQ|]. left. now split.
Qed.

(** ** Property theorems *)
Lemma redirect_moved old zone sign s r p : respond old zone sign s r = Redirect p -> exists q, arrive old r = Some q /\ handle s q = Ok (Moved p).
Proof.
  unfold respond. destruct (arrive old r) as [q|]; [|discriminate]. intros H. exists q. split; [reflexivity|]. destruct (handle s q) as [[rep|p']| | |]; try discriminate H. now injection H as ->.
Qed.

(** The Location header of a redirection is one line of plain ASCII that starts with one
    slash; without its fragment it is an address of the plain spelling of the path, and of
    the same query up to a number sign. *)
Theorem C73_location : forall old zone sign s r p parsed kept path query,
  respond old zone sign s r = Redirect p -> addresses (w_target r) path query ->
  Forall (fun c => 32 <= b2n c < 127) (location parsed kept (w_target r) p) /\
  (exists l, location parsed kept (w_target r) p = "/"%byte :: l /\ forall x, l <> "/"%byte :: x) /\
  (w_method r <> str "CONNECT" -> spelling path p) /\
  exists t, before_hash (location parsed kept (w_target r) p) t /\
  exists query', addresses t p query' /\ (~ In "#"%byte query -> forall fs, fields_of old query fs <-> fields_of old query' fs).
Proof.
  intros old zone sign s r p parsed kept path query H A. destruct (redirect_moved _ _ _ _ _ _ H) as (q & AR & HM). pose proof (moved_plain _ _ _ HM) as P.
  destruct (location_is parsed kept _ p _ _ P A) as (qo & Q & _ & L). pose proof (escape_bytes p) as ES. rewrite Forall_forall in ES. split; [|split; [|split]].
  - rewrite L. apply Forall_app. split; [apply Forall_forall; intros c I; apply ES, path_byte_good in I; tauto|]. destruct qo as [qq|]; cbn [question option_map]; [|constructor]. subst qq.
    constructor; [split; [discriminate|reflexivity]|]. apply Forall_forall. intros c I. apply hexesc_in in I. destruct I as [[I S]|I]; [|apply new_byte_good in I; tauto].
    destruct A as (PT & tp & _ & _ & [[_ EQ]|ET]); [rewrite EQ in I; destruct I|]. rewrite ET, Forall_forall in PT. assert (X : printable c) by (apply PT, in_app_iff; right; now right). unfold printable in X. lia.
  - destruct (C61_stays_on_host _ _ _ HM) as (l & E & N). rewrite L, E. rewrite escape_first. change (shouldEscape "/") with false. cbn [app]. eexists. split; [reflexivity|]. intros x X.
    destruct l as [|c l]; [destruct qo; discriminate X|]. rewrite escape_first in X. destruct (shouldEscape c) eqn:SC; [discriminate X|]. cbn [app] in X. injection X as -> _. now apply (N l).
  - intros M. apply C69_arrives_exactly in AR. destruct AR as (path' & query' & bf & qf & A' & _ & _ & ->).
    assert (EP : path' = path). { apply addresses_iff in A, A'. destruct A as (_ & p1 & q1 & C1 & U1 & _), A' as (_ & p2 & q2 & C2 & U2 & _). rewrite C1 in C2. injection C2 as <- <-. congruence. }
    subst path'. destruct (C61_one_spelling path) as (q & S & _). destruct (C61_plain_paths_answered s (Request (w_method r) path (w_authorization r) (bf ++ qf)) q M S) as [K1 K2]. cbn [r_path] in K1, K2.
    destruct (list_eq_dec Byte.byte_eq_dec path q) as [E|E]; [rewrite (K1 E) in HM; destruct (serve s _); discriminate HM|]. rewrite (K2 E) in HM. injection HM as <-. exact S.
  - destruct (hash_cut (location parsed kept (w_target r) p)) as [t T]. exists t. split; [exact T|]. destruct (location_target _ _ _ _ _ _ _ P A T) as (query1 & query' & H1 & -> & AT).
    exists (hexEscapeNonASCII query1). split; [exact AT|]. intros N fs. assert (query1 = query) by (destruct H1 as [_ [E|[f E]]]; [now symmetry|]; exfalso; apply N; rewrite E; apply in_app_iff; right; now left).
    subst query1. now rewrite <- !parse_exact, hexesc_fields.
Qed.
Print Assumptions C73_location.

(** A client that follows a redirection is answered: it is neither refused nor sent on. *)
Theorem C73_followed_once : forall old zone sign s s' r p parsed kept r',
  respond old zone sign s r = Redirect p -> follows r (location parsed kept (w_target r) p) r' ->
  respond old zone sign s' r' <> BadRequest /\ forall p', respond old zone sign s' r' <> Redirect p'.
Proof.
  intros old zone sign s s' r p parsed kept r' H (T & AU & M). destruct (redirect_moved _ _ _ _ _ _ H) as (q & AR & HM). pose proof (moved_plain _ _ _ HM) as P.
  apply C69_arrives_exactly in AR. destruct AR as (path & query & bf & qf & A & _ & _ & ->). destruct (location_target _ _ _ _ _ _ _ P A T) as (query1 & query' & _ & _ & AT).
  set (bf' := if takes_body (w_method r') then parsePostForm old r' else []). set (q' := Request (w_method r') p (w_authorization r') (bf' ++ ParseQuery old query')).
  assert (AR : arrive old r' = Some q').
  { apply C69_arrives_exactly. exists p, query', bf', (ParseQuery old query'). split; [exact AT|]. split; [now apply body_fields_iff|]. split; [now apply parse_exact|reflexivity]. }
  assert (HD : handle s' q' = omap Answer (serve s' q')).
  { destruct (beqb (w_method r) (str "CONNECT")) eqn:C.
    - apply beqb_eq in C. assert (M' : w_method r' = str "CONNECT") by (destruct M as [[X _]|(_ & X & _)]; [rewrite C in X; discriminate X|congruence]).
      unfold handle in HM |- *. cbn [r_method r_path q'] in HM |- *. rewrite C in HM. rewrite M'. change (beqb (str "CONNECT") (str "CONNECT")) with true in *. cbv iota in *.
      destruct (redirectToPathSlash path) eqn:R; [|destruct (serve s _); discriminate HM]. injection HM as <-. apply redirect_iff in R as [-> | ->]; reflexivity.
    - apply beqb_neq in C. destruct (C61_one_spelling path) as (x & S & _). destruct (C61_plain_paths_answered s (Request (w_method r) path (w_authorization r) (bf ++ qf)) x C S) as [K1 K2]. cbn [r_path] in K1, K2.
      destruct (list_eq_dec Byte.byte_eq_dec path x) as [E|E]; [rewrite (K1 E) in HM; destruct (serve s _); discriminate HM|]. rewrite (K2 E) in HM. injection HM as <-.
      apply (C61_plain_paths_answered s' q' x); [|exact (spelling_again _ _ S)|reflexivity]. cbn [q' r_method]. destruct M as [(_ & -> & _)|(_ & -> & _)]; [discriminate|exact C]. }
  unfold respond. rewrite AR, HD. destruct (serve s' q'); cbn [omap obind]; split; try discriminate; intros; discriminate.
Qed.
Print Assumptions C73_followed_once.

(** The answer a request gets in the end. *)
Definition answered_in_the_end (old : bool) (zone : Z -> Z) (sign : bytes -> bytes) (s : server) (r : raw) (a : response) : Prop :=
  (respond old zone sign s r = a /\ forall p, a <> Redirect p) \/
  exists p, respond old zone sign s r = Redirect p /\
    forall parsed kept, (exists r', follows r (location parsed kept (w_target r) p) r') /\
      forall r', follows r (location parsed kept (w_target r) p) r' -> respond old zone sign s r' = a.

Lemma serve_get s r r' : r_method r = str "GET" -> r_method r' = str "GET" -> r_path r' = r_path r -> r_authorization r' = r_authorization r -> serve s r' = serve s r.
Proof.
  intros M M' P A. unfold serve, routeToken, routeBoards, routeClasses, routeUsers, getUsers, getUserInformation, getUserFavorites, getTokenFromRequest. now rewrite M, M', P, A.
Qed.

(** Whatever way the path of a GET is spelled, in the end it gets the answer for its plain
    spelling. *)
Theorem C73_same_answer : forall old zone sign s r path query p r1 query1,
  w_method r = str "GET" -> addresses (w_target r) path query -> spelling path p ->
  w_method r1 = str "GET" -> addresses (w_target r1) p query1 -> w_authorization r1 = w_authorization r ->
  answered_in_the_end old zone sign s r (respond old zone sign s r1).
Proof.
  intros old zone sign s r path query p r1 query1 M A S M1 A1 AU.
  assert (AR : forall r path query, w_method r = str "GET" -> addresses (w_target r) path query ->
    arrive old r = Some (Request (str "GET") path (w_authorization r) (ParseQuery old query))).
  { clear. intros r path query M A. apply C69_arrives_exactly. exists path, query, [], (ParseQuery old query). split; [exact A|]. split.
    - split; [intros (I & _); rewrite M in I; exfalso; cbn in I; intuition discriminate|reflexivity].
    - split; [now apply parse_exact|]. now rewrite M. }
  pose proof (AR r1 p query1 M1 A1) as AR1. set (q1 := Request (str "GET") p (w_authorization r1) (ParseQuery old query1)) in *.
  assert (H1 : handle s q1 = omap Answer (serve s q1)) by (apply (C61_plain_paths_answered s q1 p); [discriminate|exact (spelling_again _ _ S)|reflexivity]).
  assert (NR : forall p', respond old zone sign s r1 <> Redirect p') by (intros p'; unfold respond; rewrite AR1, H1; destruct (serve s q1); cbn [omap obind]; discriminate).
  assert (SAME : forall r' query', w_method r' = str "GET" -> addresses (w_target r') p query' -> w_authorization r' = w_authorization r -> respond old zone sign s r' = respond old zone sign s r1).
  { intros r' query' M' A' AU'. unfold respond. rewrite AR1, H1, (AR r' p query' M' A'). set (q' := Request (str "GET") p (w_authorization r') (ParseQuery old query')).
    assert (H' : handle s q' = omap Answer (serve s q')) by (apply (C61_plain_paths_answered s q' p); [discriminate|exact (spelling_again _ _ S)|reflexivity]).
    rewrite H'. rewrite (serve_get s q1 q'); [reflexivity|reflexivity|reflexivity|reflexivity|]. cbn. congruence. }
  destruct (list_eq_dec Byte.byte_eq_dec path p) as [E|E].
  - left. split; [|exact NR]. subst path. now apply (SAME r query).
  - right. exists p. pose proof (AR r path query M A) as ARr.
    assert (HM : handle s (Request (str "GET") path (w_authorization r) (ParseQuery old query)) = Ok (Moved p)) by (apply (C61_plain_paths_answered s); [discriminate|exact S|exact E]).
    split; [unfold respond; now rewrite ARr, HM|]. intros parsed kept. split.
    + destruct (hash_cut (location parsed kept (w_target r) p)) as [t T]. exists (Raw (str "GET") t (w_authorization r) (w_media r) (w_body r)). split; [exact T|]. split; [reflexivity|]. right. rewrite M. split; [discriminate|]. repeat split.
    + intros r' (T & AU' & F). destruct (location_target _ _ _ _ _ _ _ (moved_plain _ _ _ HM) A T) as (query2 & query' & _ & _ & AT).
      apply (SAME r' query'); [|exact AT|exact AU']. destruct F as [[X _]|(_ & X & _)]; [rewrite M in X; discriminate X|congruence].
Qed.
Print Assumptions C73_same_answer.

(** False for every method: a login sent to another spelling of the address comes back as a
    GET, and gets an empty page. *)
Definition C73_statement : Prop := forall old zone sign s r path query p r1,
  addresses (w_target r) path query -> spelling path p ->
  addresses (w_target r1) p query -> w_method r1 = w_method r -> w_authorization r1 = w_authorization r -> w_media r1 = w_media r -> w_body r1 = w_body r ->
  answered_in_the_end old zone sign s r (respond old zone sign s r1).
Definition slip_login : raw := Raw (str "POST") (str "/v1//token") [] form_media (str "username=SYSOP&password=123123").
Theorem C73_login_refuted : ~ C73_statement.
Proof.
  intros H. assert (A : addresses (w_target slip_login) (str "/v1//token") []) by (apply addresses_iff; split; [reflexivity|]; eexists; eexists; repeat split).
  specialize (H true taipei (fun x => x) web_server slip_login (str "/v1//token") [] (str "/v1/token") login_request A (spelled (str "/v1//token")) login_address eq_refl eq_refl eq_refl eq_refl).
  destruct H as [[H _]|(p & R & H)].
  - apply (f_equal (fun a => match a with Redirect _ => true | _ => false end)) in H. vm_compute in H. discriminate H.
  - assert (p = str "/v1/token") by (assert (X : respond true taipei (fun x => x) web_server slip_login = Redirect (str "/v1/token")) by (vm_compute; reflexivity); rewrite X in R; now injection R as <-). subst p.
    destruct (H true true) as [_ K]. specialize (K (Raw (str "GET") (str "/v1/token") [] [] [])).
    assert (L : location true true (w_target slip_login) (str "/v1/token") = str "/v1/token") by (vm_compute; reflexivity).
    assert (F : follows slip_login (location true true (w_target slip_login) (str "/v1/token")) (Raw (str "GET") (str "/v1/token") [] [] [])).
    { rewrite L. split; [split; [cbn; intuition discriminate|now left]|]. split; [reflexivity|]. left. repeat split. }
    apply K in F. apply (f_equal (fun a => match a with Response _ [] => true | _ => false end)) in F. vm_compute in F. discriminate F.
Qed.
Print Assumptions C73_login_refuted.

(** False: "a redirection keeps the query", if it holds a number sign. *)
Definition C73_query_statement : Prop := forall old zone sign s r p parsed kept path query t query',
  respond old zone sign s r = Redirect p -> addresses (w_target r) path query ->
  before_hash (location parsed kept (w_target r) p) t -> addresses t p query' -> forall fs, fields_of old query fs <-> fields_of old query' fs.
Theorem C73_query_refuted : ~ C73_query_statement.
Proof.
  intros H. pose (r := Raw (str "GET") (str "/v1//boards?a#b=c") [] [] []).
  assert (R : respond true taipei (fun x => x) web_server r = Redirect (str "/v1/boards")) by (vm_compute; reflexivity).
  assert (L : location true true (w_target r) (str "/v1/boards") = str "/v1/boards?a" ++ "#"%byte :: str "b=c") by (vm_compute; reflexivity).
  assert (A : addresses (w_target r) (str "/v1//boards") (str "a#b=c")) by (apply addresses_iff; split; [reflexivity|]; eexists; eexists; repeat split).
  assert (A' : addresses (str "/v1/boards?a") (str "/v1/boards") (str "a")) by (apply addresses_iff; split; [reflexivity|]; eexists; eexists; repeat split).
  assert (T : before_hash (location true true (w_target r) (str "/v1/boards")) (str "/v1/boards?a")) by (rewrite L; split; [cbn; intuition discriminate|right; now eexists]).
  pose proof (proj1 (H true taipei (fun x => x) web_server r _ true true _ _ _ _ R A T A' (ParseQuery true (str "a#b=c"))) (proj1 (parse_exact _ _ _) eq_refl)) as F.
  apply parse_exact in F. vm_compute in F. discriminate F.
Qed.
Print Assumptions C73_query_refuted.

Lemma hexesc_in_ascii s : in_ascii s (hexEscapeNonASCII s).
Proof.
  induction s as [|c s IH]; [constructor|]. rewrite hexesc_cons. destruct (b2n c <? 128) eqn:E; [apply AsciiItself; [lia|exact IH]|].
  pose proof (Byte.to_N_bounded c). fold (b2n c) in H. unfold escaped. cbn [app].
  apply AsciiByte with (a := b2n c / 16) (b := b2n c mod 16); [lia|apply hex_digit_spec, N.div_lt_upper_bound; lia|apply hex_digit_spec; now apply N.mod_lt|apply N.div_mod; lia|exact IH].
Qed.
(** The page sent with a redirection is one link; nothing of the address gets out of it. *)
Theorem C73_page : forall parsed kept target path, exists e url,
  redirect_page parsed kept target path = str "<a href=""" ++ e ++ str """>Moved Permanently</a>." ++ [x0a; x0a] /\
  html_text e url /\ in_ascii url (location parsed kept target path).
Proof.
  intros parsed kept target path. exists (htmlEscape (redirect_url parsed kept target path)), (redirect_url parsed kept target path). split; [reflexivity|]. split; [|apply hexesc_in_ascii].
  generalize (redirect_url parsed kept target path). intros url. induction url as [|c url IH]; [constructor|].
  unfold htmlEscape. cbn [map concat]. fold (htmlEscape url). unfold html_escape.
  destruct (Byte.eqb c "&") eqn:E1; [apply byte_eqb_spec in E1; subst c; apply HtmlEntity; [now left|exact IH]|].
  destruct (Byte.eqb c "<") eqn:E2; [apply byte_eqb_spec in E2; subst c; apply HtmlEntity; [right; now left|exact IH]|].
  destruct (Byte.eqb c ">") eqn:E3; [apply byte_eqb_spec in E3; subst c; apply HtmlEntity; [do 2 right; now left|exact IH]|].
  destruct (Byte.eqb c """") eqn:E4; [apply byte_eqb_spec in E4; subst c; apply HtmlEntity; [do 3 right; now left|exact IH]|].
  destruct (Byte.eqb c "'") eqn:E5; [apply byte_eqb_spec in E5; subst c; apply HtmlEntity; [do 4 right; now left|exact IH]|].
  cbn [app]. apply HtmlItself; [|exact IH]. apply byte_eqb_neq in E1, E2, E3, E4, E5. cbn. intuition congruence.
Qed.
Print Assumptions C73_page.

(** A path with a blank, a percent sign and a letter that is not ASCII. *)
Definition odd_request : raw := Raw (str "GET") (str "/v1/./users/a%20%25%e4/../SYSOP//information?x=<" ++ [xe4]) [] [] [].
Example C73_nonvacuous :
  respond true taipei (fun x => x) web_server odd_request = Redirect (str "/v1/users/SYSOP/information") /\
  location true true (w_target odd_request) (str "/v1/users/SYSOP/information") = str "/v1/users/SYSOP/information?x=<%e4" /\
  redirect_page true true (w_target odd_request) (str "/v1/users/SYSOP/information") =
    str "<a href=""/v1/users/SYSOP/information?x=&lt;" ++ [xe4] ++ str """>Moved Permanently</a>." ++ [x0a; x0a] /\
  (exists st body, respond true taipei (fun x => x) web_server (Raw (str "GET") (str "/v1/users/SYSOP/information?x=<%e4") [] [] []) = Response st body /\ st = 200) /\
  (exists path query, addresses (w_target odd_request) path query /\ spelling path (str "/v1/users/SYSOP/information")) /\
  location true false (str "/v1/users/a%20%25%E4%3f/./b/?") (str "/v1/users/a %" ++ [xe4] ++ str "?/b/") = str "/v1/users/a%20%25%E4%3F/b/".
Proof.
  split; [vm_compute; reflexivity|]. split; [vm_compute; reflexivity|]. split; [vm_compute; reflexivity|]. split; [|split; [|vm_compute; reflexivity]].
  - destruct (respond true taipei (fun x => x) web_server _) as [|p|st body|] eqn:R; apply (f_equal (fun a => match a with Response st _ => st | _ => 0 end)) in R; vm_compute in R; try discriminate R. exists st, body. now split.
  - eexists _, _. split; [apply addresses_iff; split; [reflexivity|]; eexists; eexists; repeat split|]. exact (spelled (str "/v1/./users/a %" ++ [xe4] ++ str "/../SYSOP//information")).
Qed.
