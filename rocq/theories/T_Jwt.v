(** * Property theorems: C67 (access tokens) *)
From Coq Require Import Lia ZifyBool ZifyNat ZifyN.
From Verif Require Import M_Base M_Userec M_Flags M_Verify M_Utf8 M_FileOps M_Web M_Json M_Jwt S_Text S_Json S_Jwt P_Base P_Text P_Json S_Web T_Web.
Open Scope N_scope.

Lemma enc64_spec v : nth_error alphabet (N.to_nat (N.land v 63)) = Some (enc64 v).
Proof.
  unfold enc64. rewrite (nth_error_nth' _ x00); [reflexivity|]. change (length alphabet) with 64%nat. change 63 with (N.ones 6). rewrite N.land_ones.
  pose proof (N.mod_lt v (2 ^ 6) ltac:(discriminate)). change (2 ^ 6) with 64 in *. lia.
Qed.
Lemma bits_land v : bits 6 (N.land v 63) = bits 6 v.
Proof. cbn [bits]. rewrite !N.land_spec. cbn. now rewrite !andb_true_r. Qed.
Lemma byte_high b i : 8 <= i -> N.testbit (b2n b) i = false.
Proof. intros H. destruct (b2n b) as [|p] eqn:E; [apply N.bits_0|]. rewrite <- E. apply N.bits_above_log2. pose proof (b2n_lt b). apply N.lt_le_trans with 8; [|exact H]. apply N.log2_lt_pow2; lia. Qed.
Lemma shiftl_byte b k i : N.testbit (N.shiftl (b2n b) k) i = (k <=? i) && (i <? k + 8) && N.testbit (b2n b) (i - k).
Proof.
  destruct (k <=? i) eqn:E; [|rewrite N.shiftl_spec_low by lia; reflexivity]. rewrite N.shiftl_spec_high by lia. cbn [andb].
  destruct (i <? k + 8) eqn:F; [reflexivity|]. apply byte_high. lia.
Qed.
Lemma byte_bits b i : N.testbit (b2n b) i = (0 <=? i) && (i <? 0 + 8) && N.testbit (b2n b) (i - 0).
Proof. rewrite <- shiftl_byte. now rewrite N.shiftl_0_r. Qed.
Lemma bits_three a b c : let val := N.lor (N.lor (N.shiftl (b2n a) 16) (N.shiftl (b2n b) 8)) (b2n c) in
  bits 6 (N.shiftr val 18) ++ bits 6 (N.shiftr val 12) ++ bits 6 (N.shiftr val 6) ++ bits 6 val = bits 8 (b2n a) ++ bits 8 (b2n b) ++ bits 8 (b2n c).
Proof.
  cbv zeta. cbn [bits app]. rewrite !N.shiftr_spec', !N.lor_spec, !shiftl_byte.
  repeat match goal with |- context[N.testbit (b2n c) (?i + ?j)] => rewrite (byte_high c (i + j)) by (cbn; lia) end.
  cbn [N.of_nat Pos.of_succ_nat Pos.succ N.add Pos.add N.leb N.ltb N.compare Pos.compare Pos.compare_cont andb orb N.sub Pos.sub_mask Pos.pred_double Pos.double_mask Pos.sub_mask_carry Pos.succ_double_mask Pos.double_pred_mask].
  rewrite ?orb_false_r. reflexivity.
Qed.
Lemma bits_two a b : let val := N.lor (N.shiftl (b2n a) 16) (N.shiftl (b2n b) 8) in
  bits 6 (N.shiftr val 18) ++ bits 6 (N.shiftr val 12) ++ bits 6 (N.shiftr val 6) = bits 8 (b2n a) ++ bits 8 (b2n b) ++ [false; false].
Proof.
  cbv zeta. cbn [bits app]. rewrite !N.shiftr_spec', !N.lor_spec, !shiftl_byte.
  cbn [N.of_nat Pos.of_succ_nat Pos.succ N.add Pos.add N.leb N.ltb N.compare Pos.compare Pos.compare_cont andb orb N.sub Pos.sub_mask Pos.pred_double Pos.double_mask Pos.sub_mask_carry Pos.succ_double_mask Pos.double_pred_mask].
  rewrite ?orb_false_r. reflexivity.
Qed.
Lemma bits_one a : let val := N.shiftl (b2n a) 16 in
  bits 6 (N.shiftr val 18) ++ bits 6 (N.shiftr val 12) = bits 8 (b2n a) ++ [false; false; false; false].
Proof.
  cbv zeta. cbn [bits app]. rewrite !N.shiftr_spec', !shiftl_byte.
  cbn [N.of_nat Pos.of_succ_nat Pos.succ N.add Pos.add N.leb N.ltb N.compare Pos.compare Pos.compare_cont andb orb N.sub Pos.sub_mask Pos.pred_double Pos.double_mask Pos.sub_mask_carry Pos.succ_double_mask Pos.double_pred_mask].
  reflexivity.
Qed.
Lemma three_ind (P : bytes -> Prop) : P [] -> (forall a, P [a]) -> (forall a b, P [a; b]) -> (forall a b c l, P l -> P (a :: b :: c :: l)) -> forall l, P l.
Proof.
  intros H0 H1 H2 H3 l. remember (length l) as n eqn:E. assert (L : (length l <= n)%nat) by lia. clear E. revert l L.
  induction n as [|n IH]; intros [|a [|b [|c l]]] L; try apply H0; try apply H1; try apply H2; cbn in L; try lia. apply H3, IH. lia.
Qed.
Lemma alphabet_plain v c : nth_error alphabet v = Some c -> c <> "="%byte /\ c <> "."%byte.
Proof.
  intros H. apply nth_error_In in H. split; intros ->; vm_compute in H; intuition discriminate.
Qed.
Lemma segment_spec d : exists s pad, EncodeToString d = s ++ pad /\ Forall (eq "="%byte) pad /\ base64url d s.
Proof.
  induction d as [|a|a b|a b c l (s & pad & E & P & vs & fill & F & C & Z & L)] using three_ind.
  - exists [], []. split; [reflexivity|]. split; [constructor|]. exists [], []. split; [constructor|]. split; [reflexivity|]. split; [constructor|cbn; lia].
  - cbn [EncodeToString]. set (val := N.shiftl (b2n a) 16) in *. exists [enc64 (N.shiftr val 18); enc64 (N.shiftr val 12)], [ "="%byte; "="%byte]. split; [reflexivity|]. split; [repeat constructor|].
    exists [N.land (N.shiftr val 18) 63; N.land (N.shiftr val 12) 63], [false; false; false; false]. split; [repeat constructor; apply enc64_spec|].
    split; [|split; [repeat constructor|cbn; lia]]. cbn [map concat]. rewrite !bits_land, !app_nil_r. apply bits_one.
  - cbn [EncodeToString]. set (val := N.lor _ _) in *. exists [enc64 (N.shiftr val 18); enc64 (N.shiftr val 12); enc64 (N.shiftr val 6)], [ "="%byte]. split; [reflexivity|]. split; [repeat constructor|].
    exists [N.land (N.shiftr val 18) 63; N.land (N.shiftr val 12) 63; N.land (N.shiftr val 6) 63], [false; false]. split; [repeat constructor; apply enc64_spec|].
    split; [|split; [repeat constructor|cbn; lia]]. cbn [map concat]. rewrite !bits_land, !app_nil_r, <- app_assoc. apply bits_two.
  - cbn [EncodeToString]. set (val := N.lor _ (b2n c)) in *. exists (enc64 (N.shiftr val 18) :: enc64 (N.shiftr val 12) :: enc64 (N.shiftr val 6) :: enc64 val :: s), pad.
    split; [rewrite E; reflexivity|]. split; [exact P|].
    exists (N.land (N.shiftr val 18) 63 :: N.land (N.shiftr val 12) 63 :: N.land (N.shiftr val 6) 63 :: N.land val 63 :: vs), fill. split; [repeat (constructor; [apply enc64_spec|]); exact F|].
    split; [|split; [exact Z|exact L]]. cbn [map concat]. rewrite !bits_land, C. rewrite <- !app_assoc. pose proof (bits_three a b c) as B. cbv zeta in B. fold val in B.
    rewrite !app_assoc in *. rewrite B. now rewrite <- !app_assoc.
Qed.
Lemma drop_all pad r : Forall (eq "="%byte) pad -> (forall c t, r = c :: t -> c <> "="%byte) -> drop_equals (pad ++ r) = r.
Proof.
  intros P H. induction P as [|c pad <- P IH]; cbn [app drop_equals]; [|exact IH]. destruct r as [|c r]; [reflexivity|]. cbn. 
  destruct (Byte.eqb c "=") eqn:E; [apply Byte.byte_dec_bl in E; exfalso; now apply (H c r)|reflexivity].
Qed.
Lemma base64url_plain d s : base64url d s -> Forall (fun c => c <> "="%byte /\ c <> "."%byte) s.
Proof. intros (vs & fill & F & _). induction F as [|v c vs s E F IH]; constructor; [now apply alphabet_plain in E|exact IH]. Qed.
Lemma segment d : base64url d (EncodeSegment d).
Proof.
  destruct (segment_spec d) as (s & pad & E & P & B). unfold EncodeSegment, TrimRightEquals. rewrite E, rev_app_distr, drop_all; [now rewrite rev_involutive|now apply Forall_rev|].
  intros c t R. pose proof (base64url_plain d s B) as F. apply Forall_rev in F. rewrite R in F. inversion F. tauto.
Qed.

(** Reading base64url is unambiguous. *)
Lemma bits_length k n : length (bits k n) = k.
Proof. induction k as [|k IH]; cbn; congruence. Qed.
Lemma bits_inj k n m : n < 2 ^ N.of_nat k -> m < 2 ^ N.of_nat k -> bits k n = bits k m -> n = m.
Proof.
  intros Hn Hm E. apply N.bits_inj. intros i. destruct (N.ltb i (N.of_nat k)) eqn:L.
  - assert (G : forall j, (j < k)%nat -> N.testbit n (N.of_nat j) = N.testbit m (N.of_nat j)).
    { clear - E. induction k as [|k IH]; intros j J; [lia|]. cbn [bits] in E. injection E as E1 E2. destruct (Nat.eq_dec j k) as [->|D]; [exact E1|]. apply IH; [exact E2|lia]. }
    specialize (G (N.to_nat i) ltac:(lia)). now rewrite N2Nat.id in G.
  - assert (X : forall x, x < 2 ^ N.of_nat k -> N.testbit x i = false); [|now rewrite !X]. intros x Hx. destruct (N.eq_dec x 0) as [->|D]; [apply N.bits_0|]. apply N.bits_above_log2.
    apply N.lt_le_trans with (N.of_nat k); [apply N.log2_lt_pow2; lia|lia].
Qed.
Lemma same_length_app {A} (a a' b b' : list A) : length a = length a' -> a ++ b = a' ++ b' -> a = a' /\ b = b'.
Proof. revert a'. induction a as [|x a IH]; intros [|x' a'] L E; try discriminate L; [now split|]. injection E as -> E. destruct (IH a') as [-> ->]; auto. Qed.
Lemma bytes_inj d : forall d' f f', (length f < 8)%nat -> (length f' < 8)%nat ->
  concat (map (fun b => bits 8 (b2n b)) d) ++ f = concat (map (fun b => bits 8 (b2n b)) d') ++ f' -> d = d'.
Proof.
  assert (X : forall b d f f', (length f < 8)%nat -> f = concat (map (fun b => bits 8 (b2n b)) (b :: d)) ++ f' -> False).
  { intros b d0 f f' L ->. rewrite app_length in L. cbn [map concat] in L. rewrite app_length, bits_length in L. lia. }
  induction d as [|b d IH]; intros [|b' d'] f f' L L' E; [reflexivity|exfalso; exact (X b' d' f f' L E)|exfalso; exact (X b d f' f L' (eq_sym E))|].
  cbn [map concat] in E. rewrite <- !app_assoc in E. apply same_length_app in E as [Q E]; [|now rewrite !bits_length]. f_equal; [|now apply (IH d' f f')]. apply bits_inj in Q; [|apply b2n_lt|apply b2n_lt]. rewrite <- (n2b_b2n b), <- (n2b_b2n b'). now rewrite Q.
Qed.
Lemma alphabet_index v v' c : nth_error alphabet v = Some c -> nth_error alphabet v' = Some c -> v = v'.
Proof.
  intros H H'. assert (N : NoDup alphabet) by (unfold alphabet; vm_compute; repeat (constructor; [vm_compute; intuition discriminate|]); constructor).
  assert (L : (v < length alphabet)%nat) by (apply nth_error_Some; congruence). now apply (proj1 (NoDup_nth_error alphabet) N v v' L); congruence.
Qed.
(** ** C67 *)
Theorem C67_base64url_is_unambiguous : forall s d d', base64url d s -> base64url d' s -> d = d'.
Proof.
  intros s d d' (vs & fill & F & C & Z & L) (vs' & fill' & F' & C' & Z' & L').
  assert (vs = vs').
  { clear - F F'. revert vs' F'. induction F as [|v c vs s E F IH]; intros vs' F'; inversion F'; subst; [reflexivity|]. f_equal; [|now apply IH].
    assert (X : N.to_nat v = N.to_nat x) by (eapply alphabet_index; eassumption). lia. }
  subst vs'. rewrite C in C'. eapply bytes_inj; [| |exact C']; lia.
Qed.
Print Assumptions C67_base64url_is_unambiguous.

(** The payload as a JSON text. *)
Lemma bytes_text s : Forall (fun b => b2n b < 128) s -> concat (map utf8 (map b2n s)) = s.
Proof. intros F. symmetry. now apply ascii_points. Qed.
Lemma value_object f s : value (S f) (123 :: 34 :: s) = match members f (34 :: s) with Some (l, r) => Some (JObj l, r) | None => None end.
Proof. reflexivity. Qed.
Lemma members_one f s k s2 v e s4 : chars s = Some (k, 58 :: s2) -> value f s2 = Some (v, e :: s4) -> is_space e = false -> members (S f) (34 :: s) =
  if e =? 125 then Some ([(k, v)], s4) else if e =? 44 then match members f s4 with Some (l, r) => Some ((k, v) :: l, r) | None => None end else None.
Proof.
  intros H E Sp. cbn [members]. change (S_Json.spaces (34 :: s)) with (34 :: s). cbv iota. change (34 =? 34) with true. cbv iota. rewrite H.
  change (S_Json.spaces (58 :: s2)) with (58 :: s2). cbv iota. change (58 =? 58) with true. cbv iota. rewrite E, spaces_cons by exact Sp. reflexivity.
Qed.
Lemma object_text f x t : chars x = Some (t, [125]) ->
  value (S (6 + f)) (map b2n (str "{""exp"":1800,""sub"":""") ++ x) = Some (JObj [(text "exp", JNum 1800); (text "sub", JStr t)], []).
Proof.
  intros C. change (map b2n (str "{""exp"":1800,""sub"":""") ++ x) with (123 :: 34 :: map b2n (str "exp"":1800,""sub"":""") ++ x). rewrite value_object. cbn [Nat.add].
  rewrite (members_one _ _ (text "exp") (map b2n (str "1800,""sub"":""") ++ x) (JNum 1800) 44 (34 :: map b2n (str "sub"":""") ++ x)) by reflexivity.
  change (44 =? 125) with false. change (44 =? 44) with true. cbv iota.
  rewrite (members_one _ _ (text "sub") (34 :: x) (JStr t) 125 []); [reflexivity|reflexivity| |reflexivity].
  change (value (S (S (S (S f)))) (34 :: x)) with (match chars x with Some (t, r) => Some (JStr t, r) | None => None end). rewrite C. reflexivity.
Qed.
Lemma payload_text u : json_text (Marshal (claims_value (newAccessTokenWithUsername u)))
  (JObj ((text "exp", JNum 1800) :: match u with [] => [] | _ => [(text "sub", JStr (runes u))] end)).
Proof.
  destruct u as [|b u]; [exists (map b2n (str "{""exp"":1800}")); split; [split; [repeat (constructor; [left; vm_compute; reflexivity|]); constructor|vm_compute; reflexivity]|vm_compute; reflexivity]|].
  set (s := b :: u). destruct (encode_runes_ok s (length s) ltac:(lia)) as (cs & P & E & _ & C & _).
  assert (X : Marshal (claims_value (newAccessTokenWithUsername s)) = str "{""exp"":1800,""sub"":""" ++ encode_runes (length s) s ++ str """}").
  { change (Marshal (claims_value (newAccessTokenWithUsername s))) with (str "{""exp"":1800,""sub"":" ++ encode_string s ++ str "}"). unfold encode_string. cbn [app]. now rewrite <- app_assoc. }
  rewrite X, E. exists (map b2n (str "{""exp"":1800,""sub"":""") ++ cs ++ map b2n (str """}")). split; [split|].
  - apply points_app; [|apply points_app; [exact P|]]; (repeat (constructor; [left; vm_compute; reflexivity|]); constructor).
  - rewrite !concat_utf8_app, !bytes_text; [reflexivity| |]; repeat constructor.
  - assert (Cs : chars (cs ++ [34; 125]) = Some (runes s, [125])) by (rewrite (C [34; 125]); cbn [chars app_chars N.eqb Pos.eqb]; now rewrite app_nil_r).
    unfold json_of. rewrite !app_length.
    change (length (map b2n (str "{""exp"":1800,""sub"":""")) + (length cs + length (map b2n (str """}"))))%nat with (6 + (13 + (length cs + 2)))%nat.
    rewrite object_text with (t := runes s) by exact Cs. reflexivity.
Qed.
Lemma in_utf8_runes t s : in_utf8 t s -> t = runes s.
Proof.
  intros [P ->]. apply reads_as_unique. induction P as [|c t Pc P IH]; [constructor|]. cbn [map concat]. now constructor.
Qed.
Lemma json_text_one s v v' : json_text s v -> json_text s v' -> v = v'.
Proof. intros (t & U & J) (t' & U' & J'). apply in_utf8_runes in U, U'. congruence. Qed.

Lemma joined_three a b c : ~ In "."%byte a -> ~ In "."%byte b -> ~ In "."%byte c -> cuts "." (a ++ "."%byte :: b ++ "."%byte :: c) [a; b; c].
Proof. intros A B C. split; [discriminate|]. split; [reflexivity|]. repeat (constructor; [assumption|]). constructor. Qed.
Lemma segment_plain d : ~ In "."%byte (EncodeSegment d).
Proof. intros H. pose proof (base64url_plain d _ (segment d)) as F. rewrite Forall_forall in F. now apply (proj2 (F _ H)). Qed.
Lemma token_compact sign t : compact (SignedString sign t) (Marshal header_value) (Marshal (claims_value t)) (sign (SigningString t)).
Proof.
  unfold SignedString. unfold SigningString at 1. rewrite <- app_assoc. cbn [app]. eexists _, _, _. split; [apply joined_three; apply segment_plain|]. repeat split; apply segment.
Qed.
Lemma compact_one s h p g h' p' g' : compact s h p g -> compact s h' p' g' -> h = h' /\ p = p' /\ g = g'.
Proof.
  intros (a & b & c & C & H & P & G) (a' & b' & c' & C' & H' & P' & G'). apply cuts_split in C, C'. rewrite <- C in C'. injection C' as <- <- <-.
  split; [|split]; eapply C67_base64url_is_unambiguous; eassumption.
Qed.

(** Every token issued is one for the user of the request. *)
Lemma issued s r rep t user : serve s r = Ok rep -> content rep = TokenBody t -> form_value (r_form r) (str "username") user -> t = newAccessTokenWithUsername user.
Proof.
  intros H C U. destruct (C36_token_only_with_password s r rep t H C) as (P & M & _). apply form_value_is in U.
  unfold serve, routeToken, postToken in H. rewrite P, M, !beqb_refl in H. cbv zeta in H. rewrite U in H.
  destruct (findUserecByID (s_users s) user) as [u|e| |]; [|injection H as <-; discriminate C|discriminate H|discriminate H].
  destruct (VerifyPassword u (FormValue (r_form r) (str "password"))) as [[]|e| |]; [|injection H as <-; discriminate C|discriminate H|discriminate H].
  injection H as <-. cbn [content] in C. now injection C as <-.
Qed.

Definition token_header : json := JObj [(text "alg", JStr (text "ES256")); (text "typ", JStr (text "JWT"))].
(** The text of every token issued, whatever the key: a compact token with these header
    and claims, and over these two parts the signature. *)
Theorem C67_tokens_name_their_user : forall sign s r rep t user,
  serve s r = Ok rep -> content rep = TokenBody t -> form_value (r_form r) (str "username") user ->
  exists header payload signed name, compact (SignedString sign t) header payload (sign signed) /\
    SignedString sign t = signed ++ "."%byte :: skipn (length signed + 1) (SignedString sign t) /\ base64url (sign signed) (skipn (length signed + 1) (SignedString sign t)) /\
    json_text header token_header /\ reads_as user name /\
    json_text payload (JObj ((text "exp", JNum 1800) :: match user with [] => [] | _ => [(text "sub", JStr name)] end)).
Proof.
  intros sign s r rep t user H C U. rewrite (issued s r rep t user H C U). clear. set (t := newAccessTokenWithUsername user).
  exists (Marshal header_value), (Marshal (claims_value t)), (SigningString t), (runes user). split; [apply token_compact|].
  assert (X : skipn (length (SigningString t) + 1) (SignedString sign t) = EncodeSegment (sign (SigningString t))).
  { unfold SignedString. rewrite skipn_app. rewrite (skipn_all2 (SigningString t)) by lia. replace (length (SigningString t) + 1 - length (SigningString t))%nat with 1%nat by lia. reflexivity. }
  rewrite X. split; [reflexivity|]. split; [apply segment|]. split; [|split; [apply reads_as_runes|apply payload_text]].
  exists (map b2n (Marshal header_value)). split; [split; [|vm_compute; reflexivity]|vm_compute; reflexivity].
  vm_compute Marshal. repeat (constructor; [left; vm_compute; reflexivity|]). constructor.
Qed.
Print Assumptions C67_tokens_name_their_user.

(** Two users whose ids are text never get the same token text, whatever the key and
    whatever the other parts are: reading the one gives the other's id. *)
Theorem C67_other_users_other_tokens : forall sign sign' u u' t t',
  in_utf8 t u -> in_utf8 t' u' ->
  SignedString sign (newAccessTokenWithUsername u) = SignedString sign' (newAccessTokenWithUsername u') -> u = u'.
Proof.
  intros sign sign' u u' t t' U U' E.
  pose proof (token_compact sign (newAccessTokenWithUsername u)) as K. rewrite E in K.
  destruct (compact_one _ _ _ _ _ _ _ K (token_compact sign' (newAccessTokenWithUsername u'))) as (_ & P & _).
  pose proof (payload_text u) as J. rewrite P in J. pose proof (json_text_one _ _ _ J (payload_text u')) as X. clear - X U U'.
  pose proof (in_utf8_runes _ _ U) as R. pose proof (in_utf8_runes _ _ U') as R'. destruct U as [_ ->], U' as [_ E']. rewrite E' in *.
  destruct (concat (map utf8 t)) as [|a l] eqn:A, (concat (map utf8 t')) as [|a' l'] eqn:A'; [reflexivity|discriminate X|discriminate X|].
  rewrite <- R, <- R' in X. injection X as <-. congruence.
Qed.
Print Assumptions C67_other_users_other_tokens.

(** Ids that are no text can share a token. *)
Definition C67_ids_statement : Prop := forall sign u u', SignedString sign (newAccessTokenWithUsername u) = SignedString sign (newAccessTokenWithUsername u') -> u = u'.
Theorem C67_ids_refuted : ~ C67_ids_statement.
Proof. intros H. specialize (H (fun x => x) [xff] [xfe]). discriminate H. vm_compute. reflexivity. Qed.
Print Assumptions C67_ids_refuted.

(** No token issued is ever accepted by a verifier that looks at its "exp" claim: it
    names the time half an hour after the epoch, not half an hour after now. *)
Definition C67_half_an_hour_statement : Prop := forall sign s r rep t now header payload signature, (0 <= now)%Z ->
  serve s r = Ok rep -> content rep = TokenBody t -> compact (SignedString sign t) header payload signature -> not_expired payload now.
Theorem C67_always_expired : forall sign s r rep t user now header payload signature,
  serve s r = Ok rep -> content rep = TokenBody t -> form_value (r_form r) (str "username") user ->
  compact (SignedString sign t) header payload signature -> (not_expired payload now <-> (now < 1800)%Z).
Proof.
  intros sign s r rep t user now header payload signature H C U K. rewrite (issued s r rep t user H C U) in K.
  destruct (compact_one _ _ _ _ _ _ _ K (token_compact sign _)) as (_ & -> & _). split.
  - intros N. apply N. eexists. split; [apply payload_text|]. now left.
  - intros L e (m & J & I). pose proof (json_text_one _ _ _ J (payload_text user)) as X. injection X as ->. destruct I as [I|I]; [injection I as <-; exact L|].
    destruct user; [destruct I|]. destruct I as [I|[]]. discriminate I.
Qed.
Print Assumptions C67_always_expired.
Theorem C67_half_an_hour_refuted : ~ C67_half_an_hour_statement.
Proof.
  intros H. set (r := post_token (str "SYSOP") (str "123123")).
  assert (A : serve web_server r = Ok (Reply 200 (TokenBody (Token 1800 (str "SYSOP"))))) by apply C36_nonvacuous.
  assert (F : form_value (r_form r) (str "username") (str "SYSOP")) by (left; eexists [], _; split; [reflexivity|constructor]).
  pose proof (token_compact (fun x => x) (Token 1800 (str "SYSOP"))) as K.
  specialize (H (fun x => x) web_server r _ _ 1600000000%Z _ _ _ ltac:(lia) A eq_refl K).
  rewrite (C67_always_expired _ _ _ _ _ _ _ _ _ _ A eq_refl F K) in H. lia.
Qed.
Print Assumptions C67_half_an_hour_refuted.

Example C67_nonvacuous :
  serve web_server (post_token (str "SYSOP") (str "123123")) = Ok (Reply 200 (TokenBody (Token 1800 (str "SYSOP")))) /\
  SignedString (fun _ => str "sig") (Token 1800 (str "SYSOP")) = str "eyJhbGciOiJFUzI1NiIsInR5cCI6IkpXVCJ9.eyJleHAiOjE4MDAsInN1YiI6IlNZU09QIn0.c2ln" /\
  base64url (str "{""exp"":1800,""sub"":""SYSOP""}") (str "eyJleHAiOjE4MDAsInN1YiI6IlNZU09QIn0") /\
  in_utf8 (text "SYSOP") (str "SYSOP").
Proof.
  split; [apply C36_nonvacuous|]. split; [vm_compute; reflexivity|]. split; [apply (segment (str "{""exp"":1800,""sub"":""SYSOP""}"))|].
  split; [|vm_compute; reflexivity]. repeat (constructor; [left; vm_compute; reflexivity|]). constructor.
Qed.
