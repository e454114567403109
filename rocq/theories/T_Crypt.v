(** * Property theorems: C22 and C46 (the password hash), C23 (verification) *)
From Coq Require Import Lia ZifyBool ZifyNat ZifyN.
From Verif Require Import M_Base M_CryptTables M_Crypt M_Userec M_Verify M_Cstr.
From Verif Require Import S_Crypt S_Layout S_Userec S_Example.
From Verif Require Import P_Base P_CryptSym P_CryptKey P_CryptRound P_Crypt P_Records T_Records.
Open Scope N_scope.

#[local] Opaque crypt_block.
Lemma Ok_inj {A} (a b : A) : Ok a = Ok b -> a = b.
Proof. congruence. Qed.

(** ** C46 *)
(** For every password and every pair of salt characters (values [v] and [w] in
    the alphabet), whatever follows the salt, the answer is that of crypt(3). *)
Theorem C46_hash_is_crypt3 : forall password v w rest, v < 64 -> w < 64 ->
  Fcrypt password (letter v :: letter w :: rest) = Ok (crypt3 password v w ++ [x00]).
Proof.
  intros password v w rest V W. destruct (con_salt_letter v V) as [C0 Z0]. destruct (con_salt_letter w W) as [C1 Z1].
  pose proof (Fcrypt_spec password (letter v) (letter w) rest v w) as H. cbv zeta in H.
  rewrite (proj2 (N.eqb_neq _ _) Z0), (proj2 (N.eqb_neq _ _) Z1) in H. rewrite (H C0 C1). unfold crypt3. now rewrite <- !app_assoc, !n2b_b2n.
Qed.
Print Assumptions C46_hash_is_crypt3.
(** Other 7-bit salt characters are accepted too: each behaves as some letter of
    the alphabet, except that it is copied to the answer. *)
Theorem C46_other_salts : forall password s0 s1 rest, b2n s0 < 128 -> b2n s1 < 128 -> exists v w, v < 64 /\ w < 64 /\
  Fcrypt password (s0 :: s1 :: rest) =
  Ok ([if Byte.eqb s0 x00 then "A"%byte else s0; if Byte.eqb s1 x00 then "A"%byte else s1] ++ skipn 2 (crypt3 password v w) ++ [x00]).
Proof.
  intros password s0 s1 rest H0 H1.
  assert (X : forall s, b2n s < 128 -> exists v, v < 64 /\ con_salt (if b2n s =? 0 then 0x41 else b2n s) = Some v).
  { intros s H. destruct (con_salt (if b2n s =? 0 then 0x41 else b2n s)) as [v|] eqn:E; [exists v; split; [now apply con_salt_small in E|reflexivity]|].
    exfalso. unfold con_salt in E. apply nth_error_None in E. change (length conSalt) with 128%nat in E. destruct (b2n s =? 0); lia. }
  destruct (X s0 H0) as (v & V & C0). destruct (X s1 H1) as (w & W & C1). exists v, w. split; [exact V|]. split; [exact W|].
  rewrite (Fcrypt_spec password s0 s1 rest v w C0 C1). unfold crypt3. cbn [skipn app].
  replace (n2b (if b2n s0 =? 0 then 65 else b2n s0)) with (if Byte.eqb s0 x00 then "A"%byte else s0) by (clear; destruct s0; reflexivity).
  replace (n2b (if b2n s1 =? 0 then 65 else b2n s1)) with (if Byte.eqb s1 x00 then "A"%byte else s1) by (clear; destruct s1; reflexivity).
  reflexivity.
Qed.
Print Assumptions C46_other_salts.
(** The vectors of crypt/bbscrypt_test.go, for the specification and the code. *)
Example C46_nonvacuous :
  letter 12 = "A"%byte /\ letter 39 = "b"%byte /\ letter 45 = "h"%byte /\
  crypt3 (str "012345678901") 12 12 = str "AA3QBhLWk1BWA" /\
  crypt3 (str "ABCD45678901") 12 12 = str "AA9VbueZXojAA" /\
  crypt3 (str "123123") 39 45 = str "bhwvOJtfT1TAI" /\
  Fcrypt (str "123123") (str "bhwvOJtfT1TAI") = Ok (str "bhwvOJtfT1TAI" ++ [x00]) /\
  Fcrypt (str "00000000") (str "000000000") = Ok (str "00CfV146ZJdLc" ++ [x00]) /\
  Fcrypt (str "012345678901") (str "A?3QBhLWk1BWA") = Ok (str "A?A48O5srqPSU" ++ [x00]).
Proof. vm_compute. repeat split. Qed.

(** ** C22 *)
Definition good_salt (salt : bytes) : Prop :=
  exists s0 s1 rest, salt = s0 :: s1 :: rest /\ b2n s0 < 128 /\ b2n s1 < 128.
(** It answers exactly on salts of two 7-bit characters, and panics otherwise. *)
Theorem C22_answers_exactly : forall key salt,
  (good_salt salt -> exists r, Fcrypt key salt = Ok r) /\ (~ good_salt salt -> Fcrypt key salt = Panic).
Proof.
  intros key salt. split.
  - intros (s0 & s1 & rest & -> & H0 & H1). destruct (C46_other_salts key s0 s1 rest H0 H1) as (v & w & _ & _ & E). eexists. exact E.
  - intros N. unfold Fcrypt, salt_char. destruct salt as [|s0 [|s1 rest]]; cbn [nth_error]; try reflexivity.
    + now destruct (con_salt _).
    + assert (X : forall s, con_salt (if b2n s =? 0 then 0x41 else b2n s) <> None -> b2n s < 128).
      { intros s H. unfold con_salt in H. apply nth_error_Some in H. change (length conSalt) with 128%nat in H. destruct (N.eqb_spec (b2n s) 0); lia. }
      destruct (con_salt (if b2n s0 =? 0 then 0x41 else b2n s0)) as [e0|] eqn:E0; [|reflexivity].
      destruct (con_salt (if b2n s1 =? 0 then 0x41 else b2n s1)) as [e1|] eqn:E1; [|reflexivity].
      exfalso. apply N. exists s0, s1, rest. split; [reflexivity|]. split; apply X; congruence.
Qed.
Print Assumptions C22_answers_exactly.
(** Shape: the salt characters (NUL becomes 'A'), eleven letters, a NUL. *)
Theorem C22_shape : forall key s0 s1 rest r, Fcrypt key (s0 :: s1 :: rest) = Ok r -> exists letters,
  r = [if Byte.eqb s0 x00 then "A"%byte else s0; if Byte.eqb s1 x00 then "A"%byte else s1] ++ letters ++ [x00] /\
  length letters = 11%nat /\ Forall (fun c => In c alphabet) letters.
Proof.
  intros key s0 s1 rest r H.
  assert (G : b2n s0 < 128 /\ b2n s1 < 128).
  { destruct (N.lt_ge_cases (b2n s0) 128), (N.lt_ge_cases (b2n s1) 128); auto; exfalso;
      destruct (C22_answers_exactly key (s0 :: s1 :: rest)) as [_ P]; rewrite P in H; try discriminate; intros (a & b & c & E & ? & ?); injection E as <- <- <-; lia. }
  destruct (C46_other_salts key s0 s1 rest (proj1 G) (proj2 G)) as (v & w & _ & _ & E). rewrite E in H. apply Ok_inj in H. subst r.
  exists (skipn 2 (crypt3 key v w)). split; [reflexivity|]. unfold crypt3. cbn [skipn app].
  set (bl := crypt_block key (salt_bits v w)). assert (L : length (bl ++ [false; false]) = (6 * 11)%nat) by (rewrite app_length; reflexivity).
  split; [rewrite map_length; now apply six_groups_length|].
  apply Forall_forall. intros c I'. apply in_map_iff in I' as (g & <- & Ig). unfold letter. apply nth_In.
  assert (Lg : length g = 6%nat).
  { apply (In_nth _ _ []) in Ig as (b & B & <-). rewrite (six_groups_length _ 11 L) in B. rewrite six_groups_nth by (rewrite L; lia). reflexivity. }
  clear - Lg. destruct g as [|x0 [|x1 [|x2 [|x3 [|x4 [|x5 [|x6 g]]]]]]]; try discriminate.
  destruct x0, x1, x2, x3, x4, x5; vm_compute; lia.
Qed.
Print Assumptions C22_shape.
(** It depends only on the first two salt bytes and on the seven low bits of the
    first eight password characters before a NUL. *)
Theorem C22_depends : forall key key' s0 s1 rest rest',
  map (fun c => b2n c mod 128) (firstn 8 (until_nul key)) = map (fun c => b2n c mod 128) (firstn 8 (until_nul key')) ->
  Fcrypt key (s0 :: s1 :: rest) = Fcrypt key' (s0 :: s1 :: rest').
Proof.
  intros key key' s0 s1 rest rest' H.
  assert (K : key_of key = key_of key').
  { unfold key_of. rewrite !key_bytes_spec, !until_nul_firstn. f_equal. revert H.
    generalize (firstn 8 (until_nul key)) (firstn 8 (until_nul key')). clear. intros l. induction l as [|c l IH]; intros [|c' l'] H; try discriminate; [reflexivity|].
    cbn [map] in *. injection H as H1 H2. f_equal; [|now apply IH]. clear - H1.
    change 0xff with (N.ones 8). rewrite !N.land_ones, !N.shiftl_mul_pow2. change (2 ^ 8) with (128 * 2 ^ 1).
    rewrite !N.mul_mod_distr_r by discriminate. now rewrite H1. }
  unfold Fcrypt, salt_char. cbn [nth_error]. fold (key_of key). fold (key_of key'). now rewrite K.
Qed.
Print Assumptions C22_depends.
Example C22_nonvacuous :
  good_salt (str "bhwvOJ") /\
  map (fun c => b2n c mod 128) (firstn 8 (until_nul (str "password1"))) = map (fun c => b2n c mod 128) (firstn 8 (until_nul (str "password2"))).
Proof. split; [|reflexivity]. exists "b"%byte, "h"%byte, (str "wvOJ"). repeat split; reflexivity. Qed.

(** ** C23 *)
Lemma trim_keep s : (forall b, In b s -> b <> x00) -> trim_nul (s ++ [x00]) = s.
Proof.
  intros H. assert (TL : forall l, (forall b, In b l -> b <> x00) -> trim_left_nul l = l).
  { intros [|b l] Hl; [reflexivity|]. cbn [trim_left_nul]. destruct (Byte.eqb b x00) eqn:E; [|reflexivity].
    apply Byte.byte_dec_bl in E. exfalso. apply (Hl b); [now left|exact E]. }
  unfold trim_nul. destruct s as [|b s]; [reflexivity|].
  assert (E : trim_left_nul ((b :: s) ++ [x00]) = (b :: s) ++ [x00]).
  { cbn [app trim_left_nul]. destruct (Byte.eqb b x00) eqn:E; [|reflexivity]. apply Byte.byte_dec_bl in E. exfalso. apply (H b); [now left|exact E]. }
  rewrite E, rev_app_distr. change (rev [x00] ++ rev (b :: s)) with (x00 :: rev (b :: s)).
  change (trim_left_nul (x00 :: rev (b :: s))) with (trim_left_nul (rev (b :: s))).
  rewrite TL; [apply rev_involutive|]. intros c I'. apply H. now apply in_rev in I'.
Qed.
Lemma alphabet_nonul c : In c alphabet -> c <> x00.
Proof. intros H ->. vm_compute in H. repeat (destruct H as [H|H]; [discriminate|]). contradiction. Qed.
Lemma hash_trim key s0 s1 rest r : Fcrypt key (s0 :: s1 :: rest) = Ok r -> exists h, r = h ++ [x00] /\ trim_nul r = h.
Proof.
  intros H. destruct (C22_shape key s0 s1 rest r H) as (ls & -> & _ & A). eexists. split; [rewrite app_assoc; reflexivity|].
  rewrite app_assoc. apply trim_keep. intros b I'. cbn [app In] in I'. destruct I' as [<-|[<-|I']].
  - destruct (Byte.eqb s0 x00) eqn:E; [discriminate|]. intros ->. discriminate.
  - destruct (Byte.eqb s1 x00) eqn:E; [discriminate|]. intros ->. discriminate.
  - apply alphabet_nonul. now apply (proj1 (Forall_forall _ _) A).
Qed.
(** A password is accepted exactly if hashing it with the first two stored
    characters gives the stored string. *)
Theorem C23_accepts_exactly : forall u password,
  VerifyPassword u password = Ok tt <->
  exists a b rest, u_password u = a :: b :: rest /\ Fcrypt password [a; b] = Ok (u_password u ++ [x00]).
Proof.
  intros u password. unfold VerifyPassword. split.
  - destruct (u_password u) as [|a [|b rest]] eqn:E; try discriminate. destruct (Fcrypt password [a; b]) as [r| | |] eqn:F; try discriminate.
    unfold beqb. destruct list_eq_dec as [T|]; [|discriminate]. intros _. exists a, b, rest. split; [reflexivity|].
    destruct (hash_trim password a b [] r F) as (h & -> & Th). rewrite Th in T. now subst h.
  - intros (a & b & rest & E & F). rewrite E at 1. rewrite F. destruct (hash_trim password a b [] _ F) as (h & Eh & Th).
    rewrite Th. apply app_inj_tail in Eh as [<- _]. unfold beqb. destruct list_eq_dec as [|n]; [reflexivity|now elim n].
Qed.
Print Assumptions C23_accepts_exactly.
(** In the words of crypt(3): against a stored string of thirteen letters. *)
Theorem C23_accepts_crypt3 : forall u password v w rest, v < 64 -> w < 64 -> u_password u = letter v :: letter w :: rest ->
  (VerifyPassword u password = Ok tt <-> u_password u = crypt3 password v w) /\
  (VerifyPassword u password = Err EPassword <-> u_password u <> crypt3 password v w).
Proof.
  intros u password v w rest V W E.
  assert (A : VerifyPassword u password = Ok tt <-> u_password u = crypt3 password v w).
  { rewrite C23_accepts_exactly. split.
    - intros (a & b & r & E' & F). rewrite E in E'. injection E' as <- <- <-. rewrite (C46_hash_is_crypt3 password v w []) in F by assumption.
      apply Ok_inj in F. apply app_inj_tail in F as [F _]. now symmetry.
    - intros H. exists (letter v), (letter w), rest. split; [exact E|]. rewrite (C46_hash_is_crypt3 password v w []) by assumption. now rewrite H. }
  split; [exact A|]. rewrite <- A. unfold VerifyPassword. rewrite E. rewrite (C46_hash_is_crypt3 password v w []) by assumption.
  destruct (beqb _ _); split; congruence.
Qed.
Print Assumptions C23_accepts_crypt3.
(** The password from which the stored hash was made is accepted, also after the
    record went through the password file. *)
Theorem C23_own_password_accepted : forall cd u password v w, v < 64 -> w < 64 -> u_password u = crypt3 password v w ->
  VerifyPassword u password = Ok tt /\
  (userec_fits cd u -> exists u', UnmarshalUserec cd (Userec_MarshalBinary cd u) = Ok u' /\ VerifyPassword u' password = Ok tt).
Proof.
  intros cd u password v w V W E.
  assert (X : forall x, u_password x = crypt3 password v w -> VerifyPassword x password = Ok tt).
  { intros x Ex. eapply C23_accepts_crypt3; [exact V|exact W|rewrite Ex; reflexivity|exact Ex]. }
  split; [now apply X|]. intros F. rewrite (userec_roundtrip cd u F). eexists. split; [reflexivity|]. apply X. exact E.
Qed.
Print Assumptions C23_own_password_accepted.
(** It panics exactly when the stored string does not start with two 7-bit
    characters: the clause "never panics" is false. *)
Theorem C23_panics_exactly : forall u password, VerifyPassword u password = Panic <-> ~ good_salt (u_password u).
Proof.
  intros u password. unfold VerifyPassword. destruct (u_password u) as [|a [|b rest]] eqn:E.
  - split; [|reflexivity]. intros _ (s0 & s1 & r & H & _). discriminate.
  - split; [|reflexivity]. intros _ (s0 & s1 & r & H & _). discriminate.
  - assert (G : good_salt [a; b] <-> good_salt (a :: b :: rest)).
    { split; intros (s0 & s1 & r & H & A & B); injection H as <- <- _; eexists a, b, _; auto. }
    rewrite <- G. destruct (C22_answers_exactly password [a; b]) as [P1 P2]. split.
    + intros H Gd. destruct (P1 Gd) as [r F]. rewrite F in H. destruct (beqb _ _); discriminate.
    + intros H. now rewrite (P2 H).
Qed.
Print Assumptions C23_panics_exactly.
Theorem C23_never_panics_refuted : exists u, UnmarshalUserec id_codec (repeat x00 512) = Ok u /\ forall password, VerifyPassword u password = Panic.
Proof.
  destruct (UnmarshalUserec id_codec (repeat x00 512)) as [u| | |] eqn:E; vm_compute in E; try discriminate.
  exists u. split; [reflexivity|]. intros password. apply C23_panics_exactly. apply Ok_inj in E. subst u.
  intros (s0 & s1 & r & H & _). discriminate.
Qed.
Print Assumptions C23_never_panics_refuted.
Example C23_nonvacuous : exists u, UnmarshalUserec id_codec (repeat x00 61 ++ str "bhwvOJtfT1TAI" ++ repeat x00 438) = Ok u /\
  u_password u = crypt3 (str "123123") 39 45 /\ VerifyPassword u (str "123123") = Ok tt /\ VerifyPassword u (str "123124") = Err EPassword.
Proof.
  destruct (UnmarshalUserec id_codec (repeat x00 61 ++ str "bhwvOJtfT1TAI" ++ repeat x00 438)) as [u| | |] eqn:E; vm_compute in E; try discriminate.
  exists u. split; [reflexivity|]. apply Ok_inj in E. subst u. vm_compute. repeat split.
Qed.
