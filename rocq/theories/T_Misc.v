(** * Property theorems: C24 (FNV), C38 and C44 (flags), C39 (options), C43 (cache
    connection strings) *)
From Coq Require Import Lia ZifyBool ZifyNat ZifyN.
From Verif Require Import M_Base M_Cstr M_Text M_Fnv M_Flags M_Conn M_Tool M_Board M_Userec M_Sys M_DB M_FileOps.
From Verif Require S_Digits P_Digits P_Create.
From Verif Require Import S_Layout S_Text S_Fnv S_Flags S_Tool S_Board S_Userec S_Example S_World S_BoardList S_Store S_ExWorld.
From Verif Require Import P_Base P_Layout P_Records P_Text T_Records.
Open Scope N_scope.

(** ** C24 *)
Lemma seed_state offset : offset < 2 ^ 32 -> New32aWith offset = offset.
Proof.
  intros H. unfold New32aWith, fnv_MarshalBinary, magic32a, be32, New32a. rewrite !N.shiftr_div_pow2. change 255 with (N.ones 8). rewrite !N.land_ones.
  set (a := n2b _). set (b := n2b _). set (c := n2b _). set (d := n2b _).
  change (str "fnv" ++ [x02]) with [x66; x6e; x76; x02]. cbn [app set_byte firstn skipn]. unfold set_byte. cbn [app firstn skipn].
  unfold fnv_UnmarshalBinary. replace (beqb _ _) with true by (vm_compute; reflexivity). cbn [lenN length N.of_nat].
  change (N.pos _ <? 4) with false. cbn [orb negb N.eqb Pos.eqb Pos.of_succ_nat Pos.succ skipn be_dec fold_left].
  subst a b c d. rewrite !b2n_n2b, !N.mod_mod by discriminate.
  change (2 ^ 8) with 256. change (2 ^ 16) with 65536. change (2 ^ 24) with 16777216. change (2 ^ 32) with 4294967296 in H.
  pose proof (N.div_mod offset 256). pose proof (N.div_mod (offset / 256) 256). pose proof (N.div_mod (offset / 65536) 256).
  rewrite (N.div_div offset 256 256) in * by discriminate. rewrite (N.div_div offset 65536 256) in * by discriminate.
  change (256 * 256) with 65536 in *. change (65536 * 256) with 16777216 in *.
  assert (L : offset / 16777216 < 256) by (apply N.div_lt_upper_bound; lia). rewrite (N.mod_small _ _ L). lia.
Qed.
Lemma write_fnv d : forall h, fnv1a h d (fnv_Write h d).
Proof. induction d as [|b d IH]; intros h; cbn; constructor. apply IH. Qed.
Lemma fnv1a_fun d : forall h a b, fnv1a h d a -> fnv1a h d b -> a = b.
Proof. induction d as [|x d IH]; intros h a b A B; inversion A; inversion B; subst; eauto. Qed.

(** Hashing any list of writes from a seed is FNV-1a of the whole from that seed. *)
Theorem C24_seeded_hash_is_fnv1a : forall seed chunks, seed < 2 ^ 32 ->
  fnv1a seed (concat chunks) (fnv_Sum32 (fold_left fnv_Write chunks (New32aWith seed))).
Proof.
  intros seed chunks H. rewrite (seed_state seed H). unfold fnv_Sum32.
  replace (fold_left fnv_Write chunks seed) with (fnv_Write seed (concat chunks)); [apply write_fnv|].
  clear H. revert seed. induction chunks as [|c cs IH]; intros seed; [reflexivity|]. cbn [concat fold_left]. unfold fnv_Write at 1. rewrite fold_left_app. apply IH.
Qed.
Print Assumptions C24_seeded_hash_is_fnv1a.
(** Resuming from a hash value continues the hash. *)
Theorem C24_resume : forall seed a b, seed < 2 ^ 32 ->
  fnv_Sum32 (fnv_Write (New32aWith (fnv_Sum32 (fnv_Write (New32aWith seed) a))) b) = fnv_Sum32 (fnv_Write (New32aWith seed) (a ++ b)).
Proof.
  intros seed a b H. rewrite (seed_state seed H). unfold fnv_Sum32. rewrite seed_state; [unfold fnv_Write; now rewrite fold_left_app|].
  destruct a as [|x a] using rev_ind; [exact H|]. unfold fnv_Write. rewrite fold_left_app. cbn [fold_left]. apply N.mod_lt. discriminate.
Qed.
Print Assumptions C24_resume.
(** Different seeds never give the same hash of the same bytes. *)
Theorem C24_seeds_stay_apart : forall s s' d, s < 2 ^ 32 -> s' < 2 ^ 32 ->
  fnv_Write (New32aWith s) d = fnv_Write (New32aWith s') d -> s = s'.
Proof.
  intros s s' d H H'. rewrite !seed_state by assumption. revert s s' H H'. induction d as [|b d IH]; intros s s' H H' E; [exact E|].
  cbn [fnv_Write fold_left] in E. apply IH in E; [|apply N.mod_lt; discriminate..].
  unfold fnv_step in E.
  assert (X : forall x, x < 2 ^ 32 -> N.lxor x (b2n b) < 2 ^ 32).
  { intros x Hx. pose proof (b2n_lt b). destruct (N.eq_dec (N.lxor x (b2n b)) 0) as [->|Nz]; [reflexivity|].
    apply N.log2_lt_pow2; [lia|]. eapply N.le_lt_trans; [apply N.log2_lxor|]. apply N.max_lub_lt.
    - destruct (N.eq_dec x 0) as [->|]; [reflexivity|]. apply N.log2_lt_pow2; lia.
    - destruct (N.eq_dec (b2n b) 0) as [->|]; [reflexivity|]. apply N.log2_lt_pow2; [lia|]. change (2 ^ 32) with 4294967296. lia. }
  assert (Q : forall x, x < 2 ^ 32 -> ((x * fnv_prime32) mod 4294967296 * 899433627) mod 4294967296 = x).
  { intros x Hx. rewrite N.mul_mod_idemp_l by discriminate. rewrite <- N.mul_assoc, N.mul_mod by discriminate.
    change ((fnv_prime32 * 899433627) mod 4294967296) with 1. rewrite N.mul_1_r, N.mod_mod by discriminate. now apply N.mod_small. }
  assert (E2 : N.lxor s (b2n b) = N.lxor s' (b2n b)).
  { rewrite <- (Q _ (X s H)), <- (Q _ (X s' H')). now rewrite E. }
  rewrite <- (N.lxor_0_r s), <- (N.lxor_0_r s'), <- (N.lxor_nilpotent (b2n b)), <- !N.lxor_assoc. now rewrite E2.
Qed.
Print Assumptions C24_seeds_stay_apart.
(** The vectors of fnv_test.go. *)
Example C24_nonvacuous :
  fnv_Write (New32aWith 0x811c9dc5) (str "abc") = 0x1a47e90b /\
  fnv_Write (New32aWith PttFnv32Init) (str "12312") = 0x7AEB94B2 /\
  fnv_Write (New32aWith PttFnv32Init) (str "PICHU") = 0xA3389082 /\
  fnv_Write (New32aWith 12345) (str "12312") = 0x2d7500e0.
Proof. vm_compute. repeat split. Qed.

(** ** C38 *)
Lemma flag_bit x k : has_flag x (2 ^ k) = N.testbit x k.
Proof.
  unfold has_flag. destruct (N.testbit x k) eqn:E.
  - apply negb_true_iff, N.eqb_neq. intros H. assert (F : N.testbit (N.land x (2 ^ k)) k = false) by (rewrite H; apply N.bits_0).
    rewrite N.land_spec, E, N.pow2_bits_true in F. discriminate.
  - apply negb_false_iff, N.eqb_eq. apply N.bits_inj. intros j. rewrite N.land_spec, N.bits_0.
    destruct (N.eq_dec j k) as [->|D]; [now rewrite E|]. rewrite N.pow2_bits_false by auto. apply andb_false_r.
Qed.
(** Every flag of the answer is the bit of the first record with that id. *)
Theorem C38_flags_are_bits : forall before u after uid g k,
  (forall v, In v before -> u_userid v <> uid) -> u_userid u = uid -> In (g, k) user_bits ->
  exists f, getUserFlagAllByID (before ++ u :: after) uid = Ok f /\ g f = N.testbit (u_userflag u) k.
Proof.
  intros before u after uid g k Hb Hu Hg.
  assert (E : findUserecByID (before ++ u :: after) uid = Ok u).
  { clear Hg. induction before as [|v before IH]; cbn [app findUserecByID].
    - subst uid. unfold beqb. destruct list_eq_dec as [_|n]; [reflexivity|exfalso; now apply n].
    - unfold beqb. destruct list_eq_dec as [Q|_]; [exfalso; apply (Hb v); [now left|congruence]|]. apply IH. intros w Hw. apply Hb. now right. }
  unfold getUserFlagAllByID. rewrite E. eexists. split; [reflexivity|].
  unfold user_bits in Hg. cbn [In] in Hg.
  repeat (destruct Hg as [Hg|Hg]; [injection Hg as <- <-; match goal with |- _ = N.testbit ?x ?k => exact (flag_bit x k) end|]). contradiction.
Qed.
Print Assumptions C38_flags_are_bits.
(** Changing any other bits does not change a flag. *)
Theorem C38_flags_are_independent : forall u u' uid g k f f',
  In (g, k) user_bits -> N.testbit (u_userflag u) k = N.testbit (u_userflag u') k ->
  u_userid u = uid -> u_userid u' = uid ->
  getUserFlagAllByID [u] uid = Ok f -> getUserFlagAllByID [u'] uid = Ok f' -> g f = g f'.
Proof.
  intros u u' uid g k f f' Hg E H H' F F'.
  destruct (C38_flags_are_bits [] u [] uid g k ltac:(intros v []) H Hg) as (f0 & F0 & G0).
  destruct (C38_flags_are_bits [] u' [] uid g k ltac:(intros v []) H' Hg) as (f1 & F1 & G1). cbn [app] in *. congruence.
Qed.
Print Assumptions C38_flags_are_independent.
(** An unknown id is an error. *)
Theorem C38_unknown_user : forall recs uid, (forall v, In v recs -> u_userid v <> uid) -> getUserFlagAllByID recs uid = Err ENotFound.
Proof.
  intros recs uid H. unfold getUserFlagAllByID. replace (findUserecByID recs uid) with (@Err Userec ENotFound); [reflexivity|].
  induction recs as [|v recs IH]; [reflexivity|]. cbn [findUserecByID]. unfold beqb. destruct list_eq_dec as [Q|_]; [exfalso; apply (H v); [now left|congruence]|].
  apply IH. intros w Hw. apply H. now right.
Qed.
Print Assumptions C38_unknown_user.
Example C38_nonvacuous : exists f, getUserFlagAllByID [sample_user] (u_userid sample_user) = Ok f /\ uf_favAddnew f = N.testbit (u_userflag sample_user) 1.
Proof. apply (C38_flags_are_bits [] sample_user [] _ uf_favAddnew 1); [intros v []|reflexivity|cbn; tauto]. Qed.

(** ** C44 *)
(** Each query is one bit of the attribute word. *)
Theorem C44_board_flags_are_bits : forall b q k, In (q, k) board_bits -> q b = N.testbit (bh_brdattr b) k.
Proof.
  intros b q k H. unfold board_bits in H. cbn [In] in H.
  repeat (destruct H as [H|H]; [injection H as <- <-; match goal with |- _ = N.testbit ?x ?k => exact (flag_bit x k) end|]). contradiction.
Qed.
Print Assumptions C44_board_flags_are_bits.
(** The query still answers that bit after the header went through the file. *)
Theorem C44_board_flags_survive_the_file : forall cd b q k, board_fits cd b -> In (q, k) board_bits ->
  exists b', UnmarshalBoardHeader cd (BoardHeader_MarshalBinary cd b) = Ok b' /\ q b' = N.testbit (bh_brdattr b) k.
Proof. intros cd b q k F H. exists b. split; [now apply board_roundtrip|now apply C44_board_flags_are_bits]. Qed.
Print Assumptions C44_board_flags_survive_the_file.
(** The moderators of a header written from a list of names are that list. *)
Theorem C44_moderators : forall b names, names <> [[]] -> Forall (fun n => ~ In "/"%byte n) names ->
  bh_bm b = join "/" names -> BM b = names.
Proof.
  intros b names N F E. unfold BM. rewrite E. destruct names as [|n names]; [reflexivity|].
  pose proof (split_join "/" (n :: names) ltac:(discriminate) F) as S.
  destruct (join "/" (n :: names)) eqn:J; [|exact S].
  exfalso. destruct names as [|m names]; cbn [join] in J; [congruence|]. now destruct n.
Qed.
Print Assumptions C44_moderators.
(** And back: whatever the field holds, the list is its cut at the slashes. *)
Theorem C44_moderators_of_any_header : forall b, (bh_bm b = [] /\ BM b = []) \/ (bh_bm b <> [] /\ cuts "/" (bh_bm b) (BM b)).
Proof.
  intros b. unfold BM. destruct (bh_bm b) as [|x s] eqn:E; [now left|]. right. split; [discriminate|]. apply split_cuts.
Qed.
Print Assumptions C44_moderators_of_any_header.
Theorem C44_moderators_survive_the_file : forall cd b names, board_fits cd b ->
  names <> [[]] -> Forall (fun n => ~ In "/"%byte n) names -> bh_bm b = join "/" names ->
  exists b', UnmarshalBoardHeader cd (BoardHeader_MarshalBinary cd b) = Ok b' /\ BM b' = names.
Proof. intros cd b names F N A E. exists b. split; [now apply board_roundtrip|now apply C44_moderators]. Qed.
Print Assumptions C44_moderators_survive_the_file.
(** The class of a board is the number of the header in decimal digits: two boards are in
    the same class exactly when their numbers are equal, also after saving and loading. *)
Theorem C44_class : forall b, S_Digits.decimal (bh_gid b) (ClassID b).
Proof. intros b. apply P_Digits.fmt_d_decimal. Qed.
Print Assumptions C44_class.
Theorem C44_same_class : forall b b', ClassID b = ClassID b' <-> bh_gid b = bh_gid b'.
Proof. intros b b'. unfold ClassID. split; [apply P_Create.fmt_d_inj|congruence]. Qed.
Print Assumptions C44_same_class.
Theorem C44_class_survives_the_file : forall cd b, board_fits cd b ->
  exists b', UnmarshalBoardHeader cd (BoardHeader_MarshalBinary cd b) = Ok b' /\ ClassID b' = ClassID b.
Proof. intros cd b F. exists b. split; [now apply board_roundtrip|reflexivity]. Qed.
Print Assumptions C44_class_survives_the_file.
Example C44_nonvacuous : exists b, board_fits id_codec b /\ BM b = [str "SYSOP"; str "pichu"].
Proof.
  exists {| bh_name := bh_name sample_board; bh_title := bh_title sample_board; bh_bm := str "SYSOP/pichu"; bh_brdattr := bh_brdattr sample_board;
    bh_votelimitposts := bh_votelimitposts sample_board; bh_votelimitlogins := bh_votelimitlogins sample_board;
    bh_chesscountry := bh_chesscountry sample_board; bh_bupdate := bh_bupdate sample_board; bh_postlimitposts := bh_postlimitposts sample_board;
    bh_postlimitlogins := bh_postlimitlogins sample_board; bh_bvote := bh_bvote sample_board; bh_vtime := bh_vtime sample_board;
    bh_level := bh_level sample_board; bh_permreload := bh_permreload sample_board; bh_gid := bh_gid sample_board; bh_next := bh_next sample_board;
    bh_firstchild := bh_firstchild sample_board; bh_parent := bh_parent sample_board; bh_childcount := bh_childcount sample_board;
    bh_nuser := bh_nuser sample_board; bh_postexpire := bh_postexpire sample_board; bh_endgamble := bh_endgamble sample_board;
    bh_posttype := bh_posttype sample_board; bh_posttypef := bh_posttypef sample_board; bh_fastrecommendpause := bh_fastrecommendpause sample_board;
    bh_votelimitbadpost := bh_votelimitbadpost sample_board; bh_postlimitbadpost := bh_postlimitbadpost sample_board; bh_srexpire := bh_srexpire sample_board |}.
  split; [unfold board_fits; fits|reflexivity].
Qed.

(** ** C39 *)
Lemma map_get_set m k v k' : map_get (map_set m k v) k' = if list_eq_dec Byte.byte_eq_dec k' k then Some v else map_get m k'.
Proof. unfold map_set. cbn [map_get]. unfold beqb. now destruct list_eq_dec. Qed.
Lemma parse_args l tail : Forall plain l -> (tail = [] \/ exists x, tail = [str "--" ++ x]) -> forall m k,
  map_get (parse_loop (concat (map words_of l) ++ tail) m) k = match last_value l k with Some v => Some v | None => map_get m k end.
Proof.
  intros P T. induction l as [|a l IH]; intros m k.
  - cbn [map concat app last_value]. destruct T as [->|[x ->]]; [reflexivity|]. cbn [parse_loop]. now destruct HasPrefix.
  - apply Forall_cons_iff in P as [P1 P2]. specialize (IH P2). cbn [map concat last_value]. destruct a as [n v|w]; cbn [words_of app parse_loop].
    + rewrite (proj2 (has_prefix_spec (str "--" ++ n) (str "--")) (ex_intro _ n eq_refl)). change (skipn 2 (str "--" ++ n)) with n. rewrite IH, map_get_set.
      destruct (last_value l k); [reflexivity|]. destruct (list_eq_dec _ k n), (list_eq_dec _ n k); congruence.
    + destruct (HasPrefix w (str "--")) eqn:H; [apply has_prefix_spec in H as [r H]; exfalso; now apply (P1 r)|]. rewrite IH.
      now destruct (last_value l k).
Qed.
(** Options are mapped to the value of their last occurrence, and to nothing else. *)
Theorem C39_options_have_their_last_value : forall cmd l k, Forall plain l ->
  map_get (parseArgsToMap (cmd :: concat (map words_of l))) k = last_value l k.
Proof.
  intros cmd l k P. unfold parseArgsToMap. cbn [skipn]. rewrite <- (app_nil_r (concat _)).
  rewrite (parse_args l [] P (or_introl eq_refl)). now destruct (last_value l k).
Qed.
Print Assumptions C39_options_have_their_last_value.
(** Every argument list is such a list, except perhaps for an option at the very
    end with no value; that one is ignored. *)
Theorem C39_every_argument_list : forall cmd args, exists l tail,
  args = concat (map words_of l) ++ tail /\ Forall plain l /\ (tail = [] \/ exists x, tail = [str "--" ++ x]) /\
  forall k, map_get (parseArgsToMap (cmd :: args)) k = last_value l k.
Proof.
  intros cmd args.
  assert (D : forall n args, (length args <= n)%nat -> exists l tail,
    args = concat (map words_of l) ++ tail /\ Forall plain l /\ (tail = [] \/ exists x, tail = [str "--" ++ x])).
  { induction n as [|n IH]; intros a L.
    - destruct a; [|cbn in L; lia]. exists [], []. auto.
    - destruct a as [|w a]; [exists [], []; auto|]. destruct (HasPrefix w (str "--")) eqn:H.
      + apply has_prefix_spec in H as [x ->]. destruct a as [|v a].
        * exists [], [str "--" ++ x]. split; [reflexivity|]. split; [constructor|]. right. now exists x.
        * cbn in L. destruct (IH a ltac:(lia)) as (l & t & -> & P & T). exists (Option_ x v :: l), t. split; [reflexivity|]. split; [constructor; [exact Logic.I|exact P]|exact T].
      + cbn in L. destruct (IH a ltac:(lia)) as (l & t & -> & P & T). exists (Word w :: l), t. split; [reflexivity|]. split; [|exact T].
        constructor; [|exact P]. intros r ->. rewrite (proj2 (has_prefix_spec _ _)) in H; [discriminate|]. now exists r. }
  destruct (D _ args (Nat.le_refl _)) as (l & t & -> & P & T). exists l, t. split; [reflexivity|]. split; [exact P|]. split; [exact T|].
  intros k. unfold parseArgsToMap. cbn [skipn]. rewrite (parse_args l t P T). now destruct (last_value l k).
Qed.
Print Assumptions C39_every_argument_list.
Example C39_nonvacuous :
  let l := [Option_ (str "bbshome") (str "/a"); Word (str "x"); Option_ (str "bbshome") (str "--b")] in
  Forall plain l /\ map_get (parseArgsToMap (str "cmd" :: concat (map words_of l))) (str "bbshome") = Some (str "--b").
Proof. split; [|reflexivity]. repeat constructor; intros r; discriminate. Qed.

(** ** C43 *)
(** The exact meaning of any connection string. *)
Theorem C43_connection_strings : forall s parts, cuts ":" s parts -> NewCache s =
  match parts with
  | [p] => Ok (OpenMmap p)
  | scheme :: a :: _ =>
      if list_eq_dec Byte.byte_eq_dec scheme (str "shmkey") then match Atoi a with Some k => Ok (OpenKey k) | None => Err EBadFormat end
      else if list_eq_dec Byte.byte_eq_dec scheme (str "file") then Ok (OpenMmap a) else Err EBadFormat
  | [] => Panic
  end.
Proof.
  intros s parts H. apply cuts_split in H. unfold NewCache. rewrite <- H. destruct parts as [|p [|q r]]; try reflexivity.
  unfold beqb. destruct list_eq_dec; [now destruct (Atoi q)|]. now destruct list_eq_dec.
Qed.
Print Assumptions C43_connection_strings.
Theorem C43_never_panics : forall s, NewCache s <> Panic.
Proof.
  intros s. unfold NewCache. pose proof (split_nonempty ":" s). destruct (split_on ":" s) as [|p [|q r]]; [contradiction|discriminate|].
  destruct beqb; [now destruct (Atoi q)|]. now destruct beqb.
Qed.
Print Assumptions C43_never_panics.
Theorem C43_plain_path : forall p, ~ In ":"%byte p -> NewCache p = Ok (OpenMmap p).
Proof. intros p H. unfold NewCache. now rewrite split_no. Qed.
Theorem C43_file_path : forall p, ~ In ":"%byte p -> NewCache (str "file:" ++ p) = Ok (OpenMmap p).
Proof. intros p H. unfold NewCache. change (str "file:" ++ p) with (str "file" ++ ":"%byte :: p). rewrite split_app by (cbn; intuition discriminate). now rewrite split_no. Qed.
Theorem C43_key : forall d n, numeral d n -> n < 2 ^ 63 -> NewCache (str "shmkey:" ++ d) = Ok (OpenKey (Z.of_N n)).
Proof.
  intros d n H L. pose proof (proj1 (numeral_parse d n) H) as P.
  assert (C : ~ In ":"%byte d /\ forall b, In b d -> is_digit b = true).
  { apply numeral_inv in H as (_ & F & _). rewrite forallb_forall in F. split; [|exact F]. intros I'. now apply F in I'. }
  destruct C as [C F]. unfold NewCache. change (str "shmkey:" ++ d) with (str "shmkey" ++ ":"%byte :: d).
  rewrite split_app by (cbn; intuition discriminate). rewrite split_no by exact C.
  change (beqb (str "shmkey") (str "shmkey")) with true. cbn match. unfold Atoi.
  destruct d as [|b d]; [discriminate|]. pose proof (F b (or_introl eq_refl)) as Fb.
  destruct (Byte.eqb b "-") eqn:B1; [apply byte_eqb_eq in B1; subst; discriminate|].
  destruct (Byte.eqb b "+") eqn:B2; [apply byte_eqb_eq in B2; subst; discriminate|].
  rewrite P. now rewrite (proj2 (N.ltb_lt _ _) L).
Qed.
(** A string with a colon whose first part is neither scheme is rejected. *)
Theorem C43_other_schemes_rejected : forall scheme r, ~ In ":"%byte scheme -> scheme <> str "shmkey" -> scheme <> str "file" ->
  NewCache (scheme ++ str ":" ++ r) = Err EBadFormat.
Proof.
  intros scheme r H A B. unfold NewCache. change (str ":" ++ r) with (":"%byte :: r). rewrite split_app by exact H.
  pose proof (split_nonempty ":" r). destruct (split_on ":" r); [contradiction|]. unfold beqb. now destruct list_eq_dec; [|destruct list_eq_dec].
Qed.
Print Assumptions C43_plain_path. Print Assumptions C43_file_path. Print Assumptions C43_key. Print Assumptions C43_other_schemes_rejected.
(** Refuted: a path with a colon is cut, a plain one is rejected, junk after the
    key is ignored. *)
Theorem C43_paths_with_colon_refuted :
  (exists p, NewCache (str "file:" ++ p) <> Ok (OpenMmap p)) /\
  (exists p, NewCache p <> Ok (OpenMmap p) /\ forall r, p <> str "shmkey:" ++ r /\ p <> str "file:" ++ r) /\
  (exists r, (forall n, ~ numeral r n) /\ exists k, NewCache (str "shmkey:" ++ r) = Ok (OpenKey k)).
Proof.
  split; [|split].
  - exists (str "/a:b"). vm_compute. congruence.
  - exists (str "/a:b"). split; [vm_compute; congruence|]. intros r. split; discriminate.
  - exists (str "1:junk"). split; [|exists 1%Z; reflexivity]. intros n H. apply numeral_parse in H. discriminate.
Qed.
Print Assumptions C43_paths_with_colon_refuted.
Example C43_nonvacuous :
  NewCache (str "shmkey:1228") = Ok (OpenKey 1228) /\ numeral (str "12") 12 /\ NewCache (str "file:/tmp/x") = Ok (OpenMmap (str "/tmp/x")).
Proof. split; [reflexivity|]. split; [|reflexivity]. now apply numeral_parse. Qed.
