(** * Property theorem C35: lookups in the shared memory *)
From Coq Require Import Lia ZifyBool ZifyNat ZifyN.
From Verif Require Import M_Base M_Text M_Conn M_UserInfo M_Cache.
From Verif Require Import S_Crypt S_Cache S_Example.
From Verif Require Import P_Base P_Text P_Layout.
Open Scope Z_scope.

Lemma Ok_inj {A} (a b : A) : Ok a = Ok b -> a = b.
Proof. congruence. Qed.
(** ** Positions *)
Lemma round_mult a x : 0 < a -> x mod a = 0 -> round_up a x = x.
Proof.
  intros A M. unfold round_up. apply Z.mod_divide in M as [q ->]; [|lia].
  replace (q * a + (a - 1)) with (a - 1 + q * a) by lia. rewrite Z.div_add by lia. rewrite (Z.div_small (a - 1) a) by lia. lia.
Qed.
Lemma round_up_next a x : 0 < a -> 0 <= x -> (if Z.rem x a =? 0 then x else x + (a - Z.rem x a)) = round_up a x.
Proof.
  intros A X. rewrite Z.rem_mod_nonneg by lia. destruct (x mod a =? 0) eqn:E.
  - symmetry. apply round_mult; lia.
  - unfold round_up. pose proof (Z.div_mod x a ltac:(lia)) as D. pose proof (Z.mod_pos_bound x a A) as B.
    replace (x + (a - 1)) with ((x mod a - 1) + (x / a + 1) * a) by lia. rewrite Z.div_add by lia. rewrite (Z.div_small (x mod a - 1)) by lia. lia.
Qed.
Lemma round_one x : round_up 1 x = x.
Proof. unfold round_up. rewrite Z.div_1_r. lia. Qed.
Lemma round_4 a x y : a = 1 \/ a = 2 \/ a = 4 -> round_up a x + 4 * y = round_up a (round_up a x + 4 * y).
Proof.
  intros A. symmetry. apply round_mult; [lia|]. unfold round_up.
  destruct A as [->|[->| ->]].
  - apply Z.mod_1_r.
  - replace ((x + (2 - 1)) / 2 * 2 + 4 * y) with (((x + (2 - 1)) / 2 + 2 * y) * 2) by lia. apply Z.mod_mul. lia.
  - replace ((x + (4 - 1)) / 4 * 4 + 4 * y) with (((x + (4 - 1)) / 4 + y) * 4) by lia. apply Z.mod_mul. lia.
Qed.

(** For a packed structure (alignment 1) and for int alignments 2 and 4, every
    position computed is the C compiler's offset of that member. *)
Theorem C35_positions_are_C_offsets : forall g p,
  AlignmentBytes g = 1 \/ AlignmentBytes g = 2 \/ AlignmentBytes g = 4 ->
  0 <= MaxUsers g -> 0 <= IDLen g -> 0 <= HashBits g -> caculatePos g = Ok p ->
  let ids := MaxUsers g * (IDLen g + 1) in
  let ints := 4 * MaxUsers g in
  offsets 0 (SHM_t (AlignmentBytes g) (MaxUsers g) (IDLen g) (HashBits g) (UseCoolDown g)) =
    [posOfVersion p; posOfSize p; posOfUserID p; posOfUserID p + ids; posOfNextInHash p; posOfNextInHash p + ints; posOfMoney p; posOfMoney p + ints]
    ++ (if UseCoolDown g then [posOfCooldownTime p; posOfCooldownTime p + ints] else [posOfMoney p + ints + 4])
    ++ [posOfHashHead p; posOfHashHead p + 4 * 2 ^ HashBits g; posOfUserNumber p; posOfUserLoaded p; posOfUserInfo p].
Proof.
  intros [a users idlen cool bits] p A U I' B E. cbn [AlignmentBytes MaxUsers IDLen UseCoolDown HashBits] in *. cbv zeta.
  assert (P2 : 0 <= 2 ^ bits) by (apply Z.pow_nonneg; lia). remember (2 ^ bits) as h eqn:Hh.
  unfold caculatePos in E. cbn [AlignmentBytes MaxUsers IDLen UseCoolDown HashBits] in E. rewrite <- Hh in E.
  destruct (a =? 0) eqn:Z0; [lia|]. destruct (bits <? 0) eqn:Z1; [lia|]. cbv zeta in E.
  set (x := idlen + 1 + (0 + 4 + 4) + users * (idlen + 1)) in *.
  assert (X : 0 <= x) by (unfold x; nia). rewrite round_up_next in E by lia.
  assert (C0 : round_up a 0 = 0) by (apply round_mult; [lia|apply Z.mod_0_l; lia]).
  assert (R : forall z, (z - round_up a x) mod 4 = 0 -> round_up a z = z).
  { intros z Hz. apply Z.mod_divide in Hz as [q Hz]; [|lia]. replace z with (round_up a x + 4 * q) by lia. symmetry. now apply round_4. }
  assert (R0 : forall z, z mod 4 = 0 -> round_up a z = z).
  { intros z Hz. apply Z.mod_divide in Hz as [q ->]; [|lia]. pose proof (round_4 a 0 q A) as Q. rewrite C0, Z.add_0_l in Q. rewrite (Z.mul_comm q 4). congruence. }
  set (r := round_up a x) in *.
  destruct cool; cbv iota in E; apply Ok_inj in E; rewrite <- E; clear p E; cbn [posOfVersion posOfSize posOfUserID posOfNextInHash posOfMoney posOfCooldownTime posOfHashHead posOfUserNumber posOfUserLoaded posOfUserInfo];
    unfold SHM_t, int_array, char_array; rewrite <- Hh; clear Hh; cbn [app offsets m_align m_size]; cbv zeta; rewrite !round_one;
    rewrite C0; rewrite (R0 (0 + 4 * 1)) by reflexivity;
    replace (round_up a (0 + 4 * 1 + 4 * 1 + users * (idlen + 1) + (idlen + 1))) with r by (unfold r; f_equal; unfold x; lia);
    clearbody r; clear x X C0 R0;
    repeat match goal with |- context [round_up a ?z] =>
      lazymatch z with context [round_up] => fail | _ => rewrite (R z) by (Z.div_mod_to_equations; lia) end end;
    cbn [app]; repeat (apply f_equal2; [lia|]); reflexivity.
Qed.
Print Assumptions C35_positions_are_C_offsets.

(** ** Contents *)
Lemma slice_mid p m q lo hi : lo = len p -> hi = lo + len m -> slice (p ++ m ++ q) lo hi = Ok m.
Proof.
  intros -> ->. unfold slice, len. unfold lenN. rewrite !app_length.
  destruct (_ || _) eqn:E; [exfalso; lia|]. f_equal.
  unfold sub. replace (N.to_nat (Z.to_N (Z.of_nat (length p)))) with (length p) by lia.
  replace (N.to_nat (Z.to_N (Z.of_nat (length p) + Z.of_nat (length m) - Z.of_nat (length p)))) with (length m) by lia.
  rewrite skipn_app, skipn_all, Nat.sub_diag. cbn [app skipn]. rewrite firstn_app, firstn_all, Nat.sub_diag, firstn_O. apply app_nil_r.
Qed.
Lemma len_app a b : len (a ++ b) = len a + len b.
Proof. unfold len. rewrite app_length. lia. Qed.
Lemma concat_len k l : Forall (fun b => len b = k) l -> len (concat l) = k * Z.of_nat (length l).
Proof. induction 1 as [|b l B F IH]; [cbn; lia|]. cbn [concat length]. rewrite len_app, B, IH. lia. Qed.
Lemma concat_nth k l n e : Forall (fun b => len b = k) l -> nth_error l n = Some e ->
  exists p q, concat l = p ++ e ++ q /\ len p = k * Z.of_nat n /\ len e = k.
Proof.
  intros F. revert n. induction F as [|b l B F IH]; intros n H; [now destruct n|]. destruct n as [|n]; cbn [nth_error] in H.
  - injection H as ->. exists [], (concat l). split; [reflexivity|]. split; [cbn; lia|exact B].
  - destruct (IH n H) as (p & q & E & L & K). exists (b ++ p), q. cbn [concat]. rewrite E, len_app, B, L, app_assoc. split; [reflexivity|]. split; [lia|exact K].
Qed.
Lemma split_first d : exists ps, split_on x00 d = until_nul d :: ps.
Proof.
  induction d as [|b d [ps IH]]; [exists []; reflexivity|]. cbn [split_on until_nul]. destruct (Byte.eqb b x00); [eauto|]. rewrite IH. eauto.
Qed.
Lemma c_int_spec e : len e = 4 -> i32 (Z.of_N (r32 0 e)) = c_int e.
Proof.
  intros L. destruct e as [|b0 [|b1 [|b2 [|b3 [|]]]]]; unfold len in L; cbn [length] in L; try lia.
  unfold r32, sub. change (N.to_nat 0) with 0%nat. change (N.to_nat 4) with 4%nat. cbn [skipn firstn le_dec c_int]. cbv zeta.
  pose proof (b2n_lt b0). pose proof (b2n_lt b1). pose proof (b2n_lt b2). pose proof (b2n_lt b3).
  unfold i32, sgn. rewrite Z.mod_small by lia. replace (Z.of_N (b2n b0 + 256 * (b2n b1 + 256 * (b2n b2 + 256 * (b2n b3 + 256 * 0))))) with
    (Z.of_N (b2n b0) + 256 * (Z.of_N (b2n b1) + 256 * (Z.of_N (b2n b2) + 256 * Z.of_N (b2n b3)))) by lia. reflexivity.
Qed.
Lemma pad_next a x k : 0 < a -> 0 <= x -> 0 <= k < a -> (x + k) mod a = 0 -> round_up a x = x + k.
Proof.
  intros A X K M. apply Z.mod_divide in M as [q M]; [|lia]. unfold round_up. replace (x + (a - 1)) with ((a - 1 - k) + q * a) by lia.
  rewrite Z.div_add by lia. rewrite Z.div_small by lia. lia.
Qed.

(** A cache opened with some geometry on a memory of that geometry. *)
Definition opened (g : MemoryMappingSetting) (s : shm) (c : Cache) : Prop :=
  exists p, caculatePos g = Ok p /\ c = MkCache g p (image s).
Definition geometry (g : MemoryMappingSetting) : Prop :=
  0 < AlignmentBytes g /\ 0 <= MaxUsers g /\ 0 <= IDLen g /\ 0 <= HashBits g.

(** For every geometry with non-zero alignment and every content, the version, the
    id and the money of every user number are those of that entry. *)
Theorem C35_lookups_read_the_entry : forall g s c,
  geometry g -> well_formed (AlignmentBytes g) (MaxUsers g) (IDLen g) s -> opened g s c ->
  (exists v, Version c = Ok v /\ Z.of_N v mod 4294967296 = c_int (sh_version s) mod 4294967296 /\ (v < 4294967296)%N) /\
  (forall uid e, nth_error (sh_ids s) uid = Some e -> UserID c (Z.of_nat uid) = Ok (c_text e)) /\
  (forall uid e, nth_error (sh_money s) uid = Some e -> Money c (Z.of_nat uid) = Ok (c_int e)).
Proof.
  intros g s c (A & U & I' & B) (LV & LS & NI & FI & LG & LP & MP & NN & FN & LG2 & NM & FM) (p & E & ->).
  destruct g as [a users idlen cool bits]. cbn [AlignmentBytes MaxUsers IDLen UseCoolDown HashBits] in *.
  unfold caculatePos in E. cbn [AlignmentBytes MaxUsers IDLen UseCoolDown HashBits] in E.
  destruct (a =? 0) eqn:Z0; [lia|]. destruct (bits <? 0) eqn:Z1; [lia|]. cbv zeta in E.
  pose proof (concat_len _ _ FI) as CI. pose proof (concat_len _ _ FN) as CN. rewrite NI in CI. rewrite NN in CN.
  rewrite round_up_next in E by nia.
  rewrite (pad_next a _ (len (sh_pad s))) in E; [|exact A|nia|exact LP|rewrite <- MP; f_equal; lia].
  assert (PV : posOfVersion p = 0) by (now injection E as <-).
  assert (PU : posOfUserID p = 8) by (now injection E as <-).
  assert (PM : posOfMoney p = 8 + (users + 1) * (idlen + 1) + len (sh_pad s) + 4 * users + 4) by (apply Ok_inj in E; rewrite <- E; cbn [posOfMoney]; lia).
  clear E. split; [|split].
  - unfold Version. cbn [c_bytes c_pos]. rewrite PV. unfold image.
    match goal with |- context [slice (?v ++ ?q) _ _] => change (v ++ q) with ([] ++ v ++ q) end. rewrite slice_mid by (try rewrite LV; reflexivity). eexists. split; [reflexivity|].
    pose proof (c_int_spec _ LV) as C. destruct (sh_version s) as [|b0 [|b1 [|b2 [|b3 [|]]]]]; unfold len in LV; cbn [length] in LV; try lia.
    unfold r32, sub. change (N.to_nat 0) with 0%nat. change (N.to_nat 4) with 4%nat. cbn [skipn firstn le_dec c_int]. cbv zeta.
    pose proof (b2n_lt b0). pose proof (b2n_lt b1). pose proof (b2n_lt b2). pose proof (b2n_lt b3). clear C. split; [|lia].
    replace (Z.of_N (b2n b0 + 256 * (b2n b1 + 256 * (b2n b2 + 256 * (b2n b3 + 256 * 0))))) with
      (Z.of_N (b2n b0) + 256 * (Z.of_N (b2n b1) + 256 * (Z.of_N (b2n b2) + 256 * Z.of_N (b2n b3)))) by lia.
    set (n := Z.of_N (b2n b0) + _). destruct (n <? 2147483648); [reflexivity|].
    replace (n - 4294967296) with (n + (-1) * 4294967296) by lia. now rewrite Z.mod_add by lia.
  - intros uid e H. destruct (concat_nth _ _ _ _ FI H) as (x & y & Ex & Lx & Le).
    unfold UserID. cbn [c_bytes c_pos c_set IDLen]. cbv zeta. rewrite PU.
    replace (image s) with ((sh_version s ++ sh_size s ++ x) ++ e ++ (y ++ sh_gap1 s ++ sh_pad s ++ concat (sh_next s) ++ sh_gap2 s ++ concat (sh_money s) ++ sh_rest s)) by (unfold image; rewrite Ex, <- !app_assoc; reflexivity).
    rewrite slice_mid by (rewrite ?len_app, ?LV, ?LS, ?Lx, ?Le; lia). destruct (split_first e) as [ps ->]. reflexivity.
  - intros uid e H. destruct (concat_nth _ _ _ _ FM H) as (x & y & Ex & Lx & Le).
    unfold Money. cbn [c_bytes c_pos c_set]. cbv zeta. rewrite PM.
    replace (image s) with ((sh_version s ++ sh_size s ++ concat (sh_ids s) ++ sh_gap1 s ++ sh_pad s ++ concat (sh_next s) ++ sh_gap2 s ++ x) ++ e ++ (y ++ sh_rest s)) by (unfold image; rewrite Ex, <- !app_assoc; reflexivity).
    rewrite slice_mid by (rewrite ?len_app, ?LV, ?LS, ?LG, ?LG2, ?CI, ?CN, ?Lx, ?Le; lia). now rewrite c_int_spec by exact Le.
Qed.
Print Assumptions C35_lookups_read_the_entry.

Definition ex_set : MemoryMappingSetting := Setting 4 2 12 false 2.
Definition ex_shm : shm :=
  Shm (le_enc 4 4842) (le_enc 4 0) [str "SYSOP" ++ repeat x00 8; str "pichu" ++ repeat x00 8] (repeat x41 13) [x42]
    [le_enc 4 1; le_enc 4 2] (le_enc 4 9) [le_enc 4 700; repeat xff 4] (repeat x00 40).
Example C35_nonvacuous :
  geometry ex_set /\ well_formed (AlignmentBytes ex_set) (MaxUsers ex_set) (IDLen ex_set) ex_shm /\
  exists c, opened ex_set ex_shm c /\ Version c = Ok 4842%N /\ UserID c 0 = Ok (str "SYSOP") /\ UserID c 1 = Ok (str "pichu") /\
    Money c 0 = Ok 700 /\ Money c 1 = Ok (-1).
Proof.
  split; [repeat split; discriminate|]. split.
  - unfold well_formed. cbn. repeat (split; [first [lia|reflexivity|repeat constructor]|]). repeat constructor.
  - eexists. split; [eexists; split; [vm_compute; reflexivity|reflexivity]|]. vm_compute. repeat split.
Qed.

(** What is false of the code. *)
(** Looking up the online-user entry panics, whatever the memory. *)
Theorem C35_online_user_lookup_refuted : forall cd c uid, UserInfo cd c uid = Panic.
Proof.
  intros cd c uid. unfold UserInfo, lenOfUserInfo. cbv zeta. rewrite !Z.mul_0_l. unfold slice. destruct (_ || _); [reflexivity|].
  rewrite Z.sub_diag. reflexivity.
Qed.
Print Assumptions C35_online_user_lookup_refuted.
(** Opening with alignment 0, as the shipped command does, panics. *)
Definition shipped_settings : MemoryMappingSetting := Setting 0 50 12 false 0.
Theorem C35_shipped_command_refuted : forall open cs b region, M_Conn.NewCache cs = Ok b -> open b = Ok region ->
  NewCache open cs shipped_settings = Panic.
Proof. intros open cs b region H O. unfold NewCache. now rewrite H, O. Qed.
Print Assumptions C35_shipped_command_refuted.
Example C35_shipped_nonvacuous : exists b, M_Conn.NewCache (str "file://../../dump.shm") = Ok b.
Proof. eexists. vm_compute. reflexivity. Qed.
(** Otherwise opening succeeds whenever the backend opens. *)
Theorem C35_opens : forall open cs g b region, M_Conn.NewCache cs = Ok b -> open b = Ok region ->
  AlignmentBytes g <> 0 -> 0 <= HashBits g ->
  exists p, NewCache open cs g = Ok (MkCache g p region) /\ caculatePos g = Ok p.
Proof.
  intros open cs g b region H O A B. unfold NewCache. rewrite H, O.
  assert (X : exists p, caculatePos g = Ok p).
  { unfold caculatePos. destruct (AlignmentBytes g =? 0) eqn:E; [lia|]. destruct (HashBits g <? 0) eqn:E1; [lia|]. cbv zeta. eauto. }
  destruct X as [p ->]. eauto.
Qed.
Print Assumptions C35_opens.
(** User numbers are not checked: the number just after the last one reads the gap
    behind the table as if it were an id. *)
Theorem C35_range_not_checked_refuted : forall g s c,
  geometry g -> well_formed (AlignmentBytes g) (MaxUsers g) (IDLen g) s -> opened g s c ->
  UserID c (MaxUsers g) = Ok (c_text (sh_gap1 s)).
Proof.
  intros g s c (A & U & I' & B) (LV & LS & NI & FI & LG & LP & MP & NN & FN & LG2 & NM & FM) (p & E & ->).
  assert (PU : posOfUserID p = 8).
  { unfold caculatePos in E. destruct (AlignmentBytes g =? 0); [discriminate|]. destruct (HashBits g <? 0); [discriminate|]. now injection E as <-. }
  pose proof (concat_len _ _ FI) as CI. rewrite NI in CI. unfold UserID. cbn [c_bytes c_pos c_set]. cbv zeta. rewrite PU.
  replace (image s) with ((sh_version s ++ sh_size s ++ concat (sh_ids s)) ++ sh_gap1 s ++ (sh_pad s ++ concat (sh_next s) ++ sh_gap2 s ++ concat (sh_money s) ++ sh_rest s)) by (unfold image; rewrite <- !app_assoc; reflexivity).
  rewrite slice_mid by (rewrite ?len_app, ?LV, ?LS, ?LG, ?CI; lia). destruct (split_first (sh_gap1 s)) as [ps ->]. reflexivity.
Qed.
Print Assumptions C35_range_not_checked_refuted.
