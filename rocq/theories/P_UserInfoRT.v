(** * Encoding an online-user entry and decoding it again. *)
From Coq Require Import Lia ZifyBool ZifyNat ZifyN.
From Verif Require Import M_Base M_Cstr M_Const S_Layout P_Base P_Layout M_UserInfo S_UserInfo P_Ext P_Records P_UserInfo P_UserInfoW.
Open Scope N_scope.

(** Equivalent groups of writes on buffers of size [n]. *)
Definition eqv (n : N) (g g' : list wr) : Prop :=
  forall buf, lenN buf = n -> puts g buf = puts g' buf /\ lenN (puts g' buf) = n.

Lemma eqv_app n g g' h h' : eqv n g g' -> eqv n h h' -> eqv n (g ++ h) (g' ++ h').
Proof.
  intros H1 H2 buf L. destruct (H1 buf L) as [E1 L1]. destruct (H2 (puts g' buf) L1) as [E2 L2].
  unfold puts in *. rewrite !fold_left_app, E1, E2. auto.
Qed.
Lemma eqv_one n w : wr_inb n w = true -> eqv n [w] [w].
Proof.
  intros H buf L. split; auto. cbn. rewrite put_length; auto.
  apply wr_inb_spec in H. red in H. lia.
Qed.
Lemma eqv_arr32 n o c l : lenN l = c -> (o + 4 * c <=? n) = true -> eqv n (w_arr32 o l) [W o (4 * c) (cells32 l)].
Proof.
  intros H H' buf L. cbn [puts fold_left w_off w_len w_src].
  rewrite puts_arr32 by lia. rewrite H. split; auto. rewrite put_length; lia.
Qed.
Lemma eqv_arr100 n o c l : Forall (fun m => lenN m = 100) l -> lenN l = c -> (o + 100 * c <=? n) = true ->
  eqv n (w_arr100 o l) [W o (100 * c) (concat l)].
Proof.
  intros F H H' buf L. cbn [puts fold_left w_off w_len w_src].
  rewrite puts_arr100 by (auto; lia). rewrite H. split; auto. rewrite put_length; lia.
Qed.

Fixpoint hidden_by (n o l : N) (ws : list wr) : bool :=
  match ws with
  | [] => false
  | w :: ws' =>
      if (w_off w =? o) && (w_len w =? l) then (lenN (w_src w) =? l)
      else wr_disjb o l w && hidden_by n o l ws'
  end.
Fixpoint drop_dead (n : N) (ws : list wr) : list wr :=
  match ws with
  | [] => []
  | w :: ws' =>
      if (if hidden_by n (w_off w) (w_len w) ws' then lenN (w_src w) =? w_len w else false)
      then drop_dead n ws' else w :: drop_dead n ws'
  end.

Lemma hidden_spec n o l ws buf s :
  hidden_by n o l ws = true -> lenN s = l -> lenN buf = n -> o + l <= n -> Forall (wr_in n) ws ->
  puts (W o l s :: ws) buf = puts ws buf.
Proof.
  intros H Hs L B I. revert buf L. induction ws as [|w ws IH]; intros buf L; [discriminate|].
  cbn [hidden_by] in H. apply Forall_cons_iff in I as [Iw I]. unfold wr_in in Iw.
  cbn [puts fold_left w_off w_len w_src].
  destruct ((w_off w =? o) && (w_len w =? l)) eqn:E.
  - apply andb_prop in E as [E1 E2]. apply N.eqb_eq in E1, E2, H. rewrite E1, E2.
    rewrite put_put_same; auto. lia.
  - apply andb_prop in H as [D H]. apply wr_disjb_spec in D. unfold wr_disj in D.
    rewrite put_comm_skip by lia. apply (IH H I). rewrite put_length; lia.
Qed.

Lemma drop_dead_spec n ws buf : Forall (wr_in n) ws -> lenN buf = n ->
  puts (drop_dead n ws) buf = puts ws buf.
Proof.
  revert buf. induction ws as [|w ws IH]; intros buf I L; auto.
  apply Forall_cons_iff in I as [Iw I]. cbn [drop_dead].
  destruct (hidden_by n (w_off w) (w_len w) ws) eqn:E; [destruct (lenN (w_src w) =? w_len w) eqn:F|].
  - rewrite IH by auto. symmetry. destruct w as [o l s]. cbn [w_off w_len w_src] in *.
    apply (hidden_spec n); auto. lia.
  - cbn [puts fold_left]. apply IH; auto. red in Iw. rewrite put_length; lia.
  - cbn [puts fold_left]. apply IH; auto. red in Iw. rewrite put_length; lia.
Qed.

Lemma merged_eqv cd u : userinfo_fits cd u -> eqv 3484 (userinfo_writes cd u) (userinfo_merged cd u).
Proof.
  intros F. unfold userinfo_fits in F. decompose [and] F. clear F.
  unfold userinfo_writes, userinfo_merged.
  repeat match goal with
  | |- eqv _ ([_] ++ _) (?x :: ?y) => apply (eqv_app _ [_] [x] _ y); [apply eqv_one; reflexivity|]
  | |- eqv _ (w_arr32 _ _ ++ _) (?x :: ?y) =>
      apply (eqv_app _ _ [x] _ y);
      [apply eqv_arr32; [unfold lenN; rewrite ?map_length; assumption|reflexivity]|]
  | |- eqv _ (w_arr100 _ _ ++ _) (?x :: ?y) =>
      apply (eqv_app _ _ [x] _ y);
      [apply eqv_arr100; [assumption|unfold lenN; assumption|reflexivity]|]
  | |- eqv _ [?x] [?x] => apply eqv_one; reflexivity
  end.
Qed.

Lemma merged_live cd u : drop_dead 3484 (userinfo_merged cd u) = userinfo_live cd u.
Proof. reflexivity. Qed.

Lemma put_all_puts n ws : put_all n ws = puts ws (zeros n).
Proof. reflexivity. Qed.

Lemma live_eq cd u : userinfo_fits cd u ->
  UserInfo_MarshalBinary cd u = put_all 3484 (userinfo_live cd u).
Proof.
  intros F. unfold UserInfo_MarshalBinary.
  rewrite !put_all_puts.
  destruct (merged_eqv cd u F (zeros 3484) (lenN_zeros _)) as [E _]. rewrite E. clear E.
  rewrite <- merged_live. symmetry. apply drop_dead_spec; [|apply lenN_zeros].
  apply shape_in. vm_compute. reflexivity.
Qed.

Lemma userinfo_slots cd u : userinfo_fits cd u ->
  allP (UserInfo_MarshalBinary cd u) (userinfo_live cd u).
Proof.
  intros F. rewrite live_eq by exact F. apply all_slots. vm_compute. reflexivity.
Qed.

Lemma userinfo_length cd u : userinfo_fits cd u -> lenN (UserInfo_MarshalBinary cd u) = 3484.
Proof. intros F. rewrite live_eq by exact F. apply put_all_len. vm_compute. reflexivity. Qed.

Lemma userinfo_roundtrip cd u : userinfo_fits cd u ->
  UnmarshalUserInfo cd (UserInfo_MarshalBinary cd u) = Ok (userinfo_image u).
Proof.
  intros F. unfold UnmarshalUserInfo. rewrite userinfo_length by exact F.
  replace (3484 <? PosOfUserInfoWBTime + 4) with false by reflexivity.
  pose proof (userinfo_slots cd u F) as A.
  generalize dependent (UserInfo_MarshalBinary cd u). intros D A.
  unfold userinfo_live in A. break_slots A. lit_hyps D.
  unfold userinfo_fits in F. decompose [and] F. clear F.
  unfold userinfo_image. apply (f_equal Ok).
  apply UserInfoCache_ext; UserInfoCache_proj; try rt_field D.
  - rewrite (r_arr32_pad PosOfUserInfoMyFriend MaxFriend (map u32 (ui_myfriend u))).
    + apply map_i32_u32; assumption.
    + unfold lenN. rewrite map_length. assumption.
    + apply u32_fits.
    + assumption.
  - apply (r_arr32_pad PosOfUserInfoFriendOnline MaxFriend); [unfold lenN; assumption|assumption|assumption].
  - rewrite (r_arr32_pad PosOfUserInfoReject MaxReject (map u32 (ui_reject u))).
    + apply map_i32_u32; assumption.
    + unfold lenN. rewrite map_length. assumption.
    + apply u32_fits.
    + assumption.
  - apply (r_arr100_pad PosOfUserInfoMsgs MaxMsgs); [unfold lenN; assumption|assumption|assumption].
Qed.
