(** * Property theorems about the fixed-layout records. *)
From Coq Require Import Lia ZifyBool ZifyNat ZifyN.
From Verif Require Import M_Base M_Cstr M_Const S_Layout S_Example.
From Verif Require Import M_File S_File M_Formosa S_Formosa M_Board S_Board M_Userec S_Userec M_UserInfo S_UserInfo.
From Verif Require Import P_Base P_Layout P_Records P_UserInfo P_UserInfoRT.
Open Scope N_scope.

Ltac fits :=
  repeat match goal with
  | |- _ /\ _ => split
  | |- text_fits _ _ => repeat split
  | |- big5_text_fits _ _ _ => split
  | |- big5_cstr_fits _ _ _ => split
  | |- plain_cstr_fits _ _ _ => split
  | |- cstr_fits _ _ => split
  | |- time_fits _ => split
  | |- int_fits _ _ => split
  | |- forall s', _ <> x00 :: s' => intros s' E; discriminate
  | |- forall s', _ <> s' ++ [x00] =>
      let E := fresh in intros s' E; apply (f_equal (@rev byte)) in E; rewrite rev_app_distr in E; discriminate
  | |- ~ In _ _ => let E := fresh in intros E; cbn in E; repeat destruct E as [E|E]; discriminate || contradiction
  | |- Forall _ _ => apply Forall_forall; let x := fresh in let E := fresh in
                     intros x E; (apply repeat_spec in E; subst x) || (cbn in E; repeat destruct E as [<-|E]; try contradiction)
  end; try reflexivity; try (vm_compute; congruence).

(** ** C01, codec part: an article record is read back from its 128 bytes. *)
Theorem C01_article_record_codec :
  forall cd f, file_fits cd f -> NewFileHeaderWithByte cd (MarshalToByte cd f) = Ok (file_image f).
Proof. exact file_roundtrip. Qed.
Print Assumptions C01_article_record_codec.
Example C01_nonvacuous : file_fits id_codec sample_file.
Proof. unfold file_fits. fits. Qed.

(** The bytes written are those of the C structure, for every record. *)
Theorem C01_article_record_bytes : forall cd f, file_encoded cd f (MarshalToByte cd f).
Proof. exact file_encode. Qed.
Print Assumptions C01_article_record_bytes.

(** Any 125 or more bytes decode, each field from its place in the C structure. *)
Theorem C04_article_record_fields : forall cd d, 125 <= N.of_nat (length d) ->
  exists f, NewFileHeaderWithByte cd d = Ok f /\ file_decoded cd d f.
Proof. exact file_decode. Qed.
Print Assumptions C04_article_record_fields.
Theorem C04_short_input_panics : forall cd d, N.of_nat (length d) < 125 -> NewFileHeaderWithByte cd d = Panic.
Proof. exact file_short. Qed.
Print Assumptions C04_short_input_panics.

(** ** C12: board headers *)
Theorem C12_board_header_roundtrip :
  forall cd b, board_fits cd b -> UnmarshalBoardHeader cd (BoardHeader_MarshalBinary cd b) = Ok b.
Proof. exact board_roundtrip. Qed.
Print Assumptions C12_board_header_roundtrip.
Example C12_nonvacuous : board_fits id_codec sample_board.
Proof. unfold board_fits. fits. Qed.

Theorem C12_board_header_bytes : forall cd b, board_encoded cd b (BoardHeader_MarshalBinary cd b).
Proof. exact board_encode. Qed.
Print Assumptions C12_board_header_bytes.

Theorem C13_board_header_fields : forall cd d, 216 <= N.of_nat (length d) ->
  exists b, UnmarshalBoardHeader cd d = Ok b /\ board_decoded cd d b.
Proof. exact board_decode. Qed.
Print Assumptions C13_board_header_fields.
Theorem C13_short_input_panics : forall cd d, N.of_nat (length d) < 216 -> UnmarshalBoardHeader cd d = Panic.
Proof. exact board_short. Qed.
Print Assumptions C13_short_input_panics.

(** ** C17: user records *)

(** The full statement: every field of every representable record survives. *)
Definition C17_statement : Prop :=
  forall cd u, userec_fits cd u -> UnmarshalUserec cd (Userec_MarshalBinary cd u) = Ok u.

Theorem C17_user_record_roundtrip_partial : (* missing: the role field, which is lost *)
  forall cd u, userec_fits cd u -> UnmarshalUserec cd (Userec_MarshalBinary cd u) = Ok (without_role u).
Proof. exact userec_roundtrip. Qed.
Print Assumptions C17_user_record_roundtrip_partial.

Example C17_nonvacuous : userec_fits id_codec sample_user.
Proof. unfold userec_fits. fits. Qed.

Theorem C17_role_lost_refuted : ~ C17_statement.
Proof.
  intros H. specialize (H id_codec sample_user C17_nonvacuous).
  rewrite (userec_roundtrip _ _ C17_nonvacuous) in H. vm_compute in H. discriminate.
Qed.
Print Assumptions C17_role_lost_refuted.

(** The registration note has 39 readable bytes but only 38 are written. *)
Definition note_user : Userec := without_role sample_user.
Definition with_note (u : Userec) (s : bytes) : Userec :=
  MkUserec (u_version u) (u_userid u) (u_realname u) (u_nickname u) (u_password u) (u_userflag u) (u_userlevel u)
    (u_numlogindays u) (u_numposts u) (u_firstlogin u) (u_lastlogin u) (u_lasthost u) (u_money u) (u_email u)
    (u_address u) s (u_over18 u) (u_pageruitype u) (u_pager u) (u_invisible u) (u_exmailbox u) (u_career u) (u_role u)
    (u_lastseen u) (u_timesetangel u) (u_timeplayangel u) (u_lastsong u) (u_loginview u) (u_violatelaw u)
    (u_five_win u) (u_five_lose u) (u_five_tie u) (u_chc_win u) (u_chc_lose u) (u_chc_tie u) (u_conn6_win u)
    (u_conn6_lose u) (u_conn6_tie u) (u_go_win u) (u_go_lose u) (u_go_tie u) (u_dark_win u) (u_dark_lose u)
    (u_uaversion u) (u_signature u) (u_badpost u) (u_dark_tie u) (u_myangel u) (u_chesselo u) (u_withme u)
    (u_timeremovebadpost u) (u_timeviolatelaw u).
Theorem C17_note_cut_refuted : exists u w,
  length (u_justify u) = 39%nat /\
  UnmarshalUserec id_codec (Userec_MarshalBinary id_codec u) = Ok w /\
  u_justify w = firstn 38 (u_justify u).
Proof.
  exists (with_note note_user (repeat x41 39)), (with_note note_user (repeat x41 38)).
  split; [reflexivity|]. split; [|reflexivity].
  vm_compute. reflexivity.
Qed.
Print Assumptions C17_note_cut_refuted.

Theorem C17_user_record_bytes : forall cd u, userec_encoded cd u (Userec_MarshalBinary cd u).
Proof. exact userec_encode. Qed.
Print Assumptions C17_user_record_bytes.

Theorem C17_user_record_fields : forall cd d, 484 <= N.of_nat (length d) ->
  exists u, UnmarshalUserec cd d = Ok u /\ userec_decoded cd d u.
Proof. exact userec_decode. Qed.
Print Assumptions C17_user_record_fields.

(** ** C18: online-user entries *)
Definition C18_statement : Prop :=
  forall cd u, userinfo_fits cd u -> UnmarshalUserInfo cd (UserInfo_MarshalBinary cd u) = Ok u.

(** The exact image of every entry: three counters are overwritten. *)
Theorem C18_online_user_image_partial :
  forall cd u, userinfo_fits cd u -> UnmarshalUserInfo cd (UserInfo_MarshalBinary cd u) = Ok (userinfo_image u).
Proof. exact userinfo_roundtrip. Qed.
Print Assumptions C18_online_user_image_partial.

Example C18_nonvacuous : userinfo_fits id_codec sample_info.
Proof. unfold userinfo_fits. fits. Qed.

Theorem C18_counters_lost_refuted : ~ C18_statement.
Proof.
  intros H. specialize (H id_codec sample_info C18_nonvacuous).
  rewrite (userinfo_roundtrip _ _ C18_nonvacuous) in H. vm_compute in H. discriminate.
Qed.
Print Assumptions C18_counters_lost_refuted.

Theorem C18_online_user_fields : forall cd d, 3475 <= N.of_nat (length d) ->
  exists u, UnmarshalUserInfo cd d = Ok u /\ userinfo_decoded cd d u.
Proof. exact userinfo_decode. Qed.
Print Assumptions C18_online_user_fields.

(** ** C41: C strings *)
Theorem C41_c_string_cut : forall v s, CstrToBytes v = s <-> c_string v s.
Proof.
  intros v s. split; [intros <-; apply CstrToBytes_spec|apply c_string_cstr].
Qed.
Print Assumptions C41_c_string_cut.
Theorem C41_c_string_longest : forall v t rest,
  v = t ++ rest -> ~ In x00 t -> exists more, CstrToBytes v = t ++ more.
Proof.
  intros v t rest -> H. pose proof (CstrToBytes_spec (t ++ rest)) as [N [E|(u & E)]].
  - exists rest. now rewrite <- E.
  - set (s := CstrToBytes (t ++ rest)) in *. clearbody s. revert s N E H.
    induction t as [|b t IH]; intros s N E H; [now exists s|].
    destruct s as [|c s]; cbn in E; injection E as -> E.
    + exfalso. apply H. now left.
    + destruct (IH s) as [more ->]; auto.
      * intros Q; apply N; now right.
      * intros Q; apply H; now right.
      * now exists more.
Qed.
Print Assumptions C41_c_string_longest.
Example C41_nonvacuous : CstrToBytes [x61; x62; x00; x63; x00] = [x61; x62] /\ c_string [x61; x62; x00; x63; x00] [x61; x62] /\ CstrToBytes [x61; x62] = [x61; x62].
Proof. split; [reflexivity|]. split; [|reflexivity]. apply C41_c_string_cut. reflexivity. Qed.

(** The second clause of C41 is false: the owner of an article keeps bytes after
    an interior NUL. *)
Theorem C41_owner_not_cut_refuted : exists d f,
  length d = 128%nat /\ NewFileHeaderWithByte id_codec d = Ok f /\ ~ f_cstr d 34 14 (fh_owner f).
Proof.
  set (d := put_all 128 [W 34 14 [x61; x00; x62]]).
  destruct (NewFileHeaderWithByte id_codec d) as [f| | |] eqn:E; try (vm_compute in E; discriminate).
  exists d, f. split; [reflexivity|]. split; [exact E|].
  intros (v & A & C & _). vm_compute in E. injection E as <-. cbn in C. apply C. right. now left.
Qed.
Print Assumptions C41_owner_not_cut_refuted.

(** ** C42: Formosa BBS *)
Theorem C42_formosa_record_fields : forall cd d, 227 <= N.of_nat (length d) ->
  exists f, NewFormosaHeaderWithByte cd d = Ok f /\ formosa_decoded cd d f.
Proof. exact formosa_decode. Qed.
Print Assumptions C42_formosa_record_fields.

(** ** C49: recommend count *)
Theorem C49_add_recommend : forall f n,
  (-128 <= fh_recommend f + n < 128)%Z ->
  fh_recommend (fh_add_recommend f n) = (fh_recommend f + n)%Z /\
  fh_filename (fh_add_recommend f n) = fh_filename f /\ fh_owner (fh_add_recommend f n) = fh_owner f /\
  fh_title (fh_add_recommend f n) = fh_title f.
Proof. intros f n H. cbn. repeat split. unfold i8. apply sgn_id; [reflexivity|exact H]. Qed.
Print Assumptions C49_add_recommend.
(** Whatever is added, the count stays a signed byte, is right up to multiples of 256, and
    nothing else of the record changes. *)
Theorem C49_only_the_count : forall f n,
  (-128 <= fh_recommend (fh_add_recommend f n) < 128)%Z /\
  (exists k, fh_recommend (fh_add_recommend f n) = fh_recommend f + n + 256 * k)%Z /\
  fh_filename (fh_add_recommend f n) = fh_filename f /\ fh_modified (fh_add_recommend f n) = fh_modified f /\ fh_owner
  (fh_add_recommend f n) = fh_owner f /\ fh_date (fh_add_recommend f n) = fh_date f /\ fh_title (fh_add_recommend f n)
  = fh_title f /\ fh_money (fh_add_recommend f n) = fh_money f /\ fh_annouid (fh_add_recommend f n) = fh_annouid f /\
  fh_vposts (fh_add_recommend f n) = fh_vposts f /\ fh_vlogins (fh_add_recommend f n) = fh_vlogins f /\ fh_vregtime
  (fh_add_recommend f n) = fh_vregtime f /\ fh_vbadpost (fh_add_recommend f n) = fh_vbadpost f /\ fh_filemode
  (fh_add_recommend f n) = fh_filemode f.
Proof.
  intros f n. unfold fh_add_recommend. cbn [fh_recommend fh_filename fh_modified fh_owner fh_date fh_title fh_money fh_annouid fh_vposts fh_vlogins fh_vregtime fh_vbadpost fh_filemode].
  set (z := (fh_recommend f + n)%Z). unfold i8, sgn. change (2 * 128)%Z with 256%Z.
  pose proof (Z.div_mod z 256 ltac:(lia)) as D. pose proof (Z.mod_pos_bound z 256 ltac:(lia)) as B.
  split; [destruct (z mod 256 <? 128)%Z eqn:E; lia|]. split; [|repeat split].
  destruct (z mod 256 <? 128)%Z eqn:E; [exists (- (z / 256))%Z|exists (- (z / 256) - 1)%Z]; lia.
Qed.
Print Assumptions C49_only_the_count.
Example C49_nonvacuous : (-128 <= fh_recommend sample_file + 5 < 128)%Z /\
  fh_recommend (fh_add_recommend sample_file 5) = (fh_recommend sample_file + 5)%Z /\
  fh_recommend (fh_add_recommend (fh_add_recommend sample_file (127 - fh_recommend sample_file)) 1) = (-128)%Z.
Proof. vm_compute. repeat split; discriminate. Qed.
Theorem C49_wraps_refuted : exists f n, (-128 <= fh_recommend f < 128)%Z /\ (-128 <= n < 128)%Z /\
  fh_recommend (fh_add_recommend f n) <> (fh_recommend f + n)%Z.
Proof.
  exists (fh_add_recommend sample_file 127), 100%Z. vm_compute. repeat split; congruence.
Qed.
Print Assumptions C49_wraps_refuted.
