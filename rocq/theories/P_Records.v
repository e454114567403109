(** * Proofs about the record codecs. *)
From Coq Require Import Lia ZifyBool ZifyNat ZifyN.
From Verif Require Import M_Base M_Cstr M_Const S_Layout P_Base P_Layout.
From Verif Require Import M_File S_File M_Formosa S_Formosa M_Board S_Board M_Userec S_Userec M_UserInfo S_UserInfo P_Ext.
Open Scope N_scope.

Ltac lt_len :=
  match goal with |- ?x <= ?l =>
    let v := eval vm_compute in x in change (v <= l); lia end.

Ltac dec_field :=
  match goal with
  | |- f_num _ _ 1 _ => apply f_num_r8
  | |- f_num _ _ 2 _ => apply f_num_r16
  | |- f_num _ _ 4 _ => apply f_num_r32
  | |- f_int _ _ 1 _ => apply f_int_i8
  | |- f_int _ _ 2 _ => apply f_int_i16
  | |- f_int _ _ 4 _ => apply f_int_i32
  | |- f_time _ _ _ => apply f_time_r32
  | |- f_flag _ _ _ => apply f_flag_r8
  | |- f_trim _ _ _ _ => apply f_trim_sub
  | |- f_trim_big5 _ _ _ _ _ => apply f_trim_big5_sub
  | |- f_cstr _ _ _ _ => apply f_cstr_sub
  | |- f_cstr_big5 _ _ _ _ (newStringFormBig5UAOCString _ _) => apply f_cstr_big5_sub
  | |- f_cstr_big5 _ _ _ _ _ => apply f_cstr_big5_split
  end; lt_len.

(** Literal offsets everywhere. *)
Ltac lit_hyps D :=
  repeat match goal with
  | H : sub ?o ?l D = ?r |- _ =>
      let o' := eval vm_compute in o in
      let l' := eval vm_compute in l in
      progress change (sub o' l' D = r) in H
  end;
  repeat match goal with
  | H : sub _ _ D = pad ?l ?r |- _ =>
      let l' := eval vm_compute in l in
      progress change (pad l r) with (pad l' r) in H
  end.
Ltac lit_goal D :=
  match goal with |- context [sub ?o ?l D] =>
      let o' := eval vm_compute in o in
      let l' := eval vm_compute in l in
      change (sub o l D) with (sub o' l' D)
  end.
Ltac break_slots A :=
  cbn [allP app w_off w_len w_src wstr w8 w16 w32] in A;
  repeat match type of A with
  | _ /\ _ => let B := fresh "B" in destruct A as [B A]
  end.
Ltac slot D :=
  lit_goal D;
  match goal with
  | H : sub ?o ?l D = _ |- context [sub ?o ?l D] => rewrite H
  end.

Ltac enc_field :=
  match goal with
  | |- e_text _ _ _ _ => apply e_text_pad
  | |- e_num _ _ 1 _ => apply e_num_pad1
  | |- e_num _ _ 2 _ => apply e_num_pad2
  | |- e_num _ _ 4 _ => apply e_num_pad4
  | |- e_flag _ _ _ => apply e_flag_pad
  | |- e_int _ _ 1 _ => apply e_int_pad1
  | |- e_int _ _ 2 _ => apply e_int_pad2
  | |- e_int _ _ 4 _ => apply e_int_pad4
  end.

Ltac rt_field D :=
  unfold r8, r16, r32; slot D;
  match goal with
  | |- negb _ = _ => apply rt_flag
  | |- i8 _ = _ => apply rt_i8
  | |- i16 _ = _ => apply rt_i16
  | |- i32 _ = _ => apply rt_i32
  | |- Z.of_N _ = _ => apply rt_time
  | |- le_dec (pad 1 _) = _ => apply rt_u8
  | |- le_dec (pad 2 _) = _ => apply rt_u16
  | |- le_dec (pad 4 _) = _ => apply rt_u32
  | |- trim_nul _ = _ => apply trim_pad
  | |- big5uaoToUTF8String _ (trim_nul _) = _ => apply rt_trim_big5
  | |- big5uaoToUTF8String _ (split_nul_head _) = _ => apply rt_split_big5
  | |- newStringFormBig5UAOCString _ _ = _ => apply rt_cstr_big5
  | |- newStringFormCString _ = _ => apply rt_cstr_plain
  end; assumption.

(** ** FileHeader *)

Lemma vote_land n : IsVotePost n = N.testbit n 6.
Proof.
  unfold IsVotePost, FileVote. change 64 with (2 ^ 6).
  destruct (N.testbit n 6) eqn:E.
  - apply negb_true_iff, N.eqb_neq. intros H.
    assert (F : N.testbit (N.land n (2 ^ 6)) 6 = false) by (rewrite H; apply N.bits_0).
    rewrite N.land_spec, E, N.pow2_bits_true in F. discriminate.
  - apply negb_false_iff, N.eqb_eq. apply N.bits_inj. intros k.
    rewrite N.land_spec, N.bits_0. destruct (N.eq_dec k 6) as [->|D].
    + now rewrite E.
    + rewrite N.pow2_bits_false by auto. apply andb_false_r.
Qed.

Lemma file_decode cd d : 125 <= lenN d ->
  exists f, NewFileHeaderWithByte cd d = Ok f /\ file_decoded cd d f.
Proof.
  intros H. unfold NewFileHeaderWithByte.
  destruct (lenN d <? PosOfFileHeaderFilemode + 1) eqn:G.
  { change (PosOfFileHeaderFilemode + 1) with 125 in G. lia. }
  eexists. split; [reflexivity|].
  unfold file_decoded. cbn [fh_filename fh_modified fh_recommend fh_owner fh_date fh_title
    fh_money fh_annouid fh_vposts fh_vlogins fh_vregtime fh_vbadpost fh_filemode].
  rewrite vote_land. unfold vote_bit.
  do 9 (split; [dec_field|]). split.
  - intros V. rewrite V. repeat split; dec_field.
  - intros V. destruct (N.testbit _ _); [congruence|]. repeat split; reflexivity.
Qed.

Lemma file_short cd d : lenN d < 125 -> NewFileHeaderWithByte cd d = Panic.
Proof.
  intros H. unfold NewFileHeaderWithByte.
  destruct (lenN d <? PosOfFileHeaderFilemode + 1) eqn:G; [reflexivity|].
  change (PosOfFileHeaderFilemode + 1) with 125 in G. lia.
Qed.

Lemma marshal_length cd f : lenN (MarshalToByte cd f) = 128.
Proof. apply put_all_len. vm_compute. reflexivity. Qed.

Lemma file_slots cd f :
  allP (MarshalToByte cd f) (fileheader_writes cd f) /\
  sub 32 1 (MarshalToByte cd f) = zeros 1 /\ sub 119 9 (MarshalToByte cd f) = zeros 9 /\
  sub 120 4 (MarshalToByte cd f) = zeros 4 /\ sub 124 1 (MarshalToByte cd f) = zeros 1.
Proof.
  unfold MarshalToByte. split; [|split; [|split; [|split]]];
    first [apply all_slots; vm_compute; reflexivity | apply read_hole; vm_compute; reflexivity].
Qed.

Lemma file_encode cd f : file_encoded cd f (MarshalToByte cd f).
Proof.
  unfold file_encoded.
  pose proof (marshal_length cd f) as L. pose proof (file_slots cd f) as (A & Z1 & Z2 & Z3 & Z4).
  generalize dependent (MarshalToByte cd f). intros D L A Z1 Z2 Z3 Z4.
  unfold fileheader_writes in A. break_slots A. lit_hyps D.
  split; [exact L|].
  repeat match goal with |- _ /\ _ => split end.
  all: try (enc_field; [rewrite L; lia|assumption]).
  all: apply e_zero_sub; [rewrite L; lia|assumption].
Qed.

Lemma file_roundtrip cd f : file_fits cd f ->
  NewFileHeaderWithByte cd (MarshalToByte cd f) = Ok (file_image f).
Proof.
  intros (H1 & H2 & H3 & H4 & H5 & H6). unfold NewFileHeaderWithByte.
  pose proof (marshal_length cd f) as L. pose proof (file_slots cd f) as (A & Z1 & Z2 & Z3 & Z4).
  generalize dependent (MarshalToByte cd f). intros D L A Z1 Z2 Z3 Z4. rewrite L.
  replace (128 <? PosOfFileHeaderFilemode + 1) with false by reflexivity.
  unfold fileheader_writes in A. break_slots A. lit_hyps D.
  assert (M : r8 PosOfFileHeaderFilemode D = 0) by (unfold r8; slot D; reflexivity).
  assert (U : r32 PosOfFileHeaderUnionMulti D = 0) by (unfold r32; slot D; reflexivity).
  cbv zeta. rewrite M, U. unfold file_image. apply (f_equal Ok).
  apply FileHeader_ext; FileHeader_proj; try reflexivity; rt_field D.
Qed.

(** ** Formosa *)
Lemma formosa_decode cd d : 227 <= lenN d ->
  exists f, NewFormosaHeaderWithByte cd d = Ok f /\ formosa_decoded cd d f.
Proof.
  intros H. unfold NewFormosaHeaderWithByte.
  destruct (lenN d <? FPosOfTitle + 67) eqn:G.
  { change (FPosOfTitle + 67) with 227 in G. lia. }
  eexists. split; [reflexivity|].
  unfold formosa_decoded. cbn [ff_filename ff_modified ff_owner ff_title ff_postno].
  repeat split; dec_field.
Qed.

(** ** BoardHeader *)
Lemma f_ints2 d off : off + 8 <= lenN d ->
  f_ints d off 4 2 [i32 (Z.of_N (r32 off d)); i32 (Z.of_N (r32 (off + 4) d))].
Proof.
  intros H. split; [reflexivity|]. intros i n E.
  destruct i as [|[|i]]; cbn in E; try discriminate.
  - injection E as <-. replace (off + 4 * N.of_nat 0) with off by lia. apply f_int_i32. lia.
  - injection E as <-. replace (off + 4 * N.of_nat 1) with (off + 4) by lia. apply f_int_i32. lia.
  - destruct i; discriminate.
Qed.

Lemma board_decode cd d : 216 <= lenN d ->
  exists b, UnmarshalBoardHeader cd d = Ok b /\ board_decoded cd d b.
Proof.
  intros H. unfold UnmarshalBoardHeader.
  destruct (lenN d <? PosOfSRExpire + 4) eqn:G.
  { change (PosOfSRExpire + 4) with 216 in G. lia. }
  eexists. split; [reflexivity|].
  unfold board_decoded. cbn -[N.add].
  repeat match goal with |- _ /\ _ => split end.
  all: first [dec_field | apply (f_ints2 d 136); lia | apply (f_ints2 d 144); lia].
Qed.

Lemma board_short cd d : lenN d < 216 -> UnmarshalBoardHeader cd d = Panic.
Proof.
  intros H. unfold UnmarshalBoardHeader.
  destruct (lenN d <? PosOfSRExpire + 4) eqn:G; [reflexivity|].
  change (PosOfSRExpire + 4) with 216 in G. lia.
Qed.

(** the four shapes of the write list *)
Definition two {A} (l : list A) : bool := match l with [_; _] => true | _ => false end.
Lemma two_spec {A} (l : list A) : two l = true -> exists a b, l = [a; b].
Proof. destruct l as [|a [|b [|]]]; try discriminate. intros _. eauto. Qed.
Lemma two_false {A B} (l : list A) (f : A -> A -> B) (g : B) : two l = false ->
  match l with [a; b] => f a b | _ => g end = g.
Proof. destruct l as [|a [|b [|]]]; try reflexivity. discriminate. Qed.
Lemma two_len {A} (l : list A) : two l = true <-> length l = 2%nat.
Proof. destruct l as [|a [|b [|]]]; cbn; split; try discriminate; auto. Qed.

Lemma board_shape cd b :
  forallb (in_bufb 256) (shape (board_writes cd b)) = true.
Proof.
  unfold board_writes.
  destruct (two (bh_next b)) eqn:T1; [apply two_spec in T1 as (x & y & ->)|rewrite (two_false (bh_next b)) by exact T1].
  all: destruct (two (bh_firstchild b)) eqn:T2; [apply two_spec in T2 as (x' & y' & ->)|rewrite (two_false (bh_firstchild b)) by exact T2].
  all: vm_compute; reflexivity.
Qed.

Lemma board_length cd b : lenN (BoardHeader_MarshalBinary cd b) = 256.
Proof. apply put_all_len, board_shape. Qed.

Lemma board_slots cd b :
  allP (BoardHeader_MarshalBinary cd b) (board_writes cd b).
Proof.
  unfold BoardHeader_MarshalBinary. apply all_slots. unfold board_writes.
  destruct (two (bh_next b)) eqn:T1; [apply two_spec in T1 as (x & y & ->)|rewrite (two_false (bh_next b)) by exact T1].
  all: destruct (two (bh_firstchild b)) eqn:T2; [apply two_spec in T2 as (x' & y' & ->)|rewrite (two_false (bh_firstchild b)) by exact T2].
  all: vm_compute; reflexivity.
Qed.

Lemma board_hole_next cd b : two (bh_next b) = false ->
  sub 136 8 (BoardHeader_MarshalBinary cd b) = zeros 8.
Proof.
  intros T1. unfold BoardHeader_MarshalBinary. apply read_hole. unfold board_writes.
  rewrite (two_false (bh_next b)) by exact T1.
  destruct (two (bh_firstchild b)) eqn:T2; [apply two_spec in T2 as (x' & y' & ->)|rewrite (two_false (bh_firstchild b)) by exact T2].
  all: vm_compute; reflexivity.
Qed.
Lemma board_hole_child cd b : two (bh_firstchild b) = false ->
  sub 144 8 (BoardHeader_MarshalBinary cd b) = zeros 8.
Proof.
  intros T1. unfold BoardHeader_MarshalBinary. apply read_hole. unfold board_writes.
  rewrite (two_false (bh_firstchild b)) by exact T1.
  destruct (two (bh_next b)) eqn:T2; [apply two_spec in T2 as (x' & y' & ->)|rewrite (two_false (bh_next b)) by exact T2].
  all: vm_compute; reflexivity.
Qed.

Lemma board_encode cd b : board_encoded cd b (BoardHeader_MarshalBinary cd b).
Proof.
  unfold board_encoded.
  pose proof (board_length cd b) as L. pose proof (board_slots cd b) as A.
  pose proof (board_hole_next cd b) as Z1. pose proof (board_hole_child cd b) as Z2.
  generalize dependent (BoardHeader_MarshalBinary cd b). intros D L A Z1 Z2.
  split; [exact L|]. unfold board_writes in A.
  destruct (two (bh_next b)) eqn:T1; [apply two_spec in T1 as (x & y & E1)|].
  all: destruct (two (bh_firstchild b)) eqn:T2; [apply two_spec in T2 as (x' & y' & E2)|].
  all: try rewrite E1 in *; try rewrite E2 in *;
       try rewrite (two_false (bh_next b)) in A by exact T1;
       try rewrite (two_false (bh_firstchild b)) in A by exact T2.
  all: break_slots A; lit_hyps D.
  all: repeat match goal with |- _ /\ _ => split end.
  all: try match goal with
       | |- forall x0 y0, [_; _] = _ -> _ => intros ? ? [= <- <-]; split
       | |- forall x0 y0, _ = _ -> _ => intros ? ? Q; exfalso; rewrite Q in *; discriminate
       | |- length [_; _] <> _ -> _ => intros Q; exfalso; apply Q; reflexivity
       | |- length _ <> _ -> _ => intros Q
       end.
  all: try (enc_field; [rewrite L; lia|assumption]).
  all: apply e_zero_sub; [rewrite L; lia|auto].
Qed.

Lemma board_roundtrip cd b : board_fits cd b ->
  UnmarshalBoardHeader cd (BoardHeader_MarshalBinary cd b) = Ok b.
Proof.
  intros F. unfold UnmarshalBoardHeader. rewrite board_length.
  replace (256 <? PosOfSRExpire + 4) with false by reflexivity.
  pose proof (board_slots cd b) as A.
  generalize dependent (BoardHeader_MarshalBinary cd b). intros D A.
  unfold board_writes in A.
  unfold board_fits in F. decompose [and] F. clear F.
  assert (T1 : exists x y, bh_next b = [x; y]) by (apply two_spec, two_len; assumption).
  assert (T2 : exists x y, bh_firstchild b = [x; y]) by (apply two_spec, two_len; assumption).
  destruct T1 as (x & y & E1), T2 as (x' & y' & E2).
  rewrite E1, E2 in *. break_slots A. lit_hyps D.
  repeat match goal with H : Forall _ (_ :: _) |- _ => inversion H; clear H; subst end.
  apply (f_equal Ok). apply BoardHeader_ext; BoardHeader_proj; try rt_field D.
  - rewrite E1. f_equal; [|f_equal]; rt_field D.
  - rewrite E2. f_equal; [|f_equal]; rt_field D.
Qed.

(** ** Userec *)
Lemma userec_decode cd d : 484 <= lenN d ->
  exists u, UnmarshalUserec cd d = Ok u /\ userec_decoded cd d u.
Proof.
  intros H. unfold UnmarshalUserec.
  destruct (lenN d <? PosOfPasswdTimeViolateLaw + 4) eqn:G.
  { change (PosOfPasswdTimeViolateLaw + 4) with 484 in G. lia. }
  eexists. split; [reflexivity|].
  unfold userec_decoded. cbn -[N.add].
  repeat match goal with |- _ /\ _ => split end.
  all: dec_field.
Qed.

Lemma userec_length cd u : lenN (Userec_MarshalBinary cd u) = 512.
Proof. apply put_all_len. vm_compute. reflexivity. Qed.

Lemma userec_slots cd u :
  allP (Userec_MarshalBinary cd u) (userec_writes cd u) /\
  sub 228 39 (Userec_MarshalBinary cd u) =
    pad 39 (firstn 38 (utf8ToBig5UAOString cd (u_justify u))) /\
  sub 392 4 (Userec_MarshalBinary cd u) = zeros 4.
Proof.
  unfold Userec_MarshalBinary. split; [|split].
  - apply all_slots; vm_compute; reflexivity.
  - apply (read_slot 512 (userec_writes cd u) 15 228 38 39 (utf8ToBig5UAOString cd (u_justify u)));
      [reflexivity|vm_compute; discriminate|vm_compute; reflexivity].
  - apply read_hole; vm_compute; reflexivity.
Qed.

Lemma userec_encode cd u : userec_encoded cd u (Userec_MarshalBinary cd u).
Proof.
  unfold userec_encoded.
  pose proof (userec_length cd u) as L. pose proof (userec_slots cd u) as (A & J & Z).
  generalize dependent (Userec_MarshalBinary cd u). intros D L A J Z.
  unfold userec_writes in A. break_slots A. lit_hyps D.
  split; [exact L|].
  repeat match goal with |- _ /\ _ => split end.
  all: try (enc_field; [rewrite L; lia|assumption]).
  all: apply e_zero_sub; [rewrite L; lia|assumption].
Qed.

Lemma fits_widen cd l l' t : l <= l' -> big5_cstr_fits cd l t -> big5_cstr_fits cd l' t.
Proof. intros H [E [L N]]. repeat split; auto. lia. Qed.

Lemma userec_roundtrip cd u : userec_fits cd u ->
  UnmarshalUserec cd (Userec_MarshalBinary cd u) = Ok (without_role u).
Proof.
  intros F. unfold UnmarshalUserec. rewrite userec_length.
  replace (512 <? PosOfPasswdTimeViolateLaw + 4) with false by reflexivity.
  pose proof (userec_slots cd u) as (A & J & Z).
  generalize dependent (Userec_MarshalBinary cd u). intros D A J Z.
  unfold userec_writes in A. break_slots A. lit_hyps D.
  unfold userec_fits in F. decompose [and] F. clear F.
  assert (JF : big5_cstr_fits cd 38 (u_justify u)) by assumption.
  change 38%nat with (N.to_nat 38) in J.
  rewrite (pad_firstn 38 39) in J; [|lia|exact (proj1 (proj2 JF))].
  assert (JF' : big5_cstr_fits cd 39 (u_justify u)) by (apply (fits_widen cd 38); [lia|exact JF]).
  unfold without_role. apply (f_equal Ok). apply Userec_ext; Userec_proj; try rt_field D.
  unfold r32. slot D. reflexivity.
Qed.
