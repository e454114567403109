(** * Bridges between the slicing functions of the model and the predicates of
    S_Layout, and the slot-reading automation for record codecs. *)
From Coq Require Import Lia ZifyBool ZifyNat ZifyN.
From Verif Require Import M_Base M_Cstr S_Layout P_Base.
Open Scope N_scope.

Lemma le_num_dec v : le_num v = le_dec v.
Proof. induction v as [|b v IH]; cbn; unfold b2n; [reflexivity|now rewrite IH]. Qed.

Lemma at_off_sub d off len : off + len <= lenN d -> at_off d off len (sub off len d).
Proof.
  intros H. exists (firstn (N.to_nat off) d), (skipn (N.to_nat (off + len)) d).
  repeat split.
  - unfold sub. rewrite <- (firstn_skipn (N.to_nat off) d) at 1. f_equal.
    rewrite <- (firstn_skipn (N.to_nat len) (skipn (N.to_nat off) d)) at 1.
    f_equal. rewrite skipn_skipn. f_equal. lia.
  - unfold lenN in H. rewrite firstn_length. lia.
  - rewrite sub_length by assumption. lia.
Qed.

Lemma at_off_is_sub d off len v : at_off d off len v -> v = sub off len d /\ off + len <= lenN d.
Proof.
  intros (a & b & -> & <- & <-). split.
  - fold (lenN a) (lenN v). rewrite sub_app_r by lia. rewrite N.sub_diag.
    rewrite sub_app_l by lia. symmetry. apply sub_all.
  - rewrite !lenN_app. unfold lenN. lia.
Qed.

Lemma f_num_sub d off k : off + k <= lenN d -> f_num d off k (le_dec (sub off k d)).
Proof. intros H. eexists. split; [apply at_off_sub, H|]. symmetry. apply le_num_dec. Qed.
Lemma f_num_r8 d off : off + 1 <= lenN d -> f_num d off 1 (r8 off d).
Proof. apply f_num_sub. Qed.
Lemma f_num_r16 d off : off + 2 <= lenN d -> f_num d off 2 (r16 off d).
Proof. apply f_num_sub. Qed.
Lemma f_num_r32 d off : off + 4 <= lenN d -> f_num d off 4 (r32 off d).
Proof. apply f_num_sub. Qed.

Lemma r_bound d off k : le_dec (sub off k d) < 256 ^ k.
Proof.
  eapply N.lt_le_trans; [apply le_dec_bound|].
  apply N.pow_le_mono_r; [lia|apply lenN_sub_le].
Qed.
Lemma r8_bound d off : r8 off d < 256.
Proof. exact (r_bound d off 1). Qed.
Lemma r16_bound d off : r16 off d < 65536.
Proof. exact (r_bound d off 2). Qed.
Lemma r32_bound d off : r32 off d < 4294967296.
Proof. exact (r_bound d off 4). Qed.

Lemma f_int_i8 d off : off + 1 <= lenN d -> f_int d off 1 (i8 (Z.of_N (r8 off d))).
Proof.
  intros H. exists (r8 off d). split; [apply f_num_r8, H|].
  pose proof (r8_bound d off). unfold i8, sgn. rewrite Z.mod_small by lia.
  change (2 ^ (8 * 1)) with 256. change (2 ^ Z.of_N (8 * 1))%Z with 256%Z.
  destruct (_ <? _)%Z eqn:E; [left|right]; lia.
Qed.
Lemma f_int_i16 d off : off + 2 <= lenN d -> f_int d off 2 (i16 (Z.of_N (r16 off d))).
Proof.
  intros H. exists (r16 off d). split; [apply f_num_r16, H|].
  pose proof (r16_bound d off). unfold i16, sgn. rewrite Z.mod_small by lia.
  change (2 ^ (8 * 2)) with 65536. change (2 ^ Z.of_N (8 * 2))%Z with 65536%Z.
  destruct (_ <? _)%Z eqn:E; [left|right]; lia.
Qed.
Lemma f_int_i32 d off : off + 4 <= lenN d -> f_int d off 4 (i32 (Z.of_N (r32 off d))).
Proof.
  intros H. exists (r32 off d). split; [apply f_num_r32, H|].
  pose proof (r32_bound d off). unfold i32, sgn. rewrite Z.mod_small by lia.
  change (2 ^ (8 * 4)) with 4294967296. change (2 ^ Z.of_N (8 * 4))%Z with 4294967296%Z.
  destruct (_ <? _)%Z eqn:E; [left|right]; lia.
Qed.
Lemma f_time_r32 d off : off + 4 <= lenN d -> f_time d off (Z.of_N (r32 off d)).
Proof. intros H. exists (r32 off d). split; [apply f_num_r32, H|reflexivity]. Qed.
Lemma f_flag_r8 d off : off + 1 <= lenN d -> f_flag d off (negb (r8 off d =? 0)).
Proof. intros H. exists (r8 off d). split; [apply f_num_r8, H|]. lia. Qed.

(** ** Trimming *)

Lemma drop_nul_spec l : exists i, l = repeat x00 i ++ drop_nul l /\ hd x01 (drop_nul l) <> x00.
Proof.
  induction l as [|b l (i & IH & H)].
  - exists 0%nat. cbn. split; [reflexivity|discriminate].
  - cbn. destruct (Byte.eqb b x00) eqn:E.
    + apply byte_eqb_eq in E. subst. exists (S i). cbn. split; [congruence|exact H].
    + exists 0%nat. cbn. split; [reflexivity|]. apply byte_eqb_neq. exact E.
Qed.

Lemma rev_repeat {A} (x : A) n : rev (repeat x n) = repeat x n.
Proof.
  induction n; cbn; auto. rewrite IHn. clear IHn.
  induction n; cbn; auto. f_equal. auto.
Qed.

Lemma trim_nul_spec v : trimmed v (trim_nul v).
Proof.
  unfold trim_nul.
  destruct (drop_nul_spec v) as (i & E & H).
  destruct (drop_nul_spec (rev (drop_nul v))) as (j & E' & H').
  set (s := drop_nul (rev (drop_nul v))) in *.
  assert (Ed : drop_nul v = rev s ++ repeat x00 j).
  { rewrite <- (rev_involutive (drop_nul v)). rewrite E', rev_app_distr, rev_repeat. reflexivity. }
  exists i, j. repeat split.
  - rewrite E, Ed at 1. reflexivity.
  - intros s' F. rewrite Ed, F in H. cbn in H. congruence.
  - intros s' F. apply (f_equal (@rev byte)) in F. rewrite rev_involutive, rev_app_distr in F.
    cbn in F. rewrite F in H'. cbn in H'. congruence.
Qed.

Lemma ends_ok_iff s : ends_ok s <-> (forall s', s <> x00 :: s') /\ (forall s', s <> s' ++ [x00]).
Proof.
  unfold ends_ok. split; intros [H1 H2]; split.
  - intros s' ->. cbn in H1. congruence.
  - intros s' ->. rewrite rev_app_distr in H2. cbn in H2. congruence.
  - destruct s; cbn; [discriminate|]. intros ->. eapply H1. reflexivity.
  - destruct (rev s) eqn:E; cbn; [discriminate|]. intros ->.
    apply (f_equal (@rev byte)) in E. rewrite rev_involutive in E. cbn in E.
    eapply H2. exact E.
Qed.

(** trimming has only one result *)
Lemma trimmed_trim v s : trimmed v s -> s = trim_nul v.
Proof.
  intros (i & j & E & H). apply ends_ok_iff in H.
  assert (Z1 : forall n, repeat x00 n = zeros (N.of_nat n)) by (intros; unfold zeros; f_equal; lia).
  subst v. unfold trim_nul. rewrite !Z1, drop_nul_zeros.
  destruct s as [|b s].
  - cbn [app]. replace (zeros (N.of_nat j)) with (zeros (N.of_nat j) ++ []) by apply app_nil_r.
    rewrite drop_nul_zeros. reflexivity.
  - destruct H as [H1 H2].
    rewrite (drop_nul_id ((b :: s) ++ _)) by exact H1.
    symmetry. apply drop_nul_app_zeros, H2.
Qed.

Lemma f_trim_sub d off len : off + len <= lenN d -> f_trim d off len (trim_nul (sub off len d)).
Proof. intros H. eexists. split; [apply at_off_sub, H|apply trim_nul_spec]. Qed.
Lemma f_trim_big5_sub cd d off len :
  off + len <= lenN d -> f_trim_big5 cd d off len (big5uaoToUTF8String cd (trim_nul (sub off len d))).
Proof. intros H. eexists. split; [apply f_trim_sub, H|reflexivity]. Qed.

(** ** C strings *)

Lemma index_byte_spec c l :
  match index_byte c l with
  | None => ~ In c l
  | Some n => exists t, l = firstn n l ++ c :: t /\ ~ In c (firstn n l)
  end.
Proof.
  induction l as [|b l IH]; cbn; auto.
  destruct (Byte.eqb b c) eqn:E.
  - apply byte_eqb_eq in E. subst. exists l. cbn. auto.
  - apply byte_eqb_neq in E. destruct (index_byte c l) as [n|]; cbn.
    + destruct IH as (t & E1 & E2). exists t. split; [congruence|]. intros [H|H]; auto.
    + intros [H|H]; auto.
Qed.

Lemma CstrToBytes_spec v : c_string v (CstrToBytes v).
Proof.
  unfold CstrToBytes. pose proof (index_byte_spec x00 v) as H.
  destruct (index_byte x00 v) as [n|].
  - destruct H as (t & E & H). split; [exact H|]. right. exists t. exact E.
  - split; auto.
Qed.

Lemma split_nul_head_spec v : c_string v (split_nul_head v).
Proof.
  induction v as [|b v [H1 H2]]; cbn.
  - split; auto.
  - destruct (Byte.eqb b x00) eqn:E.
    + apply byte_eqb_eq in E. subst. split; auto. right. exists v. reflexivity.
    + apply byte_eqb_neq in E. split.
      * intros [H|H]; auto.
      * destruct H2 as [H2|(t & H2)]; [left; congruence|right; exists t; cbn; congruence].
Qed.

Lemma c_string_unique v s s' : c_string v s -> c_string v s' -> s = s'.
Proof.
  revert v s'. induction s as [|b s IH]; intros v s' [H1 H2] [H1' H2'].
  - destruct s' as [|c s']; auto. exfalso.
    destruct H2 as [->|(t & ->)].
    + destruct H2' as [E|(t' & E)]; discriminate.
    + destruct H2' as [E|(t' & E)]; injection E; intros; subst; apply H1'; now left.
  - destruct s' as [|c s'].
    + exfalso. destruct H2' as [->|(t & ->)].
      * destruct H2 as [E|(t' & E)]; discriminate.
      * destruct H2 as [E|(t' & E)]; injection E; intros; subst; apply H1; now left.
    + assert (Q : exists v', v = b :: v' /\ c_string v' s).
      { destruct H2 as [->|(t & ->)].
        - exists s. split; auto. split; [intros Q; apply H1; now right|now left].
        - exists (s ++ x00 :: t). split; auto. split; [intros Q; apply H1; now right|right; eauto]. }
      destruct Q as (v' & -> & C).
      assert (Q : c = b /\ c_string v' s').
      { destruct H2' as [E|(t & E)]; injection E; intros; subst.
        - split; auto. split; [intros Q; apply H1'; now right|now left].
        - split; auto. split; [intros Q; apply H1'; now right|right; eauto]. }
      destruct Q as (-> & C'). f_equal. eapply IH; eauto.
Qed.

Lemma c_string_cstr v s : c_string v s -> CstrToBytes v = s.
Proof. intros H. eapply c_string_unique; [apply CstrToBytes_spec|exact H]. Qed.
Lemma c_string_split v s : c_string v s -> split_nul_head v = s.
Proof. intros H. eapply c_string_unique; [apply split_nul_head_spec|exact H]. Qed.
Lemma split_is_cstr v : split_nul_head v = CstrToBytes v.
Proof. apply c_string_split, CstrToBytes_spec. Qed.

Lemma f_cstr_sub d off len : off + len <= lenN d -> f_cstr d off len (newStringFormCString (sub off len d)).
Proof. intros H. eexists. split; [apply at_off_sub, H|apply CstrToBytes_spec]. Qed.
Lemma f_cstr_big5_sub cd d off len :
  off + len <= lenN d -> f_cstr_big5 cd d off len (newStringFormBig5UAOCString cd (sub off len d)).
Proof. intros H. eexists. split; [apply f_cstr_sub, H|reflexivity]. Qed.
Lemma f_cstr_big5_split cd d off len :
  off + len <= lenN d -> f_cstr_big5 cd d off len (big5uaoToUTF8String cd (split_nul_head (sub off len d))).
Proof.
  intros H. eexists. split; [apply f_cstr_sub, H|]. now rewrite split_is_cstr.
Qed.

(** padded slots read back *)
Lemma pad_c_string len s : lenN s <= len -> ~ In x00 s -> c_string (pad len s) s.
Proof.
  intros H N. rewrite pad_fit by exact H. split; [exact N|].
  destruct (N.eq_dec (len - lenN s) 0) as [E|E].
  - left. rewrite E. cbn. now rewrite app_nil_r.
  - right. exists (zeros (len - lenN s - 1)). f_equal.
    replace (len - lenN s) with (1 + (len - lenN s - 1)) at 1 by lia.
    rewrite zeros_add. reflexivity.
Qed.

Lemma cstr_pad len s : cstr_fits len s -> CstrToBytes (pad len s) = s.
Proof. intros [H N]. apply c_string_cstr, pad_c_string; auto. Qed.
Lemma split_pad len s : cstr_fits len s -> split_nul_head (pad len s) = s.
Proof. intros [H N]. apply c_string_split, pad_c_string; auto. Qed.
Lemma trim_pad len s : text_fits len s -> trim_nul (pad len s) = s.
Proof. intros [H N]. apply trim_nul_pad; [exact H|apply ends_ok_iff, N]. Qed.

Lemma pad_exact len s : lenN s = len -> pad len s = s.
Proof.
  intros H. rewrite pad_fit by lia. rewrite H, N.sub_diag. cbn. apply app_nil_r.
Qed.

Lemma dec_pad k n : le_dec (pad (N.of_nat k) (le_enc k n)) = n mod 256 ^ N.of_nat k.
Proof. rewrite pad_exact by apply lenN_le_enc. apply le_dec_enc. Qed.

(** ** Writing *)

Lemma e_text_pad d off len s :
  off + len <= lenN d -> sub off len d = pad len s -> e_text d off len s.
Proof.
  intros H E. exists (pad len s). split; [rewrite <- E; apply at_off_sub, H|].
  destruct (N.le_gt_cases (lenN s) len) as [L|L].
  - left. rewrite pad_fit by exact L. eexists. reflexivity.
  - right. unfold pad. rewrite lenN_firstn. replace (len - _) with 0 by lia.
    cbn. rewrite app_nil_r. exists (skipn (N.to_nat len) s). symmetry. apply firstn_skipn.
Qed.

Lemma f_num_pad d off k n :
  off + N.of_nat k <= lenN d -> sub off (N.of_nat k) d = pad (N.of_nat k) (le_enc k n) ->
  f_num d off (N.of_nat k) (n mod 256 ^ N.of_nat k).
Proof.
  intros H E. exists (sub off (N.of_nat k) d). split; [apply at_off_sub, H|].
  transitivity (le_dec (sub off (N.of_nat k) d)); [|symmetry; apply le_num_dec]. rewrite E. symmetry. apply dec_pad.
Qed.
Lemma e_num_pad1 d off n : off + 1 <= lenN d -> sub off 1 d = pad 1 (le_enc 1 n) -> e_num d off 1 n.
Proof. exact (f_num_pad d off 1 n). Qed.
Lemma e_num_pad2 d off n : off + 2 <= lenN d -> sub off 2 d = pad 2 (le_enc 2 n) -> e_num d off 2 n.
Proof. exact (f_num_pad d off 2 n). Qed.
Lemma e_num_pad4 d off n : off + 4 <= lenN d -> sub off 4 d = pad 4 (le_enc 4 n) -> e_num d off 4 n.
Proof. exact (f_num_pad d off 4 n). Qed.
Lemma e_int_pad1 d off z : off + 1 <= lenN d -> sub off 1 d = pad 1 (le_enc 1 (u8 z)) -> e_int d off 1 z.
Proof.
  intros H E. apply e_num_pad1 in E; [|exact H]. unfold e_num in E. rewrite N.mod_small in E; [exact E|].
  unfold u8. pose proof (Z.mod_pos_bound z 256). change (2 ^ (8 * 1)) with 256. lia.
Qed.
Lemma e_int_pad2 d off z : off + 2 <= lenN d -> sub off 2 d = pad 2 (le_enc 2 (u16 z)) -> e_int d off 2 z.
Proof.
  intros H E. apply e_num_pad2 in E; [|exact H]. unfold e_num in E. rewrite N.mod_small in E; [exact E|].
  unfold u16. pose proof (Z.mod_pos_bound z 65536). change (2 ^ (8 * 2)) with 65536. lia.
Qed.
Lemma e_int_pad4 d off z : off + 4 <= lenN d -> sub off 4 d = pad 4 (le_enc 4 (u32 z)) -> e_int d off 4 z.
Proof.
  intros H E. apply e_num_pad4 in E; [|exact H]. unfold e_num in E. rewrite N.mod_small in E; [exact E|].
  unfold u32. pose proof (Z.mod_pos_bound z 4294967296). change (2 ^ (8 * 4)) with 4294967296. lia.
Qed.
Lemma e_flag_pad d off (b : bool) :
  off + 1 <= lenN d -> sub off 1 d = pad 1 (le_enc 1 (if b then 1 else 0)) -> e_flag d off b.
Proof.
  intros H E. apply e_num_pad1 in E; [|exact H]. unfold e_num in E. unfold e_flag.
  destruct b; exact E.
Qed.
Lemma e_zero_sub d off len : off + len <= lenN d -> sub off len d = zeros len -> e_zero d off len.
Proof. intros H E. red. change (at_off d off len (zeros len)). rewrite <- E. apply at_off_sub, H. Qed.

(** ** Slots of a written buffer *)

Lemma put_widen o len l s buf : len <= l -> put o len s buf = put o l (firstn (N.to_nat len) s) buf.
Proof.
  intros H. unfold put.
  rewrite (firstn_all2 (n := N.to_nat l) (firstn (N.to_nat len) s)); [reflexivity|].
  rewrite firstn_length. lia.
Qed.

Definition shape (ws : list wr) : list (N * N) := map (fun w => (w_off w, w_len w)) ws.
Definition in_bufb (n : N) (x : N * N) : bool := fst x + snd x <=? n.
Definition missb (o l : N) (x : N * N) : bool := (o + l <=? fst x) || (fst x + snd x <=? o).
Definition slot_okb (n : N) (sh : list (N * N)) (k : nat) (o l : N) : bool :=
  forallb (in_bufb n) sh && forallb (missb o l) (firstn k sh) &&
  forallb (missb o l) (skipn (S k) sh) && (o + l <=? n).

Lemma shape_in n ws : forallb (in_bufb n) (shape ws) = true -> Forall (wr_in n) ws.
Proof.
  unfold shape. induction ws; cbn; intros H; constructor.
  - unfold in_bufb in H. cbn in H. unfold wr_in. lia.
  - apply IHws. lia.
Qed.
Lemma shape_miss o l ws : forallb (missb o l) (shape ws) = true -> Forall (wr_disj o l) ws.
Proof.
  unfold shape. induction ws; cbn; intros H; constructor.
  - unfold missb in H. cbn in H. unfold wr_disj. lia.
  - apply IHws. lia.
Qed.

Lemma read_slot n ws k o len l s :
  nth_error ws k = Some (W o len s) -> len <= l ->
  slot_okb n (shape ws) k o l = true ->
  sub o l (put_all n ws) = pad l (firstn (N.to_nat len) s).
Proof.
  intros Hn Hl H. unfold slot_okb in H. apply andb_prop in H as [H HB].
  apply andb_prop in H as [H H2]. apply andb_prop in H as [H0 H1].
  apply nth_error_split in Hn. destruct Hn as (ws1 & ws2 & -> & Hk).
  unfold shape in *. rewrite map_app in H1, H2. cbn [map] in H1, H2.
  rewrite firstn_app, map_length, Hk, Nat.sub_diag in H1. cbn [firstn] in H1.
  rewrite app_nil_r, firstn_all2 in H1 by (rewrite map_length; lia).
  rewrite skipn_app, skipn_all2 in H2 by (rewrite map_length; lia).
  rewrite map_length, Hk in H2. replace (S k - k)%nat with 1%nat in H2 by lia. cbn [skipn app] in H2.
  apply shape_in in H0. apply shape_miss in H1. apply shape_miss in H2.
  assert (E : put_all n (ws1 ++ W o len s :: ws2) =
              put_all n (ws1 ++ W o l (firstn (N.to_nat len) s) :: ws2)).
  { unfold put_all. rewrite !fold_left_app. cbn [fold_left w_off w_len w_src].
    rewrite (put_widen o len l) by exact Hl. reflexivity. }
  rewrite E.
  assert (HB' : o + l <= n) by lia.
  apply (put_all_read n ws1 (W o l (firstn (N.to_nat len) s)) ws2); cbn [w_off w_len]; auto.
  apply Forall_app in H0 as [Ha Hb]. apply Forall_app; split; auto.
  inversion Hb; subst. constructor; auto.
Qed.

Lemma read_slot_same n ws k o l s :
  nth_error ws k = Some (W o l s) ->
  slot_okb n (shape ws) k o l = true ->
  sub o l (put_all n ws) = pad l s.
Proof.
  intros H1 H2. rewrite (read_slot n ws k o l l s H1 (N.le_refl _) H2).
  unfold pad. rewrite firstn_firstn, Nat.min_id. reflexivity.
Qed.

Lemma pad_firstn len l s : len <= l -> lenN s <= len -> pad l (firstn (N.to_nat len) s) = pad l s.
Proof. intros. rewrite firstn_all2; [reflexivity|unfold lenN in *; lia]. Qed.

Lemma read_hole n ws o l :
  forallb (in_bufb n) (shape ws) && forallb (missb o l) (shape ws) && (o + l <=? n) = true ->
  sub o l (put_all n ws) = zeros l.
Proof.
  intros H. apply andb_prop in H as [H HB]. apply andb_prop in H as [H1 H2].
  apply put_all_untouched; [apply shape_in, H1|apply shape_miss, H2|lia].
Qed.

Lemma put_all_len n ws : forallb (in_bufb n) (shape ws) = true -> lenN (put_all n ws) = n.
Proof. intros H. apply put_all_length, shape_in, H. Qed.

(** position of the write that starts at [o] *)
Fixpoint find_off (o : N) (sh : list (N * N)) (k : nat) : option nat :=
  match sh with
  | [] => None
  | (o', _) :: sh' => if o' =? o then Some k else find_off o sh' (S k)
  end.

(** Last write at [o], later ones missing it, and it fills its slot. *)
Lemma read_slot_last n ws k o l s :
  nth_error ws k = Some (W o l s) -> lenN s = l ->
  forallb (in_bufb n) (shape ws) && forallb (missb o l) (skipn (S k) (shape ws)) = true ->
  sub o l (put_all n ws) = s.
Proof.
  intros Hn Hl H. apply andb_prop in H as [H0 H2].
  apply nth_error_split in Hn. destruct Hn as (ws1 & ws2 & -> & Hk).
  unfold shape in *. rewrite map_app in H2. cbn [map] in H2.
  rewrite skipn_app, skipn_all2 in H2 by (rewrite map_length; lia).
  rewrite map_length, Hk in H2. replace (S k - k)%nat with 1%nat in H2 by lia. cbn [skipn app] in H2.
  apply shape_in in H0. apply shape_miss in H2.
  apply (put_all_read_full n ws1 (W o l s) ws2); auto.
Qed.

(** ** Field round trips *)

Lemma rt_u8 n : num_fits 1 n -> le_dec (pad 1 (le_enc 1 n)) = n.
Proof. intros H. etransitivity; [exact (dec_pad 1 n)|]. apply N.mod_small, H. Qed.
Lemma rt_u16 n : num_fits 2 n -> le_dec (pad 2 (le_enc 2 n)) = n.
Proof. intros H. etransitivity; [exact (dec_pad 2 n)|]. apply N.mod_small, H. Qed.
Lemma rt_u32 n : num_fits 4 n -> le_dec (pad 4 (le_enc 4 n)) = n.
Proof. intros H. etransitivity; [exact (dec_pad 4 n)|]. apply N.mod_small, H. Qed.
Lemma rt_time z : time_fits z -> Z.of_N (le_dec (pad 4 (le_enc 4 (u32 z)))) = z.
Proof.
  intros H. rewrite rt_u32 by apply u32_range. apply u32_small. exact H.
Qed.
Lemma of_N_u8 z : Z.of_N (u8 z) = (z mod 256)%Z.
Proof. unfold u8. pose proof (Z.mod_pos_bound z 256). lia. Qed.
Lemma of_N_u16 z : Z.of_N (u16 z) = (z mod 65536)%Z.
Proof. unfold u16. pose proof (Z.mod_pos_bound z 65536). lia. Qed.
Lemma of_N_u32 z : Z.of_N (u32 z) = (z mod 4294967296)%Z.
Proof. unfold u32. pose proof (Z.mod_pos_bound z 4294967296). lia. Qed.
Lemma u8_lt z : u8 z < 256.
Proof. unfold u8. pose proof (Z.mod_pos_bound z 256). lia. Qed.
Lemma u16_lt z : u16 z < 65536.
Proof. unfold u16. pose proof (Z.mod_pos_bound z 65536). lia. Qed.
Lemma rt_i8 z : int_fits 1 z -> i8 (Z.of_N (le_dec (pad 1 (le_enc 1 (u8 z))))) = z.
Proof.
  intros H. rewrite rt_u8 by apply u8_lt. rewrite of_N_u8. unfold i8.
  rewrite (sgn_mod 128) by lia. apply sgn_id; [lia|exact H].
Qed.
Lemma rt_i16 z : int_fits 2 z -> i16 (Z.of_N (le_dec (pad 2 (le_enc 2 (u16 z))))) = z.
Proof.
  intros H. rewrite rt_u16 by apply u16_lt. rewrite of_N_u16. unfold i16.
  rewrite (sgn_mod 32768) by lia. apply sgn_id; [lia|exact H].
Qed.
Lemma rt_i32 z : int_fits 4 z -> i32 (Z.of_N (le_dec (pad 4 (le_enc 4 (u32 z))))) = z.
Proof.
  intros H. rewrite rt_u32 by apply u32_range. rewrite of_N_u32. unfold i32.
  rewrite (sgn_mod 2147483648) by lia. apply sgn_id; [lia|exact H].
Qed.
Lemma rt_flag (b : bool) : negb (le_dec (pad 1 (le_enc 1 (if b then 1 else 0))) =? 0) = b.
Proof. destruct b; reflexivity. Qed.

Lemma rt_cstr_plain cd len t :
  plain_cstr_fits cd len t -> newStringFormCString (pad len (utf8ToBig5UAOString cd t)) = t.
Proof. intros [E F]. unfold utf8ToBig5UAOString. rewrite E. apply cstr_pad, F. Qed.
Lemma rt_cstr_big5 cd len t :
  big5_cstr_fits cd len t -> newStringFormBig5UAOCString cd (pad len (utf8ToBig5UAOString cd t)) = t.
Proof.
  intros [E F]. unfold newStringFormBig5UAOCString, utf8ToBig5UAOString. rewrite cstr_pad by exact F. exact E.
Qed.
Lemma rt_split_big5 cd len t :
  big5_cstr_fits cd len t -> big5uaoToUTF8String cd (split_nul_head (pad len (utf8ToBig5UAOString cd t))) = t.
Proof.
  intros [E F]. unfold big5uaoToUTF8String, utf8ToBig5UAOString. rewrite split_pad by exact F. exact E.
Qed.
Lemma rt_trim_big5 cd len t :
  big5_text_fits cd len t -> big5uaoToUTF8String cd (trim_nul (pad len (utf8ToBig5UAOString cd t))) = t.
Proof.
  intros [E F]. unfold big5uaoToUTF8String, utf8ToBig5UAOString. rewrite trim_pad by exact F. exact E.
Qed.

(** ** All slots of a write list at once *)
Fixpoint disj_allb (n : N) (pre sh : list (N * N)) : bool :=
  match sh with
  | [] => true
  | x :: sh' => forallb (missb (fst x) (snd x)) pre && forallb (missb (fst x) (snd x)) sh' &&
                disj_allb n (x :: pre) sh'
  end.

Fixpoint allP (D : bytes) (ws : list wr) : Prop :=
  match ws with
  | [] => True
  | w :: ws' => sub (w_off w) (w_len w) D = pad (w_len w) (w_src w) /\ allP D ws'
  end.

Lemma forallb_rev {A} (f : A -> bool) l : forallb f (rev l) = forallb f l.
Proof.
  induction l as [|x l IH]; cbn; auto. rewrite forallb_app, IH. cbn. rewrite andb_true_r. apply andb_comm.
Qed.

Lemma all_slots_gen n pre ws :
  forallb (in_bufb n) (shape (rev pre ++ ws)) = true ->
  disj_allb n (shape pre) (shape ws) = true ->
  allP (put_all n (rev pre ++ ws)) ws.
Proof.
  revert pre. induction ws as [|w ws IH]; intros pre HI HD; cbn [allP]; auto.
  cbn [shape map disj_allb fst snd] in HD. fold (shape ws) in HD.
  apply andb_prop in HD as [HD HD3]. apply andb_prop in HD as [HD1 HD2].
  split.
  - apply put_all_read.
    + apply shape_in, HI.
    + apply shape_miss. unfold shape. rewrite map_rev, forallb_rev. exact HD1.
    + apply shape_miss, HD2.
  - replace (rev pre ++ w :: ws) with (rev (w :: pre) ++ ws) in *
      by (cbn [rev]; rewrite <- app_assoc; reflexivity).
    apply IH; [exact HI|exact HD3].
Qed.

Lemma all_slots n ws :
  forallb (in_bufb n) (shape ws) && disj_allb n [] (shape ws) = true -> allP (put_all n ws) ws.
Proof.
  intros H. apply andb_prop in H as [H1 H2].
  exact (all_slots_gen n [] ws H1 H2).
Qed.
