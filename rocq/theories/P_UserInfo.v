(** * Proofs about the online-user entry: arrays and overlapping counters. *)
From Coq Require Import Lia ZifyBool ZifyNat ZifyN.
From Verif Require Import M_Base M_Cstr M_Const S_Layout P_Base P_Layout M_UserInfo S_UserInfo P_Ext P_Records.
Open Scope N_scope.

(** ** Arrays *)

Lemma put_nil o l buf : put o l [] buf = buf.
Proof.
  unfold put. rewrite firstn_nil. cbn [app List.length]. rewrite Nat.add_0_r. apply firstn_skipn.
Qed.

Lemma firstn_app_exact {A} n (a b : list A) : List.length a = n -> firstn n (a ++ b) = a.
Proof. intros <-. rewrite firstn_app, Nat.sub_diag, firstn_all. cbn. apply app_nil_r. Qed.

Lemma put_put_adj o l1 l2 s1 s2 buf :
  lenN s1 = l1 -> lenN s2 = l2 -> o + l1 + l2 <= lenN buf ->
  put (o + l1) l2 s2 (put o l1 s1 buf) = put o (l1 + l2) (s1 ++ s2) buf.
Proof.
  intros H1 H2 HB. unfold put.
  rewrite (firstn_all2 (n := N.to_nat l1) s1) by (unfold lenN in *; lia).
  rewrite (firstn_all2 (n := N.to_nat l2) s2) by (unfold lenN in *; lia).
  rewrite (firstn_all2 (n := N.to_nat (l1 + l2)) (s1 ++ s2)) by (rewrite app_length; unfold lenN in *; lia).
  assert (Lf : List.length (firstn (N.to_nat o) buf) = N.to_nat o)
    by (rewrite firstn_length; unfold lenN in *; lia).
  assert (E1 : firstn (N.to_nat (o + l1)) (firstn (N.to_nat o) buf ++ s1 ++ skipn (N.to_nat o + List.length s1) buf)
             = firstn (N.to_nat o) buf ++ s1).
  { rewrite app_assoc. apply firstn_app_exact. rewrite app_length, Lf. unfold lenN in *. lia. }
  rewrite E1, <- !app_assoc. f_equal. f_equal. f_equal.
  rewrite app_assoc. rewrite skipn_app, skipn_all2 by (rewrite app_length, Lf; unfold lenN in *; lia).
  cbn [app]. rewrite skipn_skipn, !app_length, Lf. f_equal. unfold lenN in *. lia.
Qed.

Definition cells32 (l : list N) : bytes := flat_map (le_enc 4) l.
Lemma lenN_cells32 l : lenN (cells32 l) = 4 * lenN l.
Proof.
  unfold cells32. induction l as [|x l IH]; [reflexivity|].
  cbn [flat_map]. rewrite lenN_app, IH, lenN_le_enc, lenN_cons. lia.
Qed.

Lemma puts_arr32 l off buf : off + 4 * lenN l <= lenN buf ->
  puts (w_arr32 off l) buf = put off (4 * lenN l) (cells32 l) buf.
Proof.
  revert off buf. induction l as [|x l IH]; intros off buf H.
  - cbn. symmetry. apply put_nil.
  - cbn [w_arr32 puts fold_left w32 w_off w_len w_src].
    change (puts (w_arr32 (off + 4) l) (put off 4 (le_enc 4 x) buf) = put off (4 * lenN (x :: l)) (cells32 (x :: l)) buf).
    rewrite lenN_cons in *. rewrite IH by (rewrite put_length; lia).
    replace (4 * (1 + lenN l)) with (4 + 4 * lenN l) by lia.
    unfold cells32. cbn [flat_map]. apply put_put_adj.
    + apply lenN_le_enc.
    + apply lenN_cells32.
    + lia.
Qed.

Lemma puts_arr100 l off buf : Forall (fun m => lenN m = 100) l -> off + 100 * lenN l <= lenN buf ->
  puts (w_arr100 off l) buf = put off (100 * lenN l) (concat l) buf.
Proof.
  revert off buf. induction l as [|x l IH]; intros off buf F H.
  - cbn. symmetry. apply put_nil.
  - inversion F; subst.
    cbn [w_arr100 puts fold_left wstr w_off w_len w_src].
    change (puts (w_arr100 (off + 100) l) (put off 100 x buf) = put off (100 * lenN (x :: l)) (concat (x :: l)) buf).
    rewrite lenN_cons in *. rewrite IH by (try assumption; rewrite put_length; lia).
    replace (100 * (1 + lenN l)) with (100 + 100 * lenN l) by lia.
    cbn [concat]. apply put_put_adj.
    + assumption.
    + clear -H3. induction l as [|y l IH]; [reflexivity|]. inversion H3; subst.
      cbn [concat]. rewrite lenN_app, lenN_cons, IH by assumption. lia.
    + lia.
Qed.

(** Replacing a group of writes by an equivalent single one. *)
Lemma put_all_group n a g w b :
  Forall (wr_in n) a ->
  (forall buf, lenN buf = n -> puts g buf = put (w_off w) (w_len w) (w_src w) buf) ->
  put_all n (a ++ g ++ b) = put_all n (a ++ w :: b).
Proof.
  intros Ha Hg. unfold put_all. rewrite !fold_left_app. cbn [fold_left]. f_equal.
  apply Hg. change (lenN (puts a (zeros n)) = n).
  rewrite puts_length; rewrite lenN_zeros; auto.
Qed.

(** A full write hidden by a later full write of the same slot. *)
Lemma put_comm_skip o l s o' l' s' buf :
  o + l <= lenN buf -> o' + l' <= lenN buf -> (o + l <= o' \/ o' + l' <= o) ->
  put o' l' s' (put o l s buf) = put o l s (put o' l' s' buf).
Proof.
  intros H H' D. unfold put.
  set (t := firstn (N.to_nat l) s). set (t' := firstn (N.to_nat l') s').
  assert (Lt : (length t <= N.to_nat l)%nat) by (unfold t; rewrite firstn_length; lia).
  assert (Lt' : (length t' <= N.to_nat l')%nat) by (unfold t'; rewrite firstn_length; lia).
  unfold lenN in *.
  assert (G : forall (o l o' l' : N) (t t' buf : bytes),
    (length t <= N.to_nat l)%nat -> (length t' <= N.to_nat l')%nat ->
    o + l <= o' -> o' + l' <= N.of_nat (length buf) ->
    firstn (N.to_nat o') (firstn (N.to_nat o) buf ++ t ++ skipn (N.to_nat o + length t) buf) ++ t' ++
      skipn (N.to_nat o' + length t') (firstn (N.to_nat o) buf ++ t ++ skipn (N.to_nat o + length t) buf) =
    firstn (N.to_nat o) (firstn (N.to_nat o') buf ++ t' ++ skipn (N.to_nat o' + length t') buf) ++ t ++
      skipn (N.to_nat o + length t) (firstn (N.to_nat o') buf ++ t' ++ skipn (N.to_nat o' + length t') buf)).
  { clear. intros o l o' l' t t' buf Lt Lt' D HB.
    set (m := (N.to_nat o' - (N.to_nat o + length t))%nat).
    assert (B : buf = firstn (N.to_nat o) buf ++ firstn (length t) (skipn (N.to_nat o) buf) ++
                      firstn m (skipn (N.to_nat o + length t) buf) ++ skipn (N.to_nat o') buf).
    { rewrite <- (firstn_skipn (N.to_nat o) buf) at 1. f_equal.
      rewrite <- (firstn_skipn (length t) (skipn (N.to_nat o) buf)) at 1. f_equal.
      rewrite skipn_skipn. rewrite (Nat.add_comm (length t)).
      rewrite <- (firstn_skipn m (skipn (N.to_nat o + length t) buf)) at 1. f_equal.
      rewrite skipn_skipn. f_equal. unfold m. lia. }
    set (A := firstn (N.to_nat o) buf) in *.
    set (Q := firstn (length t) (skipn (N.to_nat o) buf)) in *.
    set (M := firstn m (skipn (N.to_nat o + length t) buf)) in *.
    set (R := skipn (N.to_nat o') buf) in *.
    assert (LA : length A = N.to_nat o) by (unfold A; rewrite firstn_length; lia).
    assert (LQ : length Q = length t) by (unfold Q; rewrite firstn_length, skipn_length; lia).
    assert (LM : length M = m) by (unfold M; rewrite firstn_length, skipn_length; unfold m; lia).
    assert (S1 : skipn (N.to_nat o + length t) buf = M ++ R).
    { rewrite B. rewrite (app_assoc A Q). rewrite skipn_app, skipn_all2 by (rewrite app_length; lia).
      cbn [app]. rewrite app_length, LA, LQ, Nat.sub_diag. reflexivity. }
    assert (F1 : firstn (N.to_nat o') buf = A ++ Q ++ M).
    { rewrite B, (app_assoc A), (app_assoc (A ++ Q)). rewrite firstn_app_exact.
      - now rewrite <- app_assoc.
      - rewrite !app_length, LA, LQ, LM. unfold m. lia. }
    assert (S2 : skipn (N.to_nat o' + length t') buf = skipn (length t') R).
    { unfold R. rewrite skipn_skipn. f_equal. lia. }
    rewrite S1, F1, S2.
    replace (firstn (N.to_nat o') (A ++ t ++ M ++ R)) with (A ++ t ++ M).
    2:{ replace (A ++ t ++ M ++ R) with ((A ++ t ++ M) ++ R) by (now rewrite <- !app_assoc).
        symmetry. apply firstn_app_exact. rewrite !app_length, LA, LM. unfold m. lia. }
    replace (skipn (N.to_nat o' + length t') (A ++ t ++ M ++ R)) with (skipn (length t') R).
    2:{ replace (A ++ t ++ M ++ R) with ((A ++ t ++ M) ++ R) by (now rewrite <- !app_assoc).
        rewrite skipn_app, (skipn_all2 (A ++ t ++ M)) by (rewrite !app_length, LA, LM; unfold m; lia).
        cbn [app]. f_equal. rewrite !app_length, LA, LM. unfold m. lia. }
    replace (firstn (N.to_nat o) ((A ++ Q ++ M) ++ t' ++ skipn (length t') R)) with A.
    2:{ rewrite <- !app_assoc. symmetry. now apply firstn_app_exact. }
    replace (skipn (N.to_nat o + length t) ((A ++ Q ++ M) ++ t' ++ skipn (length t') R))
      with (M ++ t' ++ skipn (length t') R).
    2:{ rewrite <- !app_assoc. rewrite (app_assoc A Q). rewrite skipn_app, (skipn_all2 (A ++ Q)) by (rewrite app_length; lia).
        cbn [app]. rewrite app_length, LA, LQ, Nat.sub_diag. reflexivity. }
    rewrite <- !app_assoc. reflexivity. }
  destruct D as [D|D].
  - apply (G o l o' l'); auto.
  - symmetry. apply (G o' l' o l); auto.
Qed.

Lemma put_put_same o l s s' buf :
  lenN s = l -> lenN s' = l -> o + l <= lenN buf ->
  put o l s' (put o l s buf) = put o l s' buf.
Proof.
  intros H H' HB. unfold put.
  rewrite (firstn_all2 (n := N.to_nat l) s) by (unfold lenN in *; lia).
  rewrite (firstn_all2 (n := N.to_nat l) s') by (unfold lenN in *; lia).
  assert (Lf : List.length (firstn (N.to_nat o) buf) = N.to_nat o)
    by (rewrite firstn_length; unfold lenN in *; lia).
  rewrite firstn_app_exact by exact Lf. f_equal. f_equal.
  rewrite app_assoc, skipn_app, skipn_all2 by (rewrite app_length, Lf; unfold lenN in *; lia).
  cbn [app]. rewrite skipn_skipn, app_length, Lf. f_equal. unfold lenN in *. lia.
Qed.

Lemma puts_hidden n o l s s' b buf :
  lenN buf = n -> o + l <= n -> lenN s = l -> lenN s' = l ->
  Forall (wr_in n) b -> Forall (wr_disj o l) b ->
  puts (W o l s :: b ++ [W o l s']) buf = puts (b ++ [W o l s']) buf.
Proof.
  intros L HB Hs Hs' Hi Hd.
  revert buf L. induction b as [|w b IH]; intros buf L.
  - cbn. apply put_put_same; auto. lia.
  - apply Forall_cons_iff in Hi as [Hw Hi]. apply Forall_cons_iff in Hd as [Dw Hd].
    unfold wr_in in Hw. unfold wr_disj in Dw.
    cbn [app puts fold_left w_off w_len w_src].
    rewrite put_comm_skip by lia.
    change (puts (W o l s :: b ++ [W o l s']) (put (w_off w) (w_len w) (w_src w) buf) =
            puts (b ++ [W o l s']) (put (w_off w) (w_len w) (w_src w) buf)).
    apply IH; auto. rewrite put_length; lia.
Qed.

Lemma put_all_hidden n a o l s b s' c :
  Forall (wr_in n) a -> o + l <= n -> lenN s = l -> lenN s' = l ->
  Forall (wr_in n) b -> Forall (wr_disj o l) b ->
  put_all n (a ++ W o l s :: b ++ W o l s' :: c) = put_all n (a ++ b ++ W o l s' :: c).
Proof.
  intros Ha HB Hs Hs' Hi Hd.
  replace (a ++ W o l s :: b ++ W o l s' :: c) with (a ++ (W o l s :: b ++ [W o l s']) ++ c)
    by (cbn; now rewrite <- app_assoc).
  replace (a ++ b ++ W o l s' :: c) with (a ++ (b ++ [W o l s']) ++ c) by (now rewrite <- app_assoc).
  unfold put_all. rewrite (fold_left_app _ a), (fold_left_app _ (W o l s :: _)).
  rewrite (fold_left_app _ a), (fold_left_app _ (b ++ _) c).
  f_equal. apply (puts_hidden n); auto.
  change (lenN (puts a (zeros n)) = n). rewrite puts_length; rewrite lenN_zeros; auto.
Qed.

(** ** Reading arrays *)
Lemma sub_sub o l o' l' d : o' + l' <= l -> sub o' l' (sub o l d) = sub (o + o') l' d.
Proof.
  intros H. unfold sub. rewrite skipn_firstn_comm, skipn_skipn, firstn_firstn.
  f_equal; [lia|]. f_equal. lia.
Qed.

Lemma r_arr32_nth off cnt d i n :
  nth_error (r_arr32 off cnt d) i = Some n -> n = r32 (off + 4 * N.of_nat i) d /\ (i < cnt)%nat.
Proof.
  revert off i. induction cnt as [|c IH]; intros off i H; cbn [r_arr32 r_arr100] in H; [destruct i; discriminate|].
  destruct i as [|i]; cbn [nth_error] in H.
  - injection H as <-. split; [f_equal; lia|lia].
  - apply IH in H. destruct H as [-> H]. split; [f_equal; lia|lia].
Qed.
Lemma r_arr32_length off cnt d : length (r_arr32 off cnt d) = cnt.
Proof. revert off; induction cnt; intros; cbn; auto. Qed.
Lemma r_arr100_nth off cnt d i n :
  nth_error (r_arr100 off cnt d) i = Some n -> n = sub (off + 100 * N.of_nat i) 100 d /\ (i < cnt)%nat.
Proof.
  revert off i. induction cnt as [|c IH]; intros off i H; cbn [r_arr32 r_arr100] in H; [destruct i; discriminate|].
  destruct i as [|i]; cbn [nth_error] in H.
  - injection H as <-. split; [f_equal; lia|lia].
  - apply IH in H. destruct H as [-> H]. split; [f_equal; lia|lia].
Qed.
Lemma r_arr100_length off cnt d : length (r_arr100 off cnt d) = cnt.
Proof. revert off; induction cnt; intros; cbn; auto. Qed.

Lemma f_nums_arr off cnt d : off + 4 * cnt <= lenN d ->
  f_nums d off 4 cnt (r_arr32 off (N.to_nat cnt) d).
Proof.
  intros H. split; [rewrite r_arr32_length; lia|].
  intros i n E. apply r_arr32_nth in E. destruct E as [-> E]. apply f_num_r32. lia.
Qed.
Lemma f_ints_arr off cnt d : off + 4 * cnt <= lenN d ->
  f_ints d off 4 cnt (map (fun n => i32 (Z.of_N n)) (r_arr32 off (N.to_nat cnt) d)).
Proof.
  intros H. split; [rewrite map_length, r_arr32_length; lia|].
  intros i n E. rewrite nth_error_map in E.
  destruct (nth_error (r_arr32 off (N.to_nat cnt) d) i) eqn:Q; [|discriminate].
  apply r_arr32_nth in Q. destruct Q as [-> Q]. assert (n = i32 (Z.of_N (r32 (off + 4 * N.of_nat i) d))) as -> by (cbn [option_map] in E; congruence). apply f_int_i32. lia.
Qed.
Lemma f_raws_arr off cnt d : off + 100 * cnt <= lenN d ->
  f_raws d off 100 cnt (r_arr100 off (N.to_nat cnt) d).
Proof.
  intros H. split; [rewrite r_arr100_length; lia|].
  intros i n E. apply r_arr100_nth in E. destruct E as [-> E]. apply at_off_sub. lia.
Qed.

Lemma r_arr32_sub off cnt d l o : off + 4 * N.of_nat cnt <= l ->
  r_arr32 off cnt (sub o l d) = r_arr32 (o + off) cnt d.
Proof.
  revert off. induction cnt as [|c IH]; intros off H; cbn [r_arr32]; auto.
  rewrite IH by lia. f_equal; [|f_equal; lia]. unfold r32. rewrite sub_sub by lia. reflexivity.
Qed.
Lemma r_arr100_sub off cnt d l o : off + 100 * N.of_nat cnt <= l ->
  r_arr100 off cnt (sub o l d) = r_arr100 (o + off) cnt d.
Proof.
  revert off. induction cnt as [|c IH]; intros off H; cbn [r_arr100]; auto.
  rewrite IH by lia. f_equal; [|f_equal; lia]. rewrite sub_sub by lia. reflexivity.
Qed.

Lemma r_arr32_app p l : Forall (num_fits 4) l ->
  r_arr32 (lenN p) (length l) (p ++ cells32 l) = l.
Proof.
  revert p. induction l as [|x l IH]; intros p F; auto.
  inversion F; subst. cbn [length r_arr32 cells32 flat_map].
  f_equal.
  - unfold r32. rewrite sub_app_r by lia. rewrite N.sub_diag.
    rewrite sub_app_l by (rewrite lenN_le_enc; lia).
    change 4 with (lenN (le_enc 4 x)) at 1. rewrite sub_all, le_dec_enc. apply N.mod_small. exact H1.
  - fold (cells32 l). rewrite app_assoc. replace (lenN p + 4) with (lenN (p ++ le_enc 4 x)).
    + apply IH. assumption.
    + rewrite lenN_app, lenN_le_enc. lia.
Qed.
Lemma r_arr100_app p l : Forall (fun m => lenN m = 100) l ->
  r_arr100 (lenN p) (length l) (p ++ concat l) = l.
Proof.
  revert p. induction l as [|x l IH]; intros p F; auto.
  inversion F; subst. cbn [length r_arr100 concat].
  f_equal.
  - rewrite sub_app_r by lia. rewrite N.sub_diag.
    rewrite sub_app_l by lia. rewrite <- H1. apply sub_all.
  - rewrite app_assoc. replace (lenN p + 100) with (lenN (p ++ x)).
    + apply IH. assumption.
    + rewrite lenN_app. lia.
Qed.

Lemma r_arr32_pad o cnt l D : lenN l = cnt -> Forall (num_fits 4) l ->
  sub o (4 * cnt) D = pad (4 * cnt) (cells32 l) -> r_arr32 o (N.to_nat cnt) D = l.
Proof.
  intros H F E. rewrite pad_exact in E by (rewrite lenN_cells32; lia).
  replace o with (o + 0) by lia.
  rewrite <- (r_arr32_sub 0 (N.to_nat cnt) D (4 * cnt) o) by lia.
  rewrite E. replace (N.to_nat cnt) with (length l) by (unfold lenN in H; lia).
  exact (r_arr32_app [] l F).
Qed.
Lemma lenN_concat100 (l : list bytes) : Forall (fun m => lenN m = 100) l -> lenN (concat l) = 100 * lenN l.
Proof.
  induction l as [|y l IH]; [reflexivity|]. intros F. inversion F; subst.
  cbn [concat]. rewrite lenN_app, lenN_cons, IH by assumption. lia.
Qed.
Lemma r_arr100_pad o cnt l D : lenN l = cnt -> Forall (fun m => lenN m = 100) l ->
  sub o (100 * cnt) D = pad (100 * cnt) (concat l) -> r_arr100 o (N.to_nat cnt) D = l.
Proof.
  intros H F E.
  rewrite pad_exact in E by (rewrite lenN_concat100 by exact F; lia).
  replace o with (o + 0) by lia.
  rewrite <- (r_arr100_sub 0 (N.to_nat cnt) D (100 * cnt) o) by lia.
  rewrite E. replace (N.to_nat cnt) with (length l) by (unfold lenN in H; lia).
  exact (r_arr100_app [] l F).
Qed.

Lemma map_i32_u32 l : Forall (int_fits 4) l ->
  map (fun n => i32 (Z.of_N n)) (map u32 l) = l.
Proof.
  intros F. rewrite map_map. induction F as [|z l Hz F IH]; cbn; auto. f_equal; auto.
  unfold i32. rewrite of_N_u32. rewrite (sgn_mod 2147483648) by lia. apply sgn_id; [lia|exact Hz].
Qed.
Lemma u32_fits l : Forall (num_fits 4) (map u32 l).
Proof. induction l; cbn; constructor; auto. apply u32_range. Qed.

(** ** Decoding *)
Lemma userinfo_decode cd d : 3475 <= lenN d ->
  exists u, UnmarshalUserInfo cd d = Ok u /\ userinfo_decoded cd d u.
Proof.
  intros H. unfold UnmarshalUserInfo.
  destruct (lenN d <? PosOfUserInfoWBTime + 4) eqn:G.
  { change (PosOfUserInfoWBTime + 4) with 3475 in G. lia. }
  eexists. split; [reflexivity|].
  unfold userinfo_decoded. UserInfoCache_proj.
  repeat match goal with |- _ /\ _ => split end.
  all: match goal with
       | |- f_ints _ ?o _ _ _ => apply (f_ints_arr o); lt_len
       | |- f_nums _ ?o _ _ _ => apply (f_nums_arr o); lt_len
       | |- f_raws _ ?o _ _ _ => apply (f_raws_arr o); lt_len
       | _ => dec_field
       end.
Qed.
