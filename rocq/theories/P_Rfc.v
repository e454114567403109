(** * Proofs about dates and RFC 3339 *)
From Coq Require Import Lia ZifyBool ZifyNat ZifyN.
From Verif Require Import M_Base M_Time M_Json S_Text S_Time S_Json P_Base P_Text P_Time.
Open Scope N_scope.

(** ** The date of a day: one cycle of 400 years by computation, then by shifting *)
Definition date_ok (d : N * N * N) : bool :=
  let '(y, m, k) := d in (1 <=? m) && (m <=? 12) && (1 <=? k) && (k <=? daysIn m y).
Definition next_ok (d d' : N * N * N) : bool :=
  let '(y, m, k) := d in let '(y', m', k') := d' in
  if k <? daysIn m y then (y' =? y) && (m' =? m) && (k' =? k + 1)
  else if m <? 12 then (y' =? y) && (m' =? m + 1) && (k' =? 1)
  else (y' =? y + 1) && (m' =? 1) && (k' =? 1).
Definition day_ok (n : N) : bool := date_ok (absDate n) && next_ok (absDate n) (absDate (n + 1)) && (fst (fst (absDate n)) <=? 400).
Definition check (k : N) : N * bool := N.iter k (fun p => (fst p + 1, snd p && day_ok (fst p))) (0, true).
Lemma check_spec k : fst (check k) = k /\ (snd (check k) = true -> forall n, n < k -> day_ok n = true).
Proof.
  induction k as [|k IH] using N.peano_ind; [split; [reflexivity|intros _ n H; lia]|]. unfold check in *. rewrite N.iter_succ. cbn [fst snd]. destruct IH as [E IH].
  split; [lia|]. intros H n L. apply andb_true_iff in H as [H1 H2]. rewrite E in H2. destruct (N.eq_dec n k) as [->|X]; [exact H2|]. apply IH; [exact H1|lia].
Qed.
Lemma cycle_ok n : n < 146097 -> day_ok n = true.
Proof. apply check_spec. vm_compute. reflexivity. Qed.
Definition shift (k : N) (d : N * N * N) : N * N * N := (fst (fst d) + 400 * k, snd (fst d), snd d).
Lemma isLeap_shift y k : isLeap (y + 400 * k) = isLeap y.
Proof.
  unfold isLeap. replace (y + 400 * k) with (y + (100 * k) * 4) by lia. rewrite N.mod_add by lia. replace (y + 100 * k * 4) with (y + (4 * k) * 100) by lia. rewrite N.mod_add by lia.
  replace (y + 4 * k * 100) with (y + k * 400) by lia. rewrite N.mod_add by lia. reflexivity.
Qed.
Lemma absDate_shift n k : n < 146097 -> absDate (n + 146097 * k) = shift k (absDate n).
Proof.
  intros H. unfold absDate. replace ((n + 146097 * k) / 146097) with k.
  2: { replace (n + 146097 * k) with (n + k * 146097) by lia. rewrite N.div_add, N.div_small by lia. reflexivity. }
  rewrite (N.div_small n) by lia. replace (n + 146097 * k - 146097 * k) with n by lia. change (146097 * 0) with 0. change (400 * 0) with 0. rewrite N.sub_0_r.
  set (a := n / 36524 - n / 36524 / 4). set (d := n - 36524 * a). set (b := d / 1461). set (e := d - 1461 * b). set (f := e / 365 - e / 365 / 4).
  replace (400 * k + 100 * a + 4 * b + f + 1) with (0 + 100 * a + 4 * b + f + 1 + 400 * k) by lia. rewrite isLeap_shift.
  destruct (isLeap (0 + 100 * a + 4 * b + f + 1) && (e - 365 * f =? 59)); [reflexivity|].
  match goal with |- context [if ?t then _ else _] => destruct t end; match goal with |- context [if ?t then _ else _] => destruct t end; reflexivity.
Qed.
Lemma absDate_cycle n : absDate n = shift (n / 146097) (absDate (n mod 146097)).
Proof. rewrite <- absDate_shift by (apply N.mod_lt; lia). f_equal. rewrite (N.div_mod' n 146097) at 1. lia. Qed.
Lemma daysIn_shift m y k : daysIn m (y + 400 * k) = daysIn m y.
Proof. unfold daysIn. now rewrite isLeap_shift. Qed.
Lemma date_ok_shift k d : date_ok (shift k d) = date_ok d.
Proof. destruct d as [[y m] j]. unfold shift, date_ok. cbn [fst snd]. now rewrite daysIn_shift. Qed.
Lemma next_ok_shift k d d' : next_ok d d' = true -> next_ok (shift k d) (shift k d') = true.
Proof.
  destruct d as [[y m] j], d' as [[y' m'] j']. unfold shift, next_ok. cbn [fst snd]. rewrite daysIn_shift.
  destruct (j <? daysIn m y); [lia|]. destruct (m <? 12); lia.
Qed.
Lemma absDate_ok n : date_ok (absDate n) = true /\ next_ok (absDate n) (absDate (n + 1)) = true /\ fst (fst (absDate n)) <= 400 * (n / 146097) + 400.
Proof.
  pose proof (cycle_ok (n mod 146097) ltac:(apply N.mod_lt; lia)) as C. unfold day_ok in C. apply andb_true_iff in C as [C C3]. apply andb_true_iff in C as [C1 C2].
  rewrite (absDate_cycle n). split; [now rewrite date_ok_shift|]. split.
  - assert (E : absDate (n + 1) = shift (n / 146097) (absDate (n mod 146097 + 1))).
    { pose proof (N.mod_lt n 146097 ltac:(lia)) as L. destruct (N.eq_dec (n mod 146097 + 1) 146097) as [X|X].
      - rewrite X. change 146097 with (0 + 146097 * 1) at 2. rewrite absDate_shift by lia. replace (n + 1) with (0 + 146097 * (n / 146097 + 1)) by (pose proof (N.div_mod' n 146097); lia).
        rewrite absDate_shift by lia. unfold shift. cbn [fst snd]. f_equal. f_equal. lia.
      - rewrite <- absDate_shift by lia. f_equal. pose proof (N.div_mod' n 146097). lia. }
    rewrite E. now apply next_ok_shift.
  - unfold shift. cbn [fst]. lia.
Qed.
Lemma next_ok_day d d' : date_ok d = true -> next_ok d d' = true -> next_day d d'.
Proof.
  destruct d as [[y m] j], d' as [[y' m'] j']. unfold date_ok, next_ok. intros D H. pose proof (daysIn_spec y m ltac:(lia)) as ML.
  destruct (j <? daysIn m y) eqn:A.
  - replace y' with y by lia. replace m' with m by lia. replace j' with (j + 1) by lia. apply (NextDay y m j (daysIn m y)); [exact ML|lia].
  - replace (daysIn m y) with j in ML by lia. destruct (m <? 12) eqn:B.
    + replace y' with y by lia. replace m' with (m + 1) by lia. replace j' with 1 by lia. apply NextMonth; [exact ML|lia].
    + replace y' with (y + 1) by lia. replace m' with 1 by lia. replace j' with 1 by lia. assert (m = 12) by lia. subst m. inversion ML; subst. apply NextYear.
Qed.
Lemma absDate_next n : next_day (absDate n) (absDate (n + 1)).
Proof. apply next_ok_day; apply absDate_ok. Qed.
Lemma absDate_epoch : absDate 719162 = (1970, 1, 1).
Proof. vm_compute. reflexivity. Qed.
Lemma absDate_count n : day_count (Z.of_N n - 719162) (absDate n).
Proof.
  destruct (N.le_gt_cases 719162 n) as [H|H].
  - replace n with (719162 + (n - 719162)) by lia. induction (n - 719162) as [|k IH] using N.peano_ind.
    + rewrite N.add_0_r, absDate_epoch. exact DayEpoch.
    + replace (719162 + N.succ k) with (719162 + k + 1) by lia. replace (Z.of_N (719162 + k + 1) - 719162)%Z with (Z.of_N (719162 + k) - 719162 + 1)%Z by lia.
      eapply DayAfter; [exact IH|apply absDate_next].
  - replace n with (719162 - (719162 - n)) by lia. assert (K : 719162 - n <= 719162) by lia. revert K. induction (719162 - n) as [|k IH] using N.peano_ind; intros K.
    + rewrite N.sub_0_r, absDate_epoch. exact DayEpoch.
    + replace (Z.of_N (719162 - N.succ k) - 719162)%Z with (Z.of_N (719162 - k) - 719162 - 1)%Z by lia.
      eapply DayBefore; [apply IH; lia| |].
      * replace (719162 - k) with (719162 - N.succ k + 1) by lia. apply absDate_next.
      * destruct (absDate_ok (719162 - N.succ k)) as (D & _). destruct (absDate (719162 - N.succ k)) as [[y m] j]. cbn [snd date_ok] in *. lia.
Qed.

(** ** The text of an instant *)
Lemma rfc3339_names zone z : good_zone zone -> stored_time z -> names_instant (rfc3339 zone z) z.
Proof.
  intros G [Z0 Z1]. destruct (G z) as [[q Q] [O1 O2]]. unfold rfc3339. set (off := zone z) in *. clearbody off. clear zone G.
  set (t := civil z off). set (abs := (z + off + 62135596800)%Z). set (n := Z.to_N (abs / 86400)). set (s := Z.to_N (abs mod 86400)).
  assert (Ha : (0 <= abs)%Z) by (unfold abs; lia).
  assert (Hd : (0 <= abs / 86400)%Z) by (apply Z.div_pos; lia). pose proof (Z.mod_pos_bound abs 86400 ltac:(lia)) as Hm. pose proof (Z.div_mod abs 86400 ltac:(lia)) as Hdm.
  assert (Et : t = let '(y, m, d) := absDate n in Time y m d (s / 3600) (s / 60 mod 60) (s mod 60) 0) by reflexivity.
  destruct (absDate_ok n) as (D1 & _ & D3). pose proof (absDate_count n) as D4. destruct (absDate n) as [[y m] d]. cbv beta iota in Et. cbn [fst snd date_ok] in *.
  assert (Hs : s < 86400) by (unfold s; lia). assert (Hs2 : Z.of_N s = (abs mod 86400)%Z) by (unfold s; lia).
  assert (Hn : Z.of_N n = (abs / 86400)%Z) by (unfold n; lia). clearbody n s t. subst t.
  pose proof (daysIn_spec y m ltac:(lia)) as ML. pose proof (month_length_m _ _ _ ML) as [_ MK].
  assert (Hn2 : n < 876582) by (unfold abs in *; lia). assert (Hy : y < 10000) by (pose proof (N.div_lt_upper_bound n 146097 6 ltac:(lia)); lia).
  assert (S1 : s / 3600 < 24) by (apply N.div_lt_upper_bound; lia). assert (S2 : s / 60 mod 60 < 60) by (apply N.mod_lt; lia). assert (S3 : s mod 60 < 60) by (apply N.mod_lt; lia).
  assert (S4 : 3600 * (s / 3600) + 60 * (s / 60 mod 60) + s mod 60 = s) by (zify; Z.to_euclidean_division_equations; lia).
  assert (ZT : exists zz, zone_text off = zz /\ offset_text zz off).
  { unfold zone_text. destruct (off =? 0)%Z eqn:O; [replace off with 0%Z by lia; eexists; split; [reflexivity|constructor]|]. eexists. split; [reflexivity|].
    set (zn := Z.quot off 60). assert (Ez : (off = 60 * zn)%Z). { unfold zn. rewrite Q. rewrite Z.mul_comm at 2. rewrite Z.quot_mul by lia. lia. }
    set (a := Z.to_N (Z.abs zn)). assert (A : a < 1440) by (unfold a; lia). assert (W1 : width 2 (appendInt (a / 60) 2) (a / 60)).
    { apply appendInt_width; [lia|]. apply N.div_lt_upper_bound; [lia|]. cbn. lia. }
    assert (W2 : width 2 (appendInt (a mod 60) 2) (a mod 60)). { apply appendInt_width; [lia|]. pose proof (N.mod_lt a 60 ltac:(lia)). cbn. lia. }
    assert (A2 : 3600 * (a / 60) + 60 * (a mod 60) = 60 * a) by (pose proof (N.div_mod' a 60); lia).
    destruct (zn <? 0)%Z eqn:Sg.
    - replace off with (- Z.of_N (3600 * (a / 60) + 60 * (a mod 60)))%Z by (rewrite A2; unfold a; lia). now apply OffWest.
    - replace off with (Z.of_N (3600 * (a / 60) + 60 * (a mod 60)))%Z by (rewrite A2; unfold a; lia). now apply OffEast. }
  destruct ZT as (zz & -> & ZT).
  exists (appendInt y 4), (appendInt m 2), (appendInt d 2), (appendInt (s / 3600) 2), (appendInt (s / 60 mod 60) 2), (appendInt (s mod 60) 2), zz,
    (Time y m d (s / 3600) (s / 60 mod 60) (s mod 60) 0), (Z.of_N n - 719162)%Z, off. cbn [t_year t_month t_day t_hour t_min t_sec].
  split; [unfold Format; cbn [layout_rfc3339 l_chunks l_tail map concat fst snd format_std t_year t_month t_day t_hour t_min t_sec]; rewrite !app_nil_r; cbn [app str list_byte_of_string]; repeat (rewrite <- app_assoc; cbn [app]); reflexivity|].
  do 6 (split; [apply appendInt_width; [lia|]; first [change (10 ^ N.of_nat 4) with 10000|change (10 ^ N.of_nat 2) with 100]; lia|]). split; [exact ZT|]. split; [split; [exists (daysIn m y); split; [exact ML|cbn [t_day]; lia]|cbn [t_hour t_min t_sec]; lia]|].
  split; [exact D4|]. rewrite S4, Hs2, Hn. unfold abs in *. lia.
Qed.
(** ... and it names no other. *)
Lemma day_count_number k d : day_count k d -> let '(y, m, j) := d in 1 <= m /\ 1 <= j /\ Z.of_N (day_number (Time y m j 0 0 0 0)) = (k + 719528)%Z.
Proof.
  induction 1 as [|k d d' _ IH H|k d d' _ IH H J].
  - split; [lia|]. split; [lia|]. reflexivity.
  - destruct d as [[y m] j], d' as [[y' m'] j']. destruct IH as (A & B & C). pose proof (day_number_next (Time y m j 0 0 0 0) (Time y' m' j' 0 0 0 0) B A H) as E. rewrite E.
    split; [inversion H; subst; lia|]. split; [inversion H; subst; lia|]. lia.
  - destruct d as [[y m] j], d' as [[y' m'] j']. cbn [snd] in J. destruct IH as (A & B & C).
    assert (M : 1 <= m) by (inversion H; subst; try lia; match goal with X : month_length _ _ _ |- _ => apply month_length_m in X; lia end).
    pose proof (day_number_next (Time y m j 0 0 0 0) (Time y' m' j' 0 0 0 0) J M H) as E. split; [exact M|]. split; [exact J|]. lia.
Qed.
Lemma day_count_fun k k' d : day_count k d -> day_count k' d -> k = k'.
Proof. intros H H'. apply day_count_number in H, H'. destruct d as [[y m] j]. lia. Qed.
Lemma width_value k s s' n n' r r' : width k s n -> width k s' n' -> s ++ r = s' ++ r' -> n = n' /\ s = s' /\ r = r'.
Proof.
  intros [N L] [N' L'] E. assert (X : s = s').
  { apply (f_equal (firstn k)) in E. rewrite <- L in E at 1. rewrite <- L' in E. rewrite !firstn_app, !firstn_all, !Nat.sub_diag in E. cbn [firstn] in E. now rewrite !app_nil_r in E. }
  subst s'. apply app_inv_head in E. split; [|now split]. apply numeral_inv in N, N'. destruct N as (_ & _ & <-), N' as (_ & _ & <-). reflexivity.
Qed.
Lemma offset_text_fun v z z' : offset_text v z -> offset_text v z' -> z = z'.
Proof.
  intros H H'. inversion H as [E|hh mm h m W1 W2 E|hh mm h m W1 W2 E]; subst; inversion H' as [E'|hh' mm' h' m' W1' W2' E'|hh' mm' h' m' W1' W2' E']; subst; try reflexivity.
  - destruct (width_value 2 _ _ _ _ _ _ W1 W1' (eq_sym E')) as (-> & _ & X). injection X as X. apply (f_equal (fun l => l ++ [])) in X.
    destruct (width_value 2 _ _ _ _ _ _ W2 W2' X) as (-> & _). reflexivity.
  - destruct (width_value 2 _ _ _ _ _ _ W1 W1' (eq_sym E')) as (-> & _ & X). injection X as X. apply (f_equal (fun l => l ++ [])) in X.
    destruct (width_value 2 _ _ _ _ _ _ W2 W2' X) as (-> & _). reflexivity.
Qed.
Lemma names_instant_fun v z z' : names_instant v z -> names_instant v z' -> z = z'.
Proof.
  intros (yy & mo & dd & hh & mi & ss & zz & t & k & off & E & Wy & Wm & Wd & Wh & Wi & Ws & O & _ & D & ->)
         (yy' & mo' & dd' & hh' & mi' & ss' & zz' & t' & k' & off' & E' & Wy' & Wm' & Wd' & Wh' & Wi' & Ws' & O' & _ & D' & ->).
  rewrite E in E'. clear E.
  destruct (width_value 4 _ _ _ _ _ _ Wy Wy' E') as (Y & _ & X1). injection X1 as X1.
  destruct (width_value 2 _ _ _ _ _ _ Wm Wm' X1) as (M & _ & X2). injection X2 as X2.
  destruct (width_value 2 _ _ _ _ _ _ Wd Wd' X2) as (Dd & _ & X3). injection X3 as X3.
  destruct (width_value 2 _ _ _ _ _ _ Wh Wh' X3) as (H & _ & X4). injection X4 as X4.
  destruct (width_value 2 _ _ _ _ _ _ Wi Wi' X4) as (I' & _ & X5). injection X5 as X5.
  destruct (width_value 2 _ _ _ _ _ _ Ws Ws' X5) as (S' & _ & X6). subst zz'.
  rewrite (offset_text_fun _ _ _ O O'). unfold date_of in *. rewrite Y, M, Dd in D. rewrite (day_count_fun _ _ _ D D'), H, I', S'. reflexivity.
Qed.
