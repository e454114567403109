(** * Adding boards while one is removed *)
From Coq Require Import Lia ZifyBool ZifyNat ZifyN.
From Verif Require Import M_Base M_Sys M_Path M_Board M_FileOps M_DB.
From Verif Require Import S_World S_Path S_Store S_Board S_Keep.
From Verif Require Import P_Base P_Sys P_Read P_FileOps P_Store P_Crash P_Records P_Pool P_Remove.
Open Scope N_scope.

Lemma adds_of_snoc j h log : adds_of j (log ++ [(j, h)]) = adds_of j log ++ [h].
Proof. unfold adds_of. rewrite filter_app, map_app. cbn. now rewrite Nat.eqb_refl. Qed.
Lemma adds_of_other i j h log : i <> j -> adds_of j (log ++ [(i, h)]) = adds_of j log.
Proof. intros H. unfold adds_of. rewrite filter_app. cbn. destruct (Nat.eqb_spec i j); [contradiction|]. now rewrite app_nil_r. Qed.

(** ** pieces of byte strings *)
Lemma shifted_app W R c d e : W <= R -> R + c <= lenN d -> shifted W R c (d ++ e) = shifted W R c d ++ e.
Proof.
  intros H1 H2. unfold shifted, sub, lenN in *. rewrite <- !app_assoc.
  rewrite firstn_app. replace (N.to_nat W - length d)%nat with 0%nat by lia. cbn [firstn]. rewrite app_nil_r. f_equal.
  rewrite skipn_app. replace (N.to_nat R - length d)%nat with 0%nat by lia. cbn [skipn].
  rewrite firstn_app. rewrite skipn_length. replace (N.to_nat c - (length d - N.to_nat R))%nat with 0%nat by lia. cbn [firstn]. rewrite app_nil_r. f_equal.
  rewrite skipn_app. replace (N.to_nat (W + c) - length d)%nat with 0%nat by lia. reflexivity.
Qed.
Lemma sub_app_l a n d e : a + n <= lenN d -> sub a n (d ++ e) = sub a n d.
Proof.
  intros H. unfold sub, lenN in *. rewrite skipn_app. replace (N.to_nat a - length d)%nat with 0%nat by lia. cbn [skipn].
  rewrite firstn_app, skipn_length. replace (N.to_nat n - (length d - N.to_nat a))%nat with 0%nat by lia. cbn [firstn]. apply app_nil_r.
Qed.
Lemma truncate_shifted W R c d : W <= R -> R + c <= lenN d -> truncate_to (W + c) (shifted W R c d) = firstn (N.to_nat W) d ++ sub R c d.
Proof.
  intros H1 H2. unfold truncate_to. rewrite shifted_length by assumption. replace (W + c - lenN d) with 0 by lia. cbn. rewrite app_nil_r.
  unfold shifted. rewrite app_assoc. pose proof (shifted_prefix W R c d H1 H2) as L. rewrite <- L. rewrite firstn_app, Nat.sub_diag. cbn [firstn]. rewrite app_nil_r. apply firstn_all.
Qed.
Lemma write_end x d : write_at (lenN d) x d = d ++ x.
Proof.
  pose proof (write_at_mid (lenN d) x d []) as E. rewrite app_nil_r in E. rewrite E by (unfold lenN; lia). now rewrite skipn_nil, app_nil_r.
Qed.

(** ** one file, open descriptors *)
Definition held := list (N * ofile).
Section One.
Variables (w0 : world) (ino : N).
Record moved (w w1 : world) (H H1 : held) : Prop := {
  mv_keep : forall fd o, ~ In fd (map fst H) -> w_fds w fd = Some o -> w_fds w1 fd = Some o;
  mv_have : forall x, In x H1 -> w_fds w1 (fst x) = Some (snd x);
  mv_new : forall fd, In fd (map fst H1) -> In fd (map fst H) \/ w_fds w fd = None }.
Lemma moved_one w w1 H H1 fd0 : In fd0 (map fst H) -> (forall fd, fd <> fd0 -> w_fds w1 fd = w_fds w fd) ->
  (forall x, In x H1 -> w_fds w1 (fst x) = Some (snd x)) -> incl (map fst H1) (map fst H) -> moved w w1 H H1.
Proof.
  intros I0 K A B. constructor; [|exact A|intros fd Hf; left; now apply B].
  intros fd o Nf E. rewrite K; [exact E|]. intros ->. contradiction.
Qed.
Lemma do_open w p rp D fl H : fstate w0 ino D w -> sane w0 -> names w0 p rp -> w_tree w0 rp = Some (NFile ino) -> rp <> [] ->
  o_creat fl && o_excl fl = false -> o_trunc fl = false -> (forall x, In x H -> w_fds w (fst x) = Some (snd x)) ->
  exists w1 fd, exec (Open p fl) w = (w1, ROk fd) /\ fstate w0 ino D w1 /\ ~ In fd (map fst H) /\
    moved w w1 H ((fd, OFile (Some ino) 0 (o_append fl) (o_rd fl) (o_wr fl)) :: H).
Proof.
  intros Fs S0 Nm T Nr X Tr Hh. pose proof Fs as [S C Te O DD].
  destruct (fs_look w0 ino D w rp S0 T Nr Fs) as [L _].
  assert (N1 : names w p rp) by (destruct Nm; split; [assumption|now rewrite C]).
  destruct (open_existing w p fl rp D N1 L X) as (i' & T' & D' & E). rewrite Te, T in T'. injection T' as <-. rewrite Tr in E.
  exists (bump_fd (set_fd w (w_nextfd w) (Some (OFile (Some ino) 0 (o_append fl) (o_rd fl) (o_wr fl))))), (w_nextfd w).
  assert (Z : w_fds w (w_nextfd w) = None) by (apply (sane_fd w S); lia).
  assert (Nh : ~ In (w_nextfd w) (map fst H)).
  { intros Q. apply in_map_iff in Q as (x & E1 & Q). apply Hh in Q. rewrite E1, Z in Q. discriminate Q. }
  split; [exact E|]. split; [constructor; auto|]. { apply sane_new_fd; auto. cbn. intros j [= <-]. eapply (sane_ino w S); rewrite Te; eauto. }
  split; [exact Nh|]. constructor; cbn.
  - intros fd o Nf E1. destruct N.eq_dec as [->|]; [congruence|exact E1].
  - intros x [<-|Hx]; cbn; [now destruct N.eq_dec|]. destruct N.eq_dec as [Q|]; [|now apply Hh]. exfalso. apply Nh. rewrite <- Q. now apply in_map.
  - intros fd [<-|Hf]; [now right|now left].
Qed.
Lemma do_close w D fd H H1 : fstate w0 ino D w -> In fd (map fst H) -> incl H1 H -> ~ In fd (map fst H1) -> (forall x, In x H -> w_fds w (fst x) = Some (snd x)) ->
  exists w1, exec (Close fd) w = (w1, tt) /\ fstate w0 ino D w1 /\ moved w w1 H H1.
Proof.
  intros Fs Hf Hi Hn Hh. destruct Fs as [S C Te O DD]. exists (set_fd w fd None). split; [reflexivity|]. split; [constructor; auto; now apply sane_close|].
  apply (moved_one _ _ _ _ fd); [exact Hf| | |].
  - intros g Hg. cbn. now destruct N.eq_dec.
  - intros x Hx. cbn. destruct N.eq_dec as [Q|]; [|apply Hh, Hi, Hx]. exfalso. apply Hn. rewrite <- Q. now apply in_map.
  - intros g Hg. apply in_map_iff in Hg as (x & <- & Hx). apply in_map, Hi, Hx.
Qed.
(** changing the data and the position of one descriptor *)
Lemma do_change w D D1 fd o o1 H1 H2 : fstate w0 ino D w -> of_ino o = Some ino -> of_ino o1 = Some ino ->
  (forall x, In x (H1 ++ (fd, o) :: H2) -> w_fds w (fst x) = Some (snd x)) -> ~ In fd (map fst (H1 ++ H2)) ->
  let w1 := set_fd (set_data w ino D1) fd (Some o1) in
  fstate w0 ino D1 w1 /\ moved w w1 (H1 ++ (fd, o) :: H2) (H1 ++ (fd, o1) :: H2).
Proof.
  intros Fs I1 I2 Hh Nf w1. destruct Fs as [S C Te O DD].
  assert (E : w_fds w fd = Some o) by (apply (Hh (fd, o)), in_app_iff; right; now left).
  split.
  - constructor; subst w1; cbn; auto.
    + apply sane_set_fd; [now apply sane_set_data|cbn; eapply fd_bound; eauto|]. intros q j [= <-] Q. cbn. rewrite I2 in Q. injection Q as <-. exact (sane_fdi w S _ _ _ E I1).
    + intros j Hj. destruct N.eq_dec; [contradiction|auto].
    + now destruct N.eq_dec.
  - apply (moved_one _ _ _ _ fd).
    + rewrite map_app, in_app_iff. right. now left.
    + intros g Hg. subst w1. cbn. now destruct N.eq_dec.
    + intros x Hx. subst w1. cbn. destruct N.eq_dec as [Q|Q].
      * apply in_app_iff in Hx as [Hx|[<-|Hx]]; [|reflexivity|]; exfalso; apply Nf; rewrite <- Q, map_app, in_app_iff; [left|right]; now apply in_map.
      * apply Hh. apply in_app_iff in Hx as [Hx|[<-|Hx]]; [apply in_app_iff; now left|now cbn in Q|apply in_app_iff; right; now right].
    + intros g. rewrite !map_app. cbn. auto.
Qed.
Lemma do_touch w D fd o o1 H1 H2 : fstate w0 ino D w -> of_ino o = Some ino -> of_ino o1 = Some ino ->
  (forall x, In x (H1 ++ (fd, o) :: H2) -> w_fds w (fst x) = Some (snd x)) -> ~ In fd (map fst (H1 ++ H2)) ->
  let w1 := set_fd w fd (Some o1) in
  fstate w0 ino D w1 /\ moved w w1 (H1 ++ (fd, o) :: H2) (H1 ++ (fd, o1) :: H2).
Proof.
  intros Fs I1 I2 Hh Nf w1. destruct Fs as [S C Te O DD].
  assert (E : w_fds w fd = Some o) by (apply (Hh (fd, o)), in_app_iff; right; now left).
  split.
  - constructor; subst w1; cbn; auto.
    apply sane_set_fd; [exact S|eapply fd_bound; eauto|]. intros q j [= <-] Q. rewrite I2 in Q. injection Q as <-. exact (sane_fdi w S _ _ _ E I1).
  - apply (moved_one _ _ _ _ fd).
    + rewrite map_app, in_app_iff. right. now left.
    + intros g Hg. subst w1. cbn. now destruct N.eq_dec.
    + intros x Hx. subst w1. cbn. destruct N.eq_dec as [Q|Q].
      * apply in_app_iff in Hx as [Hx|[<-|Hx]]; [|reflexivity|]; exfalso; apply Nf; rewrite <- Q, map_app, in_app_iff; [left|right]; now apply in_map.
      * apply Hh. apply in_app_iff in Hx as [Hx|[<-|Hx]]; [apply in_app_iff; now left|now cbn in Q|apply in_app_iff; right; now right].
    + intros g. rewrite !map_app. cbn. auto.
Qed.
Lemma do_cut w D D1 H : fstate w0 ino D w -> (forall x, In x H -> w_fds w (fst x) = Some (snd x)) ->
  fstate w0 ino D1 (set_data w ino D1) /\ moved w (set_data w ino D1) H H.
Proof.
  intros [S C Te O DD] Hh. split; [constructor; cbn; auto|constructor; cbn; auto].
  - now apply sane_set_data.
  - intros j Hj. destruct N.eq_dec; [contradiction|auto].
  - now destruct N.eq_dec.
Qed.
Lemma moved_same w H : (forall x, In x H -> w_fds w (fst x) = Some (snd x)) -> moved w w H H.
Proof. intros Hh. constructor; auto. Qed.
End One.

Inductive phase := Shift (c : N) | Cut (n m : nat).
Section Keep.
Variables (cd : codec) (chunk : nat -> N) (fuel : nat) (wd p : bytes) (w0 : world) (rp : rpath) (ino : N).
Variables (recs : list bytes) (ks : list keeper) (i r : nat).
Hypothesis S0 : sane w0.
Hypothesis Np : names w0 p rp.
Hypothesis Pp : GetBoardPath wd = Ok p.
Hypothesis T0 : w_tree w0 rp = Some (NFile ino).
Hypothesis Nr : rp <> [].
Hypothesis Wi : 256 * N.of_nat i + 256 <= lenN (concat recs).
Hypothesis Bi : N.of_nat i < 2 ^ 54.
Hypothesis One : one_remover ks r i.

Definition rec (h : BoardHeader) : bytes := BoardHeader_MarshalBinary cd h.
Definition added (log : adds_log) : bytes := concat (map (fun e => rec (snd e)) log).
Definition full (log : adds_log) : bytes := concat recs ++ added log.
Definition W : N := 256 * N.of_nat i.
Definition R : N := W + 256.
Definition cut_at (log : adds_log) : bytes := firstn (N.to_nat W) (full log) ++ skipn (N.to_nat R) (full log).
Definition content (ph : phase) (log : adds_log) : bytes :=
  match ph with
  | Shift c => shifted W R c (full log)
  | Cut n m => cut_at (firstn n log) ++ added (skipn m log)
  end.
Definition phase_ok (ph : phase) (log : adds_log) : Prop :=
  match ph with
  | Shift c => R + c <= lenN (full log)
  | Cut n m => (n <= m <= length log)%nat
  end.
Lemma added_app a b : added (a ++ b) = added a ++ added b.
Proof. unfold added. now rewrite map_app, concat_app. Qed.
Lemma added_one x : added [x] = rec (snd x).
Proof. unfold added. cbn [map concat]. apply app_nil_r. Qed.
Lemma full_app a b : full (a ++ b) = full a ++ added b.
Proof. unfold full. now rewrite added_app, app_assoc. Qed.
Lemma full_grows log b : lenN (full log) <= lenN (full (log ++ b)).
Proof. rewrite full_app. unfold lenN. rewrite app_length. lia. Qed.
Lemma content_grows ph log x : phase_ok ph log -> content ph (log ++ [x]) = content ph log ++ rec (snd x).
Proof.
  destruct ph as [c|n m]; cbn [phase_ok content]; intros H.
  - rewrite full_app. rewrite shifted_app by (unfold R in *; lia). now rewrite added_one.
  - rewrite firstn_app. replace (n - length log)%nat with 0%nat by lia. cbn [firstn]. rewrite app_nil_r.
    rewrite skipn_app. replace (m - length log)%nat with 0%nat by lia. cbn [skipn]. rewrite added_app, app_assoc. now rewrite added_one.
Qed.
Lemma phase_grows ph log x : phase_ok ph log -> phase_ok ph (log ++ [x]).
Proof.
  destruct ph as [c|n m]; cbn; [|rewrite app_length; cbn; lia]. intros H. pose proof (full_grows log [x]). lia.
Qed.

(** ** the remover *)
Definition close_both (fi fo : N) (o : outcome unit) : prog (outcome unit) := Call (Close fo) (fun _ => Call (Close fi) (fun _ => Ret o)).
Definition after_copy (fi fo : N) (o : outcome unit) : prog (outcome unit) :=
  match o with
  | Err e => close_both fi fo (Err e)
  | Panic => Ret Panic
  | Diverge => Ret Diverge
  | Ok _ =>
      Call (SeekCur0 fo) (fun r =>
      match r with
      | RErr e => close_both fi fo (Err (ESys e))
      | ROk size => Call (Ftruncate fo size) (fun _ => close_both fi fo (Ok tt))
      end)
  end.
Definition seek_out (fi fo : N) : prog (outcome unit) :=
  Call (SeekSet fo (i64 (Z.of_nat i * 256))) (fun r =>
  match r with
  | RErr e => close_both fi fo (Err (ESys e))
  | ROk _ => bind (copy_loop chunk fuel 0 fi fo) (after_copy fi fo)
  end).
Definition seek_in (fi fo : N) : prog (outcome unit) :=
  Call (SeekSet fi (i64 (i64 (Z.of_nat i + 1) * 256))) (fun r =>
  match r with
  | RErr e => close_both fi fo (Err (ESys e))
  | ROk _ => seek_out fi fo
  end).
Definition open_out (fi : N) : prog (outcome unit) :=
  Call (Open p O_WRONLY) (fun r =>
  match r with
  | RErr e => Call (Close fi) (fun _ => Ret (Err (ESys e)))
  | ROk fo => seek_in fi fo
  end).
Lemma remove_unfold : RemoveBoardHeaderFileRecord chunk fuel p (Z.of_nat i) =
  Call (Open p O_RDONLY) (fun r => match r with RErr e => Ret (Err (ESys e)) | ROk fi => open_out fi end).
Proof. reflexivity. Qed.
Definition put_chunk (fi fo : N) (n k : nat) (d : bytes) : prog (outcome unit) :=
  Call (Write fo d) (fun r => match r with RErr e => Ret (Err (ESys e)) | ROk _ => copy_loop chunk n (S k) fi fo end).
Definition last (o : outcome unit) : prog (list (outcome unit)) := Ret [o].
Definition rd (pos : N) : ofile := OFile (Some ino) pos false true false.
Definition wr (pos : N) : ofile := OFile (Some ino) pos false false true.
Definition ap (pos : N) : ofile := OFile (Some ino) pos true false true.

Inductive rem_ok (lo : nat) (log : adds_log) : prog (list (outcome unit)) -> held -> phase -> Prop :=
| ro_start : (lo <= length log)%nat -> rem_ok lo log (bind (RemoveBoardHeaderFileRecord chunk fuel p (Z.of_nat i)) last) [] (Shift 0)
| ro_in fi : (lo <= length log)%nat -> rem_ok lo log (bind (open_out fi) last) [(fi, rd 0)] (Shift 0)
| ro_both fi fo : (lo <= length log)%nat -> fi <> fo -> rem_ok lo log (bind (seek_in fi fo) last) [(fo, wr 0); (fi, rd 0)] (Shift 0)
| ro_sought fi fo : (lo <= length log)%nat -> fi <> fo -> rem_ok lo log (bind (seek_out fi fo) last) [(fo, wr 0); (fi, rd R)] (Shift 0)
| ro_copy fi fo n k c : (lo <= length log)%nat -> fi <> fo ->
    rem_ok lo log (bind (bind (copy_loop chunk n k fi fo) (after_copy fi fo)) last) [(fo, wr (W + c)); (fi, rd (R + c))] (Shift c)
| ro_read fi fo n k c d : (lo <= length log)%nat -> fi <> fo -> R + c + lenN d <= lenN (full log) -> d = sub (R + c) (lenN d) (full log) ->
    rem_ok lo log (bind (bind (put_chunk fi fo n k d) (after_copy fi fo)) last) [(fo, wr (W + c)); (fi, rd (R + c + lenN d))] (Shift c)
| ro_end fi fo n c : (lo <= n <= length log)%nat -> fi <> fo -> R + c = lenN (full (firstn n log)) ->
    rem_ok lo log (bind (after_copy fi fo (Ok tt)) last) [(fo, wr (W + c)); (fi, rd (R + c))] (Shift c)
| ro_size fi fo n c : (lo <= n <= length log)%nat -> fi <> fo -> R + c = lenN (full (firstn n log)) ->
    rem_ok lo log (bind (Call (Ftruncate fo (W + c)) (fun _ => close_both fi fo (Ok tt))) last) [(fo, wr (W + c)); (fi, rd (R + c))] (Shift c)
| ro_cut fi fo n m a b : (lo <= n)%nat -> fi <> fo -> rem_ok lo log (bind (close_both fi fo (Ok tt)) last) [(fo, a); (fi, b)] (Cut n m)
| ro_closed fi n m b : (lo <= n)%nat -> rem_ok lo log (bind (Call (Close fi) (fun _ => Ret (Ok tt))) last) [(fi, b)] (Cut n m)
| ro_done n m : (lo <= n)%nat -> rem_ok lo log (Ret [Ok tt]) [] (Cut n m).
Lemma rem_grows lo log x q H ph : rem_ok lo log q H ph -> rem_ok lo (log ++ [x]) q H ph.
Proof.
  intros Q. assert (L : (length log <= length (log ++ [x]))%nat) by (rewrite app_length; lia).
  destruct Q; try (constructor; auto; lia).
  - pose proof (full_grows log [x]). apply ro_read; auto; [lia|lia|]. rewrite full_app, sub_app_l by lia. assumption.
  - apply ro_end with n; [lia|auto|]. rewrite firstn_app. replace (n - length log)%nat with 0%nat by lia. cbn [firstn]. now rewrite app_nil_r.
  - apply ro_size with n; [lia|auto|]. rewrite firstn_app. replace (n - length log)%nat with 0%nat by lia. cbn [firstn]. now rewrite app_nil_r.
Qed.

(** ** those who add *)
Definition writing (fd : N) (h : BoardHeader) : prog (outcome unit) :=
  Call (Write fd (rec h)) (fun r => Call (Close fd) (fun _ => match r with RErr e => Ret (Err (ESys e)) | ROk _ => Ret (Ok tt) end)).
Definition next (todo : list BoardHeader) (n : nat) (r : outcome unit) : prog (list (outcome unit)) :=
  adds_from cd wd todo (r :: repeat (Ok tt) n).
Inductive add_ok (hs : list BoardHeader) : prog (list (outcome unit)) -> held -> list BoardHeader -> Prop :=
| ao_next done todo : hs = done ++ todo -> add_ok hs (adds_from cd wd todo (repeat (Ok tt) (length done))) [] done
| ao_write done h todo fd pos : hs = done ++ h :: todo -> add_ok hs (bind (writing fd h) (next todo (length done))) [(fd, ap pos)] done
| ao_close done h todo fd pos : hs = done ++ h :: todo ->
    add_ok hs (bind (Call (Close fd) (fun _ => Ret (Ok tt))) (next todo (length done))) [(fd, ap pos)] (done ++ [h]).

Record inv (lo : nat) (w : world) (ps : list (prog (list (outcome unit)))) (st : nat -> held) (log : adds_log) (ph : phase) : Prop := {
  i_fs : fstate w0 ino (content ph log) w;
  i_ph : phase_ok ph log;
  i_len : length ps = length ks;
  i_rem : forall q, nth_error ps r = Some q -> rem_ok lo log q (st r) ph;
  i_add : forall j hs q, nth_error ks j = Some (Adds hs) -> nth_error ps j = Some q -> add_ok hs q (st j) (adds_of j log);
  i_log : forall j h, In (j, h) log -> exists hs, nth_error ks j = Some (Adds hs);
  i_have : forall j x, (j < length ks)%nat -> In x (st j) -> w_fds w (fst x) = Some (snd x);
  i_dis : forall j k fd, (j < length ks)%nat -> (k < length ks)%nat -> j <> k -> In fd (map fst (st j)) -> In fd (map fst (st k)) -> False }.

Definition upd (st : nat -> held) (j : nat) (H : held) (k : nat) : held := if Nat.eqb k j then H else st k.
Lemma upd_same st j H : upd st j H j = H.
Proof. unfold upd. now rewrite Nat.eqb_refl. Qed.
Lemma upd_other st j H k : j <> k -> upd st j H k = st k.
Proof. intros N. unfold upd. destruct (Nat.eqb_spec k j); congruence. Qed.

(** the descriptors after a step of client [j] *)
Lemma held_step lo w ps st log ph j w1 H1 : inv lo w ps st log ph -> (j < length ks)%nat -> moved w w1 (st j) H1 ->
  (forall k x, (k < length ks)%nat -> In x (upd st j H1 k) -> w_fds w1 (fst x) = Some (snd x)) /\
  (forall k k' fd, (k < length ks)%nat -> (k' < length ks)%nat -> k <> k' -> In fd (map fst (upd st j H1 k)) -> In fd (map fst (upd st j H1 k')) -> False).
Proof.
  intros V Lj M.
  assert (A : forall k fd, (k < length ks)%nat -> j <> k -> In fd (map fst (st k)) -> In fd (map fst H1) -> False).
  { intros k fd Lk N Hk Hj. destruct (mv_new _ _ _ _ M fd Hj) as [Q|Q]; [exact (i_dis _ _ _ _ _ _ V j k fd Lj Lk N Q Hk)|].
    apply in_map_iff in Hk as (x & <- & Hx). apply (i_have _ _ _ _ _ _ V k x Lk) in Hx. congruence. }
  split.
  - intros k x Lk Hx. destruct (Nat.eq_dec j k) as [<-|N].
    + rewrite upd_same in Hx. exact (mv_have _ _ _ _ M x Hx).
    + rewrite upd_other in Hx by exact N. apply (mv_keep _ _ _ _ M); [|exact (i_have _ _ _ _ _ _ V k x Lk Hx)].
      intros Q. apply (i_dis _ _ _ _ _ _ V j k (fst x) Lj Lk N Q). now apply in_map.
  - intros k k' fd Lk Lk' N H2 H3. destruct (Nat.eq_dec j k) as [<-|N1]; [|destruct (Nat.eq_dec j k') as [<-|N2]].
    + rewrite upd_same in H2. rewrite upd_other in H3 by exact N. exact (A k' fd Lk' N H3 H2).
    + rewrite upd_same in H3. rewrite upd_other in H2 by exact N1. exact (A k fd Lk N1 H2 H3).
    + rewrite upd_other in H2, H3 by assumption. exact (i_dis _ _ _ _ _ _ V k k' fd Lk Lk' N H2 H3).
Qed.
(** a step of the remover *)
Lemma rem_step lo w ps st log ph w1 q q1 H1 ph1 : inv lo w ps st log ph -> nth_error ps r = Some q ->
  moved w w1 (st r) H1 -> fstate w0 ino (content ph1 log) w1 -> phase_ok ph1 log -> rem_ok lo log q1 H1 ph1 ->
  inv lo w1 (upd_nth r q1 ps) (upd st r H1) log ph1.
Proof.
  intros V E M Fs Po Ro. assert (Lr : (r < length ks)%nat). { rewrite <- (i_len _ _ _ _ _ _ V). apply nth_error_Some. congruence. }
  destruct (held_step _ _ _ _ _ _ _ _ _ V Lr M) as [A B]. constructor; auto.
  - rewrite upd_nth_length. exact (i_len _ _ _ _ _ _ V).
  - intros q' E'. rewrite nth_upd_same in E' by (rewrite (i_len _ _ _ _ _ _ V); exact Lr). injection E' as <-. now rewrite upd_same.
  - intros j hs q' Hj E'. assert (N : r <> j). { intros ->. rewrite (proj1 One) in Hj. discriminate Hj. }
    rewrite nth_upd_other in E' by exact N. rewrite upd_other by exact N. exact (i_add _ _ _ _ _ _ V j hs q' Hj E').
  - exact (i_log _ _ _ _ _ _ V).
Qed.
(** a step of one who adds *)
Lemma add_step lo w ps st log ph j hs w1 q q1 H1 ext : inv lo w ps st log ph -> nth_error ks j = Some (Adds hs) -> nth_error ps j = Some q ->
  moved w w1 (st j) H1 -> (ext = [] \/ exists h, ext = [(j, h)]) -> fstate w0 ino (content ph (log ++ ext)) w1 -> 
  add_ok hs q1 H1 (adds_of j (log ++ ext)) ->
  inv lo w1 (upd_nth j q1 ps) (upd st j H1) (log ++ ext) ph.
Proof.
  intros V Hk E M X Fs Ao. assert (Lj : (j < length ks)%nat). { apply nth_error_Some. congruence. }
  destruct (held_step _ _ _ _ _ _ _ _ _ V Lj M) as [A B].
  assert (N : j <> r). { intros ->. rewrite (proj1 One) in Hk. discriminate Hk. }
  constructor; auto.
  - destruct X as [->|[h ->]]; [rewrite app_nil_r|apply phase_grows]; exact (i_ph _ _ _ _ _ _ V).
  - rewrite upd_nth_length. exact (i_len _ _ _ _ _ _ V).
  - intros q' E'. rewrite nth_upd_other in E' by exact N. rewrite upd_other by exact N. pose proof (i_rem _ _ _ _ _ _ V q' E') as Q.
    destruct X as [->|[h ->]]; [now rewrite app_nil_r|now apply rem_grows].
  - intros k hs' q' Hk' E'. destruct (Nat.eq_dec j k) as [<-|Nk].
    + rewrite Hk in Hk'. injection Hk' as <-. rewrite nth_upd_same in E' by (rewrite (i_len _ _ _ _ _ _ V); exact Lj). injection E' as <-. now rewrite upd_same.
    + rewrite nth_upd_other in E' by exact Nk. rewrite upd_other by exact Nk. pose proof (i_add _ _ _ _ _ _ V k hs' q' Hk' E') as Q.
      destruct X as [->|[h ->]]; [now rewrite app_nil_r|now rewrite adds_of_other by exact Nk].
  - intros k h Hi. apply in_app_iff in Hi as [Hi|Hi]; [exact (i_log _ _ _ _ _ _ V k h Hi)|].
    destruct X as [->|[h' ->]]; [contradiction|]. destruct Hi as [[= <- <-]|[]]. eauto.
Qed.

Definition later (ph ph1 : phase) : Prop := forall n m, ph = Cut n m -> ph1 = Cut n m.
Definition goes_on lo w ps log ph j : Prop :=
  match nth_error ps j with
  | Some q => exists st1 log1 ph1, inv lo (fst (step1 q w)) (upd_nth j (snd (step1 q w)) ps) st1 log1 ph1 /\ (exists l, log1 = log ++ l) /\ later ph ph1
  | None => True
  end.
Lemma adder_moves lo w ps st log ph j hs : inv lo w ps st log ph -> nth_error ks j = Some (Adds hs) -> goes_on lo w ps log ph j.
Proof.
  intros V Hk. unfold goes_on. destruct (nth_error ps j) as [q|] eqn:E; [|exact I].
  assert (Lj : (j < length ks)%nat) by (apply nth_error_Some; congruence).
  pose proof (fun x => i_have _ _ _ _ _ _ V j x Lj) as Hh.
  pose proof (i_add _ _ _ _ _ _ V j hs q Hk E) as Ao. remember (st j) as H eqn:EH. remember (adds_of j log) as mine eqn:Em.
  destruct Ao as [done todo Eh|done h todo fd pos Eh|done h todo fd pos Eh].
  - destruct todo as [|h todo].
    + cbn [adds_from step1 fst snd]. exists (upd st j []), (log ++ []), ph. split; [|split; [now exists []|intros n m ->; reflexivity]].
      apply (add_step lo w ps st log ph j hs w _ _ [] [] V Hk E); [rewrite <- EH; now apply moved_same|now left|rewrite app_nil_r; exact (i_fs _ _ _ _ _ _ V)|].
      rewrite app_nil_r, <- Em. exact (ao_next hs done [] Eh).
    + assert (X : adds_from cd wd (h :: todo) (repeat (Ok tt) (length done)) =
        Call (Open p O_APPEND_CREATE_WRONLY) (fun x => bind (match x with RErr e => Ret (Err (ESys e)) | ROk fd => writing fd h end) (next todo (length done)))).
      { cbn [adds_from]. unfold AddBoardRecord. rewrite Pp. reflexivity. }
      rewrite X. cbn [step1].
      destruct (do_open w0 ino w p rp _ O_APPEND_CREATE_WRONLY [] (i_fs _ _ _ _ _ _ V) S0 Np T0 Nr eq_refl eq_refl) as (w1 & fd & Eo & F1 & _ & M); [exact Hh|].
      rewrite Eo. cbn [fst snd]. exists (upd st j [(fd, ap 0)]), (log ++ []), ph. split; [|split; [now exists []|intros n m ->; reflexivity]].
      apply (add_step lo w ps st log ph j hs w1 _ _ _ [] V Hk E); [rewrite <- EH; exact M|now left|now rewrite app_nil_r|].
      rewrite app_nil_r, <- Em. exact (ao_write hs done h todo fd 0 Eh).
  - assert (Ef : w_fds w fd = Some (ap pos)) by (apply (Hh (fd, ap pos)); now left).
    change (bind (writing fd h) (next todo (length done))) with
      (Call (Write fd (rec h)) (fun x => bind (Call (Close fd) (fun _ => match x with RErr e => Ret (Err (ESys e)) | ROk _ => Ret (Ok tt) end)) (next todo (length done)))).
    cbn [step1]. pose proof (exec_write w fd _ ino (rec h) Ef eq_refl eq_refl) as Ew. rewrite Ew. cbn [fst snd of_append ap of_rd of_wr].
    rewrite (fs_data _ _ _ _ (i_fs _ _ _ _ _ _ V)). rewrite write_end. 
    destruct (do_change w0 ino w _ (content ph log ++ rec h) fd (ap pos) (ap (lenN (content ph log) + lenN (rec h))) [] [] (i_fs _ _ _ _ _ _ V) eq_refl eq_refl) as [F1 M];
      [exact Hh|intros []|].
    exists (upd st j [(fd, ap (lenN (content ph log) + lenN (rec h)))]), (log ++ [(j, h)]), ph. split; [|split; [eexists; reflexivity|intros n m ->; reflexivity]].
    apply (add_step lo w ps st log ph j hs _ _ _ _ [(j, h)] V Hk E); [rewrite <- EH; exact M|right; now exists h| |].
    + rewrite (content_grows ph log (j, h) (i_ph _ _ _ _ _ _ V)). exact F1.
    + rewrite adds_of_snoc, <- Em. exact (ao_close hs done h todo fd _ Eh).
  - change (bind (Call (Close fd) (fun _ => Ret (Ok tt))) (next todo (length done))) with
      (Call (Close fd) (fun _ => next todo (length done) (Ok tt))).
    cbn [step1]. destruct (do_close w0 ino w _ fd [(fd, ap pos)] [] (i_fs _ _ _ _ _ _ V)) as (w1 & Ec & F1 & M); [now left|intros x []|intros []|exact Hh|].
    rewrite Ec. cbn [fst snd]. exists (upd st j []), (log ++ []), ph. split; [|split; [now exists []|intros n m ->; reflexivity]].
    apply (add_step lo w ps st log ph j hs w1 _ _ _ [] V Hk E); [rewrite <- EH; exact M|now left|now rewrite app_nil_r|].
    rewrite app_nil_r, <- Em. unfold next. change (Ok tt :: repeat (Ok tt) (length done)) with (repeat (Ok tt) (S (length done))).
    replace (S (length done)) with (length (done ++ [h])) by (rewrite app_length; cbn; lia).
    apply ao_next. now rewrite <- app_assoc.
Qed.

Lemma WR : W <= R.
Proof. unfold R. lia. Qed.
Lemma seek_offsets : i64 (i64 (Z.of_nat i + 1) * 256) = Z.of_N R /\ i64 (Z.of_nat i * 256) = Z.of_N W.
Proof.
  pose proof (index_offsets (N.of_nat i) Bi) as [A B]. rewrite nat_N_Z in A, B. rewrite A, B. unfold R, W. split; f_equal; lia.
Qed.
Lemma exec_seek w fd o z : w_fds w fd = Some o -> (0 <= z)%Z ->
  exec (SeekSet fd z) w = (set_fd w fd (Some (OFile (of_ino o) (Z.to_N z) (of_append o) (of_rd o) (of_wr o))), ROk (Z.to_N z)).
Proof. intros E H. cbn [exec]. unfold sys_seek_set. rewrite E. destruct (Z.ltb_spec z 0); [lia|reflexivity]. Qed.
Lemma read_piece a n (d x : bytes) : a <= lenN d -> sub a n d = x -> a + lenN x <= lenN d /\ x = sub a (lenN x) d.
Proof.
  intros Ha <-. unfold sub, lenN in *. rewrite firstn_length, skipn_length. split; [lia|]. rewrite Nat2N.id.
  destruct (Nat.le_ge_cases (N.to_nat n) (length d - N.to_nat a)) as [Q|Q].
  - now rewrite Nat.min_l by exact Q.
  - rewrite Nat.min_r by exact Q. rewrite !firstn_all2; auto; rewrite skipn_length; lia.
Qed.
Lemma read_none a n (d : bytes) : 0 < n -> a <= lenN d -> sub a n d = [] -> a = lenN d.
Proof.
  intros Hn Ha E. apply (f_equal (@length byte)) in E. unfold sub in E. rewrite firstn_length, skipn_length in E. unfold lenN in *. cbn [length] in E. lia.
Qed.
Lemma cut_content n c log : (n <= length log)%nat -> R + c = lenN (full (firstn n log)) ->
  truncate_to (W + c) (shifted W R c (full log)) = content (Cut n (length log)) log.
Proof.
  intros Hn E. pose proof WR.
  assert (Fl : full log = full (firstn n log) ++ added (skipn n log)) by (rewrite <- full_app, firstn_skipn; reflexivity).
  assert (L : R + c <= lenN (full log)). { rewrite Fl. unfold lenN in *. rewrite app_length. lia. }
  rewrite truncate_shifted by assumption. cbn [content]. rewrite skipn_all. unfold added at 1. cbn [map concat]. rewrite app_nil_r.
  unfold cut_at. rewrite Fl. set (d := full (firstn n log)) in *. rewrite sub_app_l by lia. f_equal.
  - rewrite firstn_app. replace (N.to_nat W - length d)%nat with 0%nat by (unfold lenN in *; lia). cbn [firstn]. apply app_nil_r.
  - unfold sub. apply firstn_all2. rewrite skipn_length. unfold lenN in *. lia.
Qed.

Lemma remover_moves lo w ps st log ph : inv lo w ps st log ph -> goes_on lo w ps log ph r.
Proof.
  intros V. unfold goes_on. destruct (nth_error ps r) as [q|] eqn:E; [|exact I].
  assert (Lr : (r < length ks)%nat). { rewrite <- (i_len _ _ _ _ _ _ V). apply nth_error_Some. congruence. }
  pose proof (fun x => i_have _ _ _ _ _ _ V r x Lr) as Hh. pose proof WR as HWR.
  pose proof (i_fs _ _ _ _ _ _ V) as Fs. pose proof (i_ph _ _ _ _ _ _ V) as Po.
  assert (Step : forall w1 q1 H1 ph1, moved w w1 (st r) H1 -> fstate w0 ino (content ph1 log) w1 -> phase_ok ph1 log -> rem_ok lo log q1 H1 ph1 -> later ph ph1 ->
    exists st1 log1 ph2, inv lo w1 (upd_nth r q1 ps) st1 log1 ph2 /\ (exists l, log1 = log ++ l) /\ later ph ph2).
  { intros w1 q1 H1 ph1 M F P Q La. exists (upd st r H1), log, ph1. split; [exact (rem_step lo w ps st log ph w1 q q1 H1 ph1 V E M F P Q)|].
    split; [exists []; now rewrite app_nil_r|exact La]. }
  assert (Keep : later ph ph) by (intros n m ->; reflexivity).
  assert (New : forall c ph1, later (Shift c) ph1) by (intros c ph1 n m Q; discriminate Q).
  pose proof (i_rem _ _ _ _ _ _ V q E) as Ro. clear V E. remember (st r) as H eqn:EH. clear EH.
  destruct Ro as [Lo|fi Lo|fi fo Lo Ne|fi fo Lo Ne|fi fo n k c Lo Ne|fi fo n k c d Lo Ne Ld Ed|fi fo n c Lo Ne En|fi fo n c Lo Ne En|fi fo n m a b Lo Ne|fi n m b Lo|n m Lo].
  - (* open for reading *)
    change (bind (RemoveBoardHeaderFileRecord chunk fuel p (Z.of_nat i)) last) with
      (Call (Open p O_RDONLY) (fun x => bind (match x with RErr e => Ret (Err (ESys e)) | ROk fi => open_out fi end) last)).
    cbn [step1]. destruct (do_open w0 ino w p rp _ O_RDONLY [] Fs S0 Np T0 Nr eq_refl eq_refl Hh) as (w1 & fi & Eo & F1 & _ & M).
    rewrite Eo. cbn [fst snd]. apply (Step w1 (bind (open_out fi) last) [(fi, rd 0)] (Shift 0) M F1 Po (ro_in lo log fi Lo)), Keep.
  - (* open for writing *)
    change (bind (open_out fi) last) with
      (Call (Open p O_WRONLY) (fun x => bind (match x with RErr e => Call (Close fi) (fun _ => Ret (Err (ESys e))) | ROk fo => seek_in fi fo end) last)).
    cbn [step1]. destruct (do_open w0 ino w p rp _ O_WRONLY _ Fs S0 Np T0 Nr eq_refl eq_refl Hh) as (w1 & fo & Eo & F1 & Nf & M).
    rewrite Eo. cbn [fst snd]. assert (Ne : fi <> fo) by (intros ->; apply Nf; now left).
    exact (Step w1 (bind (seek_in fi fo) last) [(fo, wr 0); (fi, rd 0)] (Shift 0) M F1 Po (ro_both lo log fi fo Lo Ne) Keep).
  - (* seek of the reader *)
    assert (Ef : w_fds w fi = Some (rd 0)) by (apply (Hh (fi, rd 0)); right; now left).
    change (bind (seek_in fi fo) last) with
      (Call (SeekSet fi (i64 (i64 (Z.of_nat i + 1) * 256))) (fun x => bind (match x with RErr e => close_both fi fo (Err (ESys e)) | ROk _ => seek_out fi fo end) last)).
    cbn [step1]. rewrite (proj1 seek_offsets). rewrite (exec_seek w fi (rd 0) _ Ef) by lia. rewrite N2Z.id. cbn [fst snd of_ino of_append of_rd of_wr rd].
    destruct (do_touch w0 ino w _ fi (rd 0) (rd R) [(fo, wr 0)] [] Fs eq_refl eq_refl Hh) as [F1 M]; [intros [Q|[]]; now apply Ne|].
    exact (Step _ (bind (seek_out fi fo) last) _ (Shift 0) M F1 Po (ro_sought lo log fi fo Lo Ne) Keep).
  - (* seek of the writer *)
    assert (Ef : w_fds w fo = Some (wr 0)) by (apply (Hh (fo, wr 0)); now left).
    change (bind (seek_out fi fo) last) with
      (Call (SeekSet fo (i64 (Z.of_nat i * 256))) (fun x => bind (match x with RErr e => close_both fi fo (Err (ESys e)) | ROk _ => bind (copy_loop chunk fuel 0 fi fo) (after_copy fi fo) end) last)).
    cbn [step1]. rewrite (proj2 seek_offsets). rewrite (exec_seek w fo (wr 0) _ Ef) by lia. rewrite N2Z.id. cbn [fst snd of_ino of_append of_rd of_wr wr].
    destruct (do_touch w0 ino w _ fo (wr 0) (wr W) [] [(fi, rd R)] Fs eq_refl eq_refl Hh) as [F1 M]; [intros [Q|[]]; now apply Ne|].
    pose proof (ro_copy lo log fi fo fuel 0 0 Lo Ne) as Q. rewrite !N.add_0_r in Q.
    exact (Step _ _ _ (Shift 0) M F1 Po Q Keep).
  - (* a read, or no more fuel *)
    destruct n as [|n].
    { cbn [copy_loop bind step1 fst snd after_copy last].
      exact (Step w _ _ (Shift c) (moved_same w _ Hh) Fs Po (ro_copy lo log fi fo 0 k c Lo Ne) Keep). }
    assert (Ef : w_fds w fi = Some (rd (R + c))) by (apply (Hh (fi, rd (R + c))); right; now left).
    cbn [copy_loop bind step1]. rewrite (exec_read w fi _ ino (N.succ (chunk k)) Ef eq_refl eq_refl). cbn [of_pos of_append of_rd of_wr rd fst snd].
    rewrite (fs_data _ _ _ _ Fs). cbn [content]. cbn [phase_ok] in Po. rewrite (shifted_read W R c _ _ HWR Po).
    destruct (sub (R + c) (N.succ (chunk k)) (full log)) as [|b x] eqn:Es.
    + apply read_none in Es; [|lia|exact Po].
      destruct (do_touch w0 ino w _ fi (rd (R + c)) (rd (R + c + lenN (@nil byte))) [(fo, wr (W + c))] [] Fs eq_refl eq_refl Hh) as [F1 M]; [intros [Q|[]]; now apply Ne|].
      change (lenN (@nil byte)) with 0 in *. rewrite N.add_0_r in M, F1 |- *.
      assert (En : R + c = lenN (full (firstn (length log) log))) by (now rewrite firstn_all).
      exact (Step _ (bind (after_copy fi fo (Ok tt)) last) _ (Shift c) M F1 Po (ro_end lo log fi fo (length log) c (conj Lo (le_n _)) Ne En) Keep).
    + apply read_piece in Es; [|exact Po]. destruct Es as [L1 L2]. set (d := b :: x) in *.
      destruct (do_touch w0 ino w _ fi (rd (R + c)) (rd (R + c + lenN d)) [(fo, wr (W + c))] [] Fs eq_refl eq_refl Hh) as [F1 M]; [intros [Q|[]]; now apply Ne|].
      exact (Step _ (bind (bind (put_chunk fi fo n k d) (after_copy fi fo)) last) _ (Shift c) M F1 Po (ro_read lo log fi fo n k c d Lo Ne L1 L2) Keep).
  - (* a write *)
    assert (Ef : w_fds w fo = Some (wr (W + c))) by (apply (Hh (fo, wr (W + c))); now left).
    unfold put_chunk. cbn [bind step1]. rewrite (exec_write w fo _ ino d Ef eq_refl eq_refl). cbn [of_pos of_append of_rd of_wr wr fst snd].
    rewrite (fs_data _ _ _ _ Fs). cbn [content]. rewrite (shifted_write W R c d _ HWR Ld Ed).
    destruct (do_change w0 ino w _ (shifted W R (c + lenN d) (full log)) fo (wr (W + c)) (wr (W + c + lenN d)) [] [(fi, rd (R + c + lenN d))] Fs eq_refl eq_refl Hh) as [F1 M]; [intros [Q|[]]; now apply Ne|].
    pose proof (ro_copy lo log fi fo n (S k) (c + lenN d) Lo Ne) as Q. rewrite !N.add_assoc in Q.
    assert (Po1 : phase_ok (Shift (c + lenN d)) log) by (cbn; lia).
    exact (Step _ _ _ (Shift (c + lenN d)) M F1 Po1 Q (New c _)).
  - (* where the writer is *)
    assert (Ef : w_fds w fo = Some (wr (W + c))) by (apply (Hh (fo, wr (W + c))); now left).
    cbn [after_copy bind step1 exec]. unfold sys_seek_cur0. rewrite Ef. cbn [fst snd of_pos wr].
    exact (Step w _ _ (Shift c) (moved_same w _ Hh) Fs Po (ro_size lo log fi fo n c Lo Ne En) Keep).
  - (* the cut *)
    assert (Ef : w_fds w fo = Some (wr (W + c))) by (apply (Hh (fo, wr (W + c))); now left).
    cbn [bind step1 exec]. unfold sys_ftruncate. rewrite Ef. cbn [fst snd of_ino of_wr wr].
    rewrite (fs_data _ _ _ _ Fs). cbn [content]. rewrite (cut_content n c log (proj2 Lo) En).
    destruct (do_cut w0 ino w _ (content (Cut n (length log)) log) _ Fs Hh) as [F1 M].
    assert (Po1 : phase_ok (Cut n (length log)) log) by (cbn; lia).
    exact (Step _ _ _ (Cut n (length log)) M F1 Po1 (ro_cut lo log fi fo n (length log) _ _ (proj1 Lo) Ne) (New c _)).
  - cbn [bind close_both step1]. destruct (do_close w0 ino w _ fo [(fo, a); (fi, b)] [(fi, b)] Fs) as (w1 & Ec & F1 & M); [now left|intros x Hx; now right|intros [Q|[]]; now apply Ne|exact Hh|].
    rewrite Ec. cbn [fst snd]. exact (Step w1 _ _ (Cut n m) M F1 Po (ro_closed lo log fi n m b Lo) Keep).
  - cbn [bind step1]. destruct (do_close w0 ino w _ fi [(fi, b)] [] Fs) as (w1 & Ec & F1 & M); [now left|intros x []|intros []|exact Hh|].
    rewrite Ec. cbn [fst snd last]. exact (Step w1 _ _ (Cut n m) M F1 Po (ro_done lo log n m Lo) Keep).
  - cbn [step1 fst snd]. exact (Step w _ _ (Cut n m) (moved_same w _ Hh) Fs Po (ro_done lo log n m Lo) Keep).
Qed.

Lemma moves lo w ps st log ph j : inv lo w ps st log ph -> goes_on lo w ps log ph j.
Proof.
  intros V. destruct (nth_error ks j) as [k|] eqn:Hk.
  - destruct (Nat.eq_dec j r) as [->|N]; [exact (remover_moves lo w ps st log ph V)|].
    destruct (proj2 One j k N Hk) as [hs ->]. exact (adder_moves lo w ps st log ph j hs V Hk).
  - unfold goes_on. destruct (nth_error ps j) as [q|] eqn:E; [|exact I]. exfalso.
    apply nth_error_None in Hk. assert (j < length ps)%nat by (apply nth_error_Some; congruence). rewrite (i_len _ _ _ _ _ _ V) in H. lia.
Qed.
Lemma keep_runs sched : forall lo w ps st log ph, inv lo w ps st log ph ->
  exists st1 log1 ph1, inv lo (fst (run_pool sched w ps)) (snd (run_pool sched w ps)) st1 log1 ph1 /\ (exists l, log1 = log ++ l) /\ later ph ph1.
Proof.
  induction sched as [|j sched IH]; intros lo w ps st log ph V.
  - exists st, log, ph. split; [exact V|]. split; [exists []; now rewrite app_nil_r|intros n m ->; reflexivity].
  - cbn [run_pool]. pose proof (moves lo w ps st log ph j V) as G. unfold goes_on in G. destruct (nth_error ps j) as [q|]; [|exact (IH lo w ps st log ph V)].
    destruct G as (st1 & log1 & ph1 & V1 & [l1 ->] & La1). destruct (step1 q w) as [w1 q1]. cbn [fst snd] in V1.
    destruct (IH lo w1 _ st1 _ ph1 V1) as (st2 & log2 & ph2 & V2 & [l2 ->] & La2).
    exists st2, ((log ++ l1) ++ l2), ph2. split; [exact V2|]. split; [exists (l1 ++ l2); now rewrite app_assoc|]. intros n m Q. apply La2, La1, Q.
Qed.
Lemma keep_start : look w0 rp = Some (EFile (concat recs)) -> inv 0 w0 (map (keep cd chunk fuel wd p) ks) (fun _ => []) [] (Shift 0).
Proof.
  intros L. assert (F0 : full [] = concat recs) by (unfold full, added; cbn; apply app_nil_r).
  constructor.
  - constructor; auto. cbn [content]. rewrite shifted_0, F0. unfold look in L. destruct rp; [contradiction|]. rewrite T0 in L. congruence.
  - cbn [phase_ok]. rewrite F0, N.add_0_r. unfold R, W. exact Wi.
  - apply map_length.
  - intros q E. rewrite nth_error_map, (proj1 One) in E. injection E as <-. apply ro_start. cbn. lia.
  - intros j hs q Hk E. rewrite nth_error_map, Hk in E. injection E as <-. exact (ao_next hs [] hs eq_refl).
  - intros j h [].
  - intros j x _ [].
  - intros j k fd _ _ _ [].
Qed.
Definition reads_first (q : prog (list (outcome unit))) : bool := match q with Call (Open _ fl) _ => o_rd fl | _ => false end.
Lemma not_begun lo log q H ph : rem_ok lo log q H ph -> q = keep cd chunk fuel wd p (Removes i) -> H = [] /\ ph = Shift 0 /\ rem_ok (length log) log q H ph.
Proof.
  intros Q E. assert (B : reads_first q = true) by (rewrite E; reflexivity). clear E.
  destruct Q; try discriminate B; [split; [reflexivity|]; split; [reflexivity|]; apply ro_start; lia|].
  destruct n; discriminate B.
Qed.
Lemma keep_begin lo w ps st log ph : inv lo w ps st log ph -> nth_error ps r = Some (keep cd chunk fuel wd p (Removes i)) ->
  ph = Shift 0 /\ inv (length log) w ps st log ph.
Proof.
  intros V E. destruct (not_begun _ _ _ _ _ (i_rem _ _ _ _ _ _ V _ E) eq_refl) as (_ & Hp & Q). split; [exact Hp|].
  destruct V. constructor; auto. intros q' E'. rewrite E in E'. injection E' as <-. exact Q.
Qed.
Lemma keep_done lo w ps st log ph : inv lo w ps st log ph -> nth_error ps r = Some (Ret [Ok tt]) -> exists n m, ph = Cut n m /\ (lo <= n <= m)%nat /\ (m <= length log)%nat.
Proof.
  intros V E. pose proof (i_rem _ _ _ _ _ _ V _ E) as Q. pose proof (i_ph _ _ _ _ _ _ V) as Po. remember (Ret [Ok tt]) as q eqn:Eq. destruct Q; try discriminate Eq.
  - destruct n; discriminate Eq.
  - cbn [phase_ok] in Po. exists n, m. repeat split; try lia; auto.
Qed.
Lemma keep_adders lo w ps st log ph : inv lo w ps st log ph -> adders_right ks ps log.
Proof.
  intros V. split; [exact (i_log _ _ _ _ _ _ V)|]. intros j hs Hk.
  assert (Lj : (j < length ps)%nat). { rewrite (i_len _ _ _ _ _ _ V). apply nth_error_Some. congruence. }
  destruct (nth_error ps j) as [q|] eqn:E; [|apply nth_error_None in E; lia].
  pose proof (i_add _ _ _ _ _ _ V j hs q Hk E) as Q. remember (adds_of j log) as mine eqn:Em. clear Em.
  destruct Q as [done todo Eh|done h todo fd pos Eh|done h todo fd pos Eh].
  - split; [now exists todo|]. intros rs Q. injection Q as Q. destruct todo as [|h todo].
    + cbn [adds_from] in Q. injection Q as <-. rewrite app_nil_r in Eh. subst hs. split; [|reflexivity].
      generalize (length done). intros n. symmetry. clear. induction n as [|n IH]; [reflexivity|]. cbn [repeat rev]. rewrite <- IH.
      clear. induction n as [|n IH]; [reflexivity|]. cbn [repeat app]. now rewrite <- IH.
    + exfalso. cbn [adds_from] in Q. unfold AddBoardRecord in Q. rewrite Pp in Q. cbn [lift pbind bind AppendBoardHeaderFileRecord] in Q. discriminate Q.
  - split; [now exists (h :: todo)|]. intros rs Q. discriminate Q.
  - split; [exists todo; now rewrite <- app_assoc|]. intros rs Q. discriminate Q.
Qed.
End Keep.
