(** * Property theorems about adding boards while one is removed: C16 *)
From Coq Require Import Lia ZifyBool ZifyNat ZifyN.
From Verif Require Import M_Base M_Sys M_Path M_File M_Board M_FileOps M_DB.
From Verif Require Import S_World S_Path S_Board S_BoardList S_Store S_Example S_ExWorld S_Keep.
From Verif Require Import P_Base P_Sys P_Read P_FileOps P_Store P_Crash P_Remove P_Records P_Pool P_Keep T_Records T_Store T_Remove.
Open Scope N_scope.

Lemma logged_records cd log : records_of cd log (map (fun e : nat * BoardHeader => rec cd (snd e)) log).
Proof. unfold records_of. induction log as [|x log IH]; cbn [map]; constructor; [apply board_encode|exact IH]. Qed.
Lemma logged_recs cd log : board_recs (map (fun e : nat * BoardHeader => rec cd (snd e)) log).
Proof. unfold board_recs. induction log as [|x log IH]; cbn [map]; constructor; [apply board_marshal_length|exact IH]. Qed.
Lemma remove_at_app {A} i (l l' : list A) : (i < length l)%nat -> remove_at i (l ++ l') = remove_at i l ++ l'.
Proof.
  intros H. unfold remove_at. rewrite firstn_app, skipn_app. replace (i - length l)%nat with 0%nat by lia. replace (S i - length l)%nat with 0%nat by lia.
  cbn [firstn skipn]. now rewrite app_nil_r, <- app_assoc.
Qed.
Section Contents.
Variables (cd : codec) (recs : list bytes) (i : nat).
Hypothesis Hr : board_recs recs.
Hypothesis Hi : (i < length recs)%nat.
Notation recs_of log := (map (fun e : nat * BoardHeader => rec cd (snd e)) log).
Lemma full_concat log : full cd recs log = concat (recs ++ recs_of log).
Proof. unfold full, added. now rewrite concat_app. Qed.
Lemma fulls_recs log : board_recs (recs ++ recs_of log).
Proof. apply Forall_app. split; [exact Hr|apply logged_recs]. Qed.
Lemma cut_concat_at log : cut_at cd recs i log = concat (remove_at i recs ++ recs_of log).
Proof.
  unfold cut_at. rewrite full_concat. unfold R, W.
  replace (N.to_nat (256 * N.of_nat i)) with (256 * i)%nat by lia. replace (N.to_nat (256 * N.of_nat i + 256)) with (256 * S i)%nat by lia.
  rewrite (firstn_concat 256), (skipn_concat 256) by apply fulls_recs. rewrite <- concat_app. f_equal.
  exact (remove_at_app i recs (recs_of log) Hi).
Qed.
Lemma cut_records n m log : content cd recs i (Cut n m) log = concat (remove_at i recs ++ recs_of (firstn n log) ++ recs_of (skipn m log)).
Proof. cbn [content]. rewrite cut_concat_at. unfold added. now rewrite <- concat_app, <- app_assoc. Qed.
Lemma room : 256 * N.of_nat i + 256 <= lenN (concat recs).
Proof. rewrite (lenN_concat recs Hr). lia. Qed.
End Contents.

(** ** C16 *)

(** One client removes board [i], any number of others add boards, one after the
    other, in any interleaving.  [w1] is any moment before the removal begins,
    [w2] any moment after it has ended, [w3] any later moment.  The boards that
    were there, and those added before the removal began or after it had ended,
    are all in the file, in order; of those added meanwhile a run of consecutive
    ones, [lost], may be missing, and nothing else is. *)
Theorem C16_only_boards_added_meanwhile_are_lost_partial : forall cd chunk fuel wd w rp p recs ks r i s1 s2 s3 w1 ps1 w2 ps2 w3 ps3,
  sane w -> object_path wd Boards = Ok p -> names w p rp -> look w rp = Some (EFile (concat recs)) -> board_recs recs ->
  one_remover ks r i -> (i < length recs)%nat -> N.of_nat i < 2 ^ 54 ->
  run_pool s1 w (map (keep cd chunk fuel wd p) ks) = (w1, ps1) -> nth_error ps1 r = Some (keep cd chunk fuel wd p (Removes i)) ->
  run_pool s2 w1 ps1 = (w2, ps2) -> nth_error ps2 r = Some (Ret [Ok tt]) ->
  run_pool s3 w2 ps2 = (w3, ps3) ->
  exists before kept lost kept' after e1 e2 e2' e3,
    records_of cd before e1 /\ records_of cd kept e2 /\ records_of cd kept' e2' /\ records_of cd after e3 /\
    adders_right ks ps1 before /\ look w1 rp = Some (EFile (concat (recs ++ e1))) /\ same_else rp w w1 /\
    adders_right ks ps2 (before ++ kept ++ lost ++ kept') /\
    look w2 rp = Some (EFile (concat (remove_at i recs ++ e1 ++ e2 ++ e2'))) /\ same_else rp w w2 /\
    adders_right ks ps3 (before ++ kept ++ lost ++ kept' ++ after) /\
    look w3 rp = Some (EFile (concat (remove_at i recs ++ e1 ++ e2 ++ e2' ++ e3))) /\ same_else rp w w3.
Proof.
  intros cd chunk fuel wd w rp p recs ks r i s1 s2 s3 w1 ps1 w2 ps2 w3 ps3 Hs Hp Hn Hl Hr Ho Hi Hb E1 Q1 E2 Q2 E3.
  destruct (look_file _ _ _ Hl) as (ino & T & D & Nr). change (GetBoardPath wd = Ok p) in Hp. pose proof (room recs i Hr Hi) as Rm.
  pose proof (keep_start cd chunk fuel wd p w rp ino recs ks i r Hs Hn T Nr Rm Hb Ho Hl) as V0.
  pose proof (keep_runs cd chunk fuel wd p w rp ino recs ks i r Hs Hn Hp T Nr Rm Hb Ho s1 _ _ _ _ _ _ V0) as (st1 & log1 & ph1 & V1 & _ & _).
  rewrite E1 in V1. cbn [fst snd] in V1.
  destruct (keep_begin _ _ _ _ _ _ _ _ _ _ _ Rm Hb _ _ _ _ _ _ V1 Q1) as [-> V1'].
  pose proof (keep_runs cd chunk fuel wd p w rp ino recs ks i r Hs Hn Hp T Nr Rm Hb Ho s2 _ _ _ _ _ _ V1') as (st2 & log2 & ph2 & V2 & [l2 El2] & _).
  rewrite E2 in V2. cbn [fst snd] in V2.
  destruct (keep_done _ _ _ _ _ _ _ _ _ _ _ Rm Hb _ _ _ _ _ _ V2 Q2) as (n & m & -> & [Ln Lm] & Lm').
  pose proof (keep_runs cd chunk fuel wd p w rp ino recs ks i r Hs Hn Hp T Nr Rm Hb Ho s3 _ _ _ _ _ _ V2) as (st3 & log3 & ph3 & V3 & [l3 El3] & La).
  rewrite E3 in V3. cbn [fst snd] in V3. rewrite (La n m eq_refl) in V3. clear La.
  assert (X : exists kept lost kept', l2 = kept ++ lost ++ kept' /\ firstn n log2 = log1 ++ kept /\ skipn m log2 = kept').
  { exists (firstn (n - length log1) l2), (firstn (m - n) (skipn (n - length log1) l2)), (skipn (m - length log1) l2). rewrite El2. split; [|split].
    - replace (m - length log1)%nat with ((m - n) + (n - length log1))%nat by lia. now rewrite <- skipn_skipn, !firstn_skipn.
    - rewrite firstn_app. now rewrite firstn_all2 by lia.
    - rewrite skipn_app. now rewrite skipn_all2 by lia. }
  destruct X as (kept & lost & kept' & El & Fn & Sm).
  assert (Fn3 : firstn n log3 = log1 ++ kept).
  { rewrite El3, firstn_app. replace (n - length log2)%nat with 0%nat by lia. cbn [firstn]. now rewrite app_nil_r. }
  assert (Sm3 : skipn m log3 = kept' ++ l3).
  { rewrite El3, skipn_app. replace (m - length log2)%nat with 0%nat by lia. cbn [skipn]. now rewrite Sm. }
  pose proof (i_fs _ _ _ _ _ _ _ _ _ _ _ _ _ _ _ _ _ V1) as F1. pose proof (i_fs _ _ _ _ _ _ _ _ _ _ _ _ _ _ _ _ _ V2) as F2.
  pose proof (i_fs _ _ _ _ _ _ _ _ _ _ _ _ _ _ _ _ _ V3) as F3.
  rewrite (cut_records cd recs i Hr Hi), Fn, Sm in F2. rewrite (cut_records cd recs i Hr Hi), Fn3, Sm3 in F3.
  cbn [content] in F1. rewrite shifted_0, full_concat in F1. rewrite map_app, <- app_assoc in F2. rewrite !map_app, <- !app_assoc in F3.
  destruct (fs_look _ _ _ _ _ Hs T Nr F1) as [L1 G1]. destruct (fs_look _ _ _ _ _ Hs T Nr F2) as [L2 G2]. destruct (fs_look _ _ _ _ _ Hs T Nr F3) as [L3 G3].
  exists log1, kept, lost, kept', l3, (map (fun e : nat * BoardHeader => rec cd (snd e)) log1), (map (fun e : nat * BoardHeader => rec cd (snd e)) kept), (map (fun e : nat * BoardHeader => rec cd (snd e)) kept'), (map (fun e : nat * BoardHeader => rec cd (snd e)) l3).
  split; [apply logged_records|]. split; [apply logged_records|]. split; [apply logged_records|]. split; [apply logged_records|].
  split; [exact (keep_adders _ _ _ _ _ _ _ _ _ _ _ Hp Rm Hb _ _ _ _ _ _ V1)|]. split; [exact L1|]. split; [exact G1|].
  assert (B2 : log2 = log1 ++ kept ++ lost ++ kept') by (now rewrite El2, El).
  assert (B3 : log3 = log1 ++ kept ++ lost ++ kept' ++ l3) by (rewrite El3, B2; now rewrite <- !app_assoc).
  rewrite <- B2, <- B3.
  split; [exact (keep_adders _ _ _ _ _ _ _ _ _ _ _ Hp Rm Hb _ _ _ _ _ _ V2)|]. split; [exact L2|]. split; [exact G2|].
  split; [exact (keep_adders _ _ _ _ _ _ _ _ _ _ _ Hp Rm Hb _ _ _ _ _ _ V3)|]. split; [exact L3|exact G3].
Qed.
Print Assumptions C16_only_boards_added_meanwhile_are_lost_partial.

(** At every moment of every such run: all old boards but the removed one and all
    boards added so far are in the file, whole and in order, with one further
    slot between them, made of the beginning of one of these records and the end
    of another; or the file has been cut and only [lost] is missing. *)
Theorem C16_at_every_moment : forall cd chunk fuel wd w rp p recs ks r i sched w' ps',
  sane w -> object_path wd Boards = Ok p -> names w p rp -> look w rp = Some (EFile (concat recs)) -> board_recs recs ->
  one_remover ks r i -> (i < length recs)%nat -> N.of_nat i < 2 ^ 54 ->
  run_pool sched w (map (keep cd chunk fuel wd p) ks) = (w', ps') ->
  same_else rp w w' /\
  exists log, adders_right ks ps' log /\
  ((exists es a x b m y z, records_of cd log es /\ look w' rp = Some (EFile (concat (a ++ [x] ++ b))) /\
      a ++ b = remove_at i recs ++ es /\ length x = 256%nat /\
      x = firstn m y ++ skipn m z /\ In y (recs ++ es) /\ In z (recs ++ es) /\ (m < 256)%nat) \/
   (exists kept lost kept' e e', log = kept ++ lost ++ kept' /\ records_of cd kept e /\ records_of cd kept' e' /\
      look w' rp = Some (EFile (concat (remove_at i recs ++ e ++ e'))))).
Proof.
  intros cd chunk fuel wd w rp p recs ks r i sched w' ps' Hs Hp Hn Hl Hr Ho Hi Hb E.
  destruct (look_file _ _ _ Hl) as (ino & T & D & Nr). change (GetBoardPath wd = Ok p) in Hp. pose proof (room recs i Hr Hi) as Rm.
  pose proof (keep_start cd chunk fuel wd p w rp ino recs ks i r Hs Hn T Nr Rm Hb Ho Hl) as V0.
  pose proof (keep_runs cd chunk fuel wd p w rp ino recs ks i r Hs Hn Hp T Nr Rm Hb Ho sched _ _ _ _ _ _ V0) as (st & log & ph & V & _ & _).
  rewrite E in V. cbn [fst snd] in V.
  pose proof (i_fs _ _ _ _ _ _ _ _ _ _ _ _ _ _ _ _ _ V) as F. pose proof (i_ph _ _ _ _ _ _ _ _ _ _ _ _ _ _ _ _ _ V) as Po.
  destruct (fs_look _ _ _ _ _ Hs T Nr F) as [L G]. split; [exact G|]. exists log.
  split; [exact (keep_adders _ _ _ _ _ _ _ _ _ _ _ Hp Rm Hb _ _ _ _ _ _ V)|].
  destruct ph as [c|n m]; cbn [phase_ok] in Po.
  - left. exists (map (fun e : nat * BoardHeader => rec cd (snd e)) log). rewrite L. cbn [content]. rewrite full_concat in *.
    replace (W i) with (N.of_nat i * 256) by (unfold W; lia). replace (R i) with ((N.of_nat i + 1) * 256) in * by (unfold R, W; lia).
    destruct (shifted_slots (recs ++ map (fun e : nat * BoardHeader => rec cd (snd e)) log) i c) as (a & x & b & m & y & z & E1 & E2 & Q).
    + now apply fulls_recs.
    + rewrite app_length. lia.
    + exact Po.
    + rewrite remove_at_app in E2 by exact Hi. exists a, x, b, m, y, z. split; [apply logged_records|]. rewrite E1. split; [reflexivity|]. split; [exact E2|]. exact Q.
  - right. exists (firstn n log), (firstn (m - n) (skipn n log)), (skipn m log), (map (fun e : nat * BoardHeader => rec cd (snd e)) (firstn n log)), (map (fun e : nat * BoardHeader => rec cd (snd e)) (skipn m log)).
    split. { replace m with ((m - n) + n)%nat at 2 by lia. now rewrite <- skipn_skipn, !firstn_skipn. }
    split; [apply logged_records|]. split; [apply logged_records|]. rewrite L. now rewrite (cut_records cd recs i Hr Hi).
Qed.
Print Assumptions C16_at_every_moment.

(** Client 1 adds a board before the removal and one after it, client 2 adds one
    during the removal, after everything has been copied.  All are told that
    their boards have been added; the one of client 2 is gone. *)
Lemma pool_untouched {A} r s : ~ In r s -> forall w (ps : list (prog A)), nth_error (snd (run_pool s w ps)) r = nth_error ps r.
Proof.
  induction s as [|j s IH]; intros N w ps; [reflexivity|]. cbn [run_pool]. destruct (nth_error ps j) as [q|]; [|apply IH; intros Q; apply N; now right].
  destruct (step1 q w) as [w1 q1]. rewrite IH by (intros Q; apply N; now right). apply nth_upd_other. intros ->. apply N. now left.
Qed.
Definition named_board (n : bytes) : BoardHeader :=
  MkBoardHeader n (str "a board") [] 0 0 0 [] 0%Z 0 0 0 0%Z 0 0%Z 0%Z [0%Z; 0%Z] [0%Z; 0%Z] 0%Z 0%Z 0%Z 0%Z 0%Z [] [] 0 0 0 0%Z.
Definition keepers : list keeper := [Removes 0; Adds [named_board (str "early"); named_board (str "late")]; Adds [named_board (str "lost")]].
Definition keepers_start : list (prog (list (outcome unit))) := map (keep id_codec (fun _ => 255) 9 sample_wd brd_path) keepers.
Definition keepers_1 := run_pool (repeat 1%nat 3) sample_world keepers_start.
Definition keepers_2 := run_pool (repeat 0%nat 10 ++ repeat 2%nat 3 ++ repeat 0%nat 4) (fst keepers_1) (snd keepers_1).
Definition keepers_3 := run_pool (repeat 1%nat 3) (fst keepers_2) (snd keepers_2).
Example C16_nonvacuous :
  one_remover keepers 0 0 /\ nth_error (snd keepers_1) 0 = Some (keep id_codec (fun _ => 255) 9 sample_wd brd_path (Removes 0)) /\
  nth_error (snd keepers_2) 0 = Some (Ret [Ok tt]) /\
  snd keepers_3 = [Ret [Ok tt]; Ret [Ok tt; Ok tt]; Ret [Ok tt]] /\
  look (fst keepers_3) brd = Some (EFile (concat (BoardHeader_MarshalBinary id_codec sample_board ::
    map (BoardHeader_MarshalBinary id_codec) [named_board (str "early"); named_board (str "late")]))).
Proof.
  split; [|split; [|split; [|split]]].
  - split; [reflexivity|]. intros [|[|[|j]]] k N E; [contradiction|injection E as <-; eauto|injection E as <-; eauto|destruct j; discriminate E].
  - unfold keepers_1. rewrite pool_untouched; [reflexivity|]. cbn. intuition discriminate.
  - vm_compute. reflexivity.
  - vm_compute. reflexivity.
  - vm_compute. reflexivity.
Qed.
