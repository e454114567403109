(** * List-level consequences of the schedule theorem *)
From Coq Require Import Lia ZifyBool ZifyNat ZifyN.
From Verif Require Import M_Base M_Sys M_Path M_File M_Board M_FileOps M_DB.
From Verif Require Import S_World S_Path S_Layout S_File S_BoardList S_Store S_Pool.
From Verif Require Import P_Base P_Layout P_Records P_Sys P_Read P_Path P_FileOps P_BoardList P_Store P_Remove P_Pool.
Open Scope N_scope.

(** ** A slot's description determines its bytes *)
Lemma e_text_unique d d' off len s : e_text d off len s -> e_text d' off len s -> sub off len d = sub off len d'.
Proof.
  intros (v & A & H) (v' & A' & H').
  destruct (at_off_is_sub _ _ _ _ A) as [<- _]. destruct (at_off_is_sub _ _ _ _ A') as [<- _].
  assert (L : length v = length v').
  { destruct A as (? & ? & _ & _ & L). destruct A' as (? & ? & _ & _ & L'). lia. }
  destruct H as [[j ->]|[t ->]], H' as [[j' ->]|[t' E]].
  - do 2 f_equal. rewrite !app_length, !repeat_length in L. lia.
  - subst s. rewrite !app_length, repeat_length in L. assert (j = 0%nat) by lia. assert (length t' = 0%nat) by lia. subst j.
    destruct t'; [|discriminate]. cbn. now rewrite !app_nil_r.
  - rewrite !app_length, repeat_length in L. assert (j' = 0%nat) by lia. assert (length t = 0%nat) by lia. subst j'.
    destruct t; [|discriminate]. cbn. now rewrite !app_nil_r.
  - apply app_inv_len in E; [|exact L]. apply E.
Qed.
Lemma le_num_inj v v' : length v = length v' -> le_num v = le_num v' -> v = v'.
Proof.
  revert v'. induction v as [|b v IH]; intros [|b' v'] L E; try discriminate; [reflexivity|].
  cbn [le_num] in E. pose proof (Byte.to_N_bounded b). pose proof (Byte.to_N_bounded b').
  assert (Q : Byte.to_N b = Byte.to_N b' /\ le_num v = le_num v') by lia. destruct Q as [Q1 Q2].
  f_equal; [|apply IH; auto].
  pose proof (Byte.of_to_N b) as X. rewrite Q1, Byte.of_to_N in X. congruence.
Qed.
Lemma f_num_unique d d' off k n : f_num d off k n -> f_num d' off k n -> sub off k d = sub off k d'.
Proof.
  intros (v & A & E) (v' & A' & E').
  destruct (at_off_is_sub _ _ _ _ A) as [<- _]. destruct (at_off_is_sub _ _ _ _ A') as [<- _].
  apply le_num_inj; [|congruence].
  destruct A as (? & ? & _ & _ & L). destruct A' as (? & ? & _ & _ & L'). lia.
Qed.
Lemma e_zero_unique d d' off k : e_zero d off k -> e_zero d' off k -> sub off k d = sub off k d'.
Proof.
  intros A A'. destruct (at_off_is_sub _ _ _ _ A) as [<- _]. now destruct (at_off_is_sub _ _ _ _ A') as [<- _].
Qed.

Lemma file_encoded_unique cd f d d' : file_encoded cd f d -> file_encoded cd f d' -> d = d'.
Proof.
  intros (L & A1 & A2 & A3 & A4 & A5 & A6 & A7 & A8) (L' & B1 & B2 & B3 & B4 & B5 & B6 & B7 & B8).
  pose proof (e_text_unique _ _ _ _ _ A1 B1) as E1. pose proof (f_num_unique _ _ _ _ _ A2 B2) as E2.
  pose proof (e_zero_unique _ _ _ _ A3 B3) as E3. pose proof (f_num_unique _ _ _ _ _ A4 B4) as E4.
  pose proof (e_text_unique _ _ _ _ _ A5 B5) as E5. pose proof (e_text_unique _ _ _ _ _ A6 B6) as E6.
  pose proof (e_text_unique _ _ _ _ _ A7 B7) as E7. pose proof (e_zero_unique _ _ _ _ A8 B8) as E8.
  assert (J : forall m n, sub 0 m d = sub 0 m d' -> sub m n d = sub m n d' -> sub 0 (m + n) d = sub 0 (m + n) d').
  { intros m n X Y. rewrite <- !sub_cat. rewrite !N.add_0_l. congruence. }
  pose proof (J _ _ (J _ _ (J _ _ (J _ _ (J _ _ (J _ _ (J _ _ E1 E2) E3) E4) E5) E6) E7) E8) as E. clear - E L L'.
  change (28 + 4 + 1 + 1 + 14 + 6 + 65 + 9) with 128 in E.
  rewrite <- (sub_all d), <- (sub_all d'). unfold lenN. rewrite L, L'. exact E.
Qed.

(** ** What is read is determined *)
Lemma at_off_fun d off len v v' : at_off d off len v -> at_off d off len v' -> v = v'.
Proof.
  intros (a & b & E & La & Lv) (a' & b' & E' & La' & Lv'). rewrite E in E'.
  apply app_inv_len in E'; [|lia]. destruct E' as [_ E']. apply app_inv_len in E'; [|lia]. tauto.
Qed.
Lemma f_num_fun d off k n n' : f_num d off k n -> f_num d off k n' -> n = n'.
Proof. intros (v & A & ->) (v' & A' & ->). now rewrite (at_off_fun _ _ _ _ _ A A'). Qed.
Lemma f_int_fun d off k n n' : f_int d off k n -> f_int d off k n' -> n = n'.
Proof. intros (v & A & H) (v' & A' & H'). rewrite (f_num_fun _ _ _ _ _ A A') in *. destruct H as [[]|[]], H' as [[]|[]]; lia. Qed.
Lemma f_time_fun d off n n' : f_time d off n -> f_time d off n' -> n = n'.
Proof. intros (v & A & ->) (v' & A' & ->). now rewrite (f_num_fun _ _ _ _ _ A A'). Qed.
Lemma f_trim_fun d off len s s' : f_trim d off len s -> f_trim d off len s' -> s = s'.
Proof.
  intros (v & A & H) (v' & A' & H'). rewrite (at_off_fun _ _ _ _ _ A A') in *.
  apply trimmed_trim in H. apply trimmed_trim in H'. congruence.
Qed.
Lemma f_trim_big5_fun cd d off len s s' : f_trim_big5 cd d off len s -> f_trim_big5 cd d off len s' -> s = s'.
Proof. intros (v & A & ->) (v' & A' & ->). now rewrite (f_trim_fun _ _ _ _ _ A A'). Qed.

Lemma file_decoded_fun cd d f g : file_decoded cd d f -> file_decoded cd d g -> f = g.
Proof.
  intros (A1 & A2 & A3 & A4 & A5 & A6 & A7 & A8 & A9 & A10 & A11) (B1 & B2 & B3 & B4 & B5 & B6 & B7 & B8 & B9 & B10 & B11).
  destruct f, g; cbn in *.
  pose proof (f_num_fun _ _ _ _ _ A9 B9) as <-.
  assert (V : fh_vposts = fh_vposts0 /\ fh_vlogins = fh_vlogins0 /\ fh_vregtime = fh_vregtime0 /\ fh_vbadpost = fh_vbadpost0).
  { unfold vote_bit in *. destruct (N.testbit fh_filemode 6).
    - destruct (A10 eq_refl) as (? & ? & ? & ?). destruct (B10 eq_refl) as (? & ? & ? & ?).
      repeat split; eapply f_num_fun; eauto.
    - destruct A11 as (-> & -> & -> & ->); [discriminate|]. destruct B11 as (-> & -> & -> & ->); [discriminate|]. auto. }
  destruct V as (<- & <- & <- & <-).
  f_equal; eauto using f_trim_fun, f_time_fun, f_int_fun, f_trim_big5_fun.
Qed.

(** ** Histories on one board *)
Definition rec_file (cd : codec) (old : option bytes) (l : list FileHeader) : Prop :=
  exists recs, old_or_empty old = concat recs /\ Forall2 (is_rec cd) recs l.

Lemma rec_file_lists cd old l ss l' : rec_file cd old l -> slots 128 (old_or_empty old) ss -> Forall2 (file_decoded cd) ss l' -> l' = l.
Proof.
  intros (recs & E & F) S D. rewrite E in S.
  assert (ss = recs) as ->.
  { apply (slots_unique 128 (concat recs)); [lia|exact S|]. apply slots_concat; [lia|]. eapply recs_lenN. exact F. }
  clear - F D. revert l' D. induction F as [|r f recs l [Lr E] F IH]; intros l' D; inversion D; subst; [reflexivity|].
  f_equal; [|auto].
  destruct (file_decode cd r) as (g & E' & Dg); [unfold lenN; lia|]. rewrite E in E'. injection E' as <-.
  eapply file_decoded_fun; eauto.
Qed.

Lemma rec_file_add cd old l f v : rec_file cd old l -> file_fits cd f -> file_encoded cd f v ->
  rec_file cd (Some (old_or_empty old ++ v)) (l ++ [file_image f]).
Proof.
  intros (recs & E & F) Hf Ev. exists (recs ++ [v]). cbn [old_or_empty]. split.
  - rewrite E, concat_app. cbn. now rewrite app_nil_r.
  - apply Forall2_app; [exact F|]. constructor; [|constructor].
    rewrite (file_encoded_unique cd f v (MarshalToByte cd f) Ev) by apply file_encode. now apply is_rec_marshal.
Qed.

Definition bcall_ok (cd : codec) (c : bcall) : Prop := match c with BAdd f => file_fits cd f | BList => True end.
Definition is_add (c : bcall) : bool := match c with BAdd _ => true | BList => false end.

Lemma history_on_list cd b log : forall s s' l,
  history_meets cd (map ev_call log) s s' (map ev_answer log) ->
  Forall (fun e => exists c, ev_call e = to_call b c /\ bcall_ok cd c) log -> rec_file cd (s (Index b)) l ->
  exists cs, map (fun e => (ev_client e, ev_call e)) log = map (fun e => (fst e, to_call b (snd e))) cs /\
    map (fun e => (ev_client e, ev_answer e)) log = list_answers l cs /\
    rec_file cd (s' (Index b)) (l ++ added (map snd cs)) /\
    (s' (Index b) = None <-> s (Index b) = None /\ added (map snd cs) = []).
Proof.
  induction log as [|[i c r] log IH]; intros s s' l H F R.
  - inversion H; subst. exists []. cbn. rewrite app_nil_r. tauto.
  - cbn [map ev_call ev_answer] in H. inversion H as [|? ? ? s1 ? ? ? M Oth H']; subst.
    apply Forall_cons_iff in F. destruct F as [(x & E & Hx) F]. cbn [ev_call] in E. subst c.
    destruct x as [f|]; cbn [to_call call_object call_meets] in M.
    + destruct M as (v & Ev & En & ->). cbn in Hx.
      destruct (IH s1 s' (l ++ [file_image f]) H' F) as (cs & C1 & C2 & C3 & C4).
      { rewrite En. now apply rec_file_add. }
      exists ((i, BAdd f) :: cs). cbn [map fst snd to_call ev_client ev_call ev_answer list_answers added].
      split; [now rewrite C1|]. split; [now rewrite C2|]. split; [now rewrite <- app_assoc in C3|].
      rewrite C4, En. split; [intros []; discriminate|intros []; discriminate].
    + destruct M as (En & ss & l' & Sl & D & ->).
      rewrite (rec_file_lists cd _ _ _ _ R Sl D) in *.
      destruct (IH s1 s' l H' F) as (cs & C1 & C2 & C3 & C4); [now rewrite En|].
      exists ((i, BList) :: cs). cbn [map fst snd to_call ev_client ev_call ev_answer list_answers added].
      split; [now rewrite C1|]. split; [now rewrite C2|]. split; [exact C3|]. now rewrite C4, En.
Qed.

(** Tagged filters *)
Lemma of_client_tag {B : Type} (g : event -> B) i log :
  map g (of_client i log) = map snd (filter (fun e => Nat.eqb (fst e) i) (map (fun e => (ev_client e, g e)) log)).
Proof.
  unfold of_client. induction log as [|e log IH]; [reflexivity|]. cbn [filter map fst].
  destruct (Nat.eqb (ev_client e) i); cbn [map snd]; now rewrite IH.
Qed.
Lemma filter_map_tag {A B : Type} (g : A -> B) i (l : list (nat * A)) :
  filter (fun e => Nat.eqb (fst e) i) (map (fun e => (fst e, g (snd e))) l) =
  map (fun e => (fst e, g (snd e))) (filter (fun e => Nat.eqb (fst e) i) l).
Proof. induction l as [|[j x] l IH]; [reflexivity|]. cbn. destruct (Nat.eqb j i); cbn; now rewrite IH. Qed.
Lemma to_call_inj b c c' : to_call b c = to_call b c' -> c = c'.
Proof. destruct c, c'; cbn; congruence. Qed.
Lemma map_inj {A B : Type} (g : A -> B) l l' : (forall x y, g x = g y -> x = y) -> map g l = map g l' -> l = l'.
Proof. intros H. revert l'. induction l as [|x l IH]; intros [|y l'] E; try discriminate; auto. cbn in E. injection E as E1 E2. f_equal; auto. Qed.

(** Clients adding to and listing one board, at any moment of any schedule. *)
Lemma pool_on_list cd wd B st w b css fuel sched w' ps' :
  ~ In x00 wd -> sane w -> holds cd w wd B st -> B b -> ident b -> Forall (Forall (bcall_ok cd)) css ->
  (length sched <= fuel)%nat ->
  run_pool sched w (map (fun cs => client cd wd fuel (map (to_call b) cs)) css) = (w', ps') ->
  (forall p, In p ps' -> exists rs, p = Ret rs) ->
  exists log, merge css log /\
    (forall i, (i < length css)%nat ->
       nth_error ps' i = Some (Ret (map snd (filter (fun e => Nat.eqb (fst e) i) (list_answers (bs_list st b) log))))) /\
    holds cd w' wd B (match added (map snd log) with [] => st | _ :: _ => bs_set st b (bs_list st b ++ added (map snd log)) end) /\
    sane w' /\ (forall q, q <> home_dir (w_cwd w) wd ++ object_comps (Index b) -> look w' q = look w q).
Proof.
  intros Nw Sw Hw Bb Ib Fok Fu R Fin.
  destruct (Hw b Bb Ib) as (p & rp & P & N & D & X).
  pose (c0 := if bs_exists st b then Some (match look w rp with Some (EFile d) => d | _ => [] end) else None : option bytes).
  assert (C0 : look w rp = option_map EFile c0 /\ rec_file cd c0 (bs_list st b)).
  { unfold c0. destruct (bs_exists st b).
    - destruct X as (recs & Lo & F). rewrite Lo. split; [reflexivity|]. exists recs. split; [reflexivity|exact F].
    - destruct X as [Lo E]. rewrite E. split; [exact Lo|]. exists []. split; [reflexivity|constructor]. }
  destruct C0 as [C0 RF].
  pose (s := fun _ : object => c0). pose (O := eq (Index b)).
  assert (ST : stored w wd O s).
  { intros o <- Po. exists p, rp. auto. }
  assert (PO : pool_ok O s (concat (map (map (to_call b)) css))).
  { rewrite <- concat_map. constructor.
    - rewrite Forall_map. apply Forall_forall. intros c _. split; [destruct c; exact Ib|destruct c; exact Logic.I].
    - rewrite Forall_map. apply Forall_forall. intros c _. destruct c; reflexivity.
    - rewrite Forall_map. apply Forall_forall. intros c _. destruct c; reflexivity.
    - intros x i f Hi. apply in_map_iff in Hi. destruct Hi as ([]&E&_); discriminate E.
    - intros x n t Hi. apply in_map_iff in Hi. destruct Hi as ([]&E&_); discriminate E.
    - intros Hi. apply in_map_iff in Hi. destruct Hi as ([]&E&_); discriminate E.
    - intros c Hi Lc. apply in_map_iff in Hi. destruct Hi as (x & <- & _). destruct x; [discriminate|].
      cbn [to_call call_object record_size]. destruct RF as (recs & E & F). unfold s. rewrite E.
      apply recs_length in F. clear - F. induction F as [|r recs Lr F IH]; [exists 0; reflexivity|].
      cbn [concat]. rewrite app_length, Lr. destruct IH as [k K]. exists (k + 1). lia. }
  rewrite <- (map_map (map (to_call b)) (client cd wd fuel)) in R.
  destruct (pool_linearizes cd wd O s w _ fuel sched w' ps' Nw Sw ST (pool_ok_clients _ _ _ PO) Fu R Fin) as (log & s' & H & ST' & S' & Ow & Cl & Cw & Out).
  rewrite map_length in Ow.
  assert (Fl : Forall (fun e => exists c, ev_call e = to_call b c /\ bcall_ok cd c) log).
  { apply Forall_forall. intros e He.
    pose proof (Ow e He) as Le.
    destruct (nth_error css (ev_client e)) as [cs|] eqn:Ei; [|apply nth_error_None in Ei; lia].
    destruct (Cl (ev_client e) (map (to_call b) cs)) as [Q _]; [rewrite nth_error_map, Ei; reflexivity|].
    assert (In (ev_call e) (map (to_call b) cs)) as Hin.
    { rewrite <- Q. apply in_map. unfold of_client. apply filter_In. split; [exact He|apply Nat.eqb_refl]. }
    apply in_map_iff in Hin. destruct Hin as (c & E & Hc). exists c. split; [auto|].
    rewrite Forall_forall in Fok. specialize (Fok cs (nth_error_In _ _ Ei)). rewrite Forall_forall in Fok. auto. }
  destruct (history_on_list cd b log s s' (bs_list st b) H Fl RF) as (cs & C1 & C2 & C3 & C4).
  exists cs. split; [|split; [|split; [|split; [exact S'|]]]].
  - intros i. destruct (nth_error css i) as [x|] eqn:Ei.
    + rewrite (nth_error_nth _ _ _ Ei). destruct (Cl i (map (to_call b) x)) as [Q _]; [rewrite nth_error_map, Ei; reflexivity|].
      rewrite of_client_tag, C1, (filter_map_tag (to_call b)), map_map in Q. cbn [snd] in Q.
      rewrite <- map_map in Q. now apply (map_inj _ _ _ (to_call_inj b)) in Q.
    + apply nth_error_None in Ei. rewrite nth_overflow by exact Ei.
      assert (of_client i log = []) as Z.
      { unfold of_client. destruct (filter _ log) as [|e l] eqn:Ef; [reflexivity|].
        assert (In e (filter (fun e => Nat.eqb (ev_client e) i) log)) as He by (rewrite Ef; now left).
        apply filter_In in He. destruct He as [He E]. apply Ow in He. apply Nat.eqb_eq in E. lia. }
      pose proof (of_client_tag ev_call i log) as Q. rewrite Z, C1, (filter_map_tag (to_call b)) in Q.
      rewrite map_map in Q. cbn [snd] in Q. destruct (filter _ cs); [reflexivity|discriminate Q].
  - intros i Li. destruct (nth_error css i) as [x|] eqn:Ei; [|apply nth_error_None in Ei; lia].
    destruct (Cl i (map (to_call b) x)) as [_ Q]; [rewrite nth_error_map, Ei; reflexivity|].
    now rewrite Q, of_client_tag, C2.
  - assert (Ep : rp = index_rp (w_cwd w) wd b) by (eapply index_names; eauto; apply N).
    destruct (ST' (Index b) eq_refl Ib) as (p2 & rp2 & P2 & N2 & D2 & L2).
    assert (Ep2 : rp2 = index_rp (w_cwd w) wd b) by (rewrite <- Cw; eapply index_names; eauto; apply N2).
    assert (SE : forall q, q <> index_rp (w_cwd w) wd b -> look w' q = look w q).
    { intros q Hq. apply Out. intros o <- _. exact Hq. }
    intros c Bc Ic. destruct (list_eq_dec Byte.byte_eq_dec c b) as [->|Nb].
    + exists p2, rp2. split; [exact P2|]. split; [exact N2|]. split; [exact D2|].
      destruct (added (map snd cs)) as [|a ad] eqn:Ea.
      * rewrite app_nil_r in C3.
        assert (Q : s' (Index b) = None <-> c0 = None).
        { rewrite C4. unfold s. tauto. }
        unfold c0 in Q. destruct (bs_exists st b).
        -- destruct (s' (Index b)) as [d|] eqn:E1; [|exfalso; destruct Q as [Q _]; discriminate (Q eq_refl)].
           destruct C3 as (recs & E & F). cbn in E. exists recs. rewrite L2. cbn. rewrite E. auto.
        -- destruct Q as [_ Q]. rewrite L2, (Q eq_refl). split; [reflexivity|]. now destruct X.
      * rewrite <- Ea in C3. unfold bs_set. cbn [bs_exists bs_list]. rewrite beqb_refl.
        destruct (s' (Index b)) as [d|] eqn:E1.
        -- destruct C3 as (recs & E & F). cbn in E. exists recs. rewrite L2. cbn. rewrite E, <- Ea. auto.
        -- exfalso. destruct C4 as [C4 _]. destruct C4 as [_ C4]; [reflexivity|]. discriminate C4.
    + destruct (Hw c Bc Ic) as (pc & rc & Pc & Nc & Dc & Xc). exists pc, rc.
      assert (Ec : rc = index_rp (w_cwd w) wd c) by (eapply index_names; eauto; apply Nc).
      assert (Nr : rc <> index_rp (w_cwd w) wd b) by (subst rc; intros Q; apply index_rp_inj in Q; congruence).
      assert (bs_exists (match added (map snd cs) with [] => st | _ :: _ => bs_set st b (bs_list st b ++ added (map snd cs)) end) c = bs_exists st c /\
              bs_list (match added (map snd cs) with [] => st | _ :: _ => bs_set st b (bs_list st b ++ added (map snd cs)) end) c = bs_list st c) as [Y1 Y2].
      { destruct (added (map snd cs)); [auto|]. unfold bs_set. cbn [bs_exists bs_list].
        destruct (beqb c b) eqn:Eq; [|auto]. apply beqb_eq in Eq. congruence. }
      rewrite Y1, Y2. split; [exact Pc|]. split; [eapply names_same; eauto|]. split.
      * unfold has_dir in *. rewrite SE; [exact Dc|]. subst rc. now apply index_dir_neq.
      * rewrite (SE rc Nr). exact Xc.
  - intros q Hq. apply Out. intros o <- _. exact Hq.
Qed.

(** Every listing is the old list followed by a prefix of what was added. *)
Lemma list_answers_prefix log : forall l i r, In (i, r) (list_answers l log) ->
  r = Ok Done \/ exists k, r = Ok (Files (l ++ firstn k (added (map snd log)))).
Proof.
  induction log as [|[j [f|]] log IH]; intros l i r H; cbn [list_answers] in H; [contradiction| |].
  - destruct H as [H|H]; [injection H as <- <-; now left|]. destruct (IH _ _ _ H) as [->|[k ->]]; [now left|right].
    exists (Datatypes.S k). cbn [map snd added firstn]. now rewrite <- app_assoc.
  - destruct H as [H|H]; [injection H as <- <-; right; exists 0%nat; cbn [firstn]; now rewrite app_nil_r|].
    cbn [map snd added]. eauto.
Qed.

(** ** Histories on one article *)
Lemma history_on_text cd b f log : forall s s' d,
  history_meets cd (map ev_call log) s s' (map ev_answer log) ->
  Forall (fun e => exists c, ev_call e = to_acall b f c) log -> s (Article b f) = Some d ->
  exists cs, map (fun e => (ev_client e, ev_call e)) log = map (fun e => (fst e, to_acall b f (snd e))) cs /\
    map (fun e => (ev_client e, ev_answer e)) log = text_answers d cs /\
    s' (Article b f) = Some (d ++ concat (appended (map snd cs))).
Proof.
  induction log as [|[i c r] log IH]; intros s s' d H F R.
  - inversion H; subst. exists []. cbn. rewrite app_nil_r. tauto.
  - cbn [map ev_call ev_answer] in H. inversion H as [|? ? ? s1 ? ? ? M Oth H']; subst.
    apply Forall_cons_iff in F. destruct F as [(x & E) F]. cbn [ev_call] in E. subst c.
    destruct x as [x|]; cbn [to_acall call_object call_meets] in M; rewrite R in M; destruct M as [En ->].
    + destruct (IH s1 s' (d ++ x) H' F En) as (cs & C1 & C2 & C3).
      exists ((i, AAppend x) :: cs). cbn [map fst snd to_acall ev_client ev_call ev_answer text_answers appended concat].
      split; [now rewrite C1|]. split; [now rewrite C2|]. now rewrite app_assoc.
    + destruct (IH s1 s' d H' F En) as (cs & C1 & C2 & C3).
      exists ((i, ARead) :: cs). cbn [map fst snd to_acall ev_client ev_call ev_answer text_answers appended concat].
      split; [now rewrite C1|]. split; [now rewrite C2|]. exact C3.
Qed.
Lemma to_acall_inj b f c c' : to_acall b f c = to_acall b f c' -> c = c'.
Proof. destruct c, c'; cbn; congruence. Qed.

Lemma pool_on_text cd wd w b f rp d css fuel sched w' ps' :
  ~ In x00 wd -> sane w -> plain_object (Article b f) -> holds_file w wd (Article b f) rp (Some d) ->
  (length sched <= fuel)%nat ->
  run_pool sched w (map (fun cs => client cd wd fuel (map (to_acall b f) cs)) css) = (w', ps') ->
  (forall p, In p ps' -> exists rs, p = Ret rs) ->
  exists log, merge css log /\
    (forall i, (i < length css)%nat ->
       nth_error ps' i = Some (Ret (map snd (filter (fun e => Nat.eqb (fst e) i) (text_answers d log))))) /\
    holds_file w' wd (Article b f) rp (Some (d ++ concat (appended (map snd log)))) /\
    sane w' /\ (forall q, q <> rp -> look w' q = look w q).
Proof.
  intros Nw Sw Po (p & P & N & D & Lo) Fu R Fin.
  pose (s := fun _ : object => Some d). pose (O := eq (Article b f)).
  assert (ST : stored w wd O s).
  { intros o <- _. exists p, rp. auto. }
  assert (PO : pool_ok O s (concat (map (map (to_acall b f)) css))).
  { rewrite <- concat_map. constructor.
    - rewrite Forall_map. apply Forall_forall. intros c _. split; [destruct c; exact Po|destruct c; exact Logic.I].
    - rewrite Forall_map. apply Forall_forall. intros c _. destruct c; reflexivity.
    - rewrite Forall_map. apply Forall_forall. intros c _. destruct c; reflexivity.
    - intros x i g Hi. apply in_map_iff in Hi. destruct Hi as ([]&E&_); discriminate E.
    - intros x n t Hi. apply in_map_iff in Hi. destruct Hi as ([]&E&_); discriminate E.
    - intros Hi. apply in_map_iff in Hi. destruct Hi as ([]&E&_); discriminate E.
    - intros c Hi Lc. apply in_map_iff in Hi. destruct Hi as (x & <- & _). destruct x; discriminate. }
  rewrite <- (map_map (map (to_acall b f)) (client cd wd fuel)) in R.
  destruct (pool_linearizes cd wd O s w _ fuel sched w' ps' Nw Sw ST (pool_ok_clients _ _ _ PO) Fu R Fin) as (log & s' & H & ST' & S' & Ow & Cl & Cw & Out).
  rewrite map_length in Ow.
  assert (Fl : Forall (fun e => exists c, ev_call e = to_acall b f c) log).
  { apply Forall_forall. intros e He.
    pose proof (Ow e He) as Le.
    destruct (nth_error css (ev_client e)) as [cs|] eqn:Ei; [|apply nth_error_None in Ei; lia].
    destruct (Cl (ev_client e) (map (to_acall b f) cs)) as [Q _]; [rewrite nth_error_map, Ei; reflexivity|].
    assert (In (ev_call e) (map (to_acall b f) cs)) as Hin.
    { rewrite <- Q. apply in_map. unfold of_client. apply filter_In. split; [exact He|apply Nat.eqb_refl]. }
    apply in_map_iff in Hin. destruct Hin as (c & E & Hc). exists c. auto. }
  destruct (history_on_text cd b f log s s' d H Fl eq_refl) as (cs & C1 & C2 & C3).
  assert (Er : rp = home_dir (w_cwd w) wd ++ object_comps (Article b f)) by (eapply object_names; eauto).
  exists cs. split; [|split; [|split; [|split; [exact S'|]]]].
  - intros i. destruct (nth_error css i) as [x|] eqn:Ei.
    + rewrite (nth_error_nth _ _ _ Ei). destruct (Cl i (map (to_acall b f) x)) as [Q _]; [rewrite nth_error_map, Ei; reflexivity|].
      rewrite of_client_tag, C1, (filter_map_tag (to_acall b f)), map_map in Q. cbn [snd] in Q.
      rewrite <- map_map in Q. now apply (map_inj _ _ _ (to_acall_inj b f)) in Q.
    + apply nth_error_None in Ei. rewrite nth_overflow by exact Ei.
      assert (of_client i log = []) as Z.
      { unfold of_client. destruct (filter _ log) as [|e l] eqn:Ef; [reflexivity|].
        assert (In e (filter (fun e => Nat.eqb (ev_client e) i) log)) as He by (rewrite Ef; now left).
        apply filter_In in He. destruct He as [He E]. apply Ow in He. apply Nat.eqb_eq in E. lia. }
      pose proof (of_client_tag ev_call i log) as Q. rewrite Z, C1, (filter_map_tag (to_acall b f)) in Q.
      rewrite map_map in Q. cbn [snd] in Q. destruct (filter _ cs); [reflexivity|discriminate Q].
  - intros i Li. destruct (nth_error css i) as [x|] eqn:Ei; [|apply nth_error_None in Ei; lia].
    destruct (Cl i (map (to_acall b f) x)) as [_ Q]; [rewrite nth_error_map, Ei; reflexivity|].
    now rewrite Q, of_client_tag, C2.
  - destruct (ST' (Article b f) eq_refl Po) as (p2 & rp2 & P2 & N2 & D2 & L2).
    assert (Er2 : rp2 = rp) by (rewrite Er, <- Cw; eapply object_names; eauto).
    subst rp2. exists p2. rewrite L2, C3. auto.
  - intros q Hq. apply Out. intros o <- _. now rewrite <- Er.
Qed.
Lemma text_answers_prefix log : forall d i r, In (i, r) (text_answers d log) ->
  r = Ok Done \/ exists k, r = Ok (Bytes (d ++ concat (firstn k (appended (map snd log))))).
Proof.
  induction log as [|[j [x|]] log IH]; intros d i r H; cbn [text_answers] in H; [contradiction| |].
  - destruct H as [H|H]; [injection H as <- <-; now left|]. destruct (IH _ _ _ H) as [->|[k ->]]; [now left|right].
    exists (Datatypes.S k). cbn [map snd appended firstn concat]. now rewrite <- app_assoc.
  - destruct H as [H|H]; [injection H as <- <-; right; exists 0%nat; cbn; now rewrite app_nil_r|].
    cbn [map snd appended]. eauto.
Qed.

(** ** Index calls have one result *)
Lemma nth_error_ext {A} (l l' : list A) : (forall k, nth_error l k = nth_error l' k) -> l = l'.
Proof.
  revert l'. induction l as [|x l IH]; intros [|y l'] H; auto; try (specialize (H 0%nat); discriminate).
  f_equal; [specialize (H 0%nat); cbn in H; congruence|]. apply IH. intros k. apply (H (Datatypes.S k)).
Qed.
Lemma patched_unique off v d d1 d2 : patched off v d d1 -> patched off v d d2 -> d1 = d2.
Proof.
  intros (A1 & L1 & P1) (A2 & L2 & P2). apply nth_error_ext. intros k.
  destruct (N.lt_ge_cases (N.of_nat k) off) as [Hk|Hk]; [|destruct (N.lt_ge_cases (N.of_nat k) (off + N.of_nat (length v))) as [Hk2|Hk2]].
  3,1: (destruct (nth_error d1 k) as [b1|] eqn:E1; destruct (nth_error d2 k) as [b2|] eqn:E2; auto;
    [destruct (P1 k b1 E1) as [Q|[Q ->]]; [tauto| |]; destruct (P2 k b2 E2) as [Q'|[Q' ->]]; try tauto; congruence
    |apply nth_error_None in E2; assert (k < length d1)%nat by (apply nth_error_Some; congruence); lia
    |apply nth_error_None in E1; assert (k < length d2)%nat by (apply nth_error_Some; congruence); lia]).
  destruct A1 as (a1 & b1 & -> & La1 & _). destruct A2 as (a2 & b2 & -> & La2 & _).
  assert (length a1 = length a2) by lia.
  rewrite !(nth_error_app2 _ (_ ++ _)) by lia. rewrite !nth_error_app1 by lia. now replace (k - length a1)%nat with (k - length a2)%nat by lia.
Qed.
Definition index_call (c : call) : bool := match c with AddRecord _ _ | UpdateRecord _ _ _ | ListRecords _ => true | _ => false end.
Lemma index_call_fun cd c old n1 r1 n2 r2 : index_call c = true ->
  call_meets cd c old n1 r1 -> call_meets cd c old n2 r2 -> n1 = n2 /\ r1 = r2.
Proof.
  intros K M1 M2. destruct c; try discriminate; cbn [call_meets] in M1, M2.
  - destruct M1 as (v1 & E1 & -> & ->), M2 as (v2 & E2 & -> & ->). now rewrite (file_encoded_unique _ _ _ _ E1 E2).
  - destruct old as [d|].
    + destruct M1 as (v1 & d1 & E1 & P1 & -> & ->), M2 as (v2 & d2 & E2 & P2 & -> & ->).
      rewrite (file_encoded_unique _ _ _ _ E1 E2) in *. now rewrite (patched_unique _ _ _ _ _ P1 P2).
    + destruct M1 as [-> ->], M2 as [-> ->]. auto.
  - destruct M1 as (-> & ss1 & l1 & S1 & D1 & ->), M2 as (-> & ss2 & l2 & S2 & D2 & ->). split; [reflexivity|].
    assert (ss1 = ss2) as -> by (eapply (slots_unique 128); eauto; lia).
    do 2 f_equal. clear - D1 D2. revert l2 D2. induction D1 as [|s x ss l H D IH]; intros l2 D2; inversion D2; subst; auto.
    f_equal; [eapply file_decoded_fun; eauto|auto].
Qed.
Lemma index_history_fun cd b cs : Forall (fun c => index_call c = true /\ call_object c = Index b) cs ->
  forall s1 s2 s1' s2' rs1 rs2, s1 (Index b) = s2 (Index b) ->
  history_meets cd cs s1 s1' rs1 -> history_meets cd cs s2 s2' rs2 -> rs1 = rs2.
Proof.
  induction 1 as [|c cs [K Ob] F IH]; intros s1 s2 s1' s2' rs1 rs2 E H1 H2.
  - inversion H1; inversion H2; subst; reflexivity.
  - inversion H1 as [|? ? ? t1 ? r1 ? M1 _ H1']; subst. inversion H2 as [|? ? ? t2 ? r2 ? M2 _ H2']; subst.
    rewrite Ob in *. rewrite E in M1. destruct (index_call_fun cd c _ _ _ _ _ K M1 M2) as [E' ->].
    f_equal. eapply IH; eauto.
Qed.
