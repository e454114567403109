(** * Property theorems about the login files: C33, C34 *)
From Coq Require Import Lia ZifyBool ZifyNat ZifyN.
From Verif Require Import M_Base M_Text M_Utf8 M_Time M_Sys M_FileOps M_Login.
From Verif Require Import S_World S_Text S_Time S_Utf8 S_Login S_ExWorld.
From Verif Require Import P_Base P_Text P_Time P_Utf8 P_Sys P_Store T_Store.
Open Scope N_scope.

(** ** Lines *)
Lemma raw_lines_app l d cur : ~ In x0a l -> raw_lines (l ++ d) cur = raw_lines d (rev l ++ cur).
Proof.
  revert cur. induction l as [|b l IH]; intros cur N; [reflexivity|]. cbn [app raw_lines].
  destruct (Byte.eqb b x0a) eqn:E; [apply byte_eqb_eq in E; subst; exfalso; apply N; now left|].
  rewrite IH by (intros H; apply N; now right). cbn [rev]. now rewrite <- app_assoc.
Qed.
Lemma raw_lines_text d ls : text d ls -> raw_lines d [] = ls.
Proof.
  intros (init & last & -> & F & ->). apply Forall_app in F as [F FL]. inversion FL as [|? ? NL _]; subst.
  induction init as [|l init IH].
  - cbn [unlines map concat app]. rewrite <- (app_nil_r last) at 1. rewrite raw_lines_app by exact NL. cbn [raw_lines].
    destruct last as [|b last]; [reflexivity|]. rewrite app_nil_r. destruct (rev (b :: last)) eqn:R.
    + apply (f_equal (@length byte)) in R. rewrite rev_length in R. discriminate R.
    + rewrite <- R, rev_involutive. reflexivity.
  - inversion F as [|? ? N F']; subst. unfold unlines in *. cbn [map concat]. rewrite <- !app_assoc. rewrite raw_lines_app by exact N.
    cbn [app raw_lines]. change (Byte.eqb x0a x0a) with true. cbv iota. rewrite app_nil_r, rev_involutive. f_equal. now apply IH.
Qed.
(** Every string is a text file. *)
Lemma every_text d : exists ls, text d ls.
Proof.
  induction d as [|b d (ls & init & last & -> & F & _)].
  - exists [], [], []. split; [reflexivity|]. split; [|reflexivity]. constructor; [intros []|constructor].
  - destruct (byte_eq_dec b x0a) as [->|N].
    + eexists _, ([] :: init), last. split; [reflexivity|]. split; [|reflexivity]. constructor; [intros []|exact F].
    + destruct init as [|l init].
      * eexists _, [], (b :: last). split; [reflexivity|]. split; [|reflexivity]. inversion F as [|? ? NL _]; subst.
        constructor; [|constructor]. intros [H|H]; contradiction.
      * eexists _, ((b :: l) :: init), last. split; [reflexivity|]. split; [|reflexivity]. cbn [app] in *. inversion F as [|? ? NL F']; subst.
        constructor; [|exact F']. intros [H|H]; contradiction.
Qed.
Lemma drop_cr_spec l l' : drop_cr l = l' <-> without_cr l l'.
Proof.
  unfold drop_cr, without_cr. split.
  - destruct (rev l) as [|b r] eqn:R.
    + intros <-. right. split; [reflexivity|]. intros p ->. rewrite rev_app_distr in R. discriminate R.
    + apply (f_equal (@rev byte)) in R. rewrite rev_involutive in R. cbn [rev] in R. destruct (Byte.eqb b x0d) eqn:B.
      * apply byte_eqb_eq in B. subst b. intros <-. now left.
      * apply byte_eqb_neq in B. intros <-. right. split; [reflexivity|]. intros p E. rewrite R in E. apply app_inj_tail in E as [_ E]. contradiction.
  - intros [->|[-> N]].
    + rewrite rev_app_distr. cbn. now rewrite rev_involutive.
    + destruct (rev l') as [|b r] eqn:R; [reflexivity|]. destruct (Byte.eqb b x0d) eqn:B; [|reflexivity]. apply byte_eqb_eq in B. subst b.
      apply (f_equal (@rev byte)) in R. rewrite rev_involutive in R. cbn [rev] in R. exfalso. exact (N _ R).
Qed.
Lemma scan_short ls : Forall short_line ls -> scan ls = (map drop_cr ls, false).
Proof.
  induction 1 as [|l ls L F IH]; [reflexivity|]. cbn [scan map]. unfold MaxScanTokenSize, short_line in *. replace (65536 <=? lenN l) with false by lia. now rewrite IH.
Qed.
Lemma scan_long ls l r : Forall short_line ls -> ~ short_line l -> scan (ls ++ l :: r) = (map drop_cr ls, true).
Proof.
  intros F L. induction F as [|x ls X F IH]; cbn [app scan map].
  - unfold MaxScanTokenSize, short_line in *. now replace (65536 <=? lenN l) with true by lia.
  - unfold MaxScanTokenSize, short_line in *. replace (65536 <=? lenN x) with false by lia. now rewrite IH.
Qed.
Lemma each_ok {A} (f : bytes -> outcome A) ls rs : each f ls = Ok rs <-> Forall2 (fun l r => f l = Ok r) ls rs.
Proof.
  revert rs. induction ls as [|l ls IH]; intros rs; cbn [each].
  - split; [intros [= <-]; constructor|intros H; inversion H; reflexivity].
  - split.
    + destruct (f l) as [a| | |] eqn:E; try discriminate. destruct (each f ls) as [r| | |] eqn:R; try discriminate. intros [= <-].
      constructor; [exact E|now apply IH].
    + intros H. inversion H as [|? r ? rs' E F]; subst. rewrite E. apply IH in F. now rewrite F.
Qed.
Lemma each_app {A} (f : bytes -> outcome A) ls rs l : Forall2 (fun l r => f l = Ok r) ls rs ->
  forall r, (forall a, f l <> Ok a) -> each f (ls ++ l :: r) = match f l with Ok a => Ok [] | Err e => Err e | Panic => Panic | Diverge => Diverge end.
Proof.
  intros F r N. induction F as [|x y ls rs E F IH]; cbn [app each].
  - destruct (f l) eqn:E; try reflexivity. exfalso. exact (N _ eq_refl).
  - rewrite E, IH. destruct (f l) eqn:E'; try reflexivity. exfalso. exact (N _ eq_refl).
Qed.
Lemma scan_file_run p w rp d : sane w -> names w p rp -> look w rp = Some (EFile d) ->
  exists w', run (scan_file p) w = (w', Ok (scan_lines d)) /\ same_files w w'.
Proof.
  intros S N L. destruct (open_existing w p O_RDONLY rp d N L eq_refl) as (i & T & D & E).
  unfold scan_file. cbn [run]. rewrite E. cbn [o_trunc O_RDONLY o_append o_rd o_wr]. set (w1 := bump_fd _).
  assert (F : w_fds w1 (w_nextfd w) = Some (OFile (Some i) 0 false true false)) by (subst w1; cbn; now destruct N.eq_dec).
  cbn [run exec]. unfold sys_read_all. rewrite F. cbn [of_ino of_rd of_pos of_append of_wr N.to_nat skipn]. cbn [run].
  eexists. split; [f_equal; f_equal; f_equal; subst w1; cbn; exact D|]. split; [reflexivity|]. intros q. reflexivity.
Qed.

(** ** C33 *)
(** A line is decoded to a time and a host exactly if it spells them: every such line
    is decoded, and nothing else is. *)
Theorem C33_line_decoded_exactly : forall line r, NewLoginRecentRecord line = Ok r <-> login_line line r.
Proof.
  intros line [t h]. unfold NewLoginRecentRecord, login_line. cbn [lr_start lr_host]. split.
  - destruct (split_cuts " " line) as (_ & E & F). destruct (split_on " " line) as [|s0 [|s1 [|s2 r]]]; try discriminate.
    destruct (Parse layout_login (s0 ++ str " " ++ s1)) as [t'|] eqn:P; [|discriminate]. intros [= <- <-].
    inversion F as [|? ? N0 F0]; subst. inversion F0 as [|? ? N1 F1]; subst. inversion F1 as [|? ? N2 _]; subst.
    exists s0, s1, (match r with [] => [] | _ => " "%byte :: join " " r end). split; [|split; [exact N0|split; [exact N1|split; [exact N2|split]]]].
    + cbn [join]. destruct r as [|s3 r]; [now rewrite app_nil_r|reflexivity].
    + destruct r; [now left|right; eauto].
    + now apply Parse_login.
  - intros (s0 & s1 & rest & -> & N0 & N1 & N2 & R & S). change (str " " ++ ?x) with (" "%byte :: x). change (str " ") with [" "%byte]. cbn [app].
    rewrite split_app by exact N0. rewrite split_app by exact N1. assert (X : exists q, split_on " " (h ++ rest) = h :: q).
    { destruct R as [->|[r' ->]]; [rewrite app_nil_r, split_no by exact N2; eauto|rewrite split_app by exact N2; eauto]. }
    destruct X as [q ->]. change (s0 ++ " "%byte :: s1) with (s0 ++ str " " ++ s1). apply Parse_login in S. now rewrite S.
Qed.
Print Assumptions C33_line_decoded_exactly.
(** In particular what the BBS writes -- the time in fixed columns and the host -- is read back. *)
Theorem C33_written_lines : forall t host,
  calendar_time t -> t_year t < 10000 -> t_nsec t = 0 -> ~ In " "%byte host ->
  NewLoginRecentRecord (Format layout_login t ++ str " " ++ host) = Ok (LoginRecent t host).
Proof.
  intros t host C Y Z N. apply C33_line_decoded_exactly. destruct (format_login t (conj C (conj Y Z))) as [S _].
  pose proof S as (mm & dd & yy & sp & hh & mi & ss & fr & E & Wm & Wd & Wy & (k & G) & Wh & Wi & Ws & F & _).
  assert (NS : forall j s n, width j s n -> ~ In " "%byte s).
  { intros j s n [P _] H. apply numeral_inv in P as (_ & FD & _). rewrite forallb_forall in FD. specialize (FD _ H). discriminate FD. }
  assert (E2 : Format layout_login t = (appendInt (t_month t) 2 ++ "/"%byte :: appendInt (t_day t) 2 ++ "/"%byte :: appendInt (t_year t) 4) ++ str " " ++
    (appendInt (t_hour t) 2 ++ ":"%byte :: appendInt (t_min t) 2 ++ ":"%byte :: appendInt (t_sec t) 2)).
  { unfold Format. cbn [layout_login l_chunks l_tail map concat fst snd format_std]. rewrite !app_nil_r, <- !app_assoc. cbn [app]. rewrite <- !app_assoc. reflexivity. }
  pose proof C as ((k0 & L & D) & Rh & Ri & Rs). apply month_length_m in L as [M K].
  exists (appendInt (t_month t) 2 ++ "/"%byte :: appendInt (t_day t) 2 ++ "/"%byte :: appendInt (t_year t) 4),
    (appendInt (t_hour t) 2 ++ ":"%byte :: appendInt (t_min t) 2 ++ ":"%byte :: appendInt (t_sec t) 2), []. cbn [lr_start lr_host].
  rewrite app_nil_r. split; [rewrite E2, <- !app_assoc; reflexivity|].
  assert (W : forall n j, (0 < j)%nat -> n < 10 ^ N.of_nat j -> ~ In " "%byte (appendInt n j)) by (intros n j J H; exact (NS _ _ _ (appendInt_width n j J H))).
  split; [|split; [|split; [exact N|split; [now left|now rewrite <- E2]]]].
  - rewrite !in_app_iff. cbn [In]. rewrite !in_app_iff. cbn [In]. intros [H|[H|[H|[H|H]]]]; try discriminate H; revert H; apply W; cbn; lia.
  - rewrite !in_app_iff. cbn [In]. rewrite !in_app_iff. cbn [In]. intros [H|[H|[H|[H|H]]]]; try discriminate H; revert H; apply W; cbn; lia.
Qed.
Print Assumptions C33_written_lines.
(** Every other line is an error: too few fields, or no such time. *)
Theorem C33_errors : forall line,
  ((spaces_in line < 2)%nat <-> NewLoginRecentRecord line = Err EBadFormat) /\
  ((2 <= spaces_in line)%nat -> (forall r, ~ login_line line r) -> NewLoginRecentRecord line = Err EBadTime).
Proof.
  intros line. assert (L : length (split_on " " line) = S (spaces_in line)).
  { unfold spaces_in. induction line as [|b l IH]; [reflexivity|]. cbn [split_on count_occ]. destruct (byte_eq_dec b " ") as [->|N].
    - change (Byte.eqb " " " ") with true. cbn [length]. now rewrite IH.
    - rewrite (proj2 (byte_eqb_neq b " ") N). destruct (split_on " " l) as [|p ps]; [discriminate|]. exact IH. }
  split.
  - unfold NewLoginRecentRecord. destruct (split_on " " line) as [|s0 [|s1 [|s2 r]]]; cbn [length] in L; try lia; try (split; [reflexivity|intros; lia]).
    split; [intros; lia|]. destruct (Parse layout_login _); discriminate.
  - intros G H. destruct (NewLoginRecentRecord line) as [r|e| |] eqn:E.
    + exfalso. apply C33_line_decoded_exactly in E. exact (H _ E).
    + unfold NewLoginRecentRecord in E. destruct (split_on " " line) as [|s0 [|s1 [|s2 r]]]; cbn [length] in L; try lia.
      destruct (Parse layout_login _); [discriminate|now injection E as <-].
    + unfold NewLoginRecentRecord in E. destruct (split_on " " line) as [|s0 [|s1 [|s2 r]]]; try discriminate. destruct (Parse layout_login _); discriminate.
    + unfold NewLoginRecentRecord in E. destruct (split_on " " line) as [|s0 [|s1 [|s2 r]]]; try discriminate. destruct (Parse layout_login _); discriminate.
Qed.
Print Assumptions C33_errors.
(** Listing a file answers its lines, all of them, in their order, or an error if one
    of them is no login line; it leaves the files alone. *)
Theorem C33_listing : forall w path rp d ls ls',
  sane w -> names w path rp -> look w rp = Some (EFile d) ->
  text d ls -> Forall short_line ls -> Forall2 without_cr ls ls' ->
  exists w' o, run (OpenLoginRecentFile path) w = (w', o) /\ same_files w w' /\
    ((exists rs, o = Ok rs /\ Forall2 login_line ls' rs) \/
     (exists e l, o = Err e /\ In l ls' /\ forall r, ~ login_line l r)).
Proof.
  intros w path rp d ls ls' S N L T Sh Cr. destruct (scan_file_run path w rp d S N L) as (w' & R & SF).
  unfold OpenLoginRecentFile. eexists w', _. split; [rewrite run_pbind, R; unfold scan_lines; rewrite (raw_lines_text d ls T), (scan_short ls Sh); cbn [run]; reflexivity|].
  split; [exact SF|].
  assert (M : map drop_cr ls = ls') by (clear - Cr; induction Cr as [|l l' ls ls' C _ IH]; [reflexivity|cbn; apply drop_cr_spec in C; now rewrite C, IH]).
  rewrite M. clear. induction ls' as [|l ls IH]; [left; exists []; split; [reflexivity|constructor]|]. cbn [each].
  destruct (NewLoginRecentRecord l) as [r|e| |] eqn:E.
  - destruct IH as [(rs & H & F)|(e & x & H & I' & X)].
    + left. destruct (each NewLoginRecentRecord ls) as [q| | |]; try discriminate H. injection H as ->. exists (r :: rs). split; [reflexivity|].
      constructor; [now apply C33_line_decoded_exactly|exact F].
    + right. destruct (each NewLoginRecentRecord ls) as [q|e'| |]; try discriminate H. injection H as ->. exists e, x. split; [reflexivity|]. split; [now right|exact X].
  - right. exists e, l. split; [reflexivity|]. split; [now left|]. intros r H. apply C33_line_decoded_exactly in H. congruence.
  - unfold NewLoginRecentRecord in E. destruct (split_on " " l) as [|s0 [|s1 [|s2 r]]]; try discriminate. destruct (Parse layout_login _); discriminate.
  - unfold NewLoginRecentRecord in E. destruct (split_on " " l) as [|s0 [|s1 [|s2 r]]]; try discriminate. destruct (Parse layout_login _); discriminate.
Qed.
Print Assumptions C33_listing.
(** A line of 65536 bytes or more behind good lines ends the whole program (log.Fatal). *)
Theorem C33_long_line_is_fatal : forall w path rp d ls l rest ls' rs,
  sane w -> names w path rp -> look w rp = Some (EFile d) ->
  text d (ls ++ l :: rest) -> Forall short_line ls -> ~ short_line l ->
  Forall2 without_cr ls ls' -> Forall2 login_line ls' rs ->
  snd (run (OpenLoginRecentFile path) w) = Panic.
Proof.
  intros w path rp d ls l rest ls' rs S N L T Sh Lg Cr F. destruct (scan_file_run path w rp d S N L) as (w' & R & SF).
  unfold OpenLoginRecentFile. rewrite run_pbind, R. unfold scan_lines. rewrite (raw_lines_text d _ T), (scan_long ls l rest Sh Lg). cbn [run snd].
  assert (M : map drop_cr ls = ls') by (clear - Cr; induction Cr as [|x l' ls ls' C _ IH]; [reflexivity|cbn; apply drop_cr_spec in C; now rewrite C, IH]).
  rewrite M. rewrite (proj2 (each_ok NewLoginRecentRecord ls' rs)); [reflexivity|].
  clear - F. induction F as [|x y ls rs H F IH]; constructor; [now apply C33_line_decoded_exactly|exact IH].
Qed.
Print Assumptions C33_long_line_is_fatal.

Definition login_world (d : bytes) : world :=
  world_of (sample_tree ++ [(S_ExWorld.rp ["bbs"; "logins"]%string, NFile 4)]) (sample_data ++ [d]).
Lemma login_world_holds d : sane (login_world d) /\ names (login_world d) (str "/bbs/logins") (S_ExWorld.rp ["bbs"; "logins"]%string) /\
  look (login_world d) (S_ExWorld.rp ["bbs"; "logins"]%string) = Some (EFile d).
Proof. split; [apply saneb_sane; vm_compute; reflexivity|]. split; [split; [split; [discriminate|no_nul]|vm_compute; reflexivity]|vm_compute; reflexivity]. Qed.
Definition nl : bytes := [x0a].
(** "Is reported as an error" is false of such a line. *)
Theorem C33_reports_errors_refuted : exists w path rp d,
  sane w /\ names w path rp /\ look w rp = Some (EFile d) /\ snd (run (OpenLoginRecentFile path) w) = Panic.
Proof.
  set (l := repeat "x"%byte (N.to_nat 65536)). exists (login_world l), (str "/bbs/logins"), (S_ExWorld.rp ["bbs"; "logins"]%string), l.
  destruct (login_world_holds l) as (S & N & L). split; [exact S|]. split; [exact N|]. split; [exact L|].
  assert (T : text l ([] ++ l :: [])).
  { exists [], l. split; [reflexivity|]. split.
    - constructor; [|constructor]. intros H. apply repeat_spec in H. discriminate H.
    - destruct l as [|b l'] eqn:E; [|reflexivity]. apply (f_equal (@length byte)) in E. unfold l in E. rewrite repeat_length in E. change (length (@nil byte)) with 0%nat in E. lia. }
  refine (C33_long_line_is_fatal _ _ _ l [] l [] [] [] S N L T (Forall_nil _) _ (Forall2_nil _) (Forall2_nil _)).
  unfold short_line, lenN, l. rewrite repeat_length. lia.
Qed.
Print Assumptions C33_reports_errors_refuted.
Example C33_nonvacuous :
  let d := str "10/24/2020 05:57:18 103.246.218.43" ++ nl ++ str "02/29/2020 1:02:03.5 example.org tail" ++ nl in
  let t1 := Time 2020 10 24 5 57 18 0 in
  let t2 := Time 2020 2 29 1 2 3 500000000 in
  snd (run (OpenLoginRecentFile (str "/bbs/logins")) (login_world d)) =
    Ok [LoginRecent t1 (str "103.246.218.43"); LoginRecent t2 (str "example.org")] /\
  calendar_time t1 /\ calendar_time t2 /\
  NewLoginRecentRecord (str "02/29/2021 05:57:18 host") = Err EBadTime /\
  NewLoginRecentRecord (str "02/28/2021 host") = Err EBadFormat.
Proof.
  split; [vm_compute; reflexivity|]. split; [split; [exists 31; split; [constructor|cbn; lia]|cbn; lia]|].
  split; [split; [exists 29; split; [constructor; apply isLeap_spec; reflexivity|cbn; lia]|cbn; lia]|]. split; vm_compute; reflexivity.
Qed.

(** ** C34 *)
Lemma TrimLeft_spec s h : TrimLeft s (str "?@") = h <-> host_of s h.
Proof.
  assert (X : forall b, existsb (Byte.eqb b) (str "?@") = true <-> b = "?"%byte \/ b = "@"%byte).
  { intros b. cbn [str existsb]. change (existsb (Byte.eqb b) ["?"%byte; "@"%byte] = true <-> b = "?"%byte \/ b = "@"%byte). cbn [existsb].
    rewrite !orb_true_iff, !byte_eqb_eq. intuition discriminate. }
  split.
  - intros <-. induction s as [|b s (p & E & F & N)]; [exists []; split; [reflexivity|]; split; [constructor|discriminate]|]. cbn [TrimLeft].
    destruct (existsb (Byte.eqb b) (str "?@")) eqn:B.
    + apply X in B. exists (b :: p). cbn [app]. rewrite <- E. split; [reflexivity|]. split; [now constructor|exact N].
    + exists []. split; [reflexivity|]. split; [constructor|]. intros c h [= <- <-]. split; intros ->; discriminate B.
  - intros (p & -> & F & N). induction F as [|b p B F IH]; cbn [app].
    + destruct h as [|b h]; [reflexivity|]. cbn [TrimLeft]. destruct (existsb (Byte.eqb b) (str "?@")) eqn:B; [|reflexivity].
      apply X in B. destruct (N b h eq_refl). destruct B; contradiction.
    + cbn [TrimLeft]. rewrite (proj2 (X b) B). exact IH.
Qed.
Lemma Ok_inj {A} (x y : A) : Ok x = Ok y -> x = y.
Proof. intros H. now injection H. Qed.
Lemma rest_spec success user s e : unmarshal_rest success user s = Ok e <->
  exists tm x host, s = tm ++ x :: host /\ length tm = 25%nat /\ la_success e = success /\ trimmed user (la_user e) /\
    spells_bracketed tm (la_start e) /\ host_of host (la_host e).
Proof.
  unfold unmarshal_rest, time_len. split.
  - destruct (length s <? 25)%nat eqn:L; [discriminate|]. destruct (Parse layout_bad (firstn 25 s)) as [t|] eqn:P; [|discriminate].
    destruct (length s <? 25 + 1)%nat eqn:L2; [discriminate|]. intros H. apply Ok_inj in H. rewrite <- H. cbn [la_success la_user la_start la_host].
    pose proof (firstn_skipn 25 s) as E. destruct (skipn 25 s) as [|x host] eqn:K; [apply (f_equal (@length byte)) in K; rewrite skipn_length in K; cbn in K; lia|].
    exists (firstn 25 s), x, host. split; [now symmetry|]. split; [rewrite firstn_length; lia|]. split; [reflexivity|]. split; [now apply TrimSpace_spec|].
    split; [now apply Parse_bad|]. assert (Lf : length (firstn 25 s) = 25%nat) by (rewrite firstn_length; lia).
    assert (X : skipn (25 + 1) s = host).
    { rewrite <- E at 1. rewrite skipn_app, skipn_all2 by (rewrite Lf; lia). rewrite Lf. reflexivity. }
    rewrite X. now apply TrimLeft_spec.
  - intros (tm & x & host & -> & Lt & Su & U & T & H). rewrite app_length, Lt. cbn [length].
    replace (25 + S (length host) <? 25)%nat with false by lia. rewrite firstn_app, Lt, Nat.sub_diag, firstn_O, app_nil_r, <- Lt, firstn_all.
    apply Parse_bad in T. rewrite T. replace (length tm + S (length host) <? length tm + 1)%nat with false by lia.
    rewrite skipn_app, skipn_all2 by lia. replace (length tm + 1 - length tm)%nat with 1%nat by lia. cbn [app skipn].
    apply TrimLeft_spec in H. apply TrimSpace_spec in U. rewrite H, U, <- Su. destruct e; reflexivity.
Qed.
(** A line is read as an entry exactly if it spells that entry. *)
Theorem C34_line_read_exactly : forall line e, UnmarshalText line = Ok e <-> attempt_line line e.
Proof.
  intros line e. unfold UnmarshalText, UserIDLength, attempt_line. destruct line as [|b s].
  { split; [discriminate|]. intros [(c & user & tm & x & host & H & _)|(tm & x & host & H & _)]; [discriminate H|]. destruct tm; discriminate H. }
  assert (K : forall success, (if (length s <? 12)%nat then Panic else unmarshal_rest success (firstn 12 s) (skipn 12 s)) = Ok e <->
    exists user tm x host, s = user ++ tm ++ x :: host /\ length user = 12%nat /\ length tm = 25%nat /\ la_success e = success /\
      trimmed user (la_user e) /\ spells_bracketed tm (la_start e) /\ host_of host (la_host e)).
  { intros success. split.
    - destruct (length s <? 12)%nat eqn:L; [discriminate|]. intros H. apply rest_spec in H as (tm & x & host & E & Lt & Su & U & T & H).
      exists (firstn 12 s), tm, x, host. rewrite <- E. split; [now rewrite firstn_skipn|]. split; [rewrite firstn_length; lia|]. auto.
    - intros (user & tm & x & host & -> & Lu & Lt & Su & U & T & H). rewrite app_length, Lu. replace (12 + _ <? 12)%nat with false by lia.
      assert (K1 : forall r, skipn 12 (user ++ r) = r) by (intros r; rewrite skipn_app, skipn_all2, Lu by lia; reflexivity).
      assert (K2 : forall r, firstn 12 (user ++ r) = user) by (intros r; rewrite firstn_app, firstn_all2, Lu by lia; apply app_nil_r).
      rewrite K1, K2. apply rest_spec. exists tm, x, host. auto 10. }
  assert (NB : forall tm t x host, spells_bracketed tm t -> b :: s = tm ++ x :: host -> b = "["%byte).
  { intros tm t x host (w & sp & dn & -> & _) H. now injection H as ->. }
  destruct (Byte.eqb b " ") eqn:B1; [|destruct (Byte.eqb b "-") eqn:B2; [|destruct (Byte.eqb b "[") eqn:B3]].
  - apply byte_eqb_eq in B1. subst b. rewrite K. split.
    + intros (user & tm & x & host & -> & Lu & Lt & Su & U & T & H). left. exists " "%byte, user, tm, x, host. repeat (split; [tauto|]). exact H.
    + intros [(c & user & tm & x & host & [= <- ->] & C & Lu & Lt & U & T & H)|(tm & x & host & E & _ & _ & _ & T & _)].
      * exists user, tm, x, host. destruct C as [[_ C]|[C _]]; [tauto|discriminate C].
      * pose proof (NB _ _ _ _ T E) as Y. discriminate Y.
  - apply byte_eqb_eq in B2. subst b. rewrite K. split.
    + intros (user & tm & x & host & -> & Lu & Lt & Su & U & T & H). left. exists "-"%byte, user, tm, x, host. repeat (split; [tauto|]). exact H.
    + intros [(c & user & tm & x & host & [= <- ->] & C & Lu & Lt & U & T & H)|(tm & x & host & E & _ & _ & _ & T & _)].
      * exists user, tm, x, host. destruct C as [[C _]|[_ C]]; [discriminate C|tauto].
      * pose proof (NB _ _ _ _ T E) as Y. discriminate Y.
  - apply byte_eqb_eq in B3. subst b. rewrite rest_spec. split.
    + intros (tm & x & host & E & Lt & Su & U & T & H). right. exists tm, x, host. split; [exact E|]. split; [exact Su|]. split; [|tauto].
      apply (trimmed_fun [] _ _ U). apply TrimSpace_spec. reflexivity.
    + intros [(c & user & tm & x & host & [= <- _] & C & _)|(tm & x & host & E & Su & U & Lt & T & H)].
      * destruct C as [[C _]|[C _]]; discriminate C.
      * exists tm, x, host. split; [exact E|]. split; [exact Lt|]. split; [exact Su|]. split; [rewrite U; apply TrimSpace_spec; reflexivity|]. now split.
  - apply byte_eqb_neq in B1, B2, B3. split; [discriminate|].
    intros [(c & user & tm & x & host & [= <- _] & C & _)|(tm & x & host & E & _ & _ & _ & T & _)].
    + destruct C as [[C _]|[C _]]; contradiction.
    + exfalso. exact (B3 (NB _ _ _ _ T E)).
Qed.
Print Assumptions C34_line_read_exactly.

Lemma pad_ascii u : user_id u -> pad_right 12 u = u ++ repeat " "%byte (12 - length u).
Proof.
  intros [L A]. unfold pad_right. rewrite RuneCount_ascii; [|eapply Forall_impl; [|exact A]; intros b Hb; cbv beta in *; lia]. unfold lenN. replace (N.to_nat (12 - N.of_nat (length u))) with (12 - length u)%nat by lia. reflexivity.
Qed.
Lemma repeat_white k : exists r, repeat " "%byte k = concat r /\ Forall white r.
Proof.
  exists (repeat [" "%byte] k). induction k as [|k (E & F)]; [split; constructor|]. cbn [repeat concat app]. rewrite <- E. split; [reflexivity|].
  constructor; [|exact F]. change [" "%byte] with [n2b 32]. constructor. lia.
Qed.
Lemma white_first w u b s : white w -> b :: s = w ++ u -> 33 <= b2n b <= 126 -> False.
Proof.
  intros W. apply white_spaces in W.
  assert (F : forallb (fun w => match w with b :: _ => negb ((33 <=? b2n b) && (b2n b <=? 126)) | [] => false end) spaces = true) by (vm_compute; reflexivity).
  rewrite forallb_forall in F. specialize (F w W). destruct w as [|c w]; [discriminate|]. intros [= -> _] H. lia.
Qed.
Lemma white_last w u b s : white w -> s ++ [b] = u ++ w -> 33 <= b2n b <= 126 -> False.
Proof.
  intros W. apply white_spaces in W.
  assert (F : forallb (fun w => match rev w with b :: _ => negb ((33 <=? b2n b) && (b2n b <=? 126)) | [] => false end) spaces = true) by (vm_compute; reflexivity).
  rewrite forallb_forall in F. specialize (F w W). intros E H. apply (f_equal (@rev byte)) in E. rewrite !rev_app_distr in E. cbn in E.
  destruct (rev w) as [|c r]; [discriminate|]. injection E as -> _. lia.
Qed.
Lemma user_id_trimmed u : user_id u -> trimmed (u ++ repeat " "%byte (12 - length u)) u.
Proof.
  intros [L A]. destruct (repeat_white (12 - length u)) as (r & -> & F). exists [], r. split; [reflexivity|]. split; [constructor|]. split; [exact F|]. split.
  - intros w v W E. destruct u as [|b u]; [cbn in L; lia|]. inversion A; subst. exact (white_first w v b u W E ltac:(assumption)).
  - intros w v W E. destruct u as [|b u] using rev_ind; [cbn in L; lia|]. apply Forall_app in A as [_ A]. inversion A; subst.
    exact (white_last w v b u W E ltac:(assumption)).
Qed.
(** Writing an entry and reading it back returns the entry, for every entry with a user
    id of 2 to 12 visible ASCII characters (or none, for a failure in a user's own
    file), a time to the second before the year 10000 and a host that does not start
    with '?' or '@'. *)
Theorem C34_round_trip_partial : forall e, recordable e -> UnmarshalText (MarshalText e) = Ok e.
Proof.
  intros e (U & T & H). apply C34_line_read_exactly. destruct (format_bad (la_start e) T) as [S L]. unfold MarshalText, IsUnderBbsHome, attempt_line.
  destruct U as [U|[U Su]].
  - replace (1 <? length (la_user e))%nat with true by (destruct U as [U _]; lia). left.
    exists (if la_success e then " "%byte else "-"%byte), (pad_right 12 (la_user e)), (Format layout_bad (la_start e)), " "%byte, (str "?@" ++ la_host e).
    split; [destruct (la_success e); rewrite <- !app_assoc; reflexivity|]. split; [destruct (la_success e); tauto|].
    rewrite (pad_ascii _ U). split; [rewrite app_length, repeat_length; destruct U as [U _]; lia|]. split; [exact L|].
    split; [now apply user_id_trimmed|]. split; [exact S|]. exists (str "?@"). split; [reflexivity|]. split; [|exact H].
    constructor; [now left|]. constructor; [now right|constructor].
  - right. rewrite U. change (1 <? length (@nil byte))%nat with false. cbv iota. cbn [app].
    exists (Format layout_bad (la_start e)), " "%byte, (la_host e). split; [reflexivity|]. split; [exact Su|]. split; [reflexivity|]. split; [exact L|].
    split; [exact S|]. exists []. split; [reflexivity|]. split; [constructor|exact H].
Qed.
Print Assumptions C34_round_trip_partial.
(** A file written entry by entry is read back in order. *)
Theorem C34_file_round_trip_partial : forall w path rp es,
  sane w -> names w path rp ->
  look w rp = Some (EFile (unlines (map MarshalText es))) ->
  Forall recordable es -> Forall (fun e => ~ In x0a (la_host e) /\ (forall p, la_host e <> p ++ [x0d]) /\ lenN (la_host e) < 65000) es ->
  exists w', run (OpenBadLoginFile path) w = (w', Ok es) /\ same_files w w'.
Proof.
  intros w path rp es S N L R H. destruct (scan_file_run path w rp _ S N L) as (w' & E & SF). exists w'. split; [|exact SF].
  unfold OpenBadLoginFile. rewrite run_pbind, E. unfold scan_lines.
  assert (P : Forall (fun l => ~ In x0a l /\ short_line l /\ without_cr l l) (map MarshalText es)).
  { clear - R H. induction R as [|e es Re R IH]; [constructor|]. inversion H as [|? ? He H']; subst. cbn [map]. constructor; [|now apply IH]. clear IH.
    destruct Re as (U & T & _), He as (Nl & Cr & Ln). destruct (format_bad (la_start e) T) as [Sp Lf].
    assert (NF : forall b, In b (Format layout_bad (la_start e)) -> 32 <= b2n b).
    { rewrite format_bad_eq. destruct T as (C & Y & Z). pose proof C as ((k0 & L & D) & Rh & Ri & Rs). apply month_length_m in L as [M K].
      assert (W : forall n j, (0 < j)%nat -> n < 10 ^ N.of_nat j -> forall b, In b (appendInt n j) -> 32 <= b2n b).
      { intros n j J Hn b B. destruct (appendInt_width n j J Hn) as [P _]. apply numeral_inv in P as (_ & FD & _). rewrite forallb_forall in FD. specialize (FD _ B).
        unfold is_digit in FD. lia. }
      assert (WD : forall b, In b (nth (N.to_nat (weekday (la_start e))) shortDayNames []) -> 32 <= b2n b).
      { pose proof (weekday_lt (la_start e)) as Q. generalize dependent (weekday (la_start e)). intros q Q b.
        assert (C7 : q = 0 \/ q = 1 \/ q = 2 \/ q = 3 \/ q = 4 \/ q = 5 \/ q = 6) by lia.
        decompose [or] C7; subst; cbn; intros B; repeat destruct B as [<-|B]; try contradiction; vm_compute; discriminate. }
      intros b [<-|B]; [vm_compute; discriminate|]. apply in_app_iff in B as [B|B].
      - unfold Format in B. cbn [layout_login l_chunks l_tail map concat fst snd format_std] in B. rewrite !app_nil_r in B.
        rewrite !in_app_iff in B. repeat destruct B as [B|B]; try contradiction; try (cbn in B; contradiction);
          try (rewrite <- B; vm_compute; discriminate); revert B; apply W; cbn; lia.
      - apply in_app_iff in B as [B|B]; [cbn in B; destruct B as [<-|[]]; vm_compute; discriminate|]. apply in_app_iff in B as [B|B]; [now apply WD|].
        cbn in B. destruct B as [<-|[]]; vm_compute; discriminate. }
    set (head := (if IsUnderBbsHome e then (if la_success e then str " " else str "-") ++ pad_right 12 (la_user e) else [])
      ++ Format layout_bad (la_start e) ++ str " " ++ (if IsUnderBbsHome e then str "?@" else [])).
    assert (EM : MarshalText e = head ++ la_host e) by (unfold MarshalText, head; now rewrite <- !app_assoc).
    assert (HB : forall b, In b head -> 32 <= b2n b).
    { intros b. unfold head. rewrite !in_app_iff. intros [B|[B|[B|B]]].
      - destruct (IsUnderBbsHome e) eqn:I'; [|contradiction]. destruct U as [U|[U _]]; [|unfold IsUnderBbsHome in I'; rewrite U in I'; discriminate].
        rewrite (pad_ascii _ U), !in_app_iff in B. destruct B as [B|[B|B]].
        + destruct (la_success e); cbn in B; destruct B as [<-|[]]; vm_compute; discriminate.
        + destruct U as [_ A]. rewrite Forall_forall in A. specialize (A b B). lia.
        + apply repeat_spec in B. subst. vm_compute. discriminate.
      - now apply NF.
      - cbn in B. destruct B as [<-|[]]. vm_compute. discriminate.
      - destruct (IsUnderBbsHome e); [|contradiction]. cbn in B. destruct B as [<-|[<-|[]]]; vm_compute; discriminate. }
    assert (HL : (length head <= 41)%nat).
    { unfold head. rewrite !app_length, Lf. destruct (IsUnderBbsHome e) eqn:I'; [|cbn; lia]. destruct U as [U|[U _]]; [|unfold IsUnderBbsHome in I'; rewrite U in I'; discriminate].
      rewrite (pad_ascii _ U), !app_length, repeat_length. destruct U as [U _]. destruct (la_success e); cbn [str length]; change (length (str " ")) with 1%nat; change (length (str "-")) with 1%nat; change (length (str "?@")) with 2%nat; lia. }
    rewrite EM. split; [|split].
    - rewrite in_app_iff. intros [B|B]; [|contradiction]. specialize (HB _ B). vm_compute in HB. apply HB. reflexivity.
    - unfold short_line, lenN in *. rewrite app_length. lia.
    - right. split; [reflexivity|]. intros p X. destruct (la_host e) as [|b h] eqn:Eh using rev_ind.
      + rewrite app_nil_r in X. assert (B : In x0d head) by (rewrite X; apply in_or_app; right; now left). specialize (HB _ B). vm_compute in HB. apply HB. reflexivity.
      + rewrite app_assoc in X. apply app_inj_tail in X as [_ ->]. exact (Cr _ eq_refl). }
  assert (T : text (unlines (map MarshalText es)) (map MarshalText es)).
  { exists (map MarshalText es), []. rewrite !app_nil_r. split; [reflexivity|]. split; [|reflexivity]. apply Forall_app. split; [|constructor; [intros []|constructor]].
    eapply Forall_impl; [|exact P]. intros l (A1 & A2 & A3). exact A1. }
  rewrite (raw_lines_text _ _ T), scan_short by (eapply Forall_impl; [|exact P]; intros l (A1 & A2 & A3); assumption). cbn [run]. f_equal.
  assert (M : map drop_cr (map MarshalText es) = map MarshalText es).
  { clear - P. induction (map MarshalText es) as [|l ls IH]; [reflexivity|]. inversion P as [|? ? (_ & _ & C) P']; subst. cbn. rewrite IH by exact P'. f_equal. now apply drop_cr_spec. }
  rewrite M. apply each_ok. clear - R. induction R; cbn [map]; constructor; [now apply C34_round_trip_partial|exact IHR].
Qed.
Print Assumptions C34_file_round_trip_partial.
(** Reading a line panics exactly if the line is too short. *)
Theorem C34_panics_exactly : forall line, UnmarshalText line = Panic <-> unreadable line.
Proof.
  intros line. unfold UnmarshalText, unreadable, UserIDLength.
  assert (K : forall b u s, unmarshal_rest b u s = Panic <-> too_short s).
  { intros b u s. unfold unmarshal_rest, too_short, time_len. destruct (length s <? 25)%nat eqn:L; [split; [left; lia|reflexivity]|].
    destruct (Parse layout_bad (firstn 25 s)) as [t|] eqn:P.
    - destruct (length s <? 25 + 1)%nat eqn:L2.
      + split; [|reflexivity]. intros _. right. assert (E : length s = 25%nat) by lia. split; [exact E|]. exists t. apply Parse_bad. now rewrite <- E, firstn_all in P.
      + split; [discriminate|]. intros [H|[H _]]; lia.
    - split; [discriminate|]. intros [H|[H (t & T)]]; [lia|]. apply Parse_bad in T. rewrite <- H, firstn_all in P. congruence. }
  destruct line as [|b s]; [split; [now left|reflexivity]|].
  destruct (Byte.eqb b " ") eqn:B1; [|destruct (Byte.eqb b "-") eqn:B2; [|destruct (Byte.eqb b "[") eqn:B3]].
  - apply byte_eqb_eq in B1. subst b. split.
    + intros H. right. right. exists " "%byte, s. split; [reflexivity|]. split; [tauto|]. destruct (length s <? 12)%nat eqn:L; [left; lia|right; now apply K in H].
    + intros [H|[(x & Q & _)|(c & x & [= <- <-] & _ & H)]]; [discriminate H|discriminate Q|]. destruct (length s <? 12)%nat eqn:L; [reflexivity|]. apply K. destruct H; [lia|assumption].
  - apply byte_eqb_eq in B2. subst b. split.
    + intros H. right. right. exists "-"%byte, s. split; [reflexivity|]. split; [tauto|]. destruct (length s <? 12)%nat eqn:L; [left; lia|right; now apply K in H].
    + intros [H|[(x & Q & _)|(c & x & [= <- <-] & _ & H)]]; [discriminate H|discriminate Q|]. destruct (length s <? 12)%nat eqn:L; [reflexivity|]. apply K. destruct H; [lia|assumption].
  - apply byte_eqb_eq in B3. subst b. rewrite K. split.
    + intros H. right. left. now exists s.
    + intros [H|[(x & _ & H)|(c & x & [= <- <-] & C & _)]]; [discriminate H|exact H|destruct C; discriminate].
  - apply byte_eqb_neq in B1, B2, B3. split; [discriminate|]. intros [H|[(x & [= -> _] & _)|(c & x & [= <- <-] & C & _)]]; [discriminate H|contradiction|destruct C; contradiction].
Qed.
Print Assumptions C34_panics_exactly.
(** "Parsing never panics" and "the same entry" are false. *)
Theorem C34_never_panics_refuted : exists line, UnmarshalText line = Panic.
Proof. exists []. reflexivity. Qed.
Print Assumptions C34_never_panics_refuted.
Definition jan1 : time := Time 2021 1 1 10 8 56 0.
Theorem C34_short_id_lost_refuted : exists e e',
  length (la_user e) = 1%nat /\ MarshalText e = str "[01/01/2021 10:08:56 Fri] 172.22.0.1" /\
  UnmarshalText (MarshalText e) = Ok e' /\ la_user e' = [] /\ la_success e = true /\ la_success e' = false.
Proof.
  exists (Attempt true (str "a") jan1 (str "172.22.0.1")), (Attempt false [] jan1 (str "172.22.0.1")). repeat split; vm_compute; reflexivity.
Qed.
Print Assumptions C34_short_id_lost_refuted.
Theorem C34_host_changed_refuted : exists e e',
  user_id (la_user e) /\ UnmarshalText (MarshalText e) = Ok e' /\ la_host e = str "@host" /\ la_host e' = str "host".
Proof.
  exists (Attempt true (str "SYSOP") jan1 (str "@host")), (Attempt true (str "SYSOP") jan1 (str "host")).
  split; [split; [cbn; lia|repeat constructor; vm_compute; discriminate]|]. split; [vm_compute; reflexivity|]. split; reflexivity.
Qed.
Print Assumptions C34_host_changed_refuted.
(** The weekday that is written is the right one: 1 January 1970 was a Thursday, and the
    weekday moves on by one from each day to the next, for ever. *)
Theorem C34_weekday : forall t t',
  (date_of t = (1970, 1, 1) -> weekday t = 4) /\
  (1 <= t_day t -> 1 <= t_month t -> next_day (date_of t) (date_of t') -> weekday t' = (weekday t + 1) mod 7) /\
  Format layout_bad t = "["%byte :: Format layout_login t ++ str " " ++ nth (N.to_nat (weekday t)) (map str ["Sun"; "Mon"; "Tue"; "Wed"; "Thu"; "Fri"; "Sat"]%string) [] ++ str "]".
Proof.
  intros t t'. split; [|split].
  - destruct t as [y m d h i s n]. unfold date_of. cbn [t_year t_month t_day]. intros [= -> -> ->]. reflexivity.
  - intros D M H. unfold weekday. rewrite (day_number_next t t' D M H), N.add_mod_idemp_l by lia. f_equal. lia.
  - apply format_bad_eq.
Qed.
Print Assumptions C34_weekday.
Example C34_nonvacuous :
  let e := Attempt false (str "test03") (Time 2021 1 12 13 14 15 0) (str "1.2.3.4") in
  recordable e /\ MarshalText e = str "-test03      [01/12/2021 13:14:15 Tue] ?@1.2.3.4" /\
  next_day (2020, 2, 28) (2020, 2, 29) /\
  unreadable (str "-test03      [01/12/2021 13:14:15 Tue]") /\ UnmarshalText (str "-test03      [01/12/2021 13:14:65 Tue]") = Err EBadTime /\
  snd (run (OpenBadLoginFile (str "/bbs/logins")) (login_world (unlines [MarshalText e; MarshalText e]))) = Ok [e; e].
Proof.
  split; [split; [left; split; [cbn; lia|repeat constructor; vm_compute; discriminate]|split; [split; [|split; [cbn; lia|reflexivity]]|]]|].
  - split; [exists 31; split; [constructor|cbn; lia]|cbn; lia].
  - intros b h [= <- <-]. split; discriminate.
  - split; [vm_compute; reflexivity|]. split; [apply (NextDay 2020 2 28 29); [constructor; apply isLeap_spec; reflexivity|lia]|].
    split; [apply C34_panics_exactly; vm_compute; reflexivity|]. split; vm_compute; reflexivity.
Qed.
