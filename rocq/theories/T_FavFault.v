(** * Property theorems: C81 (favourites read from a disk that fails) *)
From Coq Require Import Lia ZifyBool ZifyNat ZifyN.
From Verif Require Import M_Base M_Sys M_Path M_Board M_FileOps M_DB M_Fav M_Fault.
From Verif Require Import S_World S_Path S_Layout S_Board S_Store S_Fault S_Service S_ServiceFault S_Fav S_Example S_ExWorld.
From Verif Require Import P_Base P_Layout P_Records P_Sys P_Read P_Path P_Store P_Fav P_Crash P_Scan P_BbsTool P_Fault.
From Verif Require Import T_Records T_Path T_BoardList T_Store T_Fav T_Fault T_ServiceFault.
Open Scope N_scope.

(** The name of a record read from zero bytes. *)
Definition no_name (cd : codec) (n : bytes) : Prop := n = dec cd [].
(** Every board number in the tree is a place in this list of names. *)
Definition numbers_in (names : list bytes) (t : list entry) : Prop := Forall (fun bid => 0 < bid <= lenN names) (tree_boards t).

Lemma blank_board_name cd b : blank_board cd b -> no_name cd (bh_name b).
Proof.
  intros ((s & (v & (a & z & E & _) & N & C) & ->) & _). unfold no_name. f_equal. destruct s as [|c s]; [reflexivity|]. exfalso. apply N. left.
  apply (repeat_spec 256). rewrite E. apply in_app_iff. right. apply in_app_iff. left. destruct C as [->|(t & ->)]; now left.
Qed.
Lemma filled_names cd bs bs' : filled (blank_board cd) bs bs' -> filled (no_name cd) (map bh_name bs) (map bh_name bs').
Proof. induction 1 as [|a l l' _ IH|a l l' B _ IH]; cbn [map]; [constructor|now constructor|]. constructor 3; [now apply blank_board_name|exact IH]. Qed.
Lemma filled_length {A} (Q : A -> Prop) l l' : filled Q l l' -> (length l <= length l')%nat.
Proof. induction 1; cbn [length]; lia. Qed.

Lemma frun_close_if {A} closes fd (a : A) w w' r : frun (close_if closes fd (Ret a)) w w' r -> r = a.
Proof. destruct closes; cbn [close_if frun]; [intros (w1 & x & _ & _ & ->); reflexivity|intros [_ ->]; reflexivity]. Qed.
Lemma loop_bound {A} size (decode : bytes -> outcome A) closes fuel fd : forall acc w w' l,
  frun (read_loop size decode false closes fuel fd acc) w w' (Ok l) -> (length l <= length acc + fuel)%nat.
Proof.
  induction fuel as [|fuel IH]; intros acc w w' l H; cbn [read_loop frun] in H; [destruct H as [_ H]; discriminate H|].
  destruct H as (w1 & r & _ & H).
  assert (G : forall b, frun match decode b with
              | Ok a => read_loop size decode false closes fuel fd (a :: acc)
              | Err e => close_if closes fd (Ret (Err e))
              | Panic => close_if closes fd (Ret Panic)
              | Diverge => Ret Diverge
              end w1 w' (Ok l) -> (length l <= length acc + S fuel)%nat).
  { intros b K. destruct (decode b) as [a|e| |].
    - apply IH in K. cbn [length] in K. lia.
    - apply frun_close_if in K. discriminate K.
    - apply frun_close_if in K. discriminate K.
    - destruct K as [_ K]. discriminate K. }
  destruct r as [[|c d]|e].
  - apply frun_close_if in H. injection H as ->. rewrite rev_length. lia.
  - exact (G _ H).
  - exact (G _ H).
Qed.
Lemma records_bound {A} size (decode : bytes -> outcome A) closes fuel p w w' l :
  frun (open_records size decode false closes fuel p) w w' (Ok l) -> (length l <= fuel)%nat.
Proof.
  intros H. cbn [open_records frun] in H. destruct H as (w1 & [fd|e] & _ & H); [|destruct H as [_ H]; discriminate H].
  exact (loop_bound _ _ _ _ _ _ _ _ _ H).
Qed.
Lemma reader_favourites cd fuel wd u : reader (ReadUserFavoriteRecords cd fuel wd u).
Proof.
  unfold ReadUserFavoriteRecords. apply reader_pbind; [apply reader_lift|]. intros p. unfold ReadUserFavoriteRecordsFile. split; [exact I|]. intros [x|e]; [|exact I].
  apply reader_pbind; [unfold OpenFavFile; apply reader_pbind; [rewrite read_file_shape; apply reader_read_all|intros d; apply reader_lift]|]. intros f.
  apply reader_pbind; [apply reader_lift|]. intros q. apply reader_pbind; [apply reader_open_records|]. intros l. destruct (ff_folder f); exact I.
Qed.

(** What reading the favourites of a user comes to, whatever fails meanwhile, if it comes
    to an end.  Nothing on the disk has changed.  The answer is
    - no entries at all (there is no file, or the disk did not say whether there is one);
    - the error of the disk, of a missing list of boards, or of a file that does not hold
      favourites;
    - or the whole tree, each board with the name at its number in a list of names that
      has all names of the boards in their order and empty names at any places; if a
      number is not in this list, the call panics. *)
Theorem C81_result : forall cd fuel wd w w' u rp old bs o,
  sane w -> holds_file w wd (Favourites u) rp old -> boards_of cd w wd bs ->
  (forall d, old = Some d -> (length d < fuel)%nat) -> N.of_nat fuel < 4294967295 ->
  frun (ReadUserFavoriteRecords cd fuel wd u) w w' o -> o <> Diverge ->
  same_files w w' /\
  (o = Ok [] \/ o = Err (ESys EIO) \/
   (exists rb, holds_file w wd Boards rb None /\ o = Err (ESys ENOENT)) \/
   (exists d e, old = Some d /\ o = Err e /\ forall v t p x, d = p ++ x -> ~ fav_file cd counts_sum v t p) \/
   exists d v t p x names, old = Some d /\ d = p ++ x /\ fav_file cd counts_sum v t p /\ filled (no_name cd) (map bh_name bs) names /\
     ((numbers_in names t /\ exists items, o = Ok items /\ Forall2 (seen names) items t) \/
      (~ numbers_in names t /\ o = Panic))).
Proof.
  intros cd fuel wd w w' u rp old bs o S (p & E & N & D & L) B Hf H32 H ND. cbn [object_path] in E.
  split; [exact (frun_reader _ (reader_favourites cd fuel wd u) _ _ _ H)|].
  unfold ReadUserFavoriteRecords in H. rewrite E in H. change (frun (ReadUserFavoriteRecordsFile cd fuel wd p) w w' o) in H.
  unfold ReadUserFavoriteRecordsFile in H. cbn [frun] in H. destruct H as (w1 & r & X & H).
  destruct r as [st|e]; [|left; destruct H as [_ ->]; reflexivity].
  destruct X as [X|X]; [|cbn [fails] in X; destruct X as [_ X]; discriminate X].
  destruct old as [d|]; cbn [option_map] in L; [|rewrite (stat_missing p w rp N L) in X; discriminate X].
  rewrite (stat_file p w rp d N L) in X. injection X as <- _. specialize (Hf d eq_refl).
  unfold pbind in H at 1. apply frun_bind in H. destruct H as (w1 & o1 & H1 & H).
  unfold OpenFavFile in H1. rewrite read_file_shape in H1. unfold pbind in H1. apply frun_bind in H1. destruct H1 as (w2 & o2 & H1 & H2).
  pose proof (frun_reader _ (reader_read_all p) _ _ _ H1) as F1. pose proof (frun_sane _ _ _ _ S H1) as S1.
  destruct (checked_frun _ (checked_open_read_all p) _ _ _ H1) as [R|(-> & _)].
  2:{ right. left. destruct H2 as [-> ->]. destruct H as [_ ->]. reflexivity. }
  destruct (open_read_all_file p w rp d S N L) as (w3 & R3 & _). rewrite R in R3. injection R3 as _ ->. clear R.
  cbn [frun lift] in H2. destruct H2 as [-> ->].
  destruct (C20_loading_is_total cd fuel read_spare d) as [(f & v0 & t0 & U & _)|(e & U)]; [unfold read_spare; lia|exact Hf| |].
  2:{ rewrite U in H. destruct H as [_ ->]. right. right. right. left. exists d, e. split; [reflexivity|]. split; [reflexivity|].
      intros v t q x -> Fv. destruct (C20_every_laid_out_file_is_loaded cd fuel read_spare v t q x Fv) as (f & U' & _); [rewrite app_length in Hf; lia|]. rewrite U in U'. discriminate U'. }
  rewrite U in H.
  destruct (C20_a_loaded_file_starts_the_data _ _ _ _ _ U) as (v & t & q & x & Eq & Fv & (_ & g & Eg & Tg)).
  rewrite Eg in H. destruct B as (rb & od & ss & HB & Sl & FB). pose proof (same_holds _ _ _ _ _ _ F1 HB) as (p2 & E2 & N2 & D2 & L2). cbn [object_path] in E2.
  unfold pbind in H at 1. rewrite E2 in H. cbn [lift bind] in H. unfold pbind in H. apply frun_bind in H. destruct H as (w4 & o4 & H4 & H).
  assert (N4 : o4 <> Diverge) by (intros ->; destruct H as [_ ->]; now apply ND).
  assert (DD : forall s, N.of_nat (length s) = 256 -> exists a, UnmarshalBoardHeader cd s = Ok a /\ board_decoded cd s a) by (intros s Ls; apply board_decode; unfold lenN; lia).
  destruct (lookup_listing (board_decoded cd) _ BoardList 256 false fuel p2 w2 w4 o4 rb od eq_refl DD S1 N2 L2 D2 H4 N4) as [[-> ->]|[->|(b & l & -> & (s1 & s2 & Q1 & P & F2) & ->)]].
  - destruct H as [_ ->]. right. right. left. exists rb. split; [exact HB|reflexivity].
  - destruct H as [_ ->]. right. left. reflexivity.
  - right. right. right. right. cbn [old_or_empty] in Sl. assert (s1 = ss) by (apply (slots_unique 256 b); [lia|exact Q1|exact Sl]). subst s1.
    assert (FL : filled (blank_board cd) bs l).
    { apply (filled_of (board_decoded cd)) with (ss := ss) (ss' := s2); [|exact P|exact FB|exact F2]. intros y a a' A A'. exact (board_decoded_fun cd y a' a A' A). }
    pose proof (records_bound _ _ _ _ _ _ _ _ H4) as LB.
    assert (Hl : lenN l < 4294967295) by (unfold lenN; lia).
    pose proof Fv as (ver & q' & _ & _ & _ & Ly). destruct (append_spec l g Hl t Tg (layout_bids _ _ _ _ Ly)) as [A B].
    exists d, v, t, q, x, (map bh_name l). split; [reflexivity|]. split; [exact Eq|]. split; [exact Fv|]. split; [exact (filled_names cd bs l FL)|].
    unfold numbers_in. assert (EL : lenN (map bh_name l) = lenN l) by (unfold lenN; now rewrite map_length). rewrite EL.
    destruct (Forall_dec _ (in_list_dec l) (tree_boards t)) as [Y|Y].
    + left. split; [exact Y|]. destruct (A Y) as (f' & A' & Sn & _). rewrite A' in H. destruct H as [_ ->]. eexists. split; [reflexivity|exact Sn].
    + right. split; [exact Y|]. rewrite (B Y) in H. destruct H as [_ ->]. reflexivity.
Qed.
Print Assumptions C81_result.

(** A name that is shown is empty, or the name of a board at this place of the list or at
    an earlier one; the tree itself is the tree of the file. *)
Lemma filled_nth {A} (Q : A -> Prop) l l' : filled Q l l' -> forall k a, nth_error l' k = Some a -> Q a \/ exists j, (j <= k)%nat /\ nth_error l j = Some a.
Proof.
  induction 1 as [|b l l' F IH|b l l' B F IH]; intros k a E.
  - destruct k; discriminate E.
  - destruct k as [|k]; cbn [nth_error] in E; [right; exists 0%nat; split; [lia|exact E]|]. destruct (IH k a E) as [X|(j & J & X)]; [now left|]. right. exists (S j). split; [lia|exact X].
  - destruct k as [|k]; cbn [nth_error] in E; [injection E as <-; now left|]. destruct (IH k a E) as [X|(j & J & X)]; [now left|]. right. exists j. split; [lia|exact X].
Qed.
Theorem C81_shown : forall cd fuel wd w w' u rp old bs items,
  sane w -> holds_file w wd (Favourites u) rp old -> boards_of cd w wd bs ->
  (forall d, old = Some d -> (length d < fuel)%nat) -> N.of_nat fuel < 4294967295 ->
  frun (ReadUserFavoriteRecords cd fuel wd u) w w' (Ok items) -> items <> [] ->
  exists v t p x names, old = Some (p ++ x) /\ fav_file cd counts_sum v t p /\ Forall2 (seen names) items t /\
    forall k n, nth_error names k = Some n -> no_name cd n \/ exists j, (j <= k)%nat /\ nth_error (map bh_name bs) j = Some n.
Proof.
  intros cd fuel wd w w' u rp old bs items S HF HB Hf H32 H NE.
  destruct (C81_result cd fuel wd w w' u rp old bs (Ok items) S HF HB Hf H32 H) as (_ & [X|[X|[(rb & _ & X)|[(d & e & _ & X & _)|(d & v & t & p & x & names & -> & -> & Fv & Fi & [(_ & i & X & Sn)|(_ & X)])]]]]);
    try discriminate X; [discriminate|injection X as ->; now destruct NE|].
  injection X as <-. exists v, t, p, x, names. split; [reflexivity|]. split; [exact Fv|]. split; [exact Sn|]. exact (filled_nth _ _ _ Fi).
Qed.
Print Assumptions C81_shown.

(** Failures of the disk do not make it panic: it panics only with favourites that have a
    board number that is not in the list of boards, as without failures (C21). *)
Theorem C81_panics : forall cd fuel wd w w' u rp old bs,
  sane w -> holds_file w wd (Favourites u) rp old -> boards_of cd w wd bs ->
  (forall d, old = Some d -> (length d < fuel)%nat) -> N.of_nat fuel < 4294967295 ->
  frun (ReadUserFavoriteRecords cd fuel wd u) w w' Panic ->
  exists v t p x, old = Some (p ++ x) /\ fav_file cd counts_sum v t p /\ ~ numbers_in (map bh_name bs) t.
Proof.
  intros cd fuel wd w w' u rp old bs S HF HB Hf H32 H.
  destruct (C81_result cd fuel wd w w' u rp old bs Panic S HF HB Hf H32 H) as (_ & [X|[X|[(rb & _ & X)|[(d & e & _ & X & _)|(d & v & t & p & x & names & -> & -> & Fv & Fi & [(_ & i & X & Sn)|(X & _)])]]]]);
    try discriminate X; [discriminate|].
  exists v, t, p, x. split; [reflexivity|]. split; [exact Fv|]. intros Y. apply X. apply filled_length in Fi. unfold numbers_in in *.
  eapply Forall_impl; [|exact Y]. cbn beta. unfold lenN. intros a. lia.
Qed.
Print Assumptions C81_panics.

(** ** What is false *)

(** Two boards, SYSOP and test, and favourites with the second one. *)
Definition second_board : bytes := put 0 13 (str "test" ++ repeat x00 9) (BoardHeader_MarshalBinary id_codec sample_board).
Definition second_fav : bytes :=
  match marshal_favfile id_codec (MkFavFile 3504 (Some (MkFavFolder 0 0 1 0 0 0 0 [MkFavItem 1 1 (PBoard 2 0 0 [])]))) with Ok d => d | _ => [] end.
Definition mixed_world : world :=
  world_of (sample_tree ++ [(S_ExWorld.rp ["bbs"; "home"; "p"; "pichu"; ".fav"]%string, NFile 4)])
    [[]; str "hello"; str "draft text"; BoardHeader_MarshalBinary id_codec sample_board ++ second_board; second_fav].
Lemma mixed_sane : sane mixed_world.
Proof. apply saneb_sane. vm_compute. reflexivity. Qed.
Lemma mixed_holds :
  holds_file mixed_world sample_wd (Favourites (str "pichu")) (S_ExWorld.rp ["bbs"; "home"; "p"; "pichu"; ".fav"]%string) (Some second_fav) /\
  holds_file mixed_world sample_wd Boards (S_ExWorld.rp ["bbs"; ".BRD"]%string) (Some (BoardHeader_MarshalBinary id_codec sample_board ++ second_board)).
Proof.
  split; (eexists; split; [reflexivity|]; split; [split; [split; [discriminate|no_nul]|vm_compute; reflexivity]|]; split; vm_compute; reflexivity).
Qed.
Definition first_name (o : outcome (list FavItem)) : bytes := match o with Ok (i :: _) => match fi_BoardID i with Ok n => n | _ => [] end | _ => [] end.

(** False: "what is given without an error is what the call gives on a disk that does not
    fail".  Neither are the entries there... *)
Definition C81_kept_statement : Prop := forall cd fuel wd w w' u rp d rb b items items',
  sane w -> holds_file w wd (Favourites u) rp (Some d) -> holds_file w wd Boards rb (Some b) ->
  snd (run (ReadUserFavoriteRecords cd fuel wd u) w) = Ok items ->
  frun (ReadUserFavoriteRecords cd fuel wd u) w w' (Ok items') -> length items' = length items.
Theorem C81_lost_refuted : ~ C81_kept_statement.
Proof.
  intros H. set (P := ReadUserFavoriteRecords id_codec 600 sample_wd (str "pichu")).
  destruct (snd (run P mixed_world)) as [items| | |] eqn:E; try (exfalso; revert E; vm_compute; discriminate).
  assert (Ln : match snd (run P mixed_world) with Ok l => length l | _ => 0%nat end = 1%nat) by (vm_compute; reflexivity). rewrite E in Ln.
  destruct mixed_holds as [H1 H2].
  assert (F : frun P mixed_world (fst (fault_at [Some 0%nat] P mixed_world)) (Ok [])) by (apply fault_frun; vm_compute; reflexivity).
  pose proof (H _ _ _ _ _ _ _ _ _ _ _ _ mixed_sane H1 H2 E F) as X. rewrite Ln in X. discriminate X.
Qed.
Print Assumptions C81_lost_refuted.

(** ... nor are the names those of the boards: after a failed read the favourites show the
    name of the board before the right one. *)
Definition C81_names_statement : Prop := forall cd fuel wd w w' u rp d rb b items items',
  sane w -> holds_file w wd (Favourites u) rp (Some d) -> holds_file w wd Boards rb (Some b) ->
  snd (run (ReadUserFavoriteRecords cd fuel wd u) w) = Ok items ->
  frun (ReadUserFavoriteRecords cd fuel wd u) w w' (Ok items') -> items' = [] \/ map fi_BoardID items' = map fi_BoardID items.
Theorem C81_wrong_board_refuted : ~ C81_names_statement.
Proof.
  intros H. set (P := ReadUserFavoriteRecords id_codec 600 sample_wd (str "pichu")). set (x := fault_at [None; None; None; None; None; Some 0%nat] P mixed_world).
  assert (N1 : first_name (snd (run P mixed_world)) = str "test") by (vm_compute; reflexivity).
  assert (N2 : first_name (snd x) = str "SYSOP") by (vm_compute; reflexivity).
  destruct (snd (run P mixed_world)) as [items| | |] eqn:E; try discriminate N1. destruct (snd x) as [items'| | |] eqn:E'; try discriminate N2.
  destruct mixed_holds as [H1 H2].
  destruct (H _ _ _ _ _ _ _ _ _ _ _ _ mixed_sane H1 H2 E (fault_frun _ _ _ _ E')) as [->|X]; [clear - N2; discriminate N2|].
  clear - X N1 N2. destruct items as [|i l]; [discriminate N1|]. destruct items' as [|i' l']; [discriminate N2|].
  cbn [map first_name] in *. injection X as X _. rewrite X, N1 in N2. discriminate N2.
Qed.
Print Assumptions C81_wrong_board_refuted.

(** The hypotheses of the theorems hold of this world. *)
Example C81_nonvacuous : exists bs,
  sane mixed_world /\ boards_of id_codec mixed_world sample_wd bs /\ map bh_name bs = [str "SYSOP"; str "test"] /\
  (exists rp, holds_file mixed_world sample_wd (Favourites (str "pichu")) rp (Some second_fav)) /\ (length second_fav < 600)%nat /\
  (exists w' items, frun (ReadUserFavoriteRecords id_codec 600 sample_wd (str "pichu")) mixed_world w' (Ok items) /\ items <> []) /\
  exists w', frun (ReadUserFavoriteRecords id_codec 600 sample_wd (str "pichu")) mixed_world w' (Err (ESys EIO)).
Proof.
  destruct mixed_holds as [H1 H2].
  destruct (board_decode id_codec (BoardHeader_MarshalBinary id_codec sample_board)) as (b1 & E1 & D1); [vm_compute; discriminate|].
  destruct (board_decode id_codec second_board) as (b2 & E2 & D2); [vm_compute; discriminate|].
  exists [b1; b2]. split; [exact mixed_sane|]. split.
  - eexists _, _, [_; _]. split; [exact H2|]. cbn [old_or_empty]. split; [|constructor; [exact D1|constructor; [exact D2|constructor]]].
    split; [constructor; [vm_compute; reflexivity|constructor; [vm_compute; reflexivity|constructor]]|]. exists 0%nat. split; [cbn [concat repeat]; now rewrite !app_nil_r|apply Nat.lt_0_succ].
  - split; [|split; [eexists; exact H1|split; [vm_compute; lia|split]]].
    + assert (X : match UnmarshalBoardHeader id_codec (BoardHeader_MarshalBinary id_codec sample_board), UnmarshalBoardHeader id_codec second_board with
        | Ok a, Ok b => [bh_name a; bh_name b] | _, _ => [] end = [str "SYSOP"; str "test"]) by (vm_compute; reflexivity).
      rewrite E1, E2 in X. exact X.
    + set (P := ReadUserFavoriteRecords id_codec 600 sample_wd (str "pichu")).
      assert (N1 : first_name (snd (run P mixed_world)) = str "test") by (vm_compute; reflexivity).
      destruct (snd (run P mixed_world)) as [items| | |] eqn:E; try discriminate N1. exists (fst (run P mixed_world)), items. split; [rewrite <- E; apply frun_run|].
      clear - N1. intros ->. discriminate N1.
    + eexists. apply (fault_frun [None; Some 0%nat]). vm_compute. reflexivity.
Qed.
