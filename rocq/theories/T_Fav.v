(** * Property theorems about favourites: C19, C20, C21 *)
From Coq Require Import Lia ZifyBool ZifyNat ZifyN.
From Verif Require Import M_Base M_Sys M_Path M_Board M_FileOps M_DB M_Fav.
From Verif Require Import S_World S_Path S_Layout S_Store S_Fav S_Example S_ExWorld.
From Verif Require Import P_Base P_Layout P_Records P_Sys P_Read P_Path P_Store P_Fav.
From Verif Require Import T_Records T_Path T_BoardList T_Store.
Open Scope N_scope.

(** ** C20: loading any bytes *)

(** Loading ends with a tree or an error, whatever the bytes are. *)
Theorem C20_loading_is_total : forall cd fuel spare d,
  2 <= lenN d + spare -> (length d < fuel)%nat ->
  (exists f v t, UnmarshalFavFile cd fuel spare d = Ok f /\ says f v t) \/
  (exists e, UnmarshalFavFile cd fuel spare d = Err e).
Proof.
  intros cd fuel spare d Hs Hf. unfold UnmarshalFavFile. destruct (_ <? 2) eqn:E; [lia|].
  destruct (lenN d <? 2) eqn:E2.
  - right. destruct fuel as [|fuel]; [lia|]. cbn [UnmarshalFavFolder]. destruct (lenN d <? 2 + 4) eqn:E4; [|lia]. eexists. reflexivity.
  - destruct (split_at d 2) as (ver & p & -> & Lv); [lia|].
    pose proof (folder_clean cd fuel ver p) as C. rewrite Lv in C. rewrite app_length in Hf. specialize (C ltac:(lia)).
    destruct (UnmarshalFavFolder cd fuel (ver ++ p) 2) as [[g c]| | |] eqn:U; cbn in C; try contradiction.
    + left. cbn [obind]. rewrite <- Lv in U. destruct (folder_sound cd fuel (ver ++ p) ver p g c eq_refl U) as (t & q & x & _ & _ & _ & T).
      eexists _, _, t. split; [reflexivity|]. split; [reflexivity|]. exists g. auto.
    + right. eexists. reflexivity.
Qed.
Print Assumptions C20_loading_is_total.

(** Data are accepted exactly when they start with a laid-out file. *)
Theorem C20_a_loaded_file_starts_the_data : forall cd fuel spare d f,
  UnmarshalFavFile cd fuel spare d = Ok f ->
  exists v t p x, d = p ++ x /\ fav_file cd counts_sum v t p /\ says f v t.
Proof.
  intros cd fuel spare d f H. unfold UnmarshalFavFile in H. destruct (_ <? 2) eqn:E; [discriminate|].
  destruct (lenN d <? 2) eqn:E2.
  { exfalso. destruct fuel as [|fuel]; [discriminate|]. cbn [UnmarshalFavFolder] in H. destruct (lenN d <? 2 + 4) eqn:E4; [discriminate|lia]. }
  destruct (split_at d 2) as (ver & q & -> & Lv); [lia|].
  destruct (UnmarshalFavFolder cd fuel (ver ++ q) 2) as [[g c]| | |] eqn:U; try discriminate. cbn [obind] in H. injection H as <-.
  rewrite <- Lv in U. destruct (folder_sound cd fuel (ver ++ q) ver q g c eq_refl U) as (t & p & x & -> & _ & Ly & T).
  exists (le_dec (sub 0 2 (ver ++ p ++ x))), t, (ver ++ p), x. split; [apply app_assoc|]. split.
  - exists ver, p. split; [reflexivity|]. split; [exact Lv|]. split; [|exact Ly].
    apply (f_num_pre ver (p ++ x)); [lia|reflexivity].
  - split; [reflexivity|]. exists g. auto.
Qed.
Print Assumptions C20_a_loaded_file_starts_the_data.
Theorem C20_every_laid_out_file_is_loaded : forall cd fuel spare v t p x,
  fav_file cd counts_sum v t p -> (length p < fuel)%nat ->
  exists f, UnmarshalFavFile cd fuel spare (p ++ x) = Ok f /\ says f v t.
Proof.
  intros cd fuel spare v t p x (ver & q & -> & Lv & V & Ly) Hf. unfold UnmarshalFavFile.
  destruct (_ <? 2) eqn:E; [rewrite !lenN_app in E; lia|].
  rewrite app_length in Hf. destruct (folder_complete cd fuel t q Ly ltac:(lia) ver x) as (g & U & T).
  rewrite Lv, app_assoc in U. rewrite U. cbn [obind]. eexists. split; [reflexivity|]. split; [|exists g; auto].
  cbn [ff_version]. rewrite <- app_assoc. exact (f_num_app _ _ _ _ _ V).
Qed.
Print Assumptions C20_every_laid_out_file_is_loaded.

Lemma fav_cursor cd : forall v t p, fav_file cd counts_sum v t p -> forall x v' t' p' x', fav_file cd counts_sum v' t' p' -> p ++ x = p' ++ x' -> lenN p = lenN p'.
Proof.
  intros v t p (ver & q & -> & Lv & V & Ly) x v' t' p' x' (ver' & q' & -> & Lv' & V' & Ly') E.
  rewrite <- !app_assoc in E. apply app_inv_len in E as [<- E]; [|unfold lenN in *; lia].
  set (fuel := S (length q + length q')).
  destruct (folder_complete cd fuel t q Ly ltac:(lia) ver x) as (g & U & _).
  destruct (folder_complete cd fuel t' q' Ly' ltac:(lia) ver x') as (g' & U' & _).
  rewrite E in U. rewrite U in U'. injection U' as _ H. rewrite !lenN_app. lia.
Qed.
(** A proper prefix of a favourites file is an error. *)
Theorem C20_truncated_files_are_errors : forall cd fuel spare v t p q y,
  fav_file cd counts_sum v t p -> p = q ++ y -> y <> [] ->
  2 <= lenN q + spare -> (length q < fuel)%nat ->
  exists e, UnmarshalFavFile cd fuel spare q = Err e.
Proof.
  intros cd fuel spare v t p q y F E N Hs Hf. destruct (C20_loading_is_total cd fuel spare q Hs Hf) as [(f & v' & t' & U & _)|H]; [|exact H].
  exfalso. destruct (C20_a_loaded_file_starts_the_data _ _ _ _ _ U) as (v'' & t'' & p' & x & -> & F' & _).
  pose proof (fav_cursor cd v t p F [] v'' t'' p' (x ++ y) F') as L. rewrite app_nil_r in L. rewrite E in L at 1. rewrite <- app_assoc in L. specialize (L eq_refl).
  subst p. rewrite !lenN_app in L. destruct y; [contradiction|]. unfold lenN in L. cbn in L. lia.
Qed.
Print Assumptions C20_truncated_files_are_errors.
(** Bytes behind a favourites file are ignored. *)
Theorem C20_trailing_bytes_are_ignored : forall cd fuel spare d x f,
  UnmarshalFavFile cd fuel spare d = Ok f ->
  forall fuel' spare', (fuel <= fuel')%nat -> UnmarshalFavFile cd fuel' spare' (d ++ x) = Ok f.
Proof.
  intros cd fuel spare d x f H fuel' spare' Hf.
  destruct (C20_a_loaded_file_starts_the_data _ _ _ _ _ H) as (v & t & p & y & E & (ver & q & -> & Lv & _) & _).
  unfold UnmarshalFavFile in *. destruct (_ <? 2) eqn:E1; [discriminate|].
  destruct (UnmarshalFavFolder cd fuel d 2) as [[g c]| | |] eqn:U; try discriminate. cbn [obind] in H.
  rewrite (folder_ext cd _ _ _ x _ _ Hf U). cbn [obind]. rewrite sub_app_l.
  - destruct (lenN (d ++ x) + spare' <? 2) eqn:E2; [|exact H]. subst d. rewrite !lenN_app in E2. lia.
  - subst d. rewrite !lenN_app. lia.
Qed.
Print Assumptions C20_trailing_bytes_are_ignored.
(** Only a slice without room for the two version bytes makes it panic. *)
Theorem C20_panics_only_without_room : forall cd fuel spare d, (length d < fuel)%nat ->
  (UnmarshalFavFile cd fuel spare d = Panic <-> lenN d + spare < 2).
Proof.
  intros cd fuel spare d Hf. split.
  - intros H. destruct (N.lt_ge_cases (lenN d + spare) 2) as [L|L]; [exact L|].
    destruct (C20_loading_is_total cd fuel spare d L Hf) as [(f & v & t & E & _)|(e & E)]; congruence.
  - intros L. unfold UnmarshalFavFile. destruct (_ <? 2) eqn:E; [reflexivity|lia].
Qed.
Print Assumptions C20_panics_only_without_room.

(** ** C19: saving and loading *)
Theorem C19_saved_trees_are_loaded : forall cd v g t,
  tree_of g = Some t -> counters_ok g -> tree_fits cd t -> num_fits 2 v ->
  exists d, marshal_favfile cd (MkFavFile v (Some g)) = Ok d /\ fav_file cd counts_exact v t d /\
    forall fuel spare, (length d < fuel)%nat ->
    exists g', UnmarshalFavFile cd fuel spare d = Ok (MkFavFile v (Some g')) /\ tree_of g' = Some t /\ counters_ok g'.
Proof.
  intros cd v g t T C F V. destruct (folder_marshal cd g t T C F) as (p & M & Ly).
  unfold marshal_favfile. cbn [ff_folder ff_version]. rewrite M. cbn [obind].
  set (ver := put_all 2 [w16 0 v]). assert (Lv : lenN ver = 2) by (apply put_all_len; vm_compute; reflexivity).
  assert (Fv : f_num ver 0 2 v).
  { apply f_num_of; [lia|]. pose proof (all_slots 2 [w16 0 v] eq_refl) as A. fold ver in A. unfold w16 in A. cbn [allP w_off w_len w_src] in A.
    destruct A as [-> _]. now apply rt_u16. }
  exists (ver ++ p). split; [reflexivity|]. split; [exists ver, p; auto|].
  intros fuel spare Hf. unfold UnmarshalFavFile. destruct (_ <? 2) eqn:E; [rewrite lenN_app in E; lia|].
  rewrite app_length in Hf. pose proof (folder_ideal cd fuel t p Ly F ltac:(lia) ver []) as U. rewrite app_nil_r, Lv in U. rewrite U. cbn [obind].
  rewrite (f_num_app _ _ _ _ _ Fv). exists (ideal t). split; [reflexivity|]. apply ideal_ok.
Qed.
Print Assumptions C19_saved_trees_are_loaded.
(** Whatever was loaded from a saved file stays as it is, counters and numbers
    included, when it is saved and loaded again. *)
Theorem C19_saving_again_changes_nothing : forall cd v g t d fuel spare f,
  tree_of g = Some t -> counters_ok g -> tree_fits cd t -> num_fits 2 v ->
  marshal_favfile cd (MkFavFile v (Some g)) = Ok d -> UnmarshalFavFile cd fuel spare d = Ok f ->
  exists d', marshal_favfile cd f = Ok d' /\
    forall fuel' spare', (length d' < fuel')%nat -> UnmarshalFavFile cd fuel' spare' d' = Ok f.
Proof.
  intros cd v g t d fuel spare f T C F V M U.
  assert (Hload : forall g, tree_of g = Some t -> counters_ok g -> exists d, marshal_favfile cd (MkFavFile v (Some g)) = Ok d /\
    forall fuel spare, (length d < fuel)%nat -> UnmarshalFavFile cd fuel spare d = Ok (MkFavFile v (Some (ideal t)))).
  { clear - F V. intros g T C. destruct (folder_marshal cd g t T C F) as (p & M & Ly).
    unfold marshal_favfile. cbn [ff_folder ff_version]. rewrite M. cbn [obind].
    set (ver := put_all 2 [w16 0 v]). assert (Lv : lenN ver = 2) by (apply put_all_len; vm_compute; reflexivity).
    assert (Fv : f_num ver 0 2 v).
    { apply f_num_of; [lia|]. pose proof (all_slots 2 [w16 0 v] eq_refl) as A. fold ver in A. unfold w16 in A. cbn [allP w_off w_len w_src] in A.
      destruct A as [-> _]. now apply rt_u16. }
    exists (ver ++ p). split; [reflexivity|].
    intros fuel spare Hf. unfold UnmarshalFavFile. destruct (_ <? 2) eqn:E; [rewrite lenN_app in E; lia|].
    rewrite app_length in Hf. pose proof (folder_ideal cd fuel t p Ly F ltac:(lia) ver []) as U. rewrite app_nil_r, Lv in U. rewrite U. cbn [obind].
    now rewrite (f_num_app _ _ _ _ _ Fv). }
  destruct (Hload g T C) as (d0 & M0 & L0). rewrite M in M0. injection M0 as <-.
  pose proof (C20_trailing_bytes_are_ignored cd fuel spare d [] f U (fuel + S (length d)) spare ltac:(lia)) as U'.
  rewrite app_nil_r, (L0 (fuel + S (length d))%nat spare ltac:(lia)) in U'. injection U' as <-.
  destruct (ideal_ok t) as [T' C']. exact (Hload (ideal t) T' C').
Qed.
Print Assumptions C19_saving_again_changes_nothing.

(** A tree with a board, a folder that holds a board and a line, and a line. *)
Definition sub_fav : FavFolder := MkFavFolder 0 0 1 1 0 0 0
  [MkFavItem 1 1 (PBoard 2 1600000000 0 (str "unused")); MkFavItem 3 1 (PLine 9)].
Definition sample_fav : FavFolder := MkFavFolder 0 0 1 1 1 0 0
  [MkFavItem 1 1 (PBoard 1 0 7 []); MkFavItem 2 5 (PFolder 77 (str "my boards") (Some sub_fav)); MkFavItem 3 1 (PLine 4)].
Definition sample_entries : list entry :=
  [EBoard 1 1 0 7; EFolder 5 (str "my boards") [EBoard 1 2 1600000000 0; ELine 1]; ELine 1].
Definition sample_fav_bytes : bytes := match marshal_favfile id_codec (MkFavFile 3504 (Some sample_fav)) with Ok d => d | _ => [] end.
Lemma sample_fits : tree_fits id_codec sample_entries.
Proof.
  assert (B : big5_cstr_fits id_codec 49 (str "my boards")).
  { split; [reflexivity|]. split; [vm_compute; discriminate|no_nul]. }
  unfold tree_fits. split; [reflexivity|]. split; [reflexivity|]. split; [reflexivity|].
  unfold sample_entries. constructor; [|constructor; [|constructor; [|constructor]]]; cbn [entry_fits]; unfold num_fits, time_fits.
  - repeat split; try reflexivity; lia.
  - split; [reflexivity|]. split; [exact B|]. repeat split; try reflexivity; lia.
  - reflexivity.
Qed.
Example C19_nonvacuous : tree_of sample_fav = Some sample_entries /\ counters_ok sample_fav /\ tree_fits id_codec sample_entries /\
  lenN sample_fav_bytes = 96 /\ counters_ok sub_fav /\
  marshal_favfile id_codec (MkFavFile 3504 (Some sample_fav)) = Ok sample_fav_bytes.
Proof.
  split; [reflexivity|]. split; [vm_compute; repeat split|]. split; [exact sample_fits|]. split; [vm_compute; reflexivity|].
  split; [vm_compute; repeat split|]. vm_compute. reflexivity.
Qed.
(** The counters matter: with a line not counted, the saved file cannot be
    loaded. *)
Example C19_counters_needed : exists g, tree_of g = Some sample_entries /\ ~ counters_ok g /\
  match marshal_favfile id_codec (MkFavFile 3504 (Some g)) with
  | Ok d => UnmarshalFavFile id_codec 200 512 d = Err EInvalidFavType
  | _ => False
  end.
Proof.
  exists (match sample_fav with MkFavFolder a b c d e f g l => MkFavFolder a b c 0 e f g l end). split; [reflexivity|]. split.
  - intros [(_ & H & _) _]. vm_compute in H. discriminate.
  - vm_compute. reflexivity.
Qed.
Example C20_nonvacuous : fav_file id_codec counts_sum 3504 sample_entries sample_fav_bytes /\
  UnmarshalFavFile id_codec 200 512 (firstn 95 sample_fav_bytes) = Err EIndexOutOfBound.
Proof.
  split; [|vm_compute; reflexivity]. destruct C19_nonvacuous as (T & C & F & _ & _ & M).
  destruct (C19_saved_trees_are_loaded id_codec 3504 sample_fav sample_entries T C F eq_refl) as (d & M' & (ver & p & -> & Lv & V & Ly) & _).
  rewrite M in M'. injection M' as ->. exists ver, p. repeat (split; [auto|]). exact (layout_exact_sum _ _ _ Ly F).
Qed.

(** ** C21: a user's favourites, with names *)

(** The user has no favourites file: no entries. *)
Theorem C21_no_file_no_entries : forall cd fuel wd w u rp,
  sane w -> holds_file w wd (Favourites u) rp None ->
  run (ReadUserFavoriteRecords cd fuel wd u) w = (w, Ok []).
Proof.
  intros cd fuel wd w u rp S (p & E & N & D & L). cbn [object_path] in E. unfold ReadUserFavoriteRecords. rewrite run_pbind. unfold lift. rewrite E. cbn [run].
  unfold ReadUserFavoriteRecordsFile. cbn [run]. cbn [option_map] in L. now rewrite (stat_missing p w rp N L).
Qed.
Print Assumptions C21_no_file_no_entries.

(** What the call does when both files exist: [l] is the board list, the same
    that ReadBoardRecords gives. *)
Theorem C21_favourites_with_names : forall cd fuel wd w u rp d rb b,
  sane w -> holds_file w wd (Favourites u) rp (Some d) -> holds_file w wd Boards rb (Some b) ->
  (length d < fuel)%nat -> (length b < fuel)%nat -> lenN b < 2 ^ 39 ->
  exists w' l, same_files w w' /\ snd (run (ReadBoardRecords cd fuel wd) w) = Ok l /\
    ((exists e, run (ReadUserFavoriteRecords cd fuel wd u) w = (w', Err e) /\ UnmarshalFavFile cd fuel read_spare d = Err e) \/
     (exists v t p x, d = p ++ x /\ fav_file cd counts_sum v t p /\
       (Forall (fun bid => 0 < bid <= lenN l) (tree_boards t) ->
          exists items, run (ReadUserFavoriteRecords cd fuel wd u) w = (w', Ok items) /\ Forall2 (seen (map bh_name l)) items t) /\
       (~ Forall (fun bid => 0 < bid <= lenN l) (tree_boards t) ->
          run (ReadUserFavoriteRecords cd fuel wd u) w = (w', Panic)))).
Proof.
  intros cd fuel wd w u rp d rb b S (p & E & N & D & L) (p2 & E2 & N2 & D2 & L2) Hf Hb H39. cbn [object_path option_map] in *.
  assert (Hdec : decodes 256 (UnmarshalBoardHeader cd)).
  { intros x Lb. destruct (board_decode cd x) as (y & E' & _); [lia|eauto]. }
  destruct (open_read_all_file p w rp d S N L) as (w1 & R1 & S1 & F1 & _).
  assert (N2' : names w1 p2 rb). { destruct N2 as [A B]. split; [exact A|]. destruct F1 as [-> _]. exact B. }
  assert (L2' : look w1 rb = Some (EFile b)) by (destruct F1 as [_ ->]; exact L2).
  destruct (open_records_file 256 (UnmarshalBoardHeader cd) false false fuel w1 p2 rb b) as (w2 & l & R2 & G & S2 & F2 & _); auto; [reflexivity|].
  destruct (open_records_file 256 (UnmarshalBoardHeader cd) false false fuel w p2 rb b) as (w3 & l3 & R3 & G3 & _); auto; [reflexivity|].
  assert (El : l3 = l).
  { clear - G G3. revert l G. induction G3 as [|s a ss l3 H _ IH]; intros l G; inversion G; subst; [reflexivity|]. f_equal; [congruence|auto]. }
  subst l3.
  assert (Hl : lenN l < 4294967295).
  { assert (Ll : length (cut 256 b) = length l) by (eapply Forall2_len; exact G).
    destruct (cut_slots 256 b eq_refl) as (Fa & k & Ek & Hk). apply concat_length in Fa. rewrite Ek, app_length, repeat_length in Fa.
    change (N.to_nat 256) with 256%nat in *. unfold lenN in *. change (2 ^ 39) with 549755813888 in H39. lia. }
  assert (Rl : snd (run (ReadBoardRecords cd fuel wd) w) = Ok l).
  { unfold ReadBoardRecords. rewrite run_pbind. unfold lift. rewrite E2. cbn [run]. unfold OpenBoardHeaderFile. change BoardHeaderRecordLength with 256. now rewrite R3. }
  assert (Run : run (ReadUserFavoriteRecords cd fuel wd u) w =
    match UnmarshalFavFile cd fuel read_spare d with
    | Ok rec => (w2, match ff_folder rec with None => Panic | Some g => omap fav_items (appendBoardID l g) end)
    | Err e => (w1, Err e) | Panic => (w1, Panic) | Diverge => (w1, Diverge)
    end).
  { unfold ReadUserFavoriteRecords. rewrite run_pbind. unfold lift. rewrite E. cbn [run].
    unfold ReadUserFavoriteRecordsFile. cbn [run]. rewrite (stat_file p w rp d N L). rewrite run_pbind. unfold OpenFavFile. rewrite run_pbind.
    rewrite read_file_shape, R1. unfold lift. cbn [run].
    destruct (UnmarshalFavFile cd fuel read_spare d) as [rec| | |]; try reflexivity. cbn [run]. rewrite run_pbind, E2. cbn [run].
    rewrite run_pbind. unfold OpenBoardHeaderFile. change BoardHeaderRecordLength with 256. rewrite R2. destruct (ff_folder rec); reflexivity. }
  destruct (C20_loading_is_total cd fuel read_spare d) as [(f & v & t & U & _)|(e & U)]; [unfold read_spare; lia|exact Hf| |].
  - exists w2, l. split; [destruct F1 as [A1 B1], F2 as [A2 B2]; split; [congruence|intros q; now rewrite B2]|]. split; [exact Rl|]. right.
    destruct (C20_a_loaded_file_starts_the_data _ _ _ _ _ U) as (v' & t' & q & x & Eq & Fv & (_ & g & Eg & Tg)).
    exists v', t', q, x. split; [exact Eq|]. split; [exact Fv|]. rewrite Run, U, Eg.
    destruct Fv as (ver & q' & _ & _ & _ & Ly). destruct (append_spec l g Hl t' Tg (layout_bids _ _ _ _ Ly)) as [A B]. split.
    + intros F. destruct (A F) as (f' & -> & Sn & _). eexists. split; [reflexivity|exact Sn].
    + intros F. now rewrite (B F).
  - exists w1, l. split; [exact F1|]. split; [exact Rl|]. left. exists e. split; [|exact U]. now rewrite Run, U.
Qed.
Print Assumptions C21_favourites_with_names.

(** The sample world with a favourites file that mentions boards 1 and 2, and
    one that mentions board 3 of 2. *)
Definition fav_world (d : bytes) : world :=
  world_of (sample_tree ++ [(S_ExWorld.rp ["bbs"; "home"; "p"; "pichu"; ".fav"]%string, NFile 4)]) (sample_data ++ [d]).
Lemma fav_world_sane d : sane (fav_world d).
Proof. apply saneb_sane. vm_compute. reflexivity. Qed.
Lemma fav_world_holds d :
  holds_file (fav_world d) sample_wd (Favourites (str "pichu")) (S_ExWorld.rp ["bbs"; "home"; "p"; "pichu"; ".fav"]%string) (Some d) /\
  holds_file (fav_world d) sample_wd Boards (S_ExWorld.rp ["bbs"; ".BRD"]%string)
    (Some (BoardHeader_MarshalBinary id_codec sample_board ++ BoardHeader_MarshalBinary id_codec sample_board)).
Proof.
  split; (eexists; split; [reflexivity|]; split; [split; [split; [discriminate|no_nul]|vm_compute; reflexivity]|]; split; vm_compute; reflexivity).
Qed.
Example C21_nonvacuous :
  let w := fav_world sample_fav_bytes in
  match snd (run (ReadUserFavoriteRecords id_codec 600 sample_wd (str "pichu")) w) with
  | Ok [b; f; l] =>
      fi_BoardID b = Ok (bh_name sample_board) /\ fi_Title f = Ok (str "my boards") /\ fi_Type l = 2 /\
      match fi_Records f with Ok [b2; l2] => fi_BoardID b2 = Ok (bh_name sample_board) | _ => False end
  | _ => False
  end.
Proof. vm_compute. repeat split. Qed.

(** "Never panics" is false: a board number behind the end of the list. *)
Definition stale_fav_bytes : bytes :=
  match marshal_favfile id_codec (MkFavFile 3504 (Some (MkFavFolder 0 0 1 0 0 0 0 [MkFavItem 1 1 (PBoard 3 0 0 [])]))) with Ok d => d | _ => [] end.
Theorem C21_never_panics_refuted :
  exists w wd u, sane w /\
    (exists rp d, holds_file w wd (Favourites u) rp (Some d) /\
       exists f, UnmarshalFavFile id_codec 600 read_spare d = Ok f /\ says f 3504 [EBoard 1 3 0 0]) /\
    (exists rb b, holds_file w wd Boards rb (Some b)) /\
    snd (run (ReadUserFavoriteRecords id_codec 600 wd u) w) = Panic.
Proof.
  exists (fav_world stale_fav_bytes), sample_wd, (str "pichu"). split; [apply fav_world_sane|]. destruct (fav_world_holds stale_fav_bytes) as [H1 H2].
  split; [|split; [eauto|vm_compute; reflexivity]]. eexists _, _. split; [exact H1|]. eexists. split; [vm_compute; reflexivity|].
  split; [reflexivity|]. eexists. split; reflexivity.
Qed.
Print Assumptions C21_never_panics_refuted.
