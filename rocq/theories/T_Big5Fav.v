(** * Property theorems: C80 (favourites with names in Big5) *)
From Coq Require Import Lia ZifyBool ZifyNat ZifyN Wf_nat.
From Verif Require Import M_Base M_Sys M_Path M_Utf8 M_Board M_FileOps M_DB M_Fav M_Big5.
From Verif Require Import S_World S_Path S_Layout S_Store S_Json S_Fav S_Big5 S_Big5Fav S_ExWorld S_Example.
From Verif Require Import P_Base P_Sys P_Path P_Records P_Fav P_Json T_Store T_Fav T_Big5 T_Big5Use.
Open Scope N_scope.

Lemma mark_ind' (P : mark -> Prop) : (forall a b v x, P (Board a b v x)) -> (forall a n l, Forall P l -> P (Folder a n l)) -> (forall a, P (Line a)) -> forall m, P m.
Proof.
  intros H1 H2 H3. fix IH 1. intros [a b v x|a n l|a]; [apply H1| |apply H3]. apply H2. induction l as [|m l IHl]; constructor; [apply IH|exact IHl].
Qed.
Lemma utf8_reads t s : in_utf8 t s -> t = runes s.
Proof. intros [P ->]. apply reads_as_unique. induction P as [|c t C P IH]; [constructor|cbn [map concat]; now constructor]. Qed.
Lemma same_counts l t : Forall2 same l t ->
  boards_in l = count is_board t /\ lines_in l = count is_line t /\ folders_in l = count is_folder t /\ lenN l = lenN t /\
  Forall2 (Forall2 same) (insides l) (folders t).
Proof.
  unfold boards_in, lines_in, folders_in, count, lenN, insides, folders. intros F. induction F as [|m e l t S F (I1 & I2 & I3 & I4 & I5)]; [repeat split; constructor|].
  destruct S as [a b v x|a n ti k k' U S|a]; cbn [filter is_board is_line is_folder flat_map app length]; (repeat split; try lia; try exact I5). now constructor.
Qed.
Lemma total_count l : boards_in l + lines_in l + folders_in l = lenN l.
Proof. unfold boards_in, lines_in, folders_in, lenN. induction l as [|[a b v x|a n k|a] l IH]; cbn [filter length]; lia. Qed.

(** ** The two ways to describe a file agree *)
Section Describe.
Variable tb : tables.
Hypothesis good : good_tables tb.

Lemma name_said d s n : f_cstr d 3 49 s -> big5_reads tb s n -> exists title, in_utf8 n title /\ f_cstr_big5 (big5 tb) d 3 49 title.
Proof. intros C R. exists (Big5ToUtf8 tb s). split; [exact (proj2 (C74_decoded tb s good) n R)|]. exists s. now split. Qed.
Lemma name_read d n title : in_utf8 n title -> f_cstr_big5 (big5 tb) d 3 49 title -> exists s, f_cstr d 3 49 s /\ big5_reads tb s n.
Proof.
  intros U (s & C & E). exists s. split; [exact C|]. destruct (proj1 (C74_decoded tb s good)) as (n' & R).
  pose proof (proj2 (C74_decoded tb s good) n' R) as U'. cbn [dec big5] in E. rewrite <- E in U'. apply utf8_reads in U. apply utf8_reads in U'. congruence.
Qed.
Lemma shorter (hdr : bytes) recs subs n : lenN hdr = 4 -> n = length (hdr ++ concat recs ++ concat subs) -> Forall (fun s : bytes => (length s < n)%nat) subs.
Proof.
  intros Lh En. rewrite !app_length in En. unfold lenN in Lh. assert (H : (length (concat subs) < n)%nat) by lia. clear En.
  induction subs as [|s subs IH]; constructor; cbn [concat] in H; rewrite app_length in H; [lia|apply IH; lia].
Qed.

Lemma records_said (Q : list entry -> bytes -> Prop) : forall l recs, Forall2 (mark_record tb) l recs -> forall subs,
  Forall2 (fun k s => exists t, Forall2 same k t /\ Q t s) (insides l) subs ->
  exists t, Forall2 same l t /\ Forall2 (item_record (big5 tb)) t recs /\ Forall2 Q (folders t) subs.
Proof.
  intros l recs F. induction F as [|m r l recs M F IH]; intros subs H.
  - cbn in H. inversion H; subst. exists []. repeat split; constructor.
  - destruct m as [a b v x|a n k|a]; cbn [insides flat_map app] in H.
    + destruct (IH subs H) as (t & T1 & T2 & T3). exists (EBoard a b v x :: t). split; [constructor; [constructor|exact T1]|]. split; [constructor; [exact M|exact T2]|exact T3].
    + inversion H as [|? s ? ss (tk & S & L) H' E1 E2]; subst. destruct (IH ss H') as (t & T1 & T2 & T3).
      destruct M as (M1 & M2 & M3 & s0 & C & R). destruct (name_said _ _ _ C R) as (title & U & FC).
      exists (EFolder a title tk :: t). split; [constructor; [now constructor|exact T1]|]. split; [constructor; [now repeat split|exact T2]|].
      cbn [folders flat_map app]. constructor; assumption.
    + destruct (IH subs H) as (t & T1 & T2 & T3). exists (ELine a :: t). split; [constructor; [constructor|exact T1]|]. split; [constructor; [exact M|exact T2]|exact T3].
Qed.
(** [P] stands for a condition on folders under which the counts are as wanted. *)
Lemma folder_said (P : list mark -> Prop) (cs : N -> N -> N -> list entry -> Prop) : (forall l, P l -> Forall P (insides l)) ->
  (forall l t, P l -> Forall2 same l t -> cs (boards_in l) (lines_in l) (folders_in l) t) ->
  forall d l, folder_at tb l d -> P l -> exists t, Forall2 same l t /\ layout (big5 tb) cs t d.
Proof.
  intros PI PC d. remember (length d) as n eqn:En. revert d En. induction n as [n IHn] using lt_wf_ind. intros d En l FA Pl.
  destruct FA as [l hdr recs subs Lh H1 H2 H3 Hr Hs]. pose proof (shorter _ _ _ _ Lh En) as B.
  destruct (records_said (layout (big5 tb) cs) l recs Hr subs) as (t & T1 & T2 & T3).
  { apply PI in Pl. clear - IHn Hs B Pl. induction Hs as [|k s ks ss Lk _ IH]; constructor.
    - apply Forall_cons_iff in B as [B1 _]. apply Forall_cons_iff in Pl as [P1 _]. eapply IHn; eauto.
    - apply Forall_cons_iff in B as [_ B2]. apply Forall_cons_iff in Pl as [_ P2]. auto. }
  exists t. split; [exact T1|]. eapply Layout; eauto.
Qed.
Lemma said_sum d l : folder_at tb l d -> countable l -> exists t, Forall2 same l t /\ layout (big5 tb) counts_sum t d.
Proof.
  apply folder_said.
  - intros k C. now destruct C.
  - intros k t C S. destruct C as [k L _]. destruct (same_counts _ _ S) as (_ & _ & _ & E & _). unfold counts_sum. rewrite total_count, <- E. now apply N.mod_small.
Qed.
Lemma said_exact d l : folder_at tb l d -> exists t, Forall2 same l t /\ layout (big5 tb) counts_exact t d.
Proof.
  intros F. apply (folder_said (fun _ => True)) with (l := l); auto.
  - intros k _. apply Forall_forall. auto.
  - intros k t _ S. destruct (same_counts _ _ S) as (A & B & C & _). now repeat split.
Qed.
Lemma folder_read : forall d t, layout (big5 tb) counts_exact t d -> forall l, Forall2 same l t -> folder_at tb l d.
Proof.
  intros d. remember (length d) as n eqn:En. revert d En. induction n as [n IHn] using lt_wf_ind. intros d En t Ly l S.
  destruct Ly as [t hdr nb nl nf recs subs Lh H1 H2 H3 (-> & -> & ->) Hr Hs]. pose proof (shorter _ _ _ _ Lh En) as B.
  destruct (same_counts _ _ S) as (C1 & C2 & C3 & _ & C5). rewrite <- C1 in H1. rewrite <- C2 in H2. rewrite <- C3 in H3.
  apply FolderAt; auto.
  - clear - good S Hr. revert recs Hr. induction S as [|m e l t Sm _ IH]; intros recs Hr; inversion Hr as [|? r ? rs R Hr']; subst; constructor; [|now apply IH].
    destruct Sm as [a b v x|a nm ti k k' U Sk|a]; [exact R| |exact R]. destruct R as (R1 & R2 & R3 & R4). repeat (split; [assumption|]). exact (name_read _ _ _ U R4).
  - clear - IHn Hs B C5. revert C5. generalize (insides l). induction Hs as [|k s ks ss Lk _ IH]; intros ls C5; inversion C5; subst; constructor.
    + apply Forall_cons_iff in B as [B1 _]. eapply IHn; eauto.
    + apply Forall_cons_iff in B as [_ B2]. auto.
Qed.
Lemma fits_named l : numbers_fit l -> Forall (names_fit tb) l -> forall t, Forall2 same l t -> tree_fits (big5 tb) t.
Proof.
  assert (E : forall m, names_fit tb m -> forall e, same m e ->
    match m with Board attr bid visit battr => num_fits 1 attr /\ num_fits 4 bid /\ time_fits visit /\ num_fits 4 battr | Folder attr _ _ | Line attr => num_fits 1 attr end ->
    match m with Folder _ _ k => numbers_fit k | _ => True end -> entry_fits (big5 tb) e).
  { induction m as [a b v x|a n k IH|a] using mark_ind'; intros NF e S A B; inversion S as [|? ? ti ? k' U Sk|]; subst; [exact A| |exact A].
    inversion NF as [|? ? ? (N1 & N2 & N3 & N4) NK|]; subst. destruct B as [k L1 L2 L3 L4 L5]. destruct (same_counts _ _ Sk) as (C1 & C2 & C3 & C4 & _).
    cbn [entry_fits]. split; [exact A|]. split; [exact (proj1 (C74_fits tb n ti 49 good U N2 N3 N4))|].
    split; [now rewrite <- C4|]. split; [now rewrite <- C2|]. split; [now rewrite <- C3|].
    clear - IH NK L4 L5 Sk. induction Sk as [|m e k k' Sm _ IHk]; [exact Logic.I|].
    apply Forall_cons_iff in IH as [I1 I2]. apply Forall_cons_iff in NK as [K1 K2]. apply Forall_cons_iff in L4 as [M1 M2].
    assert (L6 : match m with Folder _ _ k => numbers_fit k | _ => True end /\ Forall numbers_fit (insides k)).
    { destruct m; cbn [insides flat_map app] in L5; [now split| |now split]. apply Forall_cons_iff in L5. exact L5. }
    split; [exact (I1 K1 e Sm M1 (proj1 L6))|exact (IHk I2 M2 (proj2 L6) K2)]. }
  intros [k L1 L2 L3 L4 L5] NK t Sk. destruct (same_counts _ _ Sk) as (C1 & C2 & C3 & C4 & _).
  split; [now rewrite <- C4|]. split; [now rewrite <- C2|]. split; [now rewrite <- C3|].
  clear - E NK L4 L5 Sk. induction Sk as [|m e k k' Sm _ IHk]; [constructor|].
  apply Forall_cons_iff in NK as [K1 K2]. apply Forall_cons_iff in L4 as [M1 M2].
  assert (L6 : match m with Folder _ _ k => numbers_fit k | _ => True end /\ Forall numbers_fit (insides k)).
  { destruct m; cbn [insides flat_map app] in L5; [now split| |now split]. apply Forall_cons_iff in L5. exact L5. }
  constructor; [exact (E m K1 e Sm M1 (proj1 L6))|apply IHk; [..]; first [exact K2|exact M2|exact (proj2 L6)]].
Qed.
End Describe.

(** ** Reading *)

(** A favourites file with names in Big5 is shown with exactly these names, in UTF-8, at every
    depth, and with the names of the boards. *)
Theorem C80_shown : forall tb fuel wd w u rp d x v l rb b, good_tables tb ->
  sane w -> holds_file w wd (Favourites u) rp (Some (d ++ x)) -> holds_file w wd Boards rb (Some b) ->
  (length (d ++ x) < fuel)%nat -> (length b < fuel)%nat -> lenN b < 2 ^ 39 ->
  favourites_at tb v l d -> countable l ->
  exists w' bs t, same_files w w' /\ snd (run (ReadBoardRecords (big5 tb) fuel wd) w) = Ok bs /\ Forall2 same l t /\
    (Forall (fun bid => 0 < bid <= lenN bs) (tree_boards t) ->
       exists items, run (ReadUserFavoriteRecords (big5 tb) fuel wd u) w = (w', Ok items) /\ Forall2 (seen (map bh_name bs)) items t) /\
    (~ Forall (fun bid => 0 < bid <= lenN bs) (tree_boards t) -> run (ReadUserFavoriteRecords (big5 tb) fuel wd u) w = (w', Panic)).
Proof.
  intros tb fuel wd w u rp d x v l rb b G S Hf Hb Lf Lb L39 (ver & p & -> & Lv & V & FA) C.
  destruct (said_sum tb G p l FA C) as (t & St & Ly).
  assert (FF : fav_file (big5 tb) counts_sum v t (ver ++ p)) by (exists ver, p; auto).
  assert (Lf' : (length (ver ++ p) < fuel)%nat) by (rewrite app_length in Lf; lia).
  destruct (C20_every_laid_out_file_is_loaded (big5 tb) fuel read_spare v t (ver ++ p) x FF Lf') as (f & U & Sf).
  destruct (C21_favourites_with_names (big5 tb) fuel wd w u rp _ rb b S Hf Hb Lf Lb L39) as (w' & bs & SF & RB & [(e & _ & E)|(v' & t' & q & y & Eq & FF' & A & B)]).
  - rewrite U in E. discriminate E.
  - exists w', bs, t. split; [exact SF|]. split; [exact RB|]. split; [exact St|].
    assert (Lq : (length q < fuel)%nat) by (rewrite Eq, app_length in Lf; lia).
    destruct (C20_every_laid_out_file_is_loaded (big5 tb) fuel read_spare v' t' q y FF' Lq) as (f' & U' & Sf').
    rewrite Eq, U' in U. injection U as <-. destruct Sf as (_ & g & Eg & Tg), Sf' as (_ & g' & Eg' & Tg'). rewrite Eg in Eg'. injection Eg' as <-. rewrite Tg in Tg'. injection Tg' as <-.
    split; [exact A|exact B].
Qed.
Print Assumptions C80_shown.

(** ** Saving *)

(** A tree whose names Big5 can hold is saved as a file with these names in Big5, and loaded
    from it as it was. *)
Theorem C80_saved : forall tb v g l t, good_tables tb ->
  tree_of g = Some t -> Forall2 same l t -> counters_ok g -> numbers_fit l -> Forall (names_fit tb) l -> num_fits 2 v ->
  exists d, marshal_favfile (big5 tb) (MkFavFile v (Some g)) = Ok d /\ favourites_at tb v l d /\
    forall fuel spare, (length d < fuel)%nat ->
    exists g', UnmarshalFavFile (big5 tb) fuel spare d = Ok (MkFavFile v (Some g')) /\ tree_of g' = Some t /\ counters_ok g'.
Proof.
  intros tb v g l t G T S C NF NN V. pose proof (fits_named tb G l NF NN t S) as F.
  destruct (C19_saved_trees_are_loaded (big5 tb) v g t T C F V) as (d & M & (ver & p & -> & Lv & Vv & Ly) & L).
  exists (ver ++ p). split; [exact M|]. split; [|exact L]. exists ver, p. repeat (split; [auto|]). exact (folder_read tb G p t Ly l S).
Qed.
Print Assumptions C80_saved.

(** A file that another program wrote, loaded and saved again, says the same. *)
Theorem C80_kept : forall tb v l d x, good_tables tb ->
  favourites_at tb v l d -> numbers_fit l -> Forall (names_fit tb) l -> num_fits 2 v ->
  forall fuel spare, (length d < fuel)%nat ->
  exists f d', UnmarshalFavFile (big5 tb) fuel spare (d ++ x) = Ok f /\ marshal_favfile (big5 tb) f = Ok d' /\ favourites_at tb v l d'.
Proof.
  intros tb v l d x G (ver & p & -> & Lv & V & FA) NF NN Vf fuel spare Hf.
  destruct (said_exact tb G p l FA) as (t & S & Ly). pose proof (fits_named tb G l NF NN t S) as F.
  rewrite app_length in Hf. pose proof (folder_ideal (big5 tb) fuel t p Ly F ltac:(lia) ver x) as U.
  destruct (ideal_ok t) as [T C]. destruct (C80_saved tb v (ideal t) l t G T S C NF NN Vf) as (d' & M & FA' & _).
  exists (MkFavFile v (Some (ideal t))), d'. split; [|split; [exact M|exact FA']].
  unfold UnmarshalFavFile. destruct (_ <? 2) eqn:E; [rewrite !lenN_app in E; lia|].
  rewrite Lv, app_assoc in U. rewrite U. cbn [obind]. do 2 f_equal. rewrite <- app_assoc. exact (f_num_app _ _ _ _ _ V).
Qed.
Print Assumptions C80_kept.

(** ** A tree with a folder called 新的目錄, "new folder" *)
Definition new_folder : list N := [0x65B0; 0x7684; 0x76EE; 0x9304].
Definition new_title : bytes := concat (map utf8 new_folder).
Definition chinese_sub : FavFolder := MkFavFolder 0 0 1 1 0 0 0 [MkFavItem 1 1 (PBoard 2 1600000000 0 []); MkFavItem 3 1 (PLine 9)].
Definition chinese_fav : FavFolder := MkFavFolder 0 0 1 1 1 0 0
  [MkFavItem 1 1 (PBoard 1 0 7 []); MkFavItem 2 5 (PFolder 77 new_title (Some chinese_sub)); MkFavItem 3 1 (PLine 4)].
Definition chinese_entries : list entry := [EBoard 1 1 0 7; EFolder 5 new_title [EBoard 1 2 1600000000 0; ELine 1]; ELine 1].
Definition chinese_marks : list mark := [Board 1 1 0 7; Folder 5 new_folder [Board 1 2 1600000000 0; Line 1]; Line 1].
Definition chinese_bytes : bytes := match marshal_favfile (big5 sample_tables) (MkFavFile 3504 (Some chinese_fav)) with Ok d => d | _ => [] end.
Lemma new_folder_utf8 : in_utf8 new_folder new_title.
Proof. split; [|reflexivity]. repeat (constructor; [left; reflexivity|]). constructor. Qed.
Lemma chinese_same : Forall2 same chinese_marks chinese_entries.
Proof. repeat first [apply new_folder_utf8|constructor]. Qed.
Lemma chinese_numbers : numbers_fit chinese_marks.
Proof.
  constructor; try reflexivity.
  - repeat constructor; first [reflexivity|discriminate].
  - constructor; [|constructor]. constructor; try reflexivity; [repeat constructor; first [reflexivity|discriminate]|constructor].
Qed.
Lemma new_folder_fits : name_fits sample_tables new_folder.
Proof.
  split; [apply new_folder_utf8|]. split; [|split; [cbn; intuition discriminate|discriminate]].
  repeat (constructor; [right; match goal with |- exists p, indexed _ p ?c => let x := eval vm_compute in (find (fun x => snd x =? c) sample_index) in match x with Some (?l, ?r, _) => exists (number l r) end end; split; [reflexivity|split; [vm_compute; reflexivity|discriminate]]|]).
  constructor.
Qed.
Lemma chinese_names : Forall (names_fit sample_tables) chinese_marks.
Proof. repeat first [apply new_folder_fits|constructor]. Qed.
Example C80_nonvacuous :
  good_tables sample_tables /\ tree_of chinese_fav = Some chinese_entries /\ Forall2 same chinese_marks chinese_entries /\ counters_ok chinese_fav /\
  numbers_fit chinese_marks /\ Forall (names_fit sample_tables) chinese_marks /\
  favourites_at sample_tables 3504 chinese_marks chinese_bytes /\ lenN chinese_bytes = 96 /\
  sub 23 9 chinese_bytes = [xb7; x73; xaa; xba; xa5; xd8; xbf; xfd; x00] /\
  match snd (run (ReadUserFavoriteRecords (big5 sample_tables) 600 sample_wd (str "pichu")) (fav_world chinese_bytes)) with
  | Ok [b; f; l] => fi_Title f = Ok new_title
  | _ => False
  end.
Proof.
  split; [exact sample_good|]. split; [reflexivity|]. split; [exact chinese_same|]. assert (C : counters_ok chinese_fav) by (vm_compute; repeat split).
  split; [exact C|]. split; [exact chinese_numbers|]. split; [exact chinese_names|]. split.
  - destruct (C80_saved sample_tables 3504 chinese_fav chinese_marks chinese_entries sample_good eq_refl chinese_same C chinese_numbers chinese_names eq_refl) as (d & M & F & _).
    unfold chinese_bytes. rewrite M. exact F.
  - split; [vm_compute; reflexivity|]. split; vm_compute; reflexivity.
Qed.

(** ** What is not true *)
(** "A favourites file that is loaded and saved again says the same", whatever its names. *)
Definition C80_kept_statement : Prop := forall tb v l d, good_tables tb ->
  favourites_at tb v l d -> numbers_fit l -> num_fits 2 v ->
  forall fuel spare f d', (length d < fuel)%nat ->
  UnmarshalFavFile (big5 tb) fuel spare d = Ok f -> marshal_favfile (big5 tb) f = Ok d' -> favourites_at tb v l d'.
(** A pair of bytes that stands for two characters, and a letter: the second character cannot
    be written, and the name ends before it. *)
Definition pair_name : bytes := [x88; x62; x41].
Definition pair_record : bytes := [x02; x01; x00] ++ pair_name ++ repeat x00 46.
Definition pair_bytes : bytes := [xb0; x0d] ++ ([x00; x00; x00; x01] ++ concat [pair_record] ++ concat [[x00; x00; x00; x00] ++ concat [] ++ concat []]).
Definition pair_marks : list mark := [Folder 1 [0xCA; 0x304; 0x41] []].
Lemma pair_reads : big5_reads sample_tables pair_name [0xCA; 0x304; 0x41].
Proof.
  apply (B5Pair sample_tables x88 x62 [x41] [0xCA; 0x304] [0x41]); [|apply (B5Ascii sample_tables x41 []); [reflexivity|constructor]].
  exists 1133. split; [split; [split; discriminate|left; split; [split; discriminate|reflexivity]]|]. left. split; [reflexivity|now left].
Qed.
Lemma pair_file : favourites_at sample_tables 3504 pair_marks pair_bytes.
Proof.
  eexists _, _. split; [reflexivity|]. split; [reflexivity|]. split; [apply f_num_of; vm_compute; first [reflexivity|discriminate]|].
  apply FolderAt; try reflexivity; try (apply f_num_of; vm_compute; first [reflexivity|discriminate]).
  - constructor; [|constructor]. split; [reflexivity|]. split; [apply f_num_of; vm_compute; first [reflexivity|discriminate]|]. split; [apply f_num_of; vm_compute; first [reflexivity|discriminate]|].
    exists pair_name. split; [|exact pair_reads]. exists (pair_name ++ repeat x00 46). split; [exists [x02; x01; x00], []; repeat split|].
    split; [vm_compute; intuition discriminate|]. right. exists (repeat x00 45). reflexivity.
  - constructor; [|constructor]. apply FolderAt; try reflexivity; try (apply f_num_of; vm_compute; first [reflexivity|discriminate]); constructor.
Qed.
Theorem C80_kept_refuted : ~ C80_kept_statement.
Proof.
  intros H. assert (NF : numbers_fit pair_marks).
  { constructor; try reflexivity; [repeat constructor|]. constructor; [|constructor]. constructor; try reflexivity; constructor. }
  destruct (UnmarshalFavFile (big5 sample_tables) 100 0 pair_bytes) as [f| | |] eqn:U; try (vm_compute in U; discriminate U).
  destruct (marshal_favfile (big5 sample_tables) f) as [d'| | |] eqn:M; try (vm_compute in U; injection U as <-; vm_compute in M; discriminate M).
  assert (L : (length pair_bytes < 100)%nat) by (vm_compute; lia).
  destruct (H sample_tables 3504 pair_marks pair_bytes sample_good pair_file NF eq_refl 100%nat 0 f d' L U M) as (ver & p & E & Lv & V & FA).
  destruct (said_sum sample_tables sample_good p pair_marks FA) as (t & S & Ly); [constructor; [reflexivity|constructor; [constructor; [reflexivity|constructor]|constructor]]|].
  assert (D : d' = [xb0; x0d; x00; x00; x00; x01; x02; x01; x01; x88; x66] ++ repeat x00 47 ++ repeat x00 4).
  { vm_compute in U. injection U as <-. vm_compute in M. injection M as <-. reflexivity. }
  assert (FF : fav_file (big5 sample_tables) counts_sum 3504 t d') by (exists ver, p; auto).
  assert (L' : (length d' < 100)%nat) by (rewrite D; vm_compute; lia).
  destruct (C20_every_laid_out_file_is_loaded (big5 sample_tables) 100 0 3504 t d' [] FF L') as (f' & U' & (_ & g & Eg & Tg)).
  rewrite app_nil_r, D in U'. vm_compute in U'. injection U' as <-. vm_compute in Eg. injection Eg as <-. vm_compute in Tg. injection Tg as <-.
  inversion S as [|? ? ? ? S1 _]; subst. inversion S1 as [|? ? ? ? ? [_ X] _|]; subst. vm_compute in X. discriminate X.
Qed.
Print Assumptions C80_kept_refuted.
