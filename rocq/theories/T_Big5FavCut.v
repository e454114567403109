(** * Property theorems: C80 (favourites with any names, saved and loaded) *)
From Coq Require Import Lia ZifyBool ZifyNat ZifyN.
From Verif Require Import M_Base M_Cstr M_Const M_Sys M_Utf8 M_Board M_FileOps M_DB M_Fav M_Big5.
From Verif Require Import S_Layout S_Json S_Fav S_Big5 S_Big5Field.
From Verif Require Import P_Base P_Layout P_Records P_Fav P_Json T_Fav T_Big5 T_Big5Use T_Big5Web T_Big5Fav S_Big5Fav.
Open Scope N_scope.

Section Left.
Variable tb : tables.
Hypothesis good : good_tables tb.

Lemma folder_item_left fid ty attr title g n k : ty = 2 -> num_fits 1 attr -> in_utf8 n title -> ~ In 0 n ->
  exists r title' a, marshal_item (big5 tb) (MkFavItem ty attr (PFolder fid title (Some g))) = Ok r /\ item_record (big5 tb) (EFolder attr title' k) r /\
    writable_part tb n a /\ kept_in 49 a title'.
Proof.
  intros T Fa U Z. unfold marshal_item. cbn [fi_item fi_type fi_attr]. destruct (head2 ty attr) as (L & H0 & H1). set (h := put_all 2 _) in *.
  cbn [marshal_payload obind]. set (b := put_all sizeOfPttFavFolderBytes _).
  assert (Lb : lenN b = 50) by (apply put_all_len; vm_compute; reflexivity).
  pose proof (all_slots sizeOfPttFavFolderBytes [w8 0 fid; wstr 1 (BoardTitleLength + 1) (utf8ToBig5UAOString (big5 tb) title)] eq_refl) as A.
  fold b in A. unfold w8, wstr in A. cbn [allP w_off w_len w_src] in A. destruct A as (A1 & A2 & _). change (BoardTitleLength + 1) with 49 in A2.
  assert (Lr : lenN (h ++ b) = 52) by (rewrite lenN_app; lia).
  assert (ET : e_text (h ++ b) 3 49 (Utf8ToBig5 tb title)) by (apply e_text_pad; [lia|]; rewrite (sub_h h b 3 1 49 L eq_refl), A2; reflexivity).
  pose proof (f_cstr_big5_split (big5 tb) (h ++ b) 3 49 ltac:(lia)) as FC.
  destruct (C74_encoded tb title n good) as (a & Wa & _); [destruct U as [P ->]; clear - P; induction P as [|c t C P IH]; [constructor|cbn [map concat]; now constructor]|].
  exists (h ++ b), (big5uaoToUTF8String (big5 tb) (split_nul_head (sub 3 49 (h ++ b)))), a. split; [reflexivity|]. split; [|split; [exact Wa|]].
  - cbn [item_record]. split; [exact Lr|]. split; [|split; [|exact FC]]; (apply f_num_of; [lia|]); rewrite sub_app_l by lia; [rewrite H0, T; now apply rt_u8|rewrite H1; now apply rt_u8].
  - apply (stored_kept tb (h ++ b) 3 49 title a _ good); [rewrite <- (utf8_reads _ _ U); exact Wa| |exact ET|exact FC].
    intros I. apply Z. destruct Wa as [_ [->|(c & b' & -> & _)]]; [exact I|]. apply in_or_app. now left.
Qed.
Lemma left_lens l t : Forall2 (left_of tb) l t -> lenN l = lenN t.
Proof. intros F. apply Forall2_len in F. unfold lenN. lia. Qed.

Lemma folder_left f : forall t l, tree_of f = Some t -> Forall2 same l t -> counters_ok f -> numbers_fit l -> Forall no_nul l ->
  exists d t', marshal_folder (big5 tb) f = Ok d /\ layout (big5 tb) counts_sum t' d /\ Forall2 (left_of tb) l t'.
Proof.
  induction f as [a b nb nl nf c d items IH] using FavFolder_ind'. intros t l T S C NF NZ.
  destruct (counters_ok_eq _ _ _ _ _ _ _ _ _ T C) as ((-> & -> & ->) & Cs). rewrite tree_of_items in T.
  destruct NF as [l L1 L2 L3 L4 L5]. destruct (same_counts _ _ S) as (C1 & C2 & C3 & C4 & _).
  assert (X : exists recs subs t', marshal_all (marshal_item (big5 tb)) items = Ok (concat recs) /\ marshal_all (sub_folder (big5 tb)) items = Ok (concat subs) /\
    Forall2 (item_record (big5 tb)) t' recs /\ Forall2 (layout (big5 tb) counts_sum) (folders t') subs /\ Forall2 (left_of tb) l t').
  { clear - good IH Cs T S L4 L5 NZ. revert t l T S L4 L5 NZ. induction items as [|[ty attr p] items IHl]; cbn [seq_opt marshal_all]; intros t l T S L4 L5 NZ.
    - injection T as <-. inversion S; subst. exists [], [], []. repeat split; constructor.
    - apply Forall_cons_iff in IH as [I1 I2]. apply Forall_cons_iff in Cs as [K1 K2].
      destruct (item_tree (MkFavItem ty attr p)) as [e|] eqn:Ei; [|discriminate]. destruct (seq_opt item_tree items) as [r|]; [|discriminate].
      injection T as <-. inversion S as [|m ? l' ? Sm S' E1 E2]; subst. apply Forall_cons_iff in L4 as [M1 M2]. apply Forall_cons_iff in NZ as [Z1 Z2].
      assert (L6 : match m with Folder _ _ k => numbers_fit k | _ => True end /\ Forall numbers_fit (insides l')).
      { destruct m; cbn [insides flat_map app] in L5; [now split| |now split]. apply Forall_cons_iff in L5. exact L5. }
      destruct L6 as [N1 N2]. destruct (IHl I2 K2 r l' eq_refl S' M2 N2 Z2) as (recs & subs & t' & E & E' & R & Q & P). clear IHl.
      destruct p as [bid visit battr name|fid title [g|]|lid|]; try discriminate Ei.
      + assert (HF : head_fits (big5 tb) e) by (cbn [item_tree] in Ei; destruct (ty =? 1); [|discriminate Ei]; injection Ei as <-; inversion Sm; subst; exact M1).
        destruct (item_marshal (big5 tb) e _ Ei HF) as (x & -> & Rx). cbn [obind sub_folder]. rewrite E, E'.
        cbn [item_tree] in Ei. destruct (ty =? 1); [|discriminate Ei]. injection Ei as <-. inversion Sm; subst.
        exists (x :: recs), subs, (EBoard attr bid visit battr :: t'). split; [reflexivity|]. split; [reflexivity|]. split; [now constructor|]. split; [exact Q|]. constructor; [constructor|exact P].
      + cbn [item_tree] in Ei. destruct (ty =? 2) eqn:T2; [|discriminate Ei]. apply N.eqb_eq in T2. destruct (tree_of g) as [k|] eqn:Eg; [|discriminate Ei]. injection Ei as <-.
        inversion Sm as [|? n ? lk ? U Sk|]; subst. inversion Z1 as [|? ? ? Zn Zk|]; subst.
        destruct (I1 k lk eq_refl Sk K1 N1 Zk) as (y & tk & Ey & Ly & Pk).
        destruct (folder_item_left fid 2 attr title g n tk eq_refl M1 U Zn) as (x & title' & an & -> & Rx & Wn & Kn). cbn [obind sub_folder]. rewrite E, Ey. cbn [obind]. rewrite E'.
        exists (x :: recs), (y :: subs), (EFolder attr title' tk :: t'). split; [reflexivity|]. split; [reflexivity|]. split; [now constructor|].
        split; [cbn [folders flat_map app]; now constructor|]. constructor; [now apply LeftFolder with (a := an)|exact P].
      + assert (HF : head_fits (big5 tb) e) by (cbn [item_tree] in Ei; destruct (ty =? 3); [|discriminate Ei]; injection Ei as <-; inversion Sm; subst; exact M1).
        destruct (item_marshal (big5 tb) e _ Ei HF) as (x & -> & Rx). cbn [obind sub_folder]. rewrite E, E'.
        cbn [item_tree] in Ei. destruct (ty =? 3); [|discriminate Ei]. injection Ei as <-. inversion Sm; subst.
        exists (x :: recs), subs, (ELine attr :: t'). split; [reflexivity|]. split; [reflexivity|]. split; [now constructor|]. split; [exact Q|]. constructor; [constructor|exact P]. }
  destruct X as (recs & subs & t' & E & E' & R & Q & P). rewrite marshal_folder_eq, E. cbn [obind]. rewrite E'. cbn [obind]. eexists _, t'. split; [reflexivity|]. split; [|exact P].
  pose proof (counts_bound is_board t). rewrite C2 in L2. rewrite C3 in L3. rewrite C4 in L1.
  destruct (hdr4 (count is_board t) (count is_line t) (count is_folder t)) as (A & B & D & F); [unfold num_fits; lia..|].
  eapply Layout; eauto. unfold counts_sum. rewrite counts_total, <- (left_lens _ _ P), C4. now apply N.mod_small.
Qed.
End Left.

(** Any tree without NULs in its names can be saved and loaded.  What comes back has the same
    shape, the same boards and lines, and of each name what Big5 and 49 bytes can hold. *)
Theorem C80_any_names : forall tb v g l t, good_tables tb ->
  tree_of g = Some t -> Forall2 same l t -> counters_ok g -> numbers_fit l -> Forall no_nul l -> num_fits 2 v ->
  exists d t', marshal_favfile (big5 tb) (MkFavFile v (Some g)) = Ok d /\ Forall2 (left_of tb) l t' /\
    forall fuel spare, (length d < fuel)%nat -> exists f, UnmarshalFavFile (big5 tb) fuel spare d = Ok f /\ says f v t'.
Proof.
  intros tb v g l t G T S C NF NZ V. destruct (folder_left tb G g t l T S C NF NZ) as (p & t' & M & Ly & P).
  unfold marshal_favfile. cbn [ff_folder ff_version]. rewrite M. cbn [obind].
  set (ver := put_all 2 [w16 0 v]). assert (Lv : lenN ver = 2) by (apply put_all_len; vm_compute; reflexivity).
  assert (Fv : f_num ver 0 2 v).
  { apply f_num_of; [lia|]. pose proof (all_slots 2 [w16 0 v] eq_refl) as A. fold ver in A. unfold w16 in A. cbn [allP w_off w_len w_src] in A.
    destruct A as [-> _]. now apply rt_u16. }
  exists (ver ++ p), t'. split; [reflexivity|]. split; [exact P|]. intros fuel spare Hf.
  assert (FF : fav_file (big5 tb) counts_sum v t' (ver ++ p)) by (exists ver, p; auto).
  destruct (C20_every_laid_out_file_is_loaded (big5 tb) fuel spare v t' (ver ++ p) [] FF Hf) as (f & U & Sf). rewrite app_nil_r in U. now exists f.
Qed.
Print Assumptions C80_any_names.

(** A name of 50 bytes, cut inside its last character, in a folder with a name that ends in a
    character that Big5 does not have. *)
Definition long_name : list N := repeat 0x65B0 25.
Definition odd_name : list N := [0x65B0; 0x1F600; 98].
Definition odd_fav : FavFolder := MkFavFolder 0 0 0 0 1 0 0
  [MkFavItem 2 5 (PFolder 0 (concat (map utf8 odd_name)) (Some (MkFavFolder 0 0 0 0 1 0 0 [MkFavItem 2 1 (PFolder 0 (concat (map utf8 long_name)) (Some (MkFavFolder 0 0 0 0 0 0 0 [])))])))].
Definition odd_marks : list mark := [Folder 5 odd_name [Folder 1 long_name []]].
Definition odd_entries : list entry := [EFolder 5 (concat (map utf8 odd_name)) [EFolder 1 (concat (map utf8 long_name)) []]].
Example C80_any_names_nonvacuous :
  tree_of odd_fav = Some odd_entries /\ Forall2 same odd_marks odd_entries /\ counters_ok odd_fav /\ numbers_fit odd_marks /\ Forall no_nul odd_marks /\
  match marshal_favfile (big5 sample_tables) (MkFavFile 3504 (Some odd_fav)) with
  | Ok d => match UnmarshalFavFile (big5 sample_tables) 200 0 d with
            | Ok (MkFavFile _ (Some g)) => tree_of g = Some [EFolder 5 (utf8 0x65B0) [EFolder 1 (concat (map utf8 (repeat 0x65B0 24 ++ [0xFFFD]))) []]]
            | _ => False end
  | _ => False end.
Proof.
  assert (U1 : in_utf8 odd_name (concat (map utf8 odd_name))) by (split; [repeat (constructor; [first [left; reflexivity|right; split; vm_compute; discriminate]|]); constructor|reflexivity]).
  assert (U2 : in_utf8 long_name (concat (map utf8 long_name))) by (split; [apply Forall_forall; intros c I; apply repeat_spec in I; subst c; left; reflexivity|reflexivity]).
  split; [reflexivity|]. split; [repeat first [exact U1|exact U2|constructor]|]. split; [vm_compute; repeat split|]. split; [|split].
  - constructor; try reflexivity; [repeat constructor|]. constructor; [|constructor]. constructor; try reflexivity; [repeat constructor|]. constructor; [|constructor]. constructor; try reflexivity; constructor.
  - constructor; [|constructor]. constructor; [vm_compute; intuition discriminate|]. constructor; [|constructor]. constructor; [intros I; apply repeat_spec in I; discriminate I|constructor].
  - vm_compute. reflexivity.
Qed.
