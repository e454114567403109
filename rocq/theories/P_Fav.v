(** * Favourites: decoding and encoding *)
From Coq Require Import Lia ZifyBool ZifyNat ZifyN.
From Verif Require Import M_Base M_Cstr M_Const M_Board M_Fav S_Layout S_Fav P_Base P_Layout.
Open Scope N_scope.

(** ** Lists of optional values *)
Fixpoint seq_opt {A B} (f : A -> option B) (l : list A) : option (list B) :=
  match l with
  | [] => Some []
  | x :: l' => match f x, seq_opt f l' with Some y, Some r => Some (y :: r) | _, _ => None end
  end.
Definition item_tree (i : FavItem) : option entry :=
  match i with
  | MkFavItem ty attr (PBoard bid visit battr _) => if ty =? 1 then Some (EBoard attr bid visit battr) else None
  | MkFavItem ty attr (PFolder _ title (Some g)) => if ty =? 2 then option_map (EFolder attr title) (tree_of g) else None
  | MkFavItem ty attr (PLine _) => if ty =? 3 then Some (ELine attr) else None
  | _ => None
  end.
Lemma tree_of_items a b c d e f g l : tree_of (MkFavFolder a b c d e f g l) = seq_opt item_tree l.
Proof.
  cbn [tree_of]. induction l as [|[ty attr p] l IH]; [reflexivity|]. cbn [seq_opt]. rewrite <- IH. destruct p as [| ? ? [g'|] | |]; reflexivity.
Qed.

(** ** Slices of a suffix *)
Lemma sub_shift k n pre q : sub (lenN pre + k) n (pre ++ q) = sub k n q.
Proof. rewrite sub_app_r by lia. f_equal. lia. Qed.
Lemma slice_shift k n pre q : slice (pre ++ q) (lenN pre + k) n = slice q k n.
Proof. unfold slice. rewrite lenN_app, sub_shift. destruct (_ <=? _) eqn:A, (k + n <=? _) eqn:B; auto; lia. Qed.
Lemma slice_ok q k n : k + n <= lenN q -> slice q k n = Ok (sub k n q).
Proof. intros H. unfold slice. destruct (_ <=? _) eqn:A; auto. lia. Qed.
Lemma slice_num_shift k n pre q : slice_num (pre ++ q) (lenN pre + k) n = slice_num q k n.
Proof. unfold slice_num. now rewrite slice_shift. Qed.
Lemma slice_num_ok q k n : k + n <= lenN q -> slice_num q k n = Ok (le_dec (sub k n q)).
Proof. intros H. unfold slice_num. now rewrite slice_ok. Qed.

Section Fav.
Variable cd : codec.

(** One item, read from the start of [q]. *)
Definition item_spec (q : bytes) : outcome (FavItem * N) :=
  let ty := le_dec (sub 0 1 q) in
  let attr := le_dec (sub 1 1 q) in
  if lenN q <? 2 then Err EIndexOutOfBound
  else if ty =? 1 then
    if lenN q <? 14 then Err EIndexOutOfBound
    else Ok (MkFavItem ty attr (PBoard (le_dec (sub 2 4 q)) (Z.of_N (le_dec (sub 6 4 q))) (le_dec (sub 10 4 q)) []), 14)
  else if ty =? 3 then
    if lenN q <? 3 then Err EIndexOutOfBound else Ok (MkFavItem ty attr (PLine (le_dec (sub 2 1 q))), 3)
  else if ty =? 2 then
    if lenN q <? 52 then Err EIndexOutOfBound
    else Ok (MkFavItem ty attr (PFolder (le_dec (sub 2 1 q)) (dec cd (split_nul_head (sub 3 49 q))) None), 52)
  else Err EInvalidFavType.
Definition shift {A} (pre : bytes) (r : A * N) : A * N := (fst r, lenN pre + snd r).

Lemma ltb_shift (pre q : bytes) k : (lenN (pre ++ q) <? lenN pre + k) = (lenN q <? k).
Proof. rewrite lenN_app. destruct (_ <? _) eqn:A, (lenN q <? k) eqn:B; auto; lia. Qed.
Lemma item_at pre q : UnmarshalFavItem cd (pre ++ q) (lenN pre) = omap (shift pre) (item_spec q).
Proof.
  unfold UnmarshalFavItem, item_spec. rewrite ltb_shift.
  destruct (lenN q <? 2) eqn:L2; [reflexivity|].
  replace (slice_num (pre ++ q) (lenN pre) 1) with (Ok (le_dec (sub 0 1 q))).
  2:{ rewrite <- (N.add_0_r (lenN pre)), slice_num_shift, slice_num_ok by lia. reflexivity. }
  rewrite slice_num_shift, slice_num_ok by lia. cbn [obind].
  set (ty := le_dec (sub 0 1 q)). set (attr := le_dec (sub 1 1 q)).
  unfold FavItemTypeBoard, FavItemTypeFolder, FavItemTypeLine.
  destruct (ty =? 1).
  { unfold UnmarshalFavBoardItem, sizeOfPttFavBoardBytes. rewrite <- !N.add_assoc, ltb_shift. change (2 + 12) with 14.
    destruct (lenN q <? 14) eqn:L; [reflexivity|]. rewrite !slice_num_shift, !slice_num_ok by lia. cbn -[sub N.add lenN]. unfold shift. cbn [fst snd].
    repeat f_equal; lia. }
  destruct (ty =? 3).
  { unfold UnmarshalFavLineItem, sizeOfPttFavLineBytes. rewrite <- !N.add_assoc, ltb_shift. change (2 + 1) with 3.
    destruct (lenN q <? 3) eqn:L; [reflexivity|]. rewrite !slice_num_shift, !slice_num_ok by lia. cbn -[sub N.add lenN]. unfold shift. cbn [fst snd].
    repeat f_equal. }
  destruct (ty =? 2); [|reflexivity].
  unfold UnmarshalFavFolderItem, sizeOfPttFavFolderBytes. rewrite <- !N.add_assoc, ltb_shift. change (2 + 50) with 52.
  destruct (lenN q <? 52) eqn:L; [reflexivity|]. change (BoardTitleLength + 1) with 49.
  rewrite slice_num_shift, slice_shift, slice_num_ok, slice_ok by lia. cbn -[sub N.add lenN]. unfold shift. cbn [fst snd].
  repeat f_equal.
Qed.

(** An item as the first pass leaves it. *)
Definition raw (e : entry) (i : FavItem) : Prop :=
  match e with
  | EBoard attr bid visit battr => i = MkFavItem 1 attr (PBoard bid visit battr [])
  | EFolder attr title _ => exists id, i = MkFavItem 2 attr (PFolder id title None)
  | ELine attr => exists id, i = MkFavItem 3 attr (PLine id)
  end.

Lemma f_num_app d x off k n : f_num d off k n -> le_dec (sub off k (d ++ x)) = n.
Proof.
  intros (v & A & ->). destruct (at_off_is_sub _ _ _ _ A) as [E L]. rewrite sub_app_l by exact L. rewrite <- E. symmetry. apply le_num_dec.
Qed.
Lemma item_complete e d x : item_record cd e d -> exists i, item_spec (d ++ x) = Ok (i, lenN d) /\ raw e i.
Proof.
  intros R. unfold item_spec. destruct e as [attr bid visit battr|attr title l|attr]; cbn [item_record] in R.
  - destruct R as (L & T & A & B & (nv & V & ->) & C).
    rewrite (f_num_app _ _ _ _ _ T), (f_num_app _ _ _ _ _ A), (f_num_app _ _ _ _ _ B), (f_num_app _ _ _ _ _ V), (f_num_app _ _ _ _ _ C).
    rewrite lenN_app, L. destruct (_ <? 2) eqn:L2; [lia|]. cbn [N.eqb Pos.eqb]. destruct (_ <? 14) eqn:L3; [lia|].
    eexists. split; [reflexivity|]. reflexivity.
  - destruct R as (L & T & A & (s & (v & At & Cs) & ->)).
    rewrite (f_num_app _ _ _ _ _ T), (f_num_app _ _ _ _ _ A).
    destruct (at_off_is_sub _ _ _ _ At) as [Ev Lv]. rewrite (sub_app_l 3 49) by exact Lv. rewrite <- Ev, (c_string_split _ _ Cs).
    rewrite lenN_app, L. destruct (_ <? 2) eqn:L2; [lia|]. cbn [N.eqb Pos.eqb]. destruct (_ <? 52) eqn:L3; [lia|].
    eexists. split; [reflexivity|]. eexists. reflexivity.
  - destruct R as (L & T & A).
    rewrite (f_num_app _ _ _ _ _ T), (f_num_app _ _ _ _ _ A).
    rewrite lenN_app, L. destruct (_ <? 2) eqn:L2; [lia|]. cbn [N.eqb Pos.eqb]. destruct (_ <? 3) eqn:L3; [lia|].
    eexists. split; [reflexivity|]. eexists. reflexivity.
Qed.

Lemma split_at (q : bytes) n : n <= lenN q -> exists d x, q = d ++ x /\ lenN d = n.
Proof.
  intros H. exists (firstn (N.to_nat n) q), (skipn (N.to_nat n) q). split; [symmetry; apply firstn_skipn|].
  unfold lenN in *. rewrite firstn_length. lia.
Qed.
Lemma f_num_pre d x off k n : off + k <= lenN d -> le_dec (sub off k (d ++ x)) = n -> f_num d off k n.
Proof. intros L <-. rewrite sub_app_l by exact L. now apply f_num_sub. Qed.
Lemma item_sound q i c : item_spec q = Ok (i, c) ->
  exists e d x, q = d ++ x /\ lenN d = c /\ item_record cd e d /\ raw e i.
Proof.
  unfold item_spec. destruct (lenN q <? 2) eqn:L2; [discriminate|].
  destruct (le_dec (sub 0 1 q) =? 1) eqn:T1; [|destruct (le_dec (sub 0 1 q) =? 3) eqn:T3; [|destruct (le_dec (sub 0 1 q) =? 2) eqn:T2; [|discriminate]]].
  - destruct (lenN q <? 14) eqn:L; [discriminate|]. intros [= <- <-].
    destruct (split_at q 14) as (d & x & -> & Ld); [lia|]. apply N.eqb_eq in T1.
    exists (EBoard (le_dec (sub 1 1 (d ++ x))) (le_dec (sub 2 4 (d ++ x))) (Z.of_N (le_dec (sub 6 4 (d ++ x)))) (le_dec (sub 10 4 (d ++ x)))), d, x.
    split; [reflexivity|]. split; [exact Ld|]. split; [|cbn [raw]; now rewrite T1].
    cbn [item_record]. split; [exact Ld|].
    split; [apply (f_num_pre d x); [lia|exact T1]|]. split; [apply (f_num_pre d x); [lia|reflexivity]|].
    split; [apply (f_num_pre d x); [lia|reflexivity]|]. split; [eexists; split; [|reflexivity]; apply (f_num_pre d x); [lia|reflexivity]|].
    apply (f_num_pre d x); [lia|reflexivity].
  - destruct (lenN q <? 3) eqn:L; [discriminate|]. intros [= <- <-].
    destruct (split_at q 3) as (d & x & -> & Ld); [lia|]. apply N.eqb_eq in T3.
    exists (ELine (le_dec (sub 1 1 (d ++ x)))), d, x.
    split; [reflexivity|]. split; [exact Ld|]. split; [|eexists; now rewrite T3].
    cbn [item_record]. split; [exact Ld|].
    split; [apply (f_num_pre d x); [lia|exact T3]|]. apply (f_num_pre d x); [lia|reflexivity].
  - destruct (lenN q <? 52) eqn:L; [discriminate|]. intros [= <- <-].
    destruct (split_at q 52) as (d & x & -> & Ld); [lia|]. apply N.eqb_eq in T2.
    exists (EFolder (le_dec (sub 1 1 (d ++ x))) (dec cd (split_nul_head (sub 3 49 (d ++ x)))) []), d, x.
    split; [reflexivity|]. split; [exact Ld|]. split; [|eexists; now rewrite T2].
    cbn [item_record]. split; [exact Ld|].
    split; [apply (f_num_pre d x); [lia|exact T2]|]. split; [apply (f_num_pre d x); [lia|reflexivity]|].
    rewrite sub_app_l by lia. apply f_cstr_big5_split. lia.
Qed.
(** errors only *)
Definition clean {A} (o : outcome A) : Prop :=
  match o with Ok _ => True | Err e => e = EIndexOutOfBound \/ e = EInvalidFavType | _ => False end.
Lemma item_clean q : clean (item_spec q).
Proof. unfold item_spec. repeat destruct (_ <? _); repeat destruct (_ =? _); cbn; auto. Qed.

(** ** Many items *)
Lemma items_complete l recs : Forall2 (item_record cd) l recs -> forall pre x,
  exists is, unmarshal_items cd (pre ++ concat recs ++ x) (length l) (lenN pre) = Ok (is, lenN pre + lenN (concat recs)) /\ Forall2 raw l is.
Proof.
  induction 1 as [|e d l recs R _ IH]; intros pre x.
  - exists []. cbn. rewrite N.add_0_r. auto.
  - cbn [length unmarshal_items concat]. rewrite <- app_assoc, item_at.
    destruct (item_complete e d (concat recs ++ x) R) as (i & -> & Hi). cbn [omap obind shift fst snd].
    destruct (IH (pre ++ d) x) as (is & E & Hs). rewrite <- app_assoc, lenN_app in E. rewrite E. cbn [obind].
    exists (i :: is). split; [|constructor; assumption]. rewrite lenN_app. do 2 f_equal; lia.
Qed.
Lemma items_sound n : forall pre q is c, unmarshal_items cd (pre ++ q) n (lenN pre) = Ok (is, c) ->
  exists l recs x, q = concat recs ++ x /\ c = lenN pre + lenN (concat recs) /\ length l = n /\ Forall2 (item_record cd) l recs /\ Forall2 raw l is.
Proof.
  induction n as [|n IH]; intros pre q is c H; cbn [unmarshal_items] in H.
  - injection H as <- <-. exists [], [], q. repeat (split; [cbn; auto; lia|]). constructor.
  - rewrite item_at in H. destruct (item_spec q) as [[i c']| | |] eqn:E; try discriminate. cbn [omap obind shift fst snd] in H.
    destruct (item_sound q i c' E) as (e & d & x & -> & Lc & R & Hi). subst c'.
    rewrite app_assoc, <- lenN_app in H.
    destruct (unmarshal_items cd ((pre ++ d) ++ x) n (lenN (pre ++ d))) as [[l' c'']| | |] eqn:E'; try discriminate. cbn [obind] in H. injection H as <- <-.
    destruct (IH _ _ _ _ E') as (l & recs & y & -> & -> & Ll & F & G).
    exists (e :: l), (d :: recs), y. cbn [concat]. rewrite app_assoc, !lenN_app. split; [reflexivity|]. split; [lia|]. split; [cbn; lia|].
    split; constructor; assumption.
Qed.
Lemma items_clean n : forall pre q, clean (unmarshal_items cd (pre ++ q) n (lenN pre)).
Proof.
  induction n as [|n IH]; intros pre q; cbn [unmarshal_items]; [cbn; auto|]. rewrite item_at.
  pose proof (item_clean q) as C. destruct (item_spec q) as [[i c']| | |] eqn:E; cbn in C |- *; auto.
  destruct (item_sound q i c' E) as (e & d & x & -> & Lc & R & Hi). subst c'. unfold shift. cbn [fst snd].
  rewrite app_assoc, <- lenN_app. specialize (IH (pre ++ d) x).
  destruct (unmarshal_items cd ((pre ++ d) ++ x) n _) as [[l c]| | |]; cbn in IH |- *; auto.
Qed.

(** ** Folders *)
(** [l'] is [l] with the folders filled in. *)
Definition same_head (e e' : entry) : Prop :=
  match e, e' with EFolder a t _, EFolder a' t' _ => a = a' /\ t = t' | EBoard _ _ _ _, _ | ELine _, _ => e = e' | _, _ => False end.
Lemma same_head_record e e' d : same_head e e' -> item_record cd e d -> item_record cd e' d.
Proof. destruct e, e'; cbn; try congruence; try contradiction. intros [-> ->]. auto. Qed.

Definition reads (sub : N -> outcome (FavFolder * N)) (pre : bytes) (t : list entry) (d : bytes) : Prop :=
  exists f, sub (lenN pre) = Ok (f, lenN pre + lenN d) /\ tree_of f = Some t.
Lemma subs_complete sub l is : Forall2 raw l is -> forall subs pre lid fid,
  (forall k t d, nth_error (folders l) k = Some t -> nth_error subs k = Some d ->
     reads sub (pre ++ concat (firstn k subs)) t d) -> length subs = length (folders l) ->
  exists is' lid' fid', unmarshal_subs sub is (lenN pre) lid fid = Ok (is', lenN pre + lenN (concat subs), lid', fid') /\
    seq_opt item_tree is' = Some l.
Proof.
  induction 1 as [|e i l is R F IH]; intros subs pre lid fid H Hl.
  - destruct subs; [|discriminate]. exists [], lid, fid. cbn. now rewrite N.add_0_r.
  - destruct e as [attr bid visit battr|attr title m|attr]; cbn [raw] in R.
    + subst i. cbn [unmarshal_subs]. cbn [folders flat_map app] in *. fold (folders l) in *.
      destruct (IH subs pre lid fid H Hl) as (is' & lid' & fid' & -> & T). cbn [obind]. eexists _, _, _. split; [reflexivity|].
      cbn [seq_opt item_tree]. rewrite T. reflexivity.
    + destruct R as [id ->]. cbn [unmarshal_subs]. cbn [folders flat_map app] in *. fold (folders l) in *.
      destruct subs as [|d subs]; [discriminate|]. destruct (H 0%nat m d eq_refl eq_refl) as (f & Ef & Tf).
      cbn [firstn concat] in Ef. rewrite app_nil_r in Ef. rewrite Ef. cbn [obind].
      destruct (IH subs (pre ++ d) lid (u8 (Z.of_N fid + 1))) as (is' & lid' & fid' & E & T).
      { intros k t d' Hk Hd. rewrite <- app_assoc. exact (H (S k) t d' Hk Hd). }
      { cbn in Hl. lia. }
      rewrite lenN_app in E. rewrite E. cbn [obind]. eexists _, _, _. split.
      { cbn [concat]. rewrite lenN_app. do 3 f_equal. f_equal. lia. }
      cbn [seq_opt item_tree N.eqb Pos.eqb]. rewrite Tf, T. reflexivity.
    + destruct R as [id ->]. cbn [unmarshal_subs]. cbn [folders flat_map app] in *. fold (folders l) in *.
      destruct (IH subs pre (u8 (Z.of_N lid + 1)) fid H Hl) as (is' & lid' & fid' & -> & T). cbn [obind]. eexists _, _, _. split; [reflexivity|].
      cbn [seq_opt item_tree]. rewrite T. reflexivity.
Qed.

Lemma header_at pre q : 4 <= lenN q ->
  slice_num (pre ++ q) (lenN pre) 2 = Ok (le_dec (sub 0 2 q)) /\
  slice_num (pre ++ q) (lenN pre + 2) 1 = Ok (le_dec (sub 2 1 q)) /\
  slice_num (pre ++ q) (lenN pre + 3) 1 = Ok (le_dec (sub 3 1 q)).
Proof.
  intros L. split; [|now rewrite !slice_num_shift, (slice_num_ok q 2), (slice_num_ok q 3) by lia].
  rewrite <- (N.add_0_r (lenN pre)), slice_num_shift, slice_num_ok by lia. reflexivity.
Qed.
Lemma layout_len counts t d : layout cd counts t d -> 4 <= lenN d.
Proof. intros [l hdr nb nl nf recs subs L _ _ _ _ _ _]. rewrite lenN_app. lia. Qed.
Lemma nth_concat_len (subs : list bytes) k d : nth_error subs k = Some d -> (length d <= length (concat subs))%nat.
Proof.
  revert k. induction subs as [|s subs IH]; intros [|k] H; try discriminate; cbn [concat]; rewrite app_length.
  - injection H as <-. lia.
  - apply IH in H. lia.
Qed.
Lemma nth_split_concat (subs : list bytes) k d x : nth_error subs k = Some d ->
  concat subs ++ x = concat (firstn k subs) ++ d ++ concat (skipn (S k) subs) ++ x.
Proof.
  revert k. induction subs as [|s subs IH]; intros [|k] H; try discriminate.
  - injection H as ->. cbn [concat firstn skipn app]. now rewrite <- app_assoc.
  - cbn [nth_error] in H. cbn [concat firstn skipn]. rewrite <- !app_assoc. f_equal. exact (IH k H).
Qed.

Lemma folder_complete : forall fuel t d, layout cd counts_sum t d -> (length d < fuel)%nat -> forall pre x,
  reads (UnmarshalFavFolder cd fuel (pre ++ d ++ x)) pre t d.
Proof.
  induction fuel as [|fuel IH]; intros t d Ly Hf pre x; [lia|]. destruct Ly as [l hdr nb nl nf recs subs Lh H1 H2 H3 Hc Hr Hs].
  unfold reads. cbn [UnmarshalFavFolder].
  assert (L4 : 4 <= lenN ((hdr ++ concat recs ++ concat subs) ++ x)) by (rewrite !lenN_app; lia).
  rewrite ltb_shift. destruct (_ <? 4) eqn:E4; [lia|].
  destruct (header_at pre _ L4) as (-> & -> & ->). cbn [obind]. rewrite <- !app_assoc.
  rewrite (f_num_app _ _ _ _ _ H1), (f_num_app _ _ _ _ _ H2), (f_num_app _ _ _ _ _ H3).
  unfold counts_sum in Hc.
  assert (Ed : u16 (Z.of_N (nb + nf + nl)) = lenN l).
  { rewrite <- Hc. unfold u16. rewrite <- (N2Z.id ((nb + nl + nf) mod 65536)). f_equal. rewrite N2Z.inj_mod. f_equal. lia. }
  rewrite Ed, to_nat_lenN.
  destruct (items_complete l recs Hr (pre ++ hdr) (concat subs ++ x)) as (is & Ei & Hi).
  rewrite <- app_assoc, lenN_app, Lh in Ei. rewrite Ei. cbn [obind].
  destruct (subs_complete (UnmarshalFavFolder cd fuel (pre ++ hdr ++ concat recs ++ concat subs ++ x)) l is Hi subs (pre ++ hdr ++ concat recs) 0 0)
    as (is' & lid & fid & Es & T).
  { intros k t d Hk Hd.
    assert (Ly : layout cd counts_sum t d).
    { clear - Hs Hk Hd. revert k Hk Hd. induction Hs as [|a b la lb Hab _ IH]; intros [|k] Hk Hd; try discriminate; cbn in Hk, Hd; [congruence|eauto]. }
    rewrite (nth_split_concat subs k d x Hd).
    pose proof (nth_concat_len subs k d Hd). 
    specialize (IH t d Ly). rewrite !app_length in Hf. unfold lenN in Lh.
    assert (Hl : (length d < fuel)%nat) by lia.
    specialize (IH Hl (pre ++ hdr ++ concat recs ++ concat (firstn k subs)) (concat (skipn (S k) subs) ++ x)).
    rewrite <- !app_assoc in *. exact IH. }
  { symmetry. clear - Hs. induction Hs; cbn; auto. }
  rewrite !lenN_app, Lh in Es. replace (lenN pre + 4 + lenN (concat recs)) with (lenN pre + (4 + lenN (concat recs))) by lia.
  rewrite Es. cbn [obind]. eexists. split; [|rewrite tree_of_items; exact T]. rewrite !lenN_app, Lh. do 2 f_equal. lia.
Qed.

(** what a successful call of [sub] means *)
Definition found (sub : N -> outcome (FavFolder * N)) (data : bytes) : Prop :=
  forall pre q f c, data = pre ++ q -> sub (lenN pre) = Ok (f, c) ->
  exists t d x, q = d ++ x /\ c = lenN pre + lenN d /\ layout cd counts_sum t d /\ tree_of f = Some t.
Lemma subs_sound sub data l is : found sub data -> Forall2 raw l is -> forall pre q lid fid is' c lid' fid',
  data = pre ++ q -> unmarshal_subs sub is (lenN pre) lid fid = Ok (is', c, lid', fid') ->
  exists l' subs x, q = concat subs ++ x /\ c = lenN pre + lenN (concat subs) /\ Forall2 same_head l l' /\
    Forall2 (layout cd counts_sum) (folders l') subs /\ seq_opt item_tree is' = Some l'.
Proof.
  intros Fd. induction 1 as [|e i l is R _ IH]; intros pre q lid fid is' c lid' fid' Eq H.
  - injection H as <- <- <- <-. exists [], [], q. cbn. rewrite N.add_0_r. repeat (split; [auto|]). auto.
  - destruct e as [attr bid visit battr|attr title m|attr]; cbn [raw] in R.
    + subst i. cbn [unmarshal_subs] in H.
      destruct (unmarshal_subs sub is (lenN pre) lid fid) as [[[[r c1] a1] b1]| | |] eqn:E; try discriminate. cbn [obind] in H. injection H as <- <- <- <-.
      destruct (IH _ _ _ _ _ _ _ _ Eq E) as (l' & subs & x & A & B & C & D & T).
      exists (EBoard attr bid visit battr :: l'), subs, x. split; [exact A|]. split; [exact B|]. split; [constructor; [reflexivity|exact C]|].
      split; [exact D|]. cbn [seq_opt item_tree N.eqb Pos.eqb]. now rewrite T.
    + destruct R as [id ->]. cbn [unmarshal_subs] in H.
      destruct (sub (lenN pre)) as [[f c0]| | |] eqn:Es; try discriminate. cbn [obind] in H.
      destruct (Fd pre q f c0 Eq Es) as (t & d & x & -> & -> & Ly & Tf).
      destruct (unmarshal_subs sub is (lenN pre + lenN d) lid (u8 (Z.of_N fid + 1))) as [[[[r c1] a1] b1]| | |] eqn:E; try discriminate. cbn [obind] in H. injection H as <- <- <- <-.
      rewrite <- lenN_app in E. rewrite app_assoc in Eq.
      destruct (IH _ _ _ _ _ _ _ _ Eq E) as (l' & subs & y & -> & -> & C & D & T).
      exists (EFolder attr title t :: l'), (d :: subs), y. cbn [concat]. rewrite app_assoc. split; [reflexivity|]. split; [rewrite !lenN_app; lia|].
      split; [constructor; [split; reflexivity|exact C]|]. split; [cbn [folders flat_map app]; constructor; assumption|].
      cbn [seq_opt item_tree N.eqb Pos.eqb]. now rewrite Tf, T.
    + destruct R as [id ->]. cbn [unmarshal_subs] in H.
      destruct (unmarshal_subs sub is (lenN pre) (u8 (Z.of_N lid + 1)) fid) as [[[[r c1] a1] b1]| | |] eqn:E; try discriminate. cbn [obind] in H. injection H as <- <- <- <-.
      destruct (IH _ _ _ _ _ _ _ _ Eq E) as (l' & subs & x & A & B & C & D & T).
      exists (ELine attr :: l'), subs, x. split; [exact A|]. split; [exact B|]. split; [constructor; [reflexivity|exact C]|].
      split; [exact D|]. cbn [seq_opt item_tree N.eqb Pos.eqb]. now rewrite T.
Qed.
Lemma Forall2_map_l {A B C} (P : A -> B -> Prop) (Q : C -> B -> Prop) (R : A -> C -> Prop) l l' m :
  (forall a c b, R a c -> P a b -> Q c b) -> Forall2 R l l' -> Forall2 P l m -> Forall2 Q l' m.
Proof. intros H F. revert m. induction F; intros m G; inversion G; subst; constructor; eauto. Qed.
Lemma Forall2_len {A B} (P : A -> B -> Prop) l m : Forall2 P l m -> length l = length m.
Proof. induction 1; cbn; auto. Qed.

Lemma folder_sound : forall fuel data, found (UnmarshalFavFolder cd fuel data) data.
Proof.
  induction fuel as [|fuel IH]; intros data pre q f c -> H; [discriminate|]. cbn [UnmarshalFavFolder] in H.
  rewrite ltb_shift in H. destruct (lenN q <? 4) eqn:L4; [discriminate|].
  destruct (header_at pre q) as (E1 & E2 & E3); [lia|]. rewrite E1, E2, E3 in H. cbn [obind] in H.
  destruct (split_at q 4) as (hdr & q' & -> & Lh); [lia|].
  set (nb := le_dec (sub 0 2 (hdr ++ q'))) in *. set (nl := le_dec (sub 2 1 (hdr ++ q'))) in *. set (nf := le_dec (sub 3 1 (hdr ++ q'))) in *.
  rewrite app_assoc in H. replace (lenN pre + 4) with (lenN (pre ++ hdr)) in H by (rewrite lenN_app; lia).
  destruct (unmarshal_items cd ((pre ++ hdr) ++ q') (N.to_nat (u16 (Z.of_N (nb + nf + nl)))) (lenN (pre ++ hdr))) as [[is c1]| | |] eqn:Ei; try discriminate.
  cbn [obind] in H. destruct (items_sound _ _ _ _ _ Ei) as (l & recs & x & -> & -> & Ll & Hr & Hi).
  destruct (unmarshal_subs (UnmarshalFavFolder cd fuel ((pre ++ hdr) ++ concat recs ++ x)) is (lenN (pre ++ hdr) + lenN (concat recs)) 0 0)
    as [[[[is' c2] lid] fid]| | |] eqn:Es; try discriminate. cbn [obind] in H. injection H as <- <-.
  rewrite <- lenN_app in Es.
  destruct (subs_sound _ _ l is (IH _) Hi _ x _ _ _ _ _ _ (app_assoc _ _ _) Es) as (l' & subs & y & -> & -> & Hh & Hs & T).
  exists l', (hdr ++ concat recs ++ concat subs), y. split; [now rewrite <- !app_assoc|]. split; [rewrite !lenN_app; lia|].
  split; [|now rewrite tree_of_items].
  apply (Layout cd counts_sum l' hdr nb nl nf); auto.
  - apply (f_num_pre hdr (concat recs ++ concat subs ++ y)); [lia|reflexivity].
  - apply (f_num_pre hdr (concat recs ++ concat subs ++ y)); [lia|reflexivity].
  - apply (f_num_pre hdr (concat recs ++ concat subs ++ y)); [lia|reflexivity].
  - unfold counts_sum. unfold lenN. rewrite <- (Forall2_len _ _ _ Hh), Ll, N2Nat.id. unfold u16.
    replace ((nb + nl + nf) mod 65536) with (Z.to_N (Z.of_N ((nb + nl + nf) mod 65536))) by apply N2Z.id. f_equal. rewrite N2Z.inj_mod. f_equal. lia.
  - revert Hr. apply Forall2_map_l with (R := same_head); [|exact Hh]. intros a e b. apply same_head_record.
Qed.

(** ** No panic, and an answer for every input *)
Lemma subs_clean sub data l is (fuel : nat) : found sub data ->
  (forall pre q, data = pre ++ q -> (length q < fuel)%nat -> clean (sub (lenN pre))) ->
  Forall2 raw l is -> forall pre q, data = pre ++ q -> (length q < fuel)%nat -> forall lid fid, clean (unmarshal_subs sub is (lenN pre) lid fid).
Proof.
  intros Fd Hc. induction 1 as [|e i l is R _ IH]; intros pre q Eq Hf lid fid; [cbn; auto|].
  destruct e as [attr bid visit battr|attr title m|attr]; cbn [raw] in R.
  - subst i. cbn [unmarshal_subs]. specialize (IH _ _ Eq Hf lid fid).
    destruct (unmarshal_subs sub is (lenN pre) lid fid) as [[[[r c1] a1] b1]| | |]; cbn in IH |- *; auto.
  - destruct R as [id ->]. cbn [unmarshal_subs]. specialize (Hc _ _ Eq Hf).
    destruct (sub (lenN pre)) as [[f c0]| | |] eqn:Es; cbn [clean obind] in Hc |- *; auto.
    destruct (Fd pre q f c0 Eq Es) as (t & d & x & -> & -> & _ & _). rewrite <- lenN_app. rewrite app_assoc in Eq.
    rewrite app_length in Hf. specialize (IH _ x Eq ltac:(lia) lid (u8 (Z.of_N fid + 1))).
    destruct (unmarshal_subs _ _ _ _ _) as [[[[r c1] a1] b1]| | |]; cbn in IH |- *; auto.
  - destruct R as [id ->]. cbn [unmarshal_subs]. specialize (IH _ _ Eq Hf (u8 (Z.of_N lid + 1)) fid).
    destruct (unmarshal_subs sub is (lenN pre) _ fid) as [[[[r c1] a1] b1]| | |]; cbn in IH |- *; auto.
Qed.
Lemma folder_clean : forall fuel pre q, (length q < fuel)%nat -> clean (UnmarshalFavFolder cd fuel (pre ++ q) (lenN pre)).
Proof.
  induction fuel as [|fuel IH]; intros pre q Hf; [lia|]. cbn [UnmarshalFavFolder].
  rewrite ltb_shift. destruct (lenN q <? 4) eqn:L4; [cbn; auto|].
  destruct (header_at pre q) as (-> & -> & ->); [lia|]. cbn [obind].
  destruct (split_at q 4) as (hdr & q' & -> & Lh); [lia|].
  generalize (le_dec (sub 0 2 (hdr ++ q'))) as nb, (le_dec (sub 2 1 (hdr ++ q'))) as nl, (le_dec (sub 3 1 (hdr ++ q'))) as nf. intros nb nl nf.
  rewrite app_assoc. replace (lenN pre + 4) with (lenN (pre ++ hdr)) by (rewrite lenN_app; lia).
  pose proof (items_clean (N.to_nat (u16 (Z.of_N (nb + nf + nl)))) (pre ++ hdr) q') as Ci.
  destruct (unmarshal_items cd ((pre ++ hdr) ++ q') _ _) as [[is c1]| | |] eqn:Ei; cbn [clean obind] in Ci |- *; auto.
  destruct (items_sound _ _ _ _ _ Ei) as (l & recs & x & -> & -> & Ll & Hr & Hi). clear Ei Ll Hr.
  rewrite <- lenN_app. rewrite (app_assoc (pre ++ hdr)).
  assert (Hx : (length x < fuel)%nat) by (rewrite !app_length in Hf; unfold lenN in Lh; lia).
  pose proof (subs_clean (UnmarshalFavFolder cd fuel (((pre ++ hdr) ++ concat recs) ++ x)) _ l is fuel (folder_sound fuel _)
    (fun p y E => eq_ind _ (fun dd => (length y < fuel)%nat -> clean (UnmarshalFavFolder cd fuel dd (lenN p))) (IH p y) _ (eq_sym E)) Hi
    ((pre ++ hdr) ++ concat recs) x eq_refl Hx 0 0) as Cs.
  destruct (unmarshal_subs _ _ _ _ _) as [[[[is' c2] lid] fid]| | |]; cbn in Cs |- *; auto.
Qed.

(** ** Writing *)

Lemma FavFolder_ind' (P : FavFolder -> Prop) :
  (forall a b c d e f g l, Forall (fun i => match i with MkFavItem _ _ (PFolder _ _ (Some h)) => P h | _ => True end) l ->
    P (MkFavFolder a b c d e f g l)) -> forall f, P f.
Proof.
  intros H. fix IH 1. intros [a b c d e f g l]. apply H. clear H.
  induction l as [|[ty attr p] l IHl]; constructor; [|exact IHl]. destruct p as [| ? ? [h|] | |]; auto.
Qed.
Lemma f_num_of d off k n : off + k <= lenN d -> le_dec (sub off k d) = n -> f_num d off k n.
Proof. intros L <-. now apply f_num_sub. Qed.
(** all of an entry that goes into its own record can be represented *)
Definition head_fits (e : entry) : Prop :=
  match e with EFolder attr title _ => num_fits 1 attr /\ big5_cstr_fits cd 49 title | _ => entry_fits cd e end.
Lemma head2 ty attr : lenN (put_all 2 [w8 0 ty; w8 1 attr]) = 2 /\
  sub 0 1 (put_all 2 [w8 0 ty; w8 1 attr]) = pad 1 (le_enc 1 ty) /\ sub 1 1 (put_all 2 [w8 0 ty; w8 1 attr]) = pad 1 (le_enc 1 attr).
Proof.
  split; [apply put_all_len; vm_compute; reflexivity|].
  pose proof (all_slots 2 [w8 0 ty; w8 1 attr] eq_refl) as A. cbn in A. tauto.
Qed.
Lemma sub_h (h b : bytes) a off k : lenN h = 2 -> a = 2 + off -> sub a k (h ++ b) = sub off k b.
Proof. intros <- ->. apply sub_shift. Qed.
Lemma item_marshal e i : item_tree i = Some e -> head_fits e -> exists r, marshal_item cd i = Ok r /\ item_record cd e r.
Proof.
  destruct i as [ty attr p]. unfold marshal_item. cbn [fi_item fi_type fi_attr]. destruct (head2 ty attr) as (L & H0 & H1).
  set (h := put_all 2 _) in *.
  assert (G0 : forall b n, ty = n -> num_fits 1 n -> f_num (h ++ b) 0 1 n).
  { intros b n -> F. apply f_num_of; [rewrite lenN_app; lia|]. rewrite sub_app_l by lia. rewrite H0. now apply rt_u8. }
  assert (G1 : forall b, num_fits 1 attr -> f_num (h ++ b) 1 1 attr).
  { intros b F. apply f_num_of; [rewrite lenN_app; lia|]. rewrite sub_app_l by lia. rewrite H1. now apply rt_u8. }
  destruct p as [bid visit battr name|fid title [g|]|lid|]; cbn [item_tree]; try discriminate.
  - destruct (ty =? 1) eqn:T; [|discriminate]. apply N.eqb_eq in T. intros [= <-] (Fa & Fb & Fv & Fc).
    eexists. split; [reflexivity|].
    set (b := put_all sizeOfPttFavBoardBytes _).
    assert (Lb : lenN b = 12) by (apply put_all_len; vm_compute; reflexivity).
    pose proof (all_slots sizeOfPttFavBoardBytes [w32 0 bid; w32 4 (u32 visit); w32 8 battr] eq_refl) as A.
    fold b in A. unfold w32 in A. cbn [allP w_off w_len w_src] in A. destruct A as (A1 & A2 & A3 & _).
    cbn [item_record]. split; [rewrite lenN_app; lia|]. split; [apply G0; [exact T|reflexivity]|]. split; [now apply G1|].
    split; [|split].
    + apply f_num_of; [rewrite lenN_app; lia|]. rewrite (sub_h h b 2 0 4 L eq_refl), A1. now apply rt_u32.
    + eexists. split; [apply f_num_sub; rewrite lenN_app; lia|]. rewrite (sub_h h b 6 4 4 L eq_refl), A2. symmetry. now apply rt_time.
    + apply f_num_of; [rewrite lenN_app; lia|]. rewrite (sub_h h b 10 8 4 L eq_refl), A3. now apply rt_u32.
  - destruct (ty =? 2) eqn:T; [|discriminate]. apply N.eqb_eq in T. destruct (tree_of g) as [m|]; [|discriminate]. cbn [option_map]. intros [= <-] (Fa & Ft).
    eexists. split; [reflexivity|].
    set (b := put_all sizeOfPttFavFolderBytes _).
    assert (Lb : lenN b = 50) by (apply put_all_len; vm_compute; reflexivity).
    pose proof (all_slots sizeOfPttFavFolderBytes [w8 0 fid; wstr 1 (BoardTitleLength + 1) (utf8ToBig5UAOString cd title)] eq_refl) as A.
    fold b in A. unfold w8, wstr in A. cbn [allP w_off w_len w_src] in A. destruct A as (A1 & A2 & _).
    cbn [item_record]. split; [rewrite lenN_app; lia|]. split; [apply G0; [exact T|reflexivity]|]. split; [now apply G1|].
    rewrite <- (rt_split_big5 cd 49 title Ft). change (BoardTitleLength + 1) with 49 in A2. rewrite <- A2, <- (sub_h h b 3 1 49 L eq_refl).
    apply f_cstr_big5_split. rewrite lenN_app. lia.
  - destruct (ty =? 3) eqn:T; [|discriminate]. apply N.eqb_eq in T. intros [= <-] Fa.
    eexists. split; [reflexivity|].
    set (b := put_all sizeOfPttFavLineBytes _).
    assert (Lb : lenN b = 1) by (apply put_all_len; vm_compute; reflexivity).
    cbn [item_record]. split; [rewrite lenN_app; lia|]. split; [apply G0; [exact T|reflexivity]|]. now apply G1.
Qed.

Lemma items_marshal items : forall l, seq_opt item_tree items = Some l -> Forall head_fits l ->
  exists recs, marshal_all (marshal_item cd) items = Ok (concat recs) /\ Forall2 (item_record cd) l recs.
Proof.
  induction items as [|i items IH]; cbn [seq_opt marshal_all]; intros l E F.
  - injection E as <-. exists []. auto.
  - destruct (item_tree i) as [e|] eqn:Ei; [|discriminate]. destruct (seq_opt item_tree items) as [r|]; [|discriminate].
    injection E as <-. apply Forall_cons_iff in F as [F1 F2].
    destruct (item_marshal e i Ei F1) as (x & -> & Rx). destruct (IH r eq_refl F2) as (recs & E2 & R2).
    cbn [obind]. rewrite E2. exists (x :: recs). split; [reflexivity|]. constructor; auto.
Qed.

Definition sub_folder (i : FavItem) : outcome bytes :=
  match i with
  | MkFavItem _ _ (PFolder _ _ (Some g)) => marshal_folder cd g
  | MkFavItem _ _ (PFolder _ _ None) => Panic
  | _ => Ok []
  end.
Lemma marshal_folder_eq a b nb nl nf c d items : marshal_folder cd (MkFavFolder a b nb nl nf c d items) =
  obind (marshal_all (marshal_item cd) items) (fun x => obind (marshal_all sub_folder items) (fun y =>
  Ok (put_all 4 [w16 0 nb; w8 2 nl; w8 3 nf] ++ x ++ y))).
Proof. reflexivity. Qed.

(** counters of the sub-folders *)
Definition subs_ok (l : list FavItem) : Prop :=
  Forall (fun i => match i with MkFavItem _ _ (PFolder _ _ (Some g)) => counters_ok g | _ => True end) l.
Lemma counters_ok_eq a b nb nl nf c d items l : tree_of (MkFavFolder a b nb nl nf c d items) = Some l ->
  counters_ok (MkFavFolder a b nb nl nf c d items) -> counts_exact nb nl nf l /\ subs_ok items.
Proof.
  intros E. change (counters_ok (MkFavFolder a b nb nl nf c d items)) with
    (match tree_of (MkFavFolder a b nb nl nf c d items) with Some l => counts_exact nb nl nf l | None => False end /\
     (fix go (l : list FavItem) : Prop :=
    match l with
    | [] => True
    | MkFavItem _ _ (PFolder _ _ (Some g)) :: l' => counters_ok g /\ go l'
    | _ :: l' => go l'
    end) items). rewrite E. intros [A B]. split; [exact A|]. clear - B.
  induction items as [|[ty attr p] items IH]; [constructor|]. constructor; destruct p as [| ? ? [g|] | |]; try apply IH; tauto.
Qed.
Lemma entry_fits_folder attr title l : entry_fits cd (EFolder attr title l) -> num_fits 1 attr /\ big5_cstr_fits cd 49 title /\ tree_fits cd l.
Proof.
  cbn [entry_fits]. intros (A & B & C & D & E & F). split; [exact A|]. split; [exact B|]. split; [exact C|]. split; [exact D|]. split; [exact E|].
  clear - F. induction l as [|e l IH]; constructor; [apply F|apply IH, F].
Qed.
Lemma fits_heads l : Forall (entry_fits cd) l -> Forall head_fits l.
Proof. apply Forall_impl. intros [attr bid visit battr|attr title m|attr] F; auto. apply entry_fits_folder in F. cbn [head_fits]. tauto. Qed.
Lemma counts_bound p l : count p l <= lenN l.
Proof. unfold count, lenN. induction l as [|e l IH]; cbn; [lia|]. destruct (p e); cbn [length]; lia. Qed.
Lemma counts_total l : count is_board l + count is_line l + count is_folder l = lenN l.
Proof. unfold count, lenN. induction l as [|[] l IH]; cbn [filter is_board is_line is_folder length] in *; lia. Qed.
Lemma hdr4 nb nl nf : num_fits 2 nb -> num_fits 1 nl -> num_fits 1 nf ->
  let h := put_all 4 [w16 0 nb; w8 2 nl; w8 3 nf] in lenN h = 4 /\ f_num h 0 2 nb /\ f_num h 2 1 nl /\ f_num h 3 1 nf.
Proof.
  intros F1 F2 F3 h. assert (L : lenN h = 4) by (apply put_all_len; vm_compute; reflexivity).
  pose proof (all_slots 4 [w16 0 nb; w8 2 nl; w8 3 nf] eq_refl) as A.
  fold h in A. unfold w8, w16 in A. cbn [allP w_off w_len w_src] in A. destruct A as (A1 & A2 & A3 & _).
  split; [exact L|]. split; [|split]; (apply f_num_of; [lia|]); [rewrite A1; now apply rt_u16|rewrite A2; now apply rt_u8|rewrite A3; now apply rt_u8].
Qed.
Lemma folder_marshal f : forall t, tree_of f = Some t -> counters_ok f -> tree_fits cd t ->
  exists d, marshal_folder cd f = Ok d /\ layout cd counts_exact t d.
Proof.
  induction f as [a b nb nl nf c d items IH] using FavFolder_ind'. intros t T C (Hl & Hn & Hf & F).
  destruct (counters_ok_eq _ _ _ _ _ _ _ _ _ T C) as ((-> & -> & ->) & Cs). rewrite tree_of_items in T.
  rewrite marshal_folder_eq. destruct (items_marshal items t T (fits_heads _ F)) as (recs & -> & Hr). cbn [obind].
  assert (Hs : exists subs, marshal_all sub_folder items = Ok (concat subs) /\ Forall2 (layout cd counts_exact) (folders t) subs).
  { clear - IH Cs T F. revert t T F. induction items as [|[ty attr p] items IHl]; cbn [seq_opt marshal_all]; intros t T F.
    - injection T as <-. exists []. split; [reflexivity|constructor].
    - apply Forall_cons_iff in IH as [I1 I2]. apply Forall_cons_iff in Cs as [C1 C2].
      destruct (item_tree (MkFavItem ty attr p)) as [e|] eqn:Ei; [|discriminate]. destruct (seq_opt item_tree items) as [r|]; [|discriminate].
      injection T as <-. apply Forall_cons_iff in F as [F1 F2]. specialize (IHl I2 C2 r eq_refl F2). destruct IHl as (subs & E & R).
      destruct p as [bid visit battr name|fid title [g|]|lid|]; cbn [item_tree sub_folder] in *; try discriminate.
      + destruct (ty =? 1); [|discriminate]. injection Ei as <-. cbn [obind]. rewrite E. exists subs. auto.
      + destruct (ty =? 2); [|discriminate]. destruct (tree_of g) as [m|] eqn:Eg; [|discriminate]. injection Ei as <-.
        apply entry_fits_folder in F1 as (_ & _ & F1). destruct (I1 m eq_refl C1 F1) as (x & -> & Lx). cbn [obind]. rewrite E.
        exists (x :: subs). split; [reflexivity|]. cbn [folders flat_map app]. constructor; auto.
      + destruct (ty =? 3); [|discriminate]. injection Ei as <-. cbn [obind]. rewrite E. exists subs. auto. }
  destruct Hs as (subs & -> & Hs). cbn [obind]. eexists. split; [reflexivity|].
  pose proof (counts_bound is_board t).
  destruct (hdr4 (count is_board t) (count is_line t) (count is_folder t)) as (A & B & D & E); [unfold num_fits; lia..|].
  eapply Layout; eauto. repeat split.
Qed.

(** exact counts add up *)
Lemma layout_exact_sum : forall d t, layout cd counts_exact t d -> tree_fits cd t -> layout cd counts_sum t d.
Proof.
  intros d. remember (length d) as n eqn:En. revert d En. induction n as [n IHn] using lt_wf_ind. intros d En t Ly F.
  destruct Ly as [l hdr nb nl nf recs subs Lh H1 H2 H3 Hc Hr Hs].
  apply (Layout cd counts_sum l hdr nb nl nf); auto.
  - destruct Hc as (-> & -> & ->). unfold counts_sum. rewrite counts_total. apply N.mod_small, F.
  - assert (Hb : Forall (fun s => (length s < n)%nat) subs).
    { rewrite !app_length in En. unfold lenN in Lh. clear - En Lh. assert (H : (length (concat subs) < n)%nat) by lia. clear En.
      induction subs as [|s subs IH]; constructor; cbn [concat] in H; rewrite app_length in H; [lia|apply IH; lia]. }
    assert (Ff : Forall (tree_fits cd) (folders l)).
    { destruct F as (_ & _ & _ & F). clear - F. induction F as [|e l Fe _ IH]; [constructor|]. destruct e as [|attr title m|]; cbn [folders flat_map app]; auto.
      constructor; [apply entry_fits_folder in Fe; tauto|exact IH]. }
    clear - IHn Hs Hb Ff. induction Hs as [|m s ms ss Lm _ IH]; constructor.
    + apply Forall_cons_iff in Hb as [B1 _]. apply Forall_cons_iff in Ff as [F1 _]. eapply IHn; eauto.
    + apply Forall_cons_iff in Hb as [_ B2]. apply Forall_cons_iff in Ff as [_ F2]. auto.
Qed.

(** ** The structure a saved file is loaded as *)
Definition bump (p : entry -> bool) (l : list entry) (k : N) : N :=
  fold_left (fun k e => if p e then u8 (Z.of_N k + 1) else k) l k.
Definition ideal_items (g : entry -> FavFolder) : list entry -> N -> N -> list FavItem :=
  fix go l lid fid := match l with
  | [] => []
  | EBoard a b v x :: l' => MkFavItem 1 a (PBoard b v x []) :: go l' lid fid
  | (EFolder a ti _ as e) :: l' => MkFavItem 2 a (PFolder (u8 (Z.of_N fid + 1)) ti (Some (g e))) :: go l' lid (u8 (Z.of_N fid + 1))
  | ELine a :: l' => MkFavItem 3 a (PLine (u8 (Z.of_N lid + 1))) :: go l' (u8 (Z.of_N lid + 1)) fid
  end.
Definition ideal_of (l : list entry) (items : list FavItem) : FavFolder :=
  MkFavFolder (u16 (Z.of_N (lenN l + favPreAlloc))) (lenN l) (count is_board l) (count is_line l) (count is_folder l)
    (bump is_line l 0) (bump is_folder l 0) items.
Fixpoint inside (e : entry) : FavFolder :=
  match e with
  | EFolder _ _ l => ideal_of l (ideal_items inside l 0 0)
  | _ => ideal_of [] []
  end.
Definition ideal (l : list entry) : FavFolder := ideal_of l (ideal_items inside l 0 0).

Lemma subs_ideal sub l is : Forall2 raw l is -> forall (subs : list bytes) (pre : bytes) lid fid,
  (forall k t d, nth_error (folders l) k = Some t -> nth_error subs k = Some d ->
     sub (lenN (pre ++ concat (firstn k subs))) = Ok (ideal t, lenN (pre ++ concat (firstn k subs)) + lenN d)) -> length subs = length (folders l) ->
  unmarshal_subs sub is (lenN pre) lid fid = Ok (ideal_items inside l lid fid, lenN pre + lenN (concat subs), bump is_line l lid, bump is_folder l fid).
Proof.
  induction 1 as [|e i l is R F IH]; intros subs pre lid fid H Hl.
  - destruct subs; [|discriminate]. cbn. now rewrite N.add_0_r.
  - destruct e as [attr bid visit battr|attr title m|attr]; cbn [raw] in R.
    + subst i. cbn [unmarshal_subs]. cbn [folders flat_map app] in *. fold (folders l) in *.
      rewrite (IH subs pre lid fid H Hl). reflexivity.
    + destruct R as [id ->]. cbn [unmarshal_subs]. cbn [folders flat_map app] in *. fold (folders l) in *.
      destruct subs as [|d subs]; [discriminate|]. pose proof (H 0%nat m d eq_refl eq_refl) as Ef.
      cbn [firstn concat] in Ef. rewrite app_nil_r in Ef. rewrite Ef. cbn [obind].
      rewrite <- lenN_app. rewrite (IH subs (pre ++ d) lid (u8 (Z.of_N fid + 1))).
      * cbn [obind concat]. rewrite !lenN_app, N.add_assoc. reflexivity.
      * intros k t d' Hk Hd. rewrite <- app_assoc. exact (H (S k) t d' Hk Hd).
      * cbn in Hl. lia.
    + destruct R as [id ->]. cbn [unmarshal_subs]. cbn [folders flat_map app] in *. fold (folders l) in *.
      rewrite (IH subs pre _ fid H Hl). reflexivity.
Qed.
Lemma folder_ideal : forall fuel t d, layout cd counts_exact t d -> tree_fits cd t -> (length d < fuel)%nat -> forall pre x,
  UnmarshalFavFolder cd fuel (pre ++ d ++ x) (lenN pre) = Ok (ideal t, lenN pre + lenN d).
Proof.
  induction fuel as [|fuel IH]; intros t d Ly F Hf pre x; [lia|]. destruct Ly as [l hdr nb nl nf recs subs Lh H1 H2 H3 Hc Hr Hs].
  cbn [UnmarshalFavFolder].
  assert (L4 : 4 <= lenN ((hdr ++ concat recs ++ concat subs) ++ x)) by (rewrite !lenN_app; lia).
  rewrite ltb_shift. destruct (_ <? 4) eqn:E4; [lia|].
  destruct (header_at pre _ L4) as (-> & -> & ->). cbn [obind]. rewrite <- !app_assoc.
  rewrite (f_num_app _ _ _ _ _ H1), (f_num_app _ _ _ _ _ H2), (f_num_app _ _ _ _ _ H3).
  destruct Hc as (-> & -> & ->). pose proof (counts_total l) as Ht.
  assert (Ed : u16 (Z.of_N (count is_board l + count is_folder l + count is_line l)) = lenN l).
  { destruct F as (F & _). unfold u16. rewrite Z.mod_small by lia. lia. }
  rewrite Ed, to_nat_lenN.
  destruct (items_complete l recs Hr (pre ++ hdr) (concat subs ++ x)) as (is & Ei & Hi).
  rewrite <- app_assoc, lenN_app, Lh in Ei. rewrite Ei. cbn [obind].
  assert (Ff : Forall (tree_fits cd) (folders l)).
  { destruct F as (_ & _ & _ & F). clear - F. induction F as [|e l Fe _ IH]; [constructor|]. destruct e as [|attr title m|]; cbn [folders flat_map app]; auto.
    constructor; [apply entry_fits_folder in Fe; tauto|exact IH]. }
  pose proof (subs_ideal (UnmarshalFavFolder cd fuel (pre ++ hdr ++ concat recs ++ concat subs ++ x)) l is Hi subs (pre ++ hdr ++ concat recs) 0 0) as Es.
  rewrite !lenN_app, Lh in Es. replace (lenN pre + 4 + lenN (concat recs)) with (lenN pre + (4 + lenN (concat recs))) by lia.
  rewrite Es; clear Es.
  - cbn [obind]. rewrite !lenN_app, Lh. unfold ideal, ideal_of. do 2 f_equal. lia.
  - intros k t d Hk Hd.
    assert (Ly : layout cd counts_exact t d /\ tree_fits cd t).
    { clear - Hs Ff Hk Hd. revert k Hk Hd. induction Hs as [|a b la lb Hab _ IH]; intros [|k] Hk Hd; try discriminate; cbn in Hk, Hd;
      apply Forall_cons_iff in Ff as [F1 F2]; [|eauto]. injection Hk as ->. injection Hd as ->. auto. }
    rewrite (nth_split_concat subs k d x Hd).
    pose proof (nth_concat_len subs k d Hd).
    specialize (IH t d (proj1 Ly) (proj2 Ly)). rewrite !app_length in Hf. unfold lenN in Lh.
    assert (Hl : (length d < fuel)%nat) by lia.
    specialize (IH Hl (pre ++ hdr ++ concat recs ++ concat (firstn k subs)) (concat (skipn (S k) subs) ++ x)).
    rewrite <- !app_assoc in *. exact IH.
  - symmetry. clear - Hs. induction Hs; cbn; auto.
Qed.

Lemma entry_ind' (P : entry -> Prop) : (forall a b v x, P (EBoard a b v x)) -> (forall a ti l, Forall P l -> P (EFolder a ti l)) -> (forall a, P (ELine a)) -> forall e, P e.
Proof.
  intros H1 H2 H3. fix IH 1. intros [a b v x|a ti l|a]; [apply H1| |apply H3]. apply H2. induction l as [|e l IHl]; constructor; [apply IH|exact IHl].
Qed.
Definition entry_ideal (e : entry) : Prop := match e with EFolder _ _ l => tree_of (ideal l) = Some l /\ counters_ok (ideal l) | _ => True end.
Lemma counters_intro a b nb nl nf c d items l : tree_of (MkFavFolder a b nb nl nf c d items) = Some l -> counts_exact nb nl nf l -> subs_ok items ->
  counters_ok (MkFavFolder a b nb nl nf c d items).
Proof.
  intros E H S. change (counters_ok (MkFavFolder a b nb nl nf c d items)) with
    (match tree_of (MkFavFolder a b nb nl nf c d items) with Some l => counts_exact nb nl nf l | None => False end /\
     (fix go (l : list FavItem) : Prop :=
    match l with
    | [] => True
    | MkFavItem _ _ (PFolder _ _ (Some g)) :: l' => counters_ok g /\ go l'
    | _ :: l' => go l'
    end) items). rewrite E. split; [exact H|]. clear - S.
  induction S as [|[ty attr p] items H _ IH]; [exact Logic.I|]. destruct p as [| ? ? [g|] | |]; try exact IH. split; [exact H|exact IH].
Qed.
Lemma ideal_items_ok l : Forall entry_ideal l -> forall lid fid, seq_opt item_tree (ideal_items inside l lid fid) = Some l /\ subs_ok (ideal_items inside l lid fid).
Proof.
  induction 1 as [|e l He _ IH]; intros lid fid; [split; [reflexivity|constructor]|].
  destruct e as [a b v x|a ti m|a]; cbn [ideal_items seq_opt].
  - destruct (IH lid fid) as [E1 E2]. rewrite E1. split; [reflexivity|]. constructor; [exact Logic.I|exact E2].
  - destruct He as [H1 H2]. destruct (IH lid (u8 (Z.of_N fid + 1))) as [E1 E2]. rewrite E1. split; [|constructor; [exact H2|exact E2]].
    cbn [item_tree N.eqb Pos.eqb]. change (inside (EFolder a ti m)) with (ideal m). now rewrite H1.
  - destruct (IH (u8 (Z.of_N lid + 1)) fid) as [E1 E2]. rewrite E1. split; [reflexivity|]. constructor; [exact Logic.I|exact E2].
Qed.
Lemma list_ideal l : Forall entry_ideal l -> tree_of (ideal l) = Some l /\ counters_ok (ideal l).
Proof.
  intros H. destruct (ideal_items_ok l H 0 0) as [E1 E2].
  assert (T : tree_of (ideal l) = Some l) by (unfold ideal, ideal_of; now rewrite tree_of_items).
  split; [exact T|]. eapply counters_intro; [exact T|repeat split|exact E2].
Qed.
Lemma all_ideal e : entry_ideal e.
Proof. induction e as [| a ti l H |] using entry_ind'; try exact Logic.I. cbn [entry_ideal]. now apply list_ideal. Qed.
Lemma ideal_ok l : tree_of (ideal l) = Some l /\ counters_ok (ideal l).
Proof. apply list_ideal. induction l; constructor; auto using all_ideal. Qed.

End Fav.

(** ** More data behind, more fuel *)
Lemma slice_ext data x a n v : slice data a n = Ok v -> slice (data ++ x) a n = Ok v.
Proof.
  unfold slice. destruct (a + n <=? lenN data) eqn:E; [|discriminate]. intros [= <-]. rewrite lenN_app.
  destruct (a + n <=? lenN data + lenN x) eqn:E2; [|lia]. rewrite sub_app_l by lia. reflexivity.
Qed.
Lemma slice_num_ext data x a n v : slice_num data a n = Ok v -> slice_num (data ++ x) a n = Ok v.
Proof. unfold slice_num. destruct (slice data a n) eqn:E; try discriminate. intros [= <-]. now rewrite (slice_ext _ _ _ _ _ E). Qed.
Lemma ltb_ext (data x : bytes) k : (lenN data <? k) = false -> (lenN (data ++ x) <? k) = false.
Proof. rewrite lenN_app. lia. Qed.
Lemma obind_ok {A B} (o : outcome A) (f : A -> outcome B) b : obind o f = Ok b -> exists a, o = Ok a /\ f a = Ok b.
Proof. destruct o; try discriminate. cbn. eauto. Qed.
Ltac ext_step := match goal with
  | H : obind _ _ = Ok _ |- _ => let v := fresh in let E := fresh in apply obind_ok in H as (v & E & H)
  | H : (if ?c then Err _ else _) = Ok _ |- _ => let E := fresh in destruct c eqn:E; [discriminate H|]
  | E : slice_num ?d ?a ?n = Ok _ |- context [slice_num (?d ++ ?x) ?a ?n] => rewrite (slice_num_ext d x a n _ E)
  | E : slice ?d ?a ?n = Ok _ |- context [slice (?d ++ ?x) ?a ?n] => rewrite (slice_ext d x a n _ E)
  | E : (lenN ?d <? ?k) = false |- context [lenN (?d ++ ?x) <? ?k] => rewrite (ltb_ext d x k E)
  end.
Section Ext.
Variable cd : codec.
Lemma item_ext data x start r : UnmarshalFavItem cd data start = Ok r -> UnmarshalFavItem cd (data ++ x) start = Ok r.
Proof.
  unfold UnmarshalFavItem. intros H. repeat ext_step. cbn [obind].
  match goal with |- obind ?Y _ = _ => assert (E : Y = Ok H5) end; [|rewrite E; exact H].
  revert H6. destruct (H1 =? FavItemTypeBoard); [|destruct (H1 =? FavItemTypeLine); [|destruct (H1 =? FavItemTypeFolder); [|discriminate]]];
    unfold UnmarshalFavBoardItem, UnmarshalFavLineItem, UnmarshalFavFolderItem; intros G; repeat ext_step; cbn [obind]; assumption.
Qed.
Lemma items_ext data x n : forall start r, unmarshal_items cd data n start = Ok r -> unmarshal_items cd (data ++ x) n start = Ok r.
Proof.
  induction n as [|n IH]; cbn [unmarshal_items]; intros start r H; [exact H|].
  apply obind_ok in H as ([i c] & E & H). rewrite (item_ext _ _ _ _ E). cbn [obind].
  apply obind_ok in H as ([l c'] & E' & H). now rewrite (IH _ _ E').
Qed.
Lemma subs_ext (s1 s2 : N -> outcome (FavFolder * N)) l : (forall c r, s1 c = Ok r -> s2 c = Ok r) ->
  forall c a b r, unmarshal_subs s1 l c a b = Ok r -> unmarshal_subs s2 l c a b = Ok r.
Proof.
  intros Hs. induction l as [|[ty attr p] l IH]; intros c a b r H; [exact H|]. cbn [unmarshal_subs] in *.
  destruct p as [bid visit battr name|fid title th|lid|].
  1,3,4: apply obind_ok in H as ([[[? ?] ?] ?] & E & H); rewrite (IH _ _ _ _ E); exact H.
  apply obind_ok in H as ([f c'] & E & H). rewrite (Hs _ _ E). cbn [obind].
  apply obind_ok in H as ([[[? ?] ?] ?] & E' & H). now rewrite (IH _ _ _ _ E').
Qed.
Lemma folder_ext : forall fuel fuel' data x start r, (fuel <= fuel')%nat ->
  UnmarshalFavFolder cd fuel data start = Ok r -> UnmarshalFavFolder cd fuel' (data ++ x) start = Ok r.
Proof.
  induction fuel as [|fuel IH]; intros [|fuel'] data x start r Hf H; try discriminate; [lia|].
  cbn [UnmarshalFavFolder] in *. repeat ext_step. cbn [obind].
  destruct H7 as [is c]. rewrite (items_ext _ x _ _ _ H8). cbn [obind]. apply obind_ok in H as ([[[is' c'] a] b] & Es & H).
  erewrite subs_ext; [|intros q r' Q; apply (IH fuel' data x q r'); [lia|exact Q]|exact Es]. exact H.
Qed.
End Ext.

(** ** Names of boards *)
Lemma f_num_bound d off k n : f_num d off k n -> n < 256 ^ k.
Proof.
  intros (v & A & ->). destruct (at_off_is_sub _ _ _ _ A) as [-> _]. rewrite le_num_dec. apply r_bound.
Qed.
Lemma layout_bids cd counts : forall d t, layout cd counts t d -> Forall (fun b => b < 4294967296) (tree_boards t).
Proof.
  intros d. remember (length d) as n eqn:En. revert d En. induction n as [n IHn] using lt_wf_ind. intros d En t Ly.
  destruct Ly as [l hdr nb nl nf recs subs Lh H1 H2 H3 Hc Hr Hs].
  assert (Hb : Forall (fun s => (length s < n)%nat) subs).
  { rewrite !app_length in En. unfold lenN in Lh. clear - En Lh. assert (H : (length (concat subs) < n)%nat) by lia. clear En.
    induction subs as [|s subs IH]; constructor; cbn [concat] in H; rewrite app_length in H; [lia|apply IH; lia]. }
  clear - IHn Hb Hr Hs. revert subs Hb Hs. induction Hr as [|e r l recs R _ IH]; intros subs Hb Hs; [constructor|].
  cbn [tree_boards flat_map]. apply Forall_app. destruct e as [attr bid visit battr|attr title m|attr]; cbn [folders flat_map app] in Hs.
  - split; [|exact (IH subs Hb Hs)]. constructor; [|constructor]. destruct R as (_ & _ & _ & R & _). apply f_num_bound in R. exact R.
  - inversion Hs as [|? s ? ss Lm Hss]; subst. apply Forall_cons_iff in Hb as [B1 B2]. split; [|exact (IH ss B2 Hss)].
    exact (IHn _ B1 s eq_refl m Lm).
  - split; [constructor|exact (IH subs Hb Hs)].
Qed.
Section Names.
Variable brd : list BoardHeader.
Definition name_payload (p : FavPayload) : outcome FavPayload :=
  match p with
  | PBoard bid visit battr _ =>
      match nth_error brd (N.to_nat (u32 (Z.of_N bid - 1))) with
      | Some h => Ok (PBoard bid visit battr (bh_name h))
      | None => Panic
      end
  | PFolder id title (Some g) => obind (appendBoardID brd g) (fun g' => Ok (PFolder id title (Some g')))
  | PFolder _ _ None => Panic
  | p => Ok p
  end.
Fixpoint name_items (l : list FavItem) : outcome (list FavItem) :=
  match l with
  | [] => Ok []
  | MkFavItem ty attr p :: l' => obind (name_payload p) (fun p' => obind (name_items l') (fun r => Ok (MkFavItem ty attr p' :: r)))
  end.
Lemma append_eq a b c d e f g items : appendBoardID brd (MkFavFolder a b c d e f g items) =
  obind (name_items items) (fun r => Ok (MkFavFolder a b c d e f g r)).
Proof.
  reflexivity.
Qed.
Definition in_list (bid : N) : Prop := 0 < bid <= lenN brd.
Definition bids_small (t : list entry) : Prop := Forall (fun b => b < 4294967296) (tree_boards t).

Lemma bid_index bid : bid < 4294967296 -> lenN brd < 4294967295 ->
  match nth_error brd (N.to_nat (u32 (Z.of_N bid - 1))) with
  | Some h => in_list bid /\ nth_error (map bh_name brd) (N.to_nat (bid - 1)) = Some (bh_name h)
  | None => ~ in_list bid
  end.
Proof.
  intros Hb Hl. unfold in_list. destruct (N.eq_dec bid 0) as [->|Hz].
  - change (u32 (Z.of_N 0 - 1)) with 4294967295. assert (E : nth_error brd (N.to_nat 4294967295) = None).
    { apply nth_error_None. unfold lenN in Hl. lia. } rewrite E. lia.
  - assert (E : u32 (Z.of_N bid - 1) = bid - 1) by (unfold u32; rewrite Z.mod_small by lia; lia). rewrite E.
    destruct (nth_error brd (N.to_nat (bid - 1))) as [h|] eqn:Eh.
    + split; [|now apply map_nth_error]. assert (H : (N.to_nat (bid - 1) < length brd)%nat) by (apply nth_error_Some; congruence). unfold lenN. lia.
    + apply nth_error_None in Eh. unfold lenN. lia.
Qed.
Definition appended (f : FavFolder) : Prop := forall t, tree_of f = Some t -> bids_small t ->
  (Forall in_list (tree_boards t) -> exists f', appendBoardID brd f = Ok f' /\ Forall2 (seen (map bh_name brd)) (fav_items f') t /\ tree_of f' = Some t) /\
  (~ Forall in_list (tree_boards t) -> appendBoardID brd f = Panic).
Lemma in_list_dec b : {in_list b} + {~ in_list b}.
Proof. unfold in_list. destruct (0 <? b) eqn:A, (b <=? lenN brd) eqn:B; (left; lia) || (right; lia). Qed.
Lemma append_spec f : lenN brd < 4294967295 -> appended f.
Proof.
  intros Hl. induction f as [a b nb nl nf c d items IH] using FavFolder_ind'. intros t T Hs. rewrite tree_of_items in T. rewrite append_eq.
  assert (G : (Forall in_list (tree_boards t) -> exists r, name_items items = Ok r /\ Forall2 (seen (map bh_name brd)) r t /\ seq_opt item_tree r = Some t) /\
              (~ Forall in_list (tree_boards t) -> name_items items = Panic)).
  { clear - IH T Hs Hl. revert t T Hs. induction IH as [|[ty attr p] items Hi _ IHl]; cbn [seq_opt name_items]; intros t T Hs.
    - injection T as <-. split; [intros _; exists []; repeat split; constructor|]. intros N. destruct N. constructor.
    - destruct (item_tree (MkFavItem ty attr p)) as [e|] eqn:Ei; [|discriminate]. destruct (seq_opt item_tree items) as [r|] eqn:Er; [|discriminate].
      injection T as <-. unfold bids_small in Hs. cbn [tree_boards flat_map] in *. apply Forall_app in Hs as [Hs1 Hs2]. fold (tree_boards r) in *.
      specialize (IHl r eq_refl Hs2).
      assert (K : (Forall in_list (entry_boards e) -> exists p', name_payload p = Ok p' /\ seen (map bh_name brd) (MkFavItem ty attr p') e /\ item_tree (MkFavItem ty attr p') = Some e) /\
                  (~ Forall in_list (entry_boards e) -> name_payload p = Panic)).
      { destruct p as [bid visit battr name|fid title [g|]|lid|]; cbn [item_tree name_payload] in *; try discriminate.
        - destruct (ty =? 1) eqn:E1; [|discriminate]. apply N.eqb_eq in E1. subst ty. injection Ei as <-. cbn [entry_boards] in *.
          apply Forall_cons_iff in Hs1 as [Hb _]. pose proof (bid_index bid Hb Hl) as B.
          destruct (nth_error brd (N.to_nat (u32 (Z.of_N bid - 1)))) as [h|].
          + destruct B as [B1 B2]. split.
            * intros _. eexists. split; [reflexivity|]. split; [|reflexivity]. destruct B1. econstructor; try reflexivity; assumption.
            * intros N. destruct N. constructor; [exact B1|constructor].
          + split; [|reflexivity]. intros F. apply Forall_cons_iff in F. tauto.
        - destruct (ty =? 2) eqn:E2; [|discriminate]. apply N.eqb_eq in E2. subst ty. destruct (tree_of g) as [m|] eqn:Eg; [|discriminate]. injection Ei as <-.
          destruct (Hi m Eg Hs1) as [K1 K2]. split.
          + intros F. destruct (K1 F) as (g' & -> & S' & T'). cbn [obind]. eexists. split; [reflexivity|]. split.
            * econstructor; try reflexivity. exact S'.
            * cbn [item_tree N.eqb Pos.eqb]. now rewrite T'.
          + intros N. rewrite (K2 N). reflexivity.
        - destruct (ty =? 3) eqn:E3; [|discriminate]. apply N.eqb_eq in E3. subst ty. injection Ei as <-. split.
          + intros _. eexists. split; [reflexivity|]. split; [now constructor|reflexivity].
          + intros N. destruct N. constructor. }
      destruct K as [K1 K2], IHl as [L1 L2]. split.
      + intros F. apply Forall_app in F as [F1 F2]. destruct (K1 F1) as (p' & -> & S1 & T1), (L1 F2) as (r' & -> & S2 & T2). cbn [obind].
        eexists. split; [reflexivity|]. split; [constructor; assumption|]. cbn [seq_opt]. now rewrite T1, T2.
      + intros N. destruct (Forall_dec in_list in_list_dec (entry_boards e)) as [F1|F1].
        * destruct (K1 F1) as (p' & -> & _). cbn [obind]. rewrite L2; [reflexivity|]. intros F2. apply N. now apply Forall_app.
        * rewrite (K2 F1). reflexivity. }
  destruct G as [G1 G2]. split.
  - intros F. destruct (G1 F) as (r & -> & S & T'). cbn [obind]. eexists. split; [reflexivity|]. cbn [fav_items]. rewrite tree_of_items. auto.
  - intros N. rewrite (G2 N). reflexivity.
Qed.
End Names.
