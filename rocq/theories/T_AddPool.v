(** * Property theorems about adding and reading at the same time, on a disk that fails: C79 *)
From Coq Require Import Lia ZifyBool ZifyNat ZifyN.
From Verif Require Import M_Base M_Sys M_Path M_File M_Board M_Userec M_FileOps M_DB M_Fault M_Stop.
From Verif Require Import S_World S_Path S_Layout S_File S_Board S_Userec S_BoardList S_Store S_Fault S_Pool S_PostPool S_AddPool S_ExWorld S_Example.
From Verif Require Import P_Base P_Sys P_Path P_Records P_Read P_FileOps P_Store P_BoardList P_Pool P_Create P_Post P_Fault P_PostPool P_AddPool.
From Verif Require Import T_BoardList T_Store T_PostPool.
Open Scope N_scope.

(** ** The calls of several clients, interleaved in any way, with failures and stops *)
Theorem C79_together : forall cd wd O s css fuel w w' ps',
  ~ In x00 wd -> sane w -> stored w wd O s ->
  Forall call_ok (concat css) -> Forall (fun c => O (call_object c)) (concat css) -> Forall (fun c => adds_or_reads c = true) (concat css) ->
  fpool w (map (client cd wd fuel) css) w' ps' -> exists h, added_together cd wd O s css w w' ps' h.
Proof. exact did_together. Qed.
Print Assumptions C79_together.

(** ** Every piece is in the file, whole and in one place *)
Lemma pieces_app o h1 h2 : pieces o (h1 ++ h2) = pieces o h1 ++ pieces o h2.
Proof. induction h1 as [|[i [o' v|o' x]] h1 IH]; cbn; [reflexivity| |exact IH]. destruct object_eq_dec; cbn; now rewrite IH. Qed.
Lemma after_pieces s h o : old_or_empty (after s h o) = old_or_empty (s o) ++ concat (pieces o h).
Proof.
  induction h as [|[i t] h IH] using rev_ind; [cbn; now rewrite app_nil_r|]. rewrite after_snoc, pieces_app, concat_app, app_assoc, <- IH.
  destruct t as [o' v|o' x]; cbn [after_one pieces]; [|cbn; now rewrite app_nil_r]. destruct object_eq_dec; cbn; rewrite ?app_nil_r; reflexivity.
Qed.
Lemma after_app s h1 h2 o : after s (h1 ++ h2) o = after (after s h1) h2 o.
Proof. unfold after. now rewrite map_app, fold_left_app. Qed.
Lemma after_grows s h o d : s o = Some d -> after s h o = Some (d ++ concat (pieces o h)).
Proof.
  intros E. pose proof (after_pieces s h o) as P. rewrite E in P. cbn [old_or_empty] in P. rewrite <- P.
  assert (after s h o <> None) as N. { clear P. induction h as [|[i t] h IH] using rev_ind; [cbn; congruence|]. rewrite after_snoc. destruct t; cbn; [destruct object_eq_dec; congruence|exact IH]. }
  now destruct (after s h o).
Qed.
Theorem C79_content : forall cd wd O s css w w' ps' h o p, added_together cd wd O s css w w' ps' h -> O o -> plain_object o -> object_path wd o = Ok p ->
  exists rp, names w' p rp /\
    (look w' rp = None /\ s o = None /\ pieces o h = [] \/ look w' rp = Some (EFile (old_or_empty (s o) ++ concat (pieces o h)))).
Proof.
  intros cd wd O s css w w' ps' h o p (St & _) Oo Po Ep. destruct (St o Oo Po) as (p' & rp & E & Nm & _ & L). rewrite Ep in E. injection E as <-.
  exists rp. split; [exact Nm|]. rewrite <- after_pieces. destruct (after s h o) as [d|] eqn:Ea; [right; exact L|left]. split; [exact L|].
  destruct (s o) as [d|] eqn:Es; [rewrite (after_grows s h o d Es) in Ea; discriminate Ea|]. split; [reflexivity|].
  clear L. destruct h as [|[i t] h] using rev_ind; [reflexivity|].
  assert (N : forall h, after s h o = None -> pieces o h = []).
  { clear -Es. induction h as [|[j t] h IH] using rev_ind; [reflexivity|]. rewrite after_snoc, pieces_app. destruct t as [o' v|o' x]; cbn; [|intros H; now rewrite (IH H)].
    destruct object_eq_dec; [discriminate|]. intros H. now rewrite (IH H). }
  now apply N.
Qed.
Print Assumptions C79_content.
Theorem C79_files_grow : forall s h1 h2 o d, after s h1 o = Some d -> exists x, after s (h1 ++ h2) o = Some (d ++ x).
Proof. intros s h1 h2 o d E. rewrite after_app. eexists. now apply after_grows. Qed.
Print Assumptions C79_files_grow.

(** ** One call of a client *)
Lemma did_all_length cd wd cs rs tr : did_all cd wd cs rs tr -> length cs = length rs.
Proof. induction 1; [reflexivity|]. rewrite !app_length. cbn. lia. Qed.
Lemma did_at cd wd cs rs tr k c r : did_all cd wd cs rs tr -> nth_error cs k = Some c -> nth_error rs k = Some r ->
  exists pre t post, tr = pre ++ t ++ post /\ did cd wd c r t.
Proof.
  induction 1 as [|cs rs tr c' r' t H IH D]; intros Hc Hr; [destruct k; discriminate Hc|]. pose proof (did_all_length _ _ _ _ _ H) as L.
  destruct (lt_dec k (length cs)) as [Lk|Lk].
  - rewrite nth_error_app1 in Hc, Hr by lia. destruct (IH Hc Hr) as (pre & t' & post & -> & D'). exists pre, t', (post ++ t). split; [now rewrite <- !app_assoc|exact D'].
  - rewrite nth_error_app2 in Hc, Hr by lia. rewrite L in Hc. destruct (k - length rs)%nat as [|n]; cbn in *; [|destruct n; discriminate Hc].
    injection Hc as <-. injection Hr as <-. exists tr, t, []. rewrite app_nil_r. auto.
Qed.
Lemma own_cut {X} i (x : X) : forall h a b, own i h = a ++ x :: b -> exists h1 h2, h = h1 ++ (i, x) :: h2 /\ own i h1 = a /\ own i h2 = b.
Proof.
  induction h as [|[j y] h IH]; intros a b E; [destruct a; discriminate E|]. unfold own in E. cbn in E. destruct (Nat.eqb_spec j i) as [->|N].
  - cbn in E. destruct a as [|a0 a]; injection E as -> E.
    + exists [], h. auto.
    + destruct (IH a b E) as (h1 & h2 & -> & A & B). exists ((i, a0) :: h1), h2. split; [reflexivity|]. split; [|exact B]. unfold own in *. cbn. rewrite Nat.eqb_refl. cbn. now rewrite A.
  - destruct (IH a b E) as (h1 & h2 & -> & A & B). exists ((j, y) :: h1), h2. split; [reflexivity|]. split; [|exact B]. unfold own in *. cbn. destruct (Nat.eqb_spec j i); [contradiction|exact A].
Qed.
Lemma own_piece i o v h : In (Added o v) (own i h) -> In v (pieces o h).
Proof.
  rewrite own_in. intros H. apply in_split in H as (h1 & h2 & ->). rewrite pieces_app. cbn. destruct object_eq_dec; [|contradiction]. apply in_app_iff. right. now left.
Qed.

(** A call that answered that it had added has added, whatever happened to the others. *)
Theorem C79_nothing_is_lost : forall cd wd O s css w w' ps' h i cs rs k c,
  added_together cd wd O s css w w' ps' h -> nth_error css i = Some cs -> nth_error ps' i = Some (Ret rs) ->
  nth_error cs k = Some c -> nth_error rs k = Some (Ok Done) ->
  exists v, adds cd c v /\ In v (pieces (call_object c) h).
Proof.
  intros cd wd O s css w w' ps' h i cs rs k c (_ & _ & _ & _ & _ & _ & _ & _ & Dn) Hc Hp Ck Rk. specialize (Dn i cs rs Hc Hp).
  destruct (did_at cd wd cs rs _ k c _ Dn Ck Rk) as (pre & t & post & Eo & D).
  inversion D as [v Av| | | | | |tr ss r Lc Sl La| |]; subst; try discriminate.
  - exists v. split; [exact Av|]. apply (own_piece i). rewrite Eo. apply in_app_iff. right. apply in_app_iff. left. apply in_app_iff. right. now left.
  - destruct c; cbn in La; try contradiction; destruct La as (l & _ & Z); discriminate Z.
Qed.
Print Assumptions C79_nothing_is_lost.
(** A piece is there only because a call adds it: the whole of what it adds, a beginning, or nothing. *)
Theorem C79_nothing_else : forall cd wd O s css w w' ps' h o v, added_together cd wd O s css w w' ps' h -> In v (pieces o h) ->
  v = [] \/ exists cs c v' k, In cs css /\ In c cs /\ call_object c = o /\ adds cd c v' /\ v = firstn k v'.
Proof.
  intros cd wd O s css w w' ps' h o v (_ & _ & _ & _ & _ & _ & Who & Un & _) Hv.
  assert (exists i, In (i, Added o v) h) as [i Hi].
  { clear -Hv. induction h as [|[i [o' x|o' x]] h IH]; cbn in Hv; [contradiction| |].
    - destruct object_eq_dec as [->|_]; [destruct Hv as [->|Hv]; [exists i; now left|]|]; destruct (IH Hv) as [j Hj]; exists j; now right.
    - destruct (IH Hv) as [j Hj]. exists j. now right. }
  pose proof (Who _ _ Hi) as Li. apply nth_error_Some in Li. destruct (nth_error css i) as [cs|] eqn:Hc; [|contradiction]. clear Li.
  apply own_in in Hi. destruct (Un i cs Hc) as (cs1 & rs & t1 & rest & t2 & Ecs & D & Et & B). rewrite Et in Hi. apply nth_error_In in Hc.
  assert (W : forall c t r, did cd wd c r t -> In (Added o v) t -> v = [] \/ exists v' k, call_object c = o /\ adds cd c v' /\ v = firstn k v').
  { assert (Op : forall c, In (Added o v) (opening c) -> v = []).
    { intros c Z. unfold opening in Z. destruct (may_create c) in Z; [|destruct Z]. destruct Z as [Z|[]]. injection Z as _ Z. now symmetry. }
    assert (Sr : forall o' n p tr ss, slots_read o' n p tr ss -> ~ In (Added o v) tr) by (induction 1; cbn; intuition discriminate).
    intros c t r Dc. destruct Dc; intros Z.
    - apply in_app_iff in Z as [Z|[[= <- <-]|[]]]; [left; exact (Op c Z)|]. right. exists v0, (length v0). rewrite firstn_all. auto.
    - apply in_app_iff in Z as [Z|[[= <- <-]|[]]]; [left; exact (Op c Z)|]. right. exists v0, k. auto.
    - destruct Z.
    - destruct Z as [Z|[]]. discriminate Z.
    - destruct Z as [Z|[]]. discriminate Z.
    - destruct Z as [Z|[]]. discriminate Z.
    - now destruct (Sr _ _ _ _ _ H0).
    - destruct Z.
    - rewrite Forall_forall in H0. destruct (H0 _ Z) as [d Q]. discriminate Q. }
  apply in_app_iff in Hi as [Hi|Hi].
  - assert (exists c t r, In c cs1 /\ did cd wd c r t /\ In (Added o v) t) as (c & t & r & Ic & Dc & It).
    { clear -D Hi. induction D as [|cs rs tr c r t D IH Dc]; [contradiction|]. apply in_app_iff in Hi as [Hi|Hi].
      - destruct (IH Hi) as (c' & t' & r' & A & B & C). exists c', t', r'. split; [apply in_app_iff; now left|auto].
      - exists c, t, r. split; [apply in_app_iff; right; now left|auto]. }
    destruct (W c t r Dc It) as [->|(v' & k & A1 & A2 & A3)]; [now left|]. right. exists cs, c, v', k. split; [exact Hc|]. split; [rewrite Ecs; apply in_app_iff; now left|auto].
  - destruct rest as [|c rest]; [subst t2; contradiction|]. destruct B as [[r Dc]|[->|B]].
    + destruct (W c t2 r Dc Hi) as [->|(v' & k & A1 & A2 & A3)]; [now left|]. right. exists cs, c, v', k. split; [exact Hc|]. split; [rewrite Ecs; apply in_app_iff; right; now left|auto].
    + left. unfold opening in Hi. destruct (may_create c) in Hi; [|destruct Hi]. destruct Hi as [[= _ <-]|[]]. reflexivity.
    + rewrite Forall_forall in B. destruct (B _ Hi) as [d Q]. discriminate Q.
Qed.
Print Assumptions C79_nothing_else.

(** ** Reading a whole article shows it as it was at one moment *)
Theorem C79_read_at_one_moment : forall cd wd O s css w w' ps' h i cs rs k c d,
  added_together cd wd O s css w w' ps' h -> nth_error css i = Some cs -> nth_error ps' i = Some (Ret rs) ->
  nth_error cs k = Some c -> nth_error rs k = Some (Ok (Bytes d)) ->
  exists h1 h2, h = h1 ++ h2 /\ after s h1 (call_object c) = Some d.
Proof.
  intros cd wd O s css w w' ps' h i cs rs k c d (_ & Se & _ & _ & _ & _ & _ & _ & Dn) Hc Hp Ck Rk. specialize (Dn i cs rs Hc Hp).
  destruct (did_at cd wd cs rs _ k c _ Dn Ck Rk) as (pre & t & post & Eo & D).
  inversion D as [| | | | |d' Rw| tr ss r Lc Sl La | |]; subst; try discriminate.
  - destruct (own_cut i _ h pre post Eo) as (h1 & h2 & Eh & _). exists h1, ((i, Seen (call_object c) (Some d)) :: h2). split; [exact Eh|]. symmetry. exact (Se _ _ _ _ _ Eh).
  - destruct c; cbn in La; try contradiction; destruct La as (l & _ & Z); discriminate Z.
Qed.
Print Assumptions C79_read_at_one_moment.

(** ** A listing shows the file as it was at one moment *)
Lemma slots_cons size v d ss : (0 < size)%nat -> length v = size -> slots size d ss -> slots size (v ++ d) (v :: ss).
Proof. intros P L [F (k & C & K)]. split; [now constructor|]. exists k. split; [|exact K]. cbn. now rewrite C, app_assoc. Qed.
Lemma divide_length size l : Forall (fun v : bytes => Nat.divide size (length v)) l -> Nat.divide size (length (concat l)).
Proof. induction 1; cbn; [apply Nat.divide_0_r|]. rewrite app_length. now apply Nat.divide_add_r. Qed.
Lemma whole_at size s h1 h2 o d : whole size s (h1 ++ h2) o -> after s h1 o = Some d -> Nat.divide size (length d).
Proof.
  intros [A B] E. pose proof (after_pieces s h1 o) as P. rewrite E in P. cbn [old_or_empty] in P. rewrite P, app_length. apply Nat.divide_add_r; [exact A|].
  rewrite pieces_app in B. apply Forall_app in B as [B _]. now apply divide_length.
Qed.
Lemma listing_moment size s i o : (0 < size)%nat -> forall pos tr ss, slots_read o size pos tr ss -> forall h1 h2 post,
  seen_truly s (h1 ++ h2) -> whole size s (h1 ++ h2) o -> Nat.divide size pos -> own i h2 = tr ++ post ->
  exists h3 h4 d ss0, h2 = h3 ++ h4 /\ after s (h1 ++ h3) o = Some d /\ slots size (skipn pos d) ss0 /\ padded (repeat x00 size) ss0 ss.
Proof.
  intros Ps. induction 1 as [pos d Ld|pos d v tr ss Ld Ev H IH|pos tr ss H IH]; intros h1 h2 post Se Wh Dv Eo.
  - destruct (own_cut i _ h2 [] post Eo) as (h3 & h4 & -> & _). exists h3, ((i, Seen o (Some d)) :: h4), d, [].
    split; [reflexivity|]. rewrite app_assoc in Se. split; [symmetry; exact (Se _ _ _ _ _ eq_refl)|]. split; [|constructor].
    rewrite skipn_all2 by exact Ld. split; [constructor|]. exists 0%nat. split; [reflexivity|exact Ps].
  - destruct (own_cut i _ h2 [] (tr ++ post) Eo) as (h3 & h4 & -> & _ & E4). rewrite app_assoc in Se, Wh. pose proof (Se _ _ _ _ _ eq_refl) as Ed. symmetry in Ed.
    pose proof (whole_at size s _ _ o d Wh Ed) as Dd.
    assert (Lv : length v = size).
    { rewrite Ev, firstn_length, skipn_length. destruct Dd as [a Ea], Dv as [b Eb]. assert (b < a)%nat by nia. nia. }
    destruct (IH ((h1 ++ h3) ++ [(i, Seen o (Some d))]) h4 post) as (h5 & h6 & d' & ss0 & E6 & Ea & Sl & Pd).
    + now rewrite <- app_assoc.
    + now rewrite <- app_assoc.
    + rewrite Lv. apply Nat.divide_add_r; [exact Dv|apply Nat.divide_refl].
    + exact E4.
    + exists (h3 ++ (i, Seen o (Some d)) :: h5), h6, d', (v :: ss0). split; [rewrite E6, <- app_assoc; reflexivity|].
      assert (Ea' : after s (h1 ++ h3 ++ (i, Seen o (Some d)) :: h5) o = Some d').
      { rewrite <- Ea. f_equal. rewrite <- !app_assoc. reflexivity. }
      split; [exact Ea'|].
      rewrite <- app_assoc in Ea. cbn [app] in Ea. destruct (C79_files_grow s (h1 ++ h3) ((i, Seen o (Some d)) :: h5) o d Ed) as [x Ex]. rewrite Ea in Ex. injection Ex as Ex.
      split.
      * assert (Sk : skipn pos d' = v ++ skipn (pos + length v) d').
        { rewrite <- (firstn_skipn size (skipn pos d')) at 1. f_equal.
          - rewrite Ev, Ex, skipn_app, firstn_app. replace (size - length (skipn pos d))%nat with 0%nat. { cbn. now rewrite app_nil_r. }
            rewrite skipn_length. rewrite Ev, firstn_length, skipn_length in Lv. lia.
          - rewrite skipn_skipn. f_equal. lia. }
        rewrite Sk. now apply slots_cons.
      * rewrite Lv, Nat.sub_diag. cbn [repeat]. rewrite app_nil_r. now apply padded_keep.
  - destruct (IH h1 h2 post Se Wh Dv Eo) as (h3 & h4 & d & ss0 & A & B & C & D). exists h3, h4, d, ss0. split; [exact A|]. split; [exact B|]. split; [exact C|]. now apply padded_add.
Qed.
Theorem C79_listed_at_one_moment : forall cd wd O s css w w' ps' h i cs rs k c r,
  added_together cd wd O s css w w' ps' h -> nth_error css i = Some cs -> nth_error ps' i = Some (Ret rs) ->
  nth_error cs k = Some c -> nth_error rs k = Some r -> lists_records c = true -> whole (slot_size c) s h (call_object c) ->
  (* the file was there *)
  (exists h1 h2 d, h = h1 ++ h2 /\ after s h1 (call_object c) = Some d /\ listed_once cd c d r) \/
  (* or not *)
  (exists h1 h2, h = h1 ++ h2 /\ after s h1 (call_object c) = None /\ (r = no_file \/ exists b, c = ListRecords b /\ r = Ok (Files []))) \/
  (* or it could not be opened, or the listing has not come to an end *)
  r = io_error \/ r = Diverge \/
  (exists b p, c = ListRecords b /\ object_path wd (Index b) = Ok p /\ occurs_in (str "no such file or directory") p /\ r = Ok (Files [])).
Proof.
  intros cd wd O s css w w' ps' h i cs rs k c r (_ & Se & _ & _ & _ & _ & _ & _ & Dn) Hc Hp Ck Rk Lc Wh. specialize (Dn i cs rs Hc Hp).
  destruct (did_at cd wd cs rs _ k c _ Dn Ck Rk) as (pre & t & post & Eo & D).
  assert (Na : forall v, ~ adds cd c v) by (intros v; destruct c; try discriminate Lc; intros []).
  assert (Miss : forall o, t = [Seen o None] -> exists h1 h2, h = h1 ++ h2 /\ after s h1 o = None).
  { intros o ->. destruct (own_cut i _ h pre post Eo) as (h1 & h2 & Eh & _). exists h1, ((i, Seen o None) :: h2). split; [exact Eh|]. symmetry. exact (Se _ _ _ _ _ Eh). }
  destruct D as [v Av|v n Av| |Cr Nl|b ->|d Rw|tr ss r _ Sl La|b p -> Ep Oc|tr _ _].
  - now destruct (Na v).
  - now destruct (Na v).
  - auto.
  - right. left. destruct (Miss _ eq_refl) as (h1 & h2 & A & B). exists h1, h2. auto.
  - right. left. destruct (Miss _ eq_refl) as (h1 & h2 & A & B). exists h1, h2. split; [exact A|]. split; [exact B|]. eauto.
  - destruct c; discriminate.
  - left. destruct tr as [|t0 tr]; [exfalso; clear -Sl; remember [] as z; induction Sl; try discriminate; auto|].
    destruct (own_cut i t0 h pre (tr ++ post) Eo) as (h1 & h2 & Eh & _ & E2).
    destruct (listing_moment (slot_size c) s i (call_object c)) with (pos := 0%nat) (tr := t0 :: tr) (ss := ss) (h1 := h1) (h2 := (i, t0) :: h2) (post := post)
      as (h3 & h4 & d & ss0 & E3 & Ea & S0 & Pd); auto.
    + destruct c; cbn; lia.
    + now rewrite <- Eh.
    + now rewrite <- Eh.
    + apply Nat.divide_0_r.
    + unfold own in *. cbn. rewrite Nat.eqb_refl. cbn. now rewrite E2.
    + exists (h1 ++ h3), h4, d. split; [rewrite Eh, E3, app_assoc; reflexivity|]. split; [exact Ea|]. cbn [skipn] in S0.
      destruct c; try discriminate Lc; cbn [lists_as slot_size listed_once] in *; destruct La as (l & Fl & ->); exists l; (split; [|reflexivity]); exists ss0, ss; auto.
  - right. right. right. right. exists b, p. auto.
  - auto.
Qed.
Print Assumptions C79_listed_at_one_moment.

(** Only whole slots are added when no call on the file has reported an error. *)
Definition slots_of (o : object) (n : nat) : Prop := match o with Index _ => n = 128%nat | Boards => n = 256%nat | _ => False end.
Lemma did_in cd wd cs rs tr x : did_all cd wd cs rs tr -> In x tr ->
  exists k c r t, nth_error cs k = Some c /\ nth_error rs k = Some r /\ did cd wd c r t /\ In x t.
Proof.
  induction 1 as [|cs rs tr c r t D IH Dc]; intros Hx; [contradiction|]. apply in_app_iff in Hx as [Hx|Hx].
  - destruct (IH Hx) as (k & c' & r' & t' & A & B & C & E). exists k, c', r', t'. rewrite !nth_error_app1; [auto| |]; apply nth_error_Some; congruence.
  - exists (length cs), c, r, t. rewrite nth_error_app2, (did_all_length _ _ _ _ _ D), nth_error_app2, Nat.sub_diag by lia. auto.
Qed.
Lemma adds_size cd c v n : adds cd c v -> slots_of (call_object c) n -> length v = n.
Proof.
  destruct c; cbn; intros A E; try contradiction; subst n.
  - destruct A as [L _]. apply Nat2N.inj. exact L.
  - destruct A as [L _]. apply Nat2N.inj. exact L.
Qed.
Theorem C79_whole : forall cd wd O s css w w' ps' h o n, added_together cd wd O s css w w' ps' h ->
  slots_of o n -> Nat.divide n (length (old_or_empty (s o))) ->
  (forall i cs, nth_error css i = Some cs -> exists rs, nth_error ps' i = Some (Ret rs) /\
     forall k c, nth_error cs k = Some c -> call_object c = o -> nth_error rs k <> Some io_error) ->
  whole n s h o.
Proof.
  intros cd wd O s css w w' ps' h o n (_ & _ & _ & _ & _ & _ & Who & _ & Dn) So Dv Fin. split; [exact Dv|]. apply Forall_forall. intros v Hv.
  assert (exists i, In (i, Added o v) h) as [i Hi].
  { clear -Hv. induction h as [|[i [o' x|o' x]] h IH]; cbn in Hv; [contradiction| |].
    - destruct object_eq_dec as [->|_]; [destruct Hv as [->|Hv]; [exists i; now left|]|]; destruct (IH Hv) as [j Hj]; exists j; now right.
    - destruct (IH Hv) as [j Hj]. exists j. now right. }
  pose proof (Who _ _ Hi) as Li. apply nth_error_Some in Li. destruct (nth_error css i) as [cs|] eqn:Hc; [|contradiction]. clear Li.
  destruct (Fin i cs Hc) as (rs & Hp & Ne). specialize (Dn i cs rs Hc Hp). apply own_in in Hi.
  destruct (did_in cd wd cs rs _ _ Dn Hi) as (k & c & r & t & Ck & Rk & D & It).
  assert (Op : In (Added o v) (opening c) -> Nat.divide n (length v)).
  { intros Z. unfold opening in Z. destruct (may_create c) in Z; [|destruct Z]. destruct Z as [Z|[]]. injection Z as _ <-. apply Nat.divide_0_r. }
  assert (Sr : forall o' n p tr ss, slots_read o' n p tr ss -> ~ In (Added o v) tr) by (induction 1; cbn; intuition discriminate).
  destruct D as [v' Av|v' j Av| |Cr Nl|b ->|d Rw|tr ss r _ Sl La|b p -> Ep Oc|tr _ Fs].
  - apply in_app_iff in It as [It|[[= Eo <-]|[]]]; [now apply Op|]. rewrite (adds_size cd c v' n Av); [apply Nat.divide_refl|now rewrite Eo].
  - apply in_app_iff in It as [It|[[= Eo _]|[]]]; [now apply Op|]. now destruct (Ne k c Ck Eo).
  - destruct It.
  - destruct It as [It|[]]. discriminate It.
  - destruct It as [It|[]]. discriminate It.
  - destruct It as [It|[]]. discriminate It.
  - now destruct (Sr _ _ _ _ _ Sl).
  - destruct It.
  - rewrite Forall_forall in Fs. destruct (Fs _ It) as [d Q]. discriminate Q.
Qed.
Print Assumptions C79_whole.

(** ** Examples *)
(** Five clients.  The first adds a record, and its disk breaks off after 60 bytes.  The
    second lists the board at the same time, the third adds another record.  The fourth
    appends to an article and reads it.  The fifth is stopped while it adds a board. *)
Definition later_file : FileHeader := MkFileHeader (str "M.1600000000.A.ABC") 1600000000 5 (str "lex") (str " 9/13") (str "another") 0 0 0 0 0 0 0.
Definition busy : list (list call) :=
  [[AddRecord (str "test") sample_file]; [ListRecords (str "test")]; [AddRecord (str "test") later_file];
   [AppendArticle (str "SYSOP") (str "M.1.A.001") (str "!"); ReadArticle (str "SYSOP") (str "M.1.A.001")]; [AddBoard sample_board; ListBoards]].
Definition busy_plan : list (nat * option nat) :=
  [(0, None); (4, None); (0, Some 60); (3, None); (0, None); (1, None); (1, None); (3, None); (2, None); (2, None); (2, None); (1, None); (3, None);
   (4, Some 7); (1, None); (1, None); (3, None); (3, None); (3, None); (1, None)]%nat.
Definition busy_end := pool_at busy_plan sample_world (map (client id_codec sample_wd 40) busy).
Definition names_of (r : outcome answer) : option (list bytes) := match r with Ok (Files l) => Some (map fh_filename l) | _ => None end.
Definition told (i : nat) : option (list (outcome answer)) := match nth_error (snd busy_end) i with Some (Ret rs) => Some rs | _ => None end.
Lemma busy_ok : Forall call_ok (concat busy) /\ Forall (fun c => sample_objects (call_object c)) (concat busy) /\ Forall (fun c => adds_or_reads c = true) (concat busy).
Proof.
  pose proof sysop_ident. pose proof test_ident. pose proof m1_component. split; [|split].
  - cbn [busy concat app]. repeat apply Forall_cons; try apply Forall_nil; (split; [cbn [call_object plain_object]|exact I]);
    auto; (split; [assumption|split; [assumption|split; discriminate]]).
  - cbn [busy concat app]. unfold sample_objects. repeat apply Forall_cons; try apply Forall_nil; cbn; tauto.
  - repeat constructor.
Qed.
Lemma busy_run : fpool sample_world (map (client id_codec sample_wd 40) busy) (fst busy_end) (snd busy_end).
Proof. apply pool_at_fpool. Qed.
Example C79_nonvacuous :
  ~ In x00 sample_wd /\ sane sample_world /\ stored sample_world sample_wd sample_objects sample_store /\
  Forall call_ok (concat busy) /\ Forall (fun c => sample_objects (call_object c)) (concat busy) /\ Forall (fun c => adds_or_reads c = true) (concat busy) /\
  fpool sample_world (map (client id_codec sample_wd 40) busy) (fst busy_end) (snd busy_end) /\
  told 0 = Some [io_error] /\ told 2 = Some [Ok Done] /\ told 3 = Some [Ok Done; Ok (Bytes (str "hello!"))] /\ told 4 = None /\
  option_map (map names_of) (told 1) = Some [Some [fh_filename sample_file; fh_filename later_file]].
Proof.
  destruct busy_ok as (A & B & C). split; [exact sample_wd_ok|]. split; [exact sample_sane|]. split; [exact sample_stored|]. split; [exact A|]. split; [exact B|]. split; [exact C|].
  split; [exact busy_run|]. repeat split; vm_compute; reflexivity.
Qed.
(** Two clients add records while a third lists them. *)
Definition calm_clients : list (list call) := [[AddRecord (str "test") sample_file]; [ListRecords (str "test")]; [AddRecord (str "test") later_file]].
Definition calm_end := pool_at [(0, None); (0, None); (1, None); (1, None); (0, None); (2, None); (2, None); (1, None); (2, None); (1, None); (1, None)]%nat sample_world (map (client id_codec sample_wd 40) calm_clients).
Example C79_listed_nonvacuous :
  (exists h, added_together id_codec sample_wd sample_objects sample_store calm_clients sample_world (fst calm_end) (snd calm_end) h /\ whole 128 sample_store h (Index (str "test"))) /\
  option_map (fun p => match p with Ret rs => map names_of rs | _ => [] end) (nth_error (snd calm_end) 1) = Some [Some [fh_filename sample_file; fh_filename later_file]].
Proof.
  split; [|vm_compute; reflexivity].
  destruct (C79_together id_codec sample_wd sample_objects sample_store calm_clients 40 sample_world (fst calm_end) (snd calm_end) sample_wd_ok sample_sane sample_stored) as (h & T).
  - pose proof test_ident. cbn [calm_clients concat app]. repeat apply Forall_cons; try apply Forall_nil; (split; [cbn [call_object plain_object]; assumption|exact I]).
  - cbn [calm_clients concat app]. unfold sample_objects. repeat apply Forall_cons; try apply Forall_nil; cbn; tauto.
  - repeat constructor.
  - apply pool_at_fpool.
  - exists h. split; [exact T|]. apply (C79_whole _ _ _ _ _ _ _ _ _ _ _ T); [reflexivity|exists 0%nat; vm_compute; reflexivity|]. clear T.
    assert (E0 : nth_error (snd calm_end) 0 = Some (Ret [Ok Done])) by (vm_compute; reflexivity).
    assert (E2 : nth_error (snd calm_end) 2 = Some (Ret [Ok Done])) by (vm_compute; reflexivity).
    assert (E1 : option_map (fun p => match p with Ret rs => map names_of rs | _ => [] end) (nth_error (snd calm_end) 1) = Some [Some [fh_filename sample_file; fh_filename later_file]]) by (vm_compute; reflexivity).
    revert E0 E1 E2. generalize (snd calm_end). intros ps E0 E1 E2.
    intros [|[|[|i]]] cs Hc; cbn [calm_clients nth_error] in Hc; try (destruct i; discriminate Hc); injection Hc as <-.
    + exists [Ok Done]. split; [exact E0|]. clear. intros [|[|k]] c Hk _ Q; discriminate Q.
    + destruct (nth_error ps 1) as [[rs|]|]; [|discriminate E1|discriminate E1]. exists rs. split; [reflexivity|]. clear E0 E2. cbn [option_map] in E1. injection E1 as E1.
      destruct rs as [|r [|]]; try discriminate E1. intros [|[|k]] c Hk _ Q; cbn [nth_error] in Q; try discriminate Q. injection Q as ->. discriminate E1.
    + exists [Ok Done]. split; [exact E2|]. clear. intros [|[|k]] c Hk _ Q; discriminate Q.
Qed.

(** ** A torn record and a listing *)
(** The listing shows the file as it was at one moment, also when a record was torn. *)
Definition C79_listed_statement : Prop := forall cd wd O s css fuel w w' ps' h i cs rs k c r,
  ~ In x00 wd -> sane w -> stored w wd O s ->
  Forall call_ok (concat css) -> Forall (fun c => O (call_object c)) (concat css) -> Forall (fun c => adds_or_reads c = true) (concat css) ->
  fpool w (map (client cd wd fuel) css) w' ps' -> added_together cd wd O s css w w' ps' h ->
  nth_error css i = Some cs -> nth_error ps' i = Some (Ret rs) -> nth_error cs k = Some c -> nth_error rs k = Some r ->
  lists_records c = true -> r <> io_error -> r <> no_file -> r <> Diverge -> r <> Ok (Files []) ->
  exists h1 h2 d, h = h1 ++ h2 /\ after s h1 (call_object c) = Some d /\ listed_once cd c d r.
Definition torn_file : bytes := firstn 60 (MarshalToByte id_codec sample_file) ++ MarshalToByte id_codec later_file.
Definition busy_list : list FileHeader := match told 1 with Some [Ok (Files l)] => l | _ => [] end.
(** the name in the second record of the first [n] bytes *)
Definition second_name (n : nat) : bytes := match NewFileHeaderWithByte id_codec (skipn 128 (firstn n torn_file ++ repeat x00 (256 - n))) with Ok f => fh_filename f | _ => [] end.
Lemma no_second_name : forallb (fun n => if list_eq_dec byte_eq_dec (second_name n) (fh_filename later_file) then false else true) (seq 0 189) = true.
Proof. vm_compute. reflexivity. Qed.
Lemma zero_slot_name : exists f, file_decoded id_codec (repeat x00 128) f /\ fh_filename f = [].
Proof.
  destruct (file_decode id_codec (repeat x00 128)) as (f & E & D); [vm_compute; discriminate|]. exists f. split; [exact D|]. 
  assert (Q : match NewFileHeaderWithByte id_codec (repeat x00 128) with Ok f => fh_filename f | _ => str "?" end = []) by (vm_compute; reflexivity).
  rewrite E in Q. exact Q.
Qed.
Theorem C79_listed_at_one_moment_refuted : ~ C79_listed_statement.
Proof.
  intros H. destruct busy_ok as (A & B & C).
  destruct (C79_together id_codec sample_wd sample_objects sample_store busy 40 sample_world _ _ sample_wd_ok sample_sane sample_stored A B C busy_run) as (h & T).
  assert (E1 : option_map (fun p => match p with Ret rs => map names_of rs | _ => [] end) (nth_error (snd busy_end) 1) = Some [Some [fh_filename sample_file; fh_filename later_file]]) by (vm_compute; reflexivity).
  destruct (nth_error (snd busy_end) 1) as [[rs|]|] eqn:E2; [|discriminate E1|discriminate E1].
  assert (exists a b, rs = [Ok (Files [a; b])] /\ fh_filename a = fh_filename sample_file /\ fh_filename b = fh_filename later_file) as (a & b & -> & Ea & Eb).
  { cbn [option_map] in E1. injection E1 as E1. destruct rs as [|r [|]]; try discriminate E1. cbn [map] in E1. injection E1 as E1.
    destruct r as [[]| | |]; try discriminate E1. cbn [names_of] in E1. injection E1 as E1. destruct l as [|a [|b [|]]]; try discriminate E1. injection E1 as Ea Eb. exists a, b. auto. }
  clear E1. assert (Nr : forall r, Ok (Files [a; b]) = r -> r <> io_error /\ r <> no_file /\ r <> Diverge /\ r <> Ok (Files [])) by (clear; intros r <-; repeat split; discriminate).
  destruct (Nr _ eq_refl) as (Q1 & Q2 & Q3 & Q4). clear Nr.
  pose proof (H id_codec sample_wd sample_objects sample_store busy 40%nat sample_world (fst busy_end) (snd busy_end) h 1%nat [ListRecords (str "test")] [Ok (Files [a; b])] 0%nat (ListRecords (str "test")) (Ok (Files [a; b]))
    sample_wd_ok sample_sane sample_stored A B C busy_run T eq_refl E2 eq_refl eq_refl eq_refl Q1 Q2 Q3 Q4) as Hh. clear Q1 Q2 Q3 Q4.
  destruct Hh as (h1 & h2 & d & Eh & Ed & l & Pl & El).
  clear H. injection El as <-. cbn [call_object] in Ed.
  (* the file as it was is a beginning of the file as it is *)
  destruct (C79_files_grow sample_store h1 h2 _ d Ed) as [x Ex]. rewrite <- Eh in Ex.
  destruct T as (St & _). destruct (St (Index (str "test"))) as (p & rp' & Ep & Nm & _ & L); [cbn; tauto|exact test_ident|].
  rewrite Ex in L. cbn [option_map] in L.
  assert (Et : d ++ x = torn_file).
  { assert (Lt : look (fst busy_end) (rp ["bbs"; "boards"; "t"; "test"; ".DIR"]%string) = Some (EFile torn_file)) by (vm_compute; reflexivity).
    assert (rp' = rp ["bbs"; "boards"; "t"; "test"; ".DIR"]%string) as ->.
    { destruct Nm as [_ <-]. assert (Cw : w_cwd (fst busy_end) = w_cwd sample_world) by (vm_compute; reflexivity). rewrite Cw. clear -Ep. vm_compute in Ep. injection Ep as <-. vm_compute. reflexivity. }
    rewrite Lt in L. injection L as L. now symmetry. }
  clear St L Nm Ep Ex Ed Eh h1 h2 h E2 A B C.
  destruct Pl as (ss & ss' & [Fs (k & Ck & Kk)] & Pd & Fd). inversion Fd as [|t1 ? ss1 ? D1 Fd1]; subst. inversion Fd1 as [|t2 ? ss2 ? D2 Fd2]; subst. inversion Fd2; subst. clear Fd Fd1 Fd2.
  destruct zero_slot_name as (z & Dz & Ez).
  assert (Nz : forall t f, file_decoded id_codec t f -> fh_filename f <> [] -> t <> repeat x00 128).
  { intros t f D N ->. apply N. rewrite <- Ez. f_equal. exact (P_PoolList.file_decoded_fun _ _ _ _ D Dz). }
  assert (N1 : t1 <> repeat x00 128) by (apply (Nz t1 a D1); rewrite Ea; discriminate).
  assert (N2 : t2 <> repeat x00 128) by (apply (Nz t2 b D2); rewrite Eb; discriminate).
  assert (ss = [t1; t2]) as ->.
  { inversion Pd as [|? s0 ? P1|? ? P1]; subst; [|now destruct N1]. inversion P1 as [|? s1 ? P2|? ? P2]; subst; [|now destruct N2]. inversion P2; subst. reflexivity. }
  inversion Fs as [|? ? L1 Fs1]; subst. inversion Fs1 as [|? ? L2 _]; subst. clear Fs Fs1 Pd.
  cbn [concat] in Ck. rewrite app_nil_r in Ck.
  assert (Ld : (length d <= 188)%nat). { apply (f_equal (@length byte)) in Et. rewrite app_length in Et. change (length torn_file) with 188%nat in Et. lia. }
  assert (Ek : k = (256 - length d)%nat). { apply (f_equal (@length byte)) in Ck. rewrite !app_length, repeat_length in Ck. lia. }
  assert (Ef : firstn (length d) torn_file = d) by (rewrite <- Et, firstn_app, Nat.sub_diag, firstn_all; cbn; apply app_nil_r).
  assert (E2 : t2 = skipn 128 (firstn (length d) torn_file ++ repeat x00 (256 - length d))).
  { rewrite Ef, <- Ek, <- Ck, skipn_app. rewrite skipn_all2 by lia. rewrite L1. reflexivity. }
  pose proof no_second_name as Q. rewrite forallb_forall in Q. specialize (Q (length d)). rewrite in_seq in Q.
  assert (Z : second_name (length d) = fh_filename later_file).
  { unfold second_name. rewrite <- E2. destruct (file_decode id_codec t2) as (f & -> & Df); [unfold lenN; lia|]. rewrite <- Eb. f_equal. exact (P_PoolList.file_decoded_fun _ _ _ _ Df D2). }
  rewrite Z in Q. destruct list_eq_dec as [_|N]; [|now apply N]. assert (false = true) as W by (apply Q; lia). discriminate W.
Qed.
Print Assumptions C79_listed_at_one_moment_refuted.
