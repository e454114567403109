(** * Proofs about shared memory *)
From Coq Require Import Lia ZifyBool ZifyNat ZifyN.
From Verif Require Import M_Base M_Sys M_Shm S_World S_Shm P_Base P_Sys.
Open Scope N_scope.

(** ** Pages *)
Lemma pages_pos n : 0 < n -> 1 <= pages n.
Proof. intros H. unfold pages, page_size. apply N.div_le_lower_bound; lia. Qed.
Lemma page_in n i : i < n -> i / page_size < pages n.
Proof.
  intros H. unfold pages, page_size. apply N.div_lt_upper_bound; [lia|].
  pose proof (N.div_mod (n + (4096 - 1)) 4096 ltac:(lia)). pose proof (N.mod_upper_bound (n + (4096 - 1)) 4096 ltac:(lia)). lia.
Qed.
Lemma pages_mono n n' : n <= n' -> pages n <= pages n'.
Proof. intros H. unfold pages, page_size. apply N.div_le_mono; lia. Qed.
Lemma in_rangeP a n x : in_range a n x = true <-> a <= x < a + n.
Proof. unfold in_range. lia. Qed.
Lemma range_freeP m p a n : range_free m p a n = true -> forall x, in_range a n x = true -> m_page m p x = None.
Proof.
  unfold range_free. intros H x Hx. apply andb_true_iff in H. destruct H as [_ H]. rewrite forallb_forall in H.
  apply in_rangeP in Hx. specialize (H (N.to_nat (x - a))). rewrite N2Nat.id in H. replace (a + (x - a)) with x in H by lia.
  destruct (m_page m p x); [|reflexivity]. cbn in H. discriminate H. apply in_seq. lia.
Qed.

(** ** Files *)
Record filesrel (w0 w : world) (s : shared) : Prop := {
  f_sane : sane w;
  f_cwd : w_cwd w = w_cwd w0;
  f_dir : forall rp, is_dir w rp = is_dir w0 rp;
  f_path : forall rp, s_name s (Path rp) = match rp with
                      | [] => None
                      | _ => match w_tree w rp with Some (NFile i) => Some (RFile i) | _ => None end end;
  f_file : forall i, s_data s (RFile i) = if i <? w_nexti w then Some (w_data w i) else None }.

Lemma files_ext w0 w s s' : filesrel w0 w s -> (forall rp, s_name s' (Path rp) = s_name s (Path rp)) ->
  (forall i, s_data s' (RFile i) = s_data s (RFile i)) -> filesrel w0 w s'.
Proof. intros [] H1 H2. constructor; auto; intros; rewrite ?H1, ?H2; auto. Qed.
Lemma files_new_fd w0 w s q : filesrel w0 w s -> (forall i, of_ino q = Some i -> i < w_nexti w) ->
  filesrel w0 (bump_fd (set_fd w (w_nextfd w) (Some q))) s.
Proof. intros [] H. constructor; auto. apply sane_new_fd; auto. Qed.
Lemma files_close w0 w s fd : filesrel w0 w s -> filesrel w0 (set_fd w fd None) s.
Proof. intros []. constructor; auto. now apply sane_close. Qed.
Lemma files_data w0 w s i d : filesrel w0 w s -> i < w_nexti w -> filesrel w0 (set_data w i d) (with_data s (RFile i) d).
Proof.
  intros [] H. constructor; auto. now apply sane_set_data.
  intros j. cbn [s_data with_data set_data w_nexti w_data]. destruct region_eq_dec as [E|E].
  - injection E as ->. rewrite (proj2 (N.ltb_lt i (w_nexti w)) H). destruct N.eq_dec; [reflexivity|contradiction].
  - destruct N.eq_dec as [->|]; [congruence|auto].
Qed.
Lemma files_create w0 w s rp : filesrel w0 w s -> is_dir w rp = false -> w_tree w rp = None -> is_dir w (parent rp) = true ->
  filesrel w0 (bump_ino (set_data (set_tree w rp (Some (NFile (w_nexti w)))) (w_nexti w) []))
    (with_data (with_name s (Path rp) (Some (RFile (w_nexti w)))) (RFile (w_nexti w)) []).
Proof.
  intros [] H1 H2 H3.
  assert (Nr : rp <> []) by (intros ->; discriminate H1).
  constructor; auto.
  - apply sane_create; auto. now apply is_dir_look.
  - intros q. rewrite <- f_dir0. cbn [is_dir bump_ino set_data set_tree w_tree]. unfold is_dir. cbn [bump_ino set_data set_tree w_tree].
    destruct q; [reflexivity|]. destruct rp_eq_dec as [Z|]; [now rewrite Z, H2|reflexivity].
  - intros q. cbn [with_data with_name s_name bump_ino set_data set_tree w_tree]. destruct name_eq_dec as [E|E].
    + injection E as ->. destruct rp; [contradiction|]. destruct rp_eq_dec; [reflexivity|contradiction].
    + rewrite f_path0. destruct q; [reflexivity|]. destruct rp_eq_dec as [Z|]; [congruence|reflexivity].
  - intros i. cbn [with_data with_name s_data bump_ino set_data set_tree w_data w_nexti]. destruct region_eq_dec as [E|E].
    + injection E as ->. destruct N.eq_dec; [|contradiction]. rewrite (proj2 (N.ltb_lt _ _)); [reflexivity|lia].
    + rewrite f_file0. destruct N.eq_dec as [->|Ne]; [congruence|].
      destruct (N.ltb_spec i (w_nexti w)), (N.ltb_spec i (N.succ (w_nexti w))); auto; lia.
Qed.
Lemma files_unlink w0 w s rp i : filesrel w0 w s -> is_dir w rp = false -> w_tree w rp = Some (NFile i) ->
  filesrel w0 (set_tree w rp None) (with_name s (Path rp) None).
Proof.
  intros [] H1 H2. assert (Nr : rp <> []) by (intros ->; discriminate H1).
  constructor; auto.
  - eapply sane_unlink; eauto.
  - intros q. rewrite <- f_dir0. unfold is_dir. cbn [set_tree w_tree]. destruct q; [reflexivity|].
    destruct rp_eq_dec as [Z|]; [now rewrite Z, H2|reflexivity].
  - intros q. cbn [with_name s_name set_tree w_tree]. destruct name_eq_dec as [E|E].
    + injection E as ->. destruct rp; [reflexivity|]. destruct rp_eq_dec; [reflexivity|contradiction].
    + rewrite f_path0. destruct q; [reflexivity|]. destruct rp_eq_dec as [Z|]; [congruence|reflexivity].
Qed.

(** ** Segments *)
Record segsrel (m : mem) (s : shared) : Prop := {
  g_key : forall k, s_name s (Key k) = option_map RSeg (m_key m k);
  g_keys : forall k id, m_key m k = Some id -> m_seg m id <> None;
  g_seg : forall id, s_data s (RSeg id) = m_seg m id;
  g_nseg : forall id, m_nseg m <= id -> m_seg m id = None;
  g_pos : forall id d, m_seg m id = Some d -> 0 < lenN d }.

(** ** Handles *)
Definition extent (m : mem) (r : region) (len : N) : N :=
  match r with
  | RFile _ => pages len
  | RSeg id => match m_seg m id with Some d => pages (lenN d) | None => 0 end
  end.
Definition live (m : mem) (hd : handle) (r : region) (len : N) : Prop :=
  h_len hd = len /\ 0 < len /\
  (forall x, in_range (h_addr hd) (extent m r len) x = true -> m_page m (h_proc hd) x = Some (r, x - h_addr hd)) /\
  match r with
  | RFile i => i < w_nexti (m_world m) /\ (exists fd, h_fd hd = Some fd) /\ In (h_proc hd, h_addr hd, len) (m_active m)
  | RSeg id => h_fd hd = None /\ exists d, m_seg m id = Some d /\ len <= lenN d
  end.
Record hands (m : mem) (hs : list handle) (o : list (option (region * N))) : Prop := {
  d_len : length hs = length o;
  d_live : forall h hd r len, nth_error hs h = Some hd -> nth_error o h = Some (Some (r, len)) -> live m hd r len;
  d_disj : forall h h' hd hd' r len r' len', h <> h' -> nth_error hs h = Some hd -> nth_error hs h' = Some hd' ->
    nth_error o h = Some (Some (r, len)) -> nth_error o h' = Some (Some (r', len')) -> h_proc hd = h_proc hd' ->
    forall x, in_range (h_addr hd) (extent m r len) x = true -> in_range (h_addr hd') (extent m r' len') x = false }.

Lemma extent_pos m hd r len : live m hd r len -> in_range (h_addr hd) (extent m r len) (h_addr hd) = true.
Proof.
  intros (_ & P & _ & K). apply in_rangeP. split; [lia|]. enough (1 <= extent m r len) by lia.
  destruct r as [i|id]; cbn [extent]; [now apply pages_pos|]. destruct K as (_ & d & -> & L). apply pages_pos. lia.
Qed.

(** nothing that the handles rest on has changed *)
Record grows (m m' : mem) : Prop := {
  e_page : forall p x, m_page m' p x = m_page m p x;
  e_active : m_active m' = m_active m;
  e_nexti : w_nexti (m_world m) <= w_nexti (m_world m');
  e_seg : forall id d, m_seg m id = Some d -> exists d', m_seg m' id = Some d' /\ lenN d' = lenN d }.
Lemma grows_refl m : grows m m.
Proof. constructor; auto; [lia|eauto]. Qed.
Lemma grows_trans m m1 m2 : grows m m1 -> grows m1 m2 -> grows m m2.
Proof.
  intros [] []. constructor.
  - intros. now rewrite e_page1, e_page0.
  - congruence.
  - lia.
  - intros id d H. destruct (e_seg0 _ _ H) as (d1 & H1 & L1). destruct (e_seg1 _ _ H1) as (d2 & H2 & L2). exists d2. split; [exact H2|lia].
Qed.
Lemma extent_grows m m' hd r len : grows m m' -> live m hd r len -> extent m' r len = extent m r len.
Proof.
  intros G (_ & _ & _ & K). destruct r as [i|id]; [reflexivity|]. cbn [extent]. destruct K as (_ & d & E & _).
  destruct (e_seg _ _ G _ _ E) as (d' & E' & L). now rewrite E, E', L.
Qed.
Lemma live_grows m m' hd r len : grows m m' -> live m hd r len -> live m' hd r len.
Proof.
  intros G V. pose proof (extent_grows _ _ _ _ _ G V) as X. destruct V as (A & B & C & K).
  split; [exact A|]. split; [exact B|]. split; [intros x Hx; rewrite X in Hx; rewrite (e_page _ _ G); auto|].
  destruct r as [i|id].
  - destruct K as (K1 & K2 & K3). split; [pose proof (e_nexti _ _ G); lia|]. rewrite (e_active _ _ G). auto.
  - destruct K as (K1 & d & E & L). split; [exact K1|]. destruct (e_seg _ _ G _ _ E) as (d' & E' & L'). exists d'. split; [exact E'|lia].
Qed.
Lemma hands_grows m m' hs o : grows m m' -> hands m hs o -> hands m' hs o.
Proof.
  intros G [H1 H2 H3]. constructor; auto.
  - intros. eapply live_grows; eauto.
  - intros h h' hd hd' r len r' len' N E1 E2 O1 O2 P x Hx.
    rewrite (extent_grows m m' hd r len) in Hx by eauto. rewrite (extent_grows m m' hd' r' len') by eauto. eapply H3; eauto.
Qed.

Lemma nth_snoc {A} (l : list A) x n y : nth_error (l ++ [x]) n = Some y ->
  nth_error l n = Some y \/ n = length l /\ y = x.
Proof.
  intros H. destruct (Nat.lt_ge_cases n (length l)) as [L|L].
  - rewrite nth_error_app1 in H by exact L. auto.
  - rewrite nth_error_app2 in H by exact L. destruct (n - length l)%nat as [|k] eqn:E.
    + injection H as <-. right. split; [lia|reflexivity].
    + destruct k; discriminate H.
Qed.

(** a new handle in a free range *)
Lemma hands_open m hs o hd r len act :
  hands m hs o -> (forall x, In x (m_active m) -> In x act) ->
  range_free m (h_proc hd) (h_addr hd) (extent m r len) = true ->
  live (set_active (map_range m (h_proc hd) (h_addr hd) (extent m r len) r) act) hd r len ->
  hands (set_active (map_range m (h_proc hd) (h_addr hd) (extent m r len) r) act) (hs ++ [hd]) (o ++ [Some (r, len)]).
Proof.
  intros H Ac Fr V. set (m' := set_active _ act) in *. pose proof (range_freeP _ _ _ _ Fr) as Nf.
  assert (X : forall r len, extent m' r len = extent m r len) by reflexivity.
  assert (Old : forall h hd1 r1 len1, nth_error hs h = Some hd1 -> nth_error o h = Some (Some (r1, len1)) -> h_proc hd1 = h_proc hd ->
     forall x, in_range (h_addr hd1) (extent m r1 len1) x = true -> in_range (h_addr hd) (extent m r len) x = false).
  { intros h hd1 r1 len1 E1 O1 P x Hx. destruct (d_live _ _ _ H _ _ _ _ E1 O1) as (_ & _ & C & _). specialize (C x Hx).
    destruct (in_range (h_addr hd) (extent m r len) x) eqn:Z; [|reflexivity]. rewrite P, (Nf x Z) in C. discriminate C. }
  assert (Len : length hs = length o) by apply H.
  constructor.
  - rewrite !app_length. cbn [length]. lia.
  - intros h hd1 r1 len1 E1 O1. apply nth_snoc in E1, O1.
    destruct E1 as [E1|[E1 ->]], O1 as [O1|[O1 Q]].
    + destruct (d_live _ _ _ H _ _ _ _ E1 O1) as (A & B & C & K). split; [exact A|]. split; [exact B|]. split.
      * intros x Hx. rewrite X in Hx. cbn [m' set_active map_range set_page m_page].
        destruct (N.eqb_spec (h_proc hd1) (h_proc hd)) as [P|P]; cbn [andb]; [|auto].
        rewrite (Old _ _ _ _ E1 O1 P x Hx). auto.
      * destruct r1; [|exact K]. destruct K as (K1 & K2 & K3). split; [exact K1|]. split; [exact K2|]. now apply Ac.
    + exfalso. assert (h < length hs)%nat by (apply nth_error_Some; congruence). lia.
    + exfalso. assert (h < length o)%nat by (apply nth_error_Some; congruence). lia.
    + injection Q as -> ->. exact V.
  - intros h h' hd1 hd2 r1 len1 r2 len2 Nh E1 E2 O1 O2 P x Hx. rewrite X in *. apply nth_snoc in E1, O1, E2, O2.
    destruct O1 as [O1|[O1 Q1]], O2 as [O2|[O2 Q2]].
    + assert (h < length hs)%nat by (rewrite Len; apply nth_error_Some; congruence).
      assert (h' < length hs)%nat by (rewrite Len; apply nth_error_Some; congruence).
      destruct E1 as [E1|[E1 ->]]; [|lia]. destruct E2 as [E2|[E2 ->]]; [|lia]. eapply (d_disj _ _ _ H); eauto.
    + assert (h < length hs)%nat by (rewrite Len; apply nth_error_Some; congruence).
      destruct E1 as [E1|[E1 ->]]; [|lia]. destruct E2 as [E2|[E2 ->]].
      { assert (h' < length hs)%nat by (apply nth_error_Some; congruence). lia. }
      injection Q2 as -> ->. eapply Old; eauto.
    + assert (h' < length hs)%nat by (rewrite Len; apply nth_error_Some; congruence).
      destruct E2 as [E2|[E2 ->]]; [|lia]. destruct E1 as [E1|[E1 ->]].
      { assert (h < length hs)%nat by (apply nth_error_Some; congruence). lia. }
      injection Q1 as -> ->. destruct (in_range (h_addr hd2) (extent m r2 len2) x) eqn:Z; [|reflexivity].
      rewrite (Old _ _ _ _ E2 O2 (eq_sym P) x Z) in Hx. discriminate Hx.
    + exfalso. apply Nh. congruence.
Qed.

Lemma nth_upd_none {A} (o : list (option A)) h h' x : nth_error (upd_nth h None o) h' = Some (Some x) -> h' <> h /\ nth_error o h' = Some (Some x).
Proof.
  revert h h'. induction o as [|y o IH]; intros [|h] [|h'] E; cbn in E; try discriminate E; auto.
  apply IH in E. destruct E as [E1 E2]. split; [lia|exact E2].
Qed.

(** the pages of one handle are given back *)
Lemma hands_close m hs o h hd r len m' :
  hands m hs o -> nth_error hs h = Some hd -> nth_error o h = Some (Some (r, len)) ->
  (forall p x, p = h_proc hd /\ in_range (h_addr hd) (extent m r len) x = true \/ m_page m' p x = m_page m p x) ->
  (forall y, In y (m_active m) -> In y (m_active m') \/ y = (h_proc hd, h_addr hd, len)) ->
  (forall id, m_seg m' id = m_seg m id) -> w_nexti (m_world m') = w_nexti (m_world m) ->
  hands m' hs (upd_nth h None o).
Proof.
  intros H Eh Oh Pg Ac Sg Ni.
  assert (X : forall r len, extent m' r len = extent m r len) by (intros [i|id] l; cbn [extent]; [reflexivity|now rewrite Sg]).
  pose proof (d_live _ _ _ H _ _ _ _ Eh Oh) as V.
  constructor.
  - rewrite (d_len _ _ _ H). clear. revert h. induction o; intros [|h]; cbn; auto.
  - intros h1 hd1 r1 len1 E1 O1. apply nth_upd_none in O1. destruct O1 as [Nh O1].
    pose proof (d_live _ _ _ H _ _ _ _ E1 O1) as V1. destruct V1 as (A & B & C & K).
    assert (Dj : h_proc hd1 = h_proc hd -> forall x, in_range (h_addr hd1) (extent m r1 len1) x = true -> in_range (h_addr hd) (extent m r len) x = false).
    { intros P x Hx. eapply (d_disj _ _ _ H h1 h); eauto. }
    split; [exact A|]. split; [exact B|]. split.
    + intros x Hx. rewrite X in Hx. destruct (Pg (h_proc hd1) x) as [[P Z]|Z]; [|rewrite Z; auto].
      rewrite (Dj P x Hx) in Z. discriminate Z.
    + destruct r1 as [i|id].
      * destruct K as (K1 & K2 & K3). split; [now rewrite Ni|]. split; [exact K2|]. destruct (Ac _ K3) as [Q|Q]; [exact Q|exfalso].
        injection Q as P Q ->. pose proof (extent_pos m hd1 (RFile i) len) as Z. cbn [live] in Z.
        assert (V1 : live m hd1 (RFile i) len) by (split; [exact A|]; split; [exact B|]; split; [exact C|]; auto).
        specialize (Z V1). specialize (Dj P _ Z). pose proof (extent_pos _ _ _ _ V) as Y. rewrite <- Q in Y. congruence.
      * now rewrite Sg.
  - intros h1 h2 hd1 hd2 r1 len1 r2 len2 Nh E1 E2 O1 O2 P x. rewrite !X. apply nth_upd_none in O1, O2.
    destruct O1 as [_ O1], O2 as [_ O2]. eapply (d_disj _ _ _ H); eauto.
Qed.

(** ** One operation *)
Record rel (w0 : world) (max : N) (m : mem) (hs : list handle) (s : shared) : Prop := {
  R_f : filesrel w0 (m_world m) s;
  R_g : segsrel m s;
  R_d : hands m hs (s_open s);
  R_max : m_max m = max }.

Lemma same_slice_spec x y : same_slice x y = true <-> x = y.
Proof. destruct x as [[p a] n], y as [[p' a'] n']. cbn. rewrite !andb_true_iff, !N.eqb_eq. split; [intros [[-> ->] ->]; reflexivity|intros [= -> -> ->]; auto]. Qed.

Lemma openFile_ok w0 max m hs s p a fd i pos app d m' hs' rep :
  rel w0 max m hs s -> w_fds (m_world m) fd = Some (OFile (Some i) pos app true true) -> i < w_nexti (m_world m) ->
  s_data s (RFile i) = Some d -> opened hs (openFile p a fd m) = (m', hs', rep) ->
  match d with
  | [] => m' = m /\ hs' = hs /\ rep = Failed EINVAL
  | _ => exists s', taken s (RFile i) (lenN d) s' rep /\ rel w0 max m' hs' s'
  end.
Proof.
  intros [F G D Mx] Hf Hi Hd. rewrite (f_file _ _ _ F) in Hd. rewrite (proj2 (N.ltb_lt _ _) Hi) in Hd. injection Hd as Hd.
  unfold openFile, Mmap_slice, sys_mmap. rewrite Hf, Hd. destruct d as [|b d].
  - cbn [lenN length N.of_nat N.eqb opened]. intros [= <- <- <-]. auto.
  - assert (Hl : 0 < lenN (b :: d)) by (unfold lenN; cbn [length]; lia).
    rewrite (proj2 (N.eqb_neq _ _)) by lia. set (n := lenN (b :: d)) in *.
    destruct (range_free m p a (pages n)) eqn:Fr.
    + cbn [opened]. intros [= <- <- <-]. exists (with_handle s (RFile i) n). split; [left; auto|].
      constructor; [now destruct F; constructor|destruct G; constructor; auto| |exact Mx].
      apply (hands_open m hs (s_open s) (Handle p (Some fd) a n) (RFile i) n ((p, a, n) :: m_active m)); auto.
      * intros x Hx. now right.
      * split; [reflexivity|]. split; [exact Hl|]. split.
        -- intros x Hx. cbn [set_active map_range set_page m_page h_proc h_addr extent]. cbn [extent h_addr] in Hx. now rewrite N.eqb_refl, Hx.
        -- split; [exact Hi|]. split; [eexists; reflexivity|]. now left.
    + cbn [opened]. intros [= <- <- <-]. exists s. split; [right; auto|]. constructor; auto.
Qed.

Lemma missing_either w rp : missing w rp = ENOENT \/ missing w rp = ENOTDIR.
Proof. unfold missing. destruct existsb; auto. Qed.

Lemma rel_world w0 max m hs s s' w : rel w0 max m hs s -> filesrel w0 w s' -> w_nexti (m_world m) <= w_nexti w ->
  s_open s' = s_open s -> (forall k, s_name s' (Key k) = s_name s (Key k)) -> (forall id, s_data s' (RSeg id) = s_data s (RSeg id)) ->
  rel w0 max (set_world m w) hs s'.
Proof.
  intros [F G D Mx] F' Nx Op Kn Sd. constructor; auto.
  - destruct G. constructor; cbn [set_world m_key m_seg m_nseg]; auto; intros; rewrite ?Kn, ?Sd; auto.
  - rewrite Op. eapply hands_grows; [|exact D]. constructor; auto. intros id d E. cbn. eauto.
Qed.

(** opening a path, by cases *)
Lemma open_path w0 w s path fl : filesrel w0 w s -> proper path -> o_wr fl = true -> o_rd fl = true -> o_append fl = false -> o_excl fl = false ->
  let rp := resolve (w_cwd w0) path in
  if is_dir w0 rp then exec (Open path fl) w = (w, RErr EISDIR)
  else match s_name s (Path rp) with
       | Some r => exists i d, r = RFile i /\ i < w_nexti w /\ s_data s r = Some d /\ w_tree w rp = Some (NFile i) /\
           exec (Open path fl) w = (let w1 := if o_trunc fl then set_data w i [] else w in
             bump_fd (set_fd w1 (w_nextfd w1) (Some (OFile (Some i) 0 false true true))), ROk (w_nextfd w))
       | None =>
           if is_dir w0 (removelast rp) && o_creat fl then w_tree w rp = None /\ exec (Open path fl) w =
             (let w1 := bump_ino (set_data (set_tree w rp (Some (NFile (w_nexti w)))) (w_nexti w) []) in
              bump_fd (set_fd w1 (w_nextfd w1) (Some (OFile (Some (w_nexti w)) 0 false true true))), ROk (w_nextfd w))
           else exec (Open path fl) w = (w, RErr (missing w rp))
       end.
Proof.
  intros F Pp Wr Rd Ap Ex rp. destruct (proper_tests _ Pp) as [T1 T2].
  cbn [exec]. unfold sys_open. rewrite T1, T2, (f_cwd _ _ _ F). fold rp. rewrite (f_dir _ _ _ F), Wr, Rd, Ap, Ex. cbn [orb].
  destruct (is_dir w0 rp) eqn:Dr; [now rewrite andb_false_r|].
  assert (Nr : rp <> []) by (intros Z; rewrite Z in Dr; discriminate Dr).
  rewrite (f_path _ _ _ F). destruct rp as [|c rp'] eqn:Erp; [contradiction|]. rewrite <- Erp in *. clear Erp.
  destruct (w_tree w rp) as [[|i]|] eqn:T.
  - exfalso. rewrite <- (f_dir _ _ _ F) in Dr. unfold is_dir in Dr. destruct rp; [contradiction|]. now rewrite T in Dr.
  - assert (Hi : i < w_nexti w) by (eapply sane_ino; [apply F|exact T]).
    exists i, (w_data w i). split; [reflexivity|]. split; [exact Hi|]. split.
    { rewrite (f_file _ _ _ F). now rewrite (proj2 (N.ltb_lt _ _) Hi). }
    split; [reflexivity|]. rewrite andb_false_r. destruct (o_trunc fl); reflexivity.
  - change (parent rp) with (removelast rp). rewrite (f_dir _ _ _ F). destruct (is_dir w0 (removelast rp)), (o_creat fl); cbn [andb]; auto.
Qed.

Lemma truncate_zeros n : truncate_to n [] = zeros n.
Proof. unfold truncate_to. rewrite firstn_nil. cbn [app lenN length]. now rewrite N.sub_0_r. Qed.

Lemma zeros_len n : lenN (zeros n) = n.
Proof. unfold lenN, zeros. rewrite repeat_length. lia. Qed.

(** the second half of CreateMmap: the file has been emptied *)
Lemma create_tail w0 max m hs s s1 i p a size m' hs' rep w1 :
  rel w0 max (set_world m w1) hs s1 -> i < w_nexti w1 -> w_data w1 i = [] ->
  w_fds w1 (w_nextfd w1 - 1) = Some (OFile (Some i) 0 false true true) ->
  (forall n, s_name s1 n = s_name s n) -> (forall r, r <> RFile i -> s_data s1 r = s_data s r) -> s_open s1 = s_open s ->
  opened hs (if (size <? 0)%Z then (set_world m w1, MErr (MSys EINVAL))
      else match exec (Ftruncate (w_nextfd w1 - 1) (Z.to_N size)) w1 with
           | (w2, RErr e) => (set_world m w2, MErr (MSys e))
           | (w2, ROk _) => openFile p a (w_nextfd w1 - 1) (set_world m w2)
           end) = (m', hs', rep) ->
  exists s', file_created s (RFile i) size s' rep /\ rel w0 max m' hs' s'.
Proof.
  intros R Hi Di Hf Nm Dt Op. unfold file_created.
  assert (Emp : forall d w2, filesrel w0 w2 (with_data s1 (RFile i) d) -> w_nexti w2 = w_nexti w1 ->
     rel w0 max (set_world m w2) hs (with_data s (RFile i) d)).
  { intros d w2 F2 N2. change (set_world m w2) with (set_world (set_world m w1) w2). eapply rel_world; [exact R| | | | |].
    - eapply files_ext; [exact F2| |]; intros; cbn [with_data s_name s_data]; auto. destruct region_eq_dec as [|E]; auto. symmetry. now apply Dt.
    - cbn [m_world set_world]. lia.
    - cbn [with_data s_open]. now rewrite Op.
    - intros k. cbn. now rewrite Nm.
    - intros id. cbn [with_data s_data]. destruct region_eq_dec as [Z|]; [discriminate Z|]. symmetry. now apply Dt. }
  assert (F1 : filesrel w0 w1 s1) by apply R.
  destruct (Z.ltb_spec size 0) as [Lz|Lz].
  - cbn [opened]. intros [= <- <- <-]. rewrite (proj2 (Z.leb_le size 0)) by lia. eexists. split; [split; reflexivity|].
    apply Emp; [|reflexivity]. eapply files_ext; [exact F1| |]; auto. intros j. cbn [with_data s_data]. destruct region_eq_dec as [E|]; [|reflexivity].
    injection E as ->. rewrite (f_file _ _ _ F1), (proj2 (N.ltb_lt _ _) Hi), Di. reflexivity.
  - cbn [exec]. unfold sys_ftruncate. rewrite Hf. cbn [of_ino of_wr]. rewrite Di, truncate_zeros. intros H.
    set (d := zeros (Z.to_N size)) in *. set (w2 := set_data w1 i d) in *.
    assert (R2 : rel w0 max (set_world m w2) hs (with_data s (RFile i) d)).
    { apply Emp; [|reflexivity]. now apply files_data. }
    assert (Sd : s_data (with_data s (RFile i) d) (RFile i) = Some d).
    { cbn [with_data s_data]. destruct region_eq_dec; [reflexivity|congruence]. }
    pose proof (openFile_ok w0 max _ hs _ p a (w_nextfd w1 - 1) i 0 false d m' hs' rep R2 Hf Hi Sd H) as Q.
    destruct d as [|b d'] eqn:Ed.
    + destruct Q as (-> & -> & ->). exists (with_data s (RFile i) []).
      assert (size = 0%Z) as ->. { assert (E : lenN (zeros (Z.to_N size)) = 0) by (unfold d in Ed; rewrite Ed; reflexivity). rewrite zeros_len in E. lia. }
      cbn. auto.
    + assert (Hs : lenN (b :: d') = Z.to_N size) by (rewrite <- Ed; apply zeros_len).
      assert (0 < lenN (b :: d')) by (unfold lenN; cbn [length]; lia).
      rewrite (proj2 (Z.leb_gt size 0)) by lia. rewrite Hs in Q. exact Q.
Qed.

(** attaching a segment *)
Lemma attach_ok w0 max m hs s p a id d len m' hs' rep :
  rel w0 max m hs s -> m_seg m id = Some d -> 0 < len -> len <= lenN d ->
  opened hs (match shmat p a id m with
             | (m2, MErr e) => (m2, MErr e)
             | (m2, MOk a) => (m2, MOk (Handle p None a len)) end) = (m', hs', rep) ->
  exists s', taken s (RSeg id) len s' rep /\ rel w0 max m' hs' s'.
Proof.
  intros [F G D Mx] Hs L0 L1. unfold shmat. rewrite Hs. destruct (range_free m p a (pages (lenN d))) eqn:Fr; cbn [opened].
  - intros [= <- <- <-]. exists (with_handle s (RSeg id) len). split; [left; auto|].
    constructor; [now destruct F; constructor|destruct G; constructor; auto| |exact Mx].
    pose proof (hands_open m hs (s_open s) (Handle p None a len) (RSeg id) len (m_active m) D (fun x H => H)) as Q.
    cbn [h_proc h_addr extent] in Q. rewrite Hs in Q. specialize (Q Fr).
    assert (V : live (set_active (map_range m p a (pages (lenN d)) (RSeg id)) (m_active m)) (Handle p None a len) (RSeg id) len).
    { split; [reflexivity|]. split; [exact L0|]. split.
      - intros x Hx. cbn [set_active map_range set_page m_page h_proc h_addr extent m_seg] in *. rewrite Hs in Hx. now rewrite N.eqb_refl, Hx.
      - split; [reflexivity|]. exists d. auto. }
    specialize (Q V). eapply hands_grows; [|exact Q]. constructor; auto; [cbn; lia|eauto].
  - intros [= <- <- <-]. exists s. split; [right; auto|]. constructor; auto.
Qed.

(** a new segment, then attached *)
Lemma create_seg_ok w0 max m hs s p a k size m' hs' rep :
  rel w0 max m hs s ->
  opened hs (match new_seg k size m with
     | (m1, MErr e) => (m1, MErr e)
     | (m1, MOk id) =>
      match m_seg m1 id with
      | None => (m1, MErr (MSys EINVAL))
      | Some d =>
          let len := if (size =? 0)%Z then lenN d else Z.to_N size in
          match shmat p a id m1 with
          | (m2, MErr e) => (m2, MErr e)
          | (m2, MOk a) => (m2, MOk (Handle p None a len))
          end
      end end) = (m', hs', rep) ->
  exists s', seg_created max s k size s' rep /\ rel w0 max m' hs' s'.
Proof.
  intros R. pose proof (R_max _ _ _ _ _ R) as Mx. subst max. unfold new_seg, seg_created.
  replace ((1 <=? size)%Z && (size <=? Z.of_N (m_max m))%Z) with (negb ((size <? 1)%Z || (Z.of_N (m_max m) <? size)%Z)) by lia.
  destruct ((size <? 1)%Z || (Z.of_N (m_max m) <? size)%Z) eqn:B; cbn [negb].
  - cbn [opened]. intros [= <- <- <-]. exists s. auto.
  - set (id := m_nseg m). set (d := zeros (Z.to_N size)).
    set (m1 := match k with None => set_nseg (set_seg m id d) (id + 1) | Some k => set_key (set_nseg (set_seg m id d) (id + 1)) k (Some id) end).
    assert (S1 : m_seg m1 id = Some d). { unfold m1. destruct k; cbn [set_key set_nseg set_seg m_seg]; now rewrite N.eqb_refl. }
    assert (So : forall j, j <> id -> m_seg m1 j = m_seg m j).
    { intros j Nj. unfold m1. destruct k; cbn [set_key set_nseg set_seg m_seg]; rewrite (proj2 (N.eqb_neq _ _)); auto. }
    assert (Ko : forall j, m_key m1 j = match k with Some k => if j =? k then Some id else m_key m j | None => m_key m j end).
    { intros j. unfold m1. now destruct k. }
    assert (Ns : m_nseg m1 = id + 1) by (unfold m1; now destruct k).
    assert (Wm : m_world m1 = m_world m) by (unfold m1; now destruct k).
    assert (Pm : forall p x, m_page m1 p x = m_page m p x) by (intros; unfold m1; now destruct k).
    assert (Am : m_active m1 = m_active m) by (unfold m1; now destruct k).
    assert (Fr : s_data s (RSeg id) = None). { rewrite (g_seg _ _ (R_g _ _ _ _ _ R)). apply (g_nseg _ _ (R_g _ _ _ _ _ R)). unfold id. lia. }
    set (s1 := with_data (match k with Some k => with_name s (Key k) (Some (RSeg id)) | None => s end) (RSeg id) d).
    assert (R1 : rel w0 (m_max m) m1 hs s1).
    { destruct R as [F G D _]. constructor.
      - rewrite Wm. eapply files_ext; [exact F| |].
        + intros rp. unfold s1. destruct k; cbn [with_data with_name s_name]; [|reflexivity]. destruct name_eq_dec as [Z|]; [discriminate Z|reflexivity].
        + intros i. unfold s1. destruct k; cbn [with_data with_name s_data]; (destruct region_eq_dec as [Z|]; [discriminate Z|reflexivity]).
      - constructor.
        + intros j. rewrite Ko. unfold s1. destruct k as [k|]; cbn [with_data with_name s_name].
          * destruct name_eq_dec as [Z|Z].
            -- injection Z as ->. now rewrite N.eqb_refl.
            -- rewrite (proj2 (N.eqb_neq _ _)) by congruence. apply G.
          * apply G.
        + intros j id' E. rewrite Ko in E. destruct (N.eq_dec id' id) as [->|Nj]; [congruence|].
          rewrite So by exact Nj. destruct k as [k|]; [|eapply g_keys; eauto]. destruct (j =? k); [congruence|]. eapply g_keys; eauto.
        + intros j. unfold s1. assert (E : s_data (with_data (match k with Some k => with_name s (Key k) (Some (RSeg id)) | None => s end) (RSeg id) d) (RSeg j) =
            if N.eq_dec j id then Some d else s_data s (RSeg j)).
          { destruct k; cbn [with_data with_name s_data]; (destruct region_eq_dec as [Z|Z], N.eq_dec as [Y|Y]; congruence). }
          rewrite E. destruct N.eq_dec as [->|Nj]; [now rewrite S1|]. rewrite So by exact Nj. apply G.
        + intros j Hj. rewrite Ns in Hj. rewrite So by lia. apply (g_nseg _ _ G). unfold id in *. lia.
        + intros j dj E. destruct (N.eq_dec j id) as [->|Nj].
          * rewrite S1 in E. injection E as <-. unfold d. rewrite zeros_len. lia.
          * rewrite So in E by exact Nj. eapply g_pos; eauto.
      - replace (s_open s1) with (s_open s) by (unfold s1; now destruct k). eapply hands_grows; [|exact D]. constructor; auto.
        + rewrite Wm. lia.
        + intros j dj E. exists dj. split; [|reflexivity]. rewrite So; [exact E|]. intros ->.
          rewrite (g_nseg _ _ G id) in E; [discriminate E|unfold id; lia].
      - unfold m1. now destruct k. }
    fold m1. rewrite S1. assert (Z0 : (size =? 0)%Z = false) by lia. rewrite Z0. cbv zeta. intros H.
    assert (Ld : lenN d = Z.to_N size) by apply zeros_len.
    destruct (attach_ok w0 (m_max m) m1 hs s1 p a id d (Z.to_N size) m' hs' rep R1 S1) as (s' & T & R'); [lia|lia|exact H|].
    exists s'. split; [|exact R']. exists (RSeg id). split; [exact Fr|]. exact T.
Qed.

(** reaching a byte through an open handle *)
Lemma locate_live m hd r len i : live m hd r len ->
  locate hd i m = (if len <=? i then Panics else if i <? lenN (content m r) then Got (r, i)
                   else if i <? 4096 * ((lenN (content m r) + 4095) / 4096) then Stray else Faults).
Proof.
  intros V. pose proof V as (A & B & C & K). unfold locate. rewrite A. destruct (N.leb_spec len i) as [L|L]; [reflexivity|].
  rewrite C.
  - cbv zeta. replace (h_addr hd + i / page_size - h_addr hd) with (i / page_size) by (now rewrite N.add_comm, N.add_sub).
    assert (E : i / page_size * page_size + i mod page_size = i).
    { rewrite N.mul_comm. symmetry. now apply N.div_mod. }
    rewrite E. destruct (i <? lenN (content m r)); [reflexivity|].
    replace (pages (lenN (content m r)) * page_size) with (4096 * ((lenN (content m r) + 4095) / 4096)); [reflexivity|].
    unfold pages, page_size. change (4096 - 1) with 4095. lia.
  - apply in_rangeP. split; [apply N.le_add_r|]. pose proof (page_in len i L) as Q. enough (X : i / page_size < extent m r len) by (now apply N.add_lt_mono_l).
    destruct r as [j|id]; cbn [extent]; [exact Q|]. destruct K as (_ & d & -> & Ld). pose proof (pages_mono _ _ Ld). eapply N.lt_le_trans; eauto.
Qed.
Lemma content_live w0 max m hs s hd r len : rel w0 max m hs s -> live m hd r len -> s_data s r = Some (content m r).
Proof.
  intros [F G _ _] (_ & _ & _ & K). destruct r as [i|id].
  - rewrite (f_file _ _ _ F). cbn [content]. destruct K as [K _]. now rewrite (proj2 (N.ltb_lt _ _) K).
  - rewrite (g_seg _ _ G). cbn [content]. destruct K as (_ & d & -> & _). reflexivity.
Qed.
Lemma put_len (i : nat) (b : byte) (d : bytes) : (i < length d)%nat -> length (firstn i d ++ b :: skipn (S i) d) = length d.
Proof. intros H. rewrite app_length, firstn_length. cbn [length]. rewrite skipn_length. lia. Qed.
Lemma put_rel w0 max m hs s hd r len i b : rel w0 max m hs s -> live m hd r len -> i < lenN (content m r) ->
  rel w0 max (set_content m r (replace_nth (N.to_nat i) b (content m r))) hs
    (with_data s r (firstn (N.to_nat i) (content m r) ++ b :: skipn (S (N.to_nat i)) (content m r))).
Proof.
  intros R V Li. pose proof V as (_ & _ & _ & K). unfold replace_nth. set (d' := _ ++ _ :: _).
  assert (Ld : lenN d' = lenN (content m r)). { unfold lenN, d' in *. f_equal. apply put_len. lia. }
  destruct r as [j|id]; cbn [set_content].
  - eapply rel_world; [exact R|apply files_data; [apply R|apply K]|cbn; lia|reflexivity|reflexivity|].
    intros id. cbn [with_data s_data]. destruct region_eq_dec as [Z|]; [discriminate Z|reflexivity].
  - destruct K as (_ & d & Ed & _). destruct R as [F G D Mx]. constructor; auto.
    + eapply files_ext; [exact F|reflexivity|]. intros j. cbn [with_data s_data]. destruct region_eq_dec as [Z|]; [discriminate Z|reflexivity].
    + destruct G. constructor; auto.
      * intros k j E. cbn [set_seg m_seg]. destruct (j =? id); [discriminate|]. eapply g_keys0; eauto.
      * intros j. cbn [with_data s_data set_seg m_seg]. destruct region_eq_dec as [Z|Z].
        -- injection Z as ->. now rewrite N.eqb_refl.
        -- rewrite (proj2 (N.eqb_neq _ _)) by congruence. apply g_seg0.
      * intros j Hj. cbn [set_seg m_seg]. destruct (N.eqb_spec j id) as [->|]; [|now apply g_nseg0].
        rewrite g_nseg0 in Ed by exact Hj. discriminate Ed.
      * intros j dj E. cbn [set_seg m_seg] in E. destruct (j =? id); [|eapply g_pos0; eauto]. injection E as <-. rewrite Ld. lia.
    + cbn [with_data s_open]. eapply hands_grows; [|exact D]. constructor; auto; [cbn; lia|].
      intros j dj E. cbn [set_seg m_seg]. destruct (N.eqb_spec j id) as [->|]; [|eauto]. exists d'. split; [reflexivity|].
      rewrite Ld. cbn [content]. now rewrite E.
Qed.

(** closing *)
Lemma close_rel w0 max m hs s h hd r len : rel w0 max m hs s -> nth_error hs h = Some hd -> nth_error (s_open s) h = Some (Some (r, len)) ->
  exists m', CloseMem hd m = (m', MOk tt) /\ rel w0 max m' hs (without_handle s h).
Proof.
  intros R Eh Oh. pose proof (d_live _ _ _ (R_d _ _ _ _ _ R) _ _ _ _ Eh Oh) as V. pose proof V as (A & B & C & K).
  pose proof (extent_pos _ _ _ _ V) as X. unfold CloseMem. destruct r as [i|id].
  - destruct K as (K1 & (fd & ->) & K3). unfold Munmap_slice. rewrite A, (proj2 (N.eqb_neq _ _)) by lia. cbn [orb].
    assert (E : existsb (same_slice (h_proc hd, h_addr hd, len)) (m_active m) = true).
    { apply existsb_exists. eexists. split; [exact K3|]. now apply same_slice_spec. }
    rewrite E. cbn [negb]. eexists. split; [reflexivity|]. destruct R as [F G D Mx]. constructor.
    + cbn [exec fst m_world unmap_range set_active set_page set_world]. eapply files_ext; [apply files_close; exact F| |]; reflexivity.
    + destruct G. constructor; auto.
    + cbn [without_handle s_open]. eapply hands_close; [exact D|exact Eh|exact Oh| | |reflexivity|reflexivity].
      * intros p x. cbn [set_world m_page unmap_range set_page set_active exec fst]. cbn [extent].
        destruct (N.eqb_spec p (h_proc hd)) as [->|]; cbn [andb]; [|auto]. destruct (in_range (h_addr hd) (pages len) x) eqn:Z; auto.
      * intros y Hy. cbn [set_world m_active unmap_range set_page set_active].
        destruct (same_slice (h_proc hd, h_addr hd, len) y) eqn:Z.
        -- right. apply same_slice_spec in Z. now symmetry.
        -- left. apply filter_In. split; [exact Hy|]. now rewrite Z.
    + exact Mx.
  - destruct K as (-> & d & Ed & Ld). unfold shmdt. rewrite (C _ X), N.sub_diag. eexists. split; [reflexivity|].
    destruct R as [F G D Mx]. constructor.
    + destruct F. constructor; auto.
    + destruct G. constructor; auto.
    + cbn [without_handle s_open]. eapply hands_close; [exact D|exact Eh|exact Oh| | |reflexivity|reflexivity].
      * intros p x. cbn [set_page m_page extent]. rewrite Ed.
        destruct (N.eqb_spec p (h_proc hd)) as [->|]; cbn [andb]; [|auto]. destruct (in_range (h_addr hd) (pages (lenN d)) x) eqn:Z; auto.
      * intros y Hy. left. exact Hy.
    + exact Mx.
Qed.

Lemma perform_ok w0 max o m hs s m' hs' rep :
  rel w0 max m hs s -> path_proper o -> ~ uses_closed s o -> perform o m hs = (m', hs', rep) ->
  exists s', meets (w_cwd w0) (is_dir w0) max o s s' rep /\ rel w0 max m' hs' s'.
Proof.
  intros R Pp Uc H. pose proof (R_f _ _ _ _ _ R) as F. pose proof (R_g _ _ _ _ _ R) as G. pose proof (R_d _ _ _ _ _ R) as D.
  assert (Same : rel w0 max (set_world m (m_world m)) hs s). { destruct m. exact R. }
  destruct o as [p a path size|p a path|path|p a key size|p a key|key|h|h i|h i b]; cbn [perform meets path_proper] in *; cbv zeta.
  - (* CreateMmap *)
    unfold CreateMmap in H. pose proof (open_path w0 (m_world m) s path O_RDWR_CREATE_TRUNC F Pp eq_refl eq_refl eq_refl eq_refl) as Q. cbv zeta in Q.
    set (rp := resolve (w_cwd w0) path) in *. destruct (is_dir w0 rp) eqn:Dr.
    { rewrite Q in H. cbn [opened] in H. injection H as <- <- <-. exists s. auto. }
    destruct (s_name s (Path rp)) as [r|] eqn:Nm.
    + destruct Q as (i & d & -> & Hi & Hd & _ & Q). rewrite Q in H. cbn [O_RDWR_CREATE_TRUNC o_trunc] in H. cbv zeta in H.
      set (w1 := bump_fd _) in H. replace (w_nextfd (m_world m)) with (w_nextfd w1 - 1) in H by (unfold w1; cbn; lia).
      assert (F1 : filesrel w0 w1 (with_data s (RFile i) [])).
      { unfold w1. apply files_new_fd; [now apply files_data|]. intros j [= <-]. exact Hi. }
      assert (R1 : rel w0 max (set_world m w1) hs (with_data s (RFile i) [])).
      { eapply rel_world; [exact R|exact F1|cbn; lia|reflexivity|reflexivity|]. intros id. cbn [with_data s_data]. destruct region_eq_dec as [Z|]; [discriminate Z|reflexivity]. }
      apply (create_tail w0 max m hs s (with_data s (RFile i) []) i p a size m' hs' rep w1); auto.
      * unfold w1. cbn. destruct N.eq_dec; congruence.
      * unfold w1. cbn. destruct N.eq_dec; [reflexivity|lia].
      * intros r Nr. cbn [with_data s_data]. destruct region_eq_dec; [contradiction|reflexivity].
    + destruct (is_dir w0 (removelast rp)) eqn:Dp; cbn [andb O_RDWR_CREATE_TRUNC o_creat] in Q.
      * destruct Q as [T Q]. rewrite Q in H. cbv zeta in H. set (i := w_nexti (m_world m)) in *.
        set (w1 := bump_fd _) in H. replace (w_nextfd (m_world m)) with (w_nextfd w1 - 1) in H by (unfold w1; cbn; lia).
        set (sn := with_name s (Path rp) (Some (RFile i))).
        assert (F1 : filesrel w0 w1 (with_data sn (RFile i) [])).
        { unfold w1. apply files_new_fd; [|intros j [= <-]; cbn; unfold i; lia]. apply files_create; auto.
          - now rewrite (f_dir _ _ _ F).
          - now rewrite (f_dir _ _ _ F). }
        assert (R1 : rel w0 max (set_world m w1) hs (with_data sn (RFile i) [])).
        { eapply rel_world; [exact R|exact F1|cbn; lia|reflexivity| |].
          - intros k. reflexivity.
          - intros id. cbn [with_data s_data]. destruct region_eq_dec as [Z|]; [discriminate Z|reflexivity]. }
        destruct (create_tail w0 max m hs sn (with_data sn (RFile i) []) i p a size m' hs' rep w1) as (s' & T' & R'); auto.
        -- unfold w1. cbn. unfold i. lia.
        -- unfold w1. cbn. destruct N.eq_dec; congruence.
        -- unfold w1. cbn. destruct N.eq_dec; [reflexivity|lia].
        -- intros r Nr. cbn [with_data s_data]. destruct region_eq_dec; [contradiction|reflexivity].
        -- exists s'. split; [|exact R']. exists (RFile i). split; [|exact T'].
           rewrite (f_file _ _ _ F). destruct (N.ltb_spec i (w_nexti (m_world m))); [unfold i in *; lia|reflexivity].
      * rewrite Q in H. cbn [opened] in H. injection H as <- <- <-. exists s. split; [|exact Same]. split; [reflexivity|].
        destruct (missing_either (m_world m) rp) as [-> | ->]; auto.
  - (* OpenMmap *)
    unfold OpenMmap in H. pose proof (open_path w0 (m_world m) s path O_RDWR F Pp eq_refl eq_refl eq_refl eq_refl) as Q. cbv zeta in Q.
    set (rp := resolve (w_cwd w0) path) in *. destruct (is_dir w0 rp) eqn:Dr.
    { rewrite Q in H. cbn [opened] in H. injection H as <- <- <-. exists s. auto. }
    destruct (s_name s (Path rp)) as [r|] eqn:Nm.
    + destruct Q as (i & d & -> & Hi & Hd & _ & Q). rewrite Q in H. cbn [O_RDWR o_trunc] in H. cbv zeta in H.
      set (w1 := bump_fd _) in H.
      assert (F1 : filesrel w0 w1 s). { unfold w1. apply files_new_fd; [exact F|]. intros j [= <-]. exact Hi. }
      assert (R1 : rel w0 max (set_world m w1) hs s). { eapply rel_world; [exact R|exact F1|cbn; lia|reflexivity|reflexivity|reflexivity]. }
      pose proof (openFile_ok w0 max (set_world m w1) hs s p a (w_nextfd (m_world m)) i 0 false d m' hs' rep R1) as X.
      rewrite Hd. assert (Hf : w_fds (m_world (set_world m w1)) (w_nextfd (m_world m)) = Some (OFile (Some i) 0 false true true)).
      { unfold w1. cbn. destruct N.eq_dec; congruence. }
      specialize (X Hf Hi Hd H). destruct d as [|b d]; [|exact X]. destruct X as (-> & -> & ->). exists s. auto.
    + rewrite andb_false_r in Q. rewrite Q in H. cbn [opened] in H. injection H as <- <- <-. exists s. split; [|exact Same]. split; [reflexivity|].
      destruct (missing_either (m_world m) rp) as [-> | ->]; auto.
  - (* RemoveMmap *)
    unfold RemoveMmap in H. cbn [exec] in H. unfold sys_unlink in H. destruct (proper_tests _ Pp) as [T1 T2].
    rewrite T1, T2, (f_cwd _ _ _ F) in H. set (rp := resolve (w_cwd w0) path) in *. rewrite (f_dir _ _ _ F) in H.
    destruct (is_dir w0 rp) eqn:Dr.
    { cbn [done] in H. injection H as <- <- <-. exists s. auto. }
    assert (Nr : rp <> []) by (intros Z; rewrite Z in Dr; discriminate Dr).
    rewrite (f_path _ _ _ F). destruct rp as [|c rp'] eqn:Erp; [contradiction|]. rewrite <- Erp in *. clear Erp.
    destruct (w_tree (m_world m) rp) as [[|i]|] eqn:T; cbn [done] in H; injection H as <- <- <-.
    + exfalso. rewrite <- (f_dir _ _ _ F) in Dr. unfold is_dir in Dr. destruct rp; [contradiction|]. now rewrite T in Dr.
    + exists (with_name s (Path rp) None). split; [auto|]. eapply rel_world; [exact R| |cbn; lia|reflexivity| |reflexivity].
      * eapply files_unlink; eauto. now rewrite (f_dir _ _ _ F).
      * intros k. reflexivity.
    + exists s. split; [|exact Same]. split; [reflexivity|]. destruct (missing_either (m_world m) rp) as [-> | ->]; auto.
  - (* CreateKey *)
    unfold CreateKey, shmget in H. change (key32 key) with (the_key key) in H. destruct (the_key key =? 0) eqn:K0.
    { exact (create_seg_ok _ _ _ _ _ _ _ _ _ _ _ _ R H). }
    rewrite (g_key _ _ G). destruct (m_key m (the_key key)) as [id|] eqn:Ek; cbn [option_map].
    + destruct (m_seg m id) as [d|] eqn:Es; [|exfalso; eapply g_keys; eauto].
      exists (match rep with Opened n => with_handle s (RSeg id) n | _ => s end). rewrite (g_seg _ _ G), Es.
      destruct ((size <? 0)%Z || (Z.of_N (lenN d) <? size)%Z) eqn:B.
      * cbn [opened] in H. injection H as <- <- <-. split; [exists d; rewrite B; auto|exact R].
      * rewrite Es in H. cbv zeta in H.
        pose proof (g_pos _ _ G _ _ Es) as L0.
        destruct (attach_ok w0 max m hs s p a id d (if (size =? 0)%Z then lenN d else Z.to_N size) m' hs' rep R Es) as (s' & T & R'); [destruct (size =? 0)%Z eqn:Z0; lia|destruct (size =? 0)%Z eqn:Z0; lia|exact H|].
        destruct T as [[-> ->]|[-> ->]]; (split; [exists d; rewrite B; split; [reflexivity|]|exact R']); [left|right]; auto.
    + destruct (size =? 0)%Z eqn:Z0; cbn [negb] in H.
      * cbn [opened] in H. injection H as <- <- <-. exists s. auto.
      * apply (create_seg_ok _ _ _ _ _ p a (Some (the_key key)) size _ _ _ R). rewrite Z0. exact H.
  - (* OpenKey *)
    unfold OpenKey, CreateKey, shmget in H. change (key32 key) with (the_key key) in H. destruct (the_key key =? 0) eqn:K0.
    { cbn [new_seg Z.ltb Z.compare orb opened] in H. injection H as <- <- <-. exists s. auto. }
    rewrite (g_key _ _ G). destruct (m_key m (the_key key)) as [id|] eqn:Ek; cbn [option_map].
    + destruct (m_seg m id) as [d|] eqn:Es; [|exfalso; eapply g_keys; eauto].
      assert (B : ((0 <? 0)%Z || (Z.of_N (lenN d) <? 0)%Z) = false) by lia. rewrite B, Es in H. cbv zeta in H. cbn [Z.eqb] in H.
      destruct (attach_ok w0 max m hs s p a id d (lenN d) m' hs' rep R Es) as (s' & T & R'); [eapply g_pos; eauto|lia|exact H|].
      exists s'. split; [|exact R']. exists d. split; [now rewrite (g_seg _ _ G)|exact T].
    + cbn [Z.eqb negb opened] in H. injection H as <- <- <-. exists s. auto.
  - (* RemoveKey *)
    unfold RemoveKey, shmget in H. change (key32 key) with (the_key key) in H. destruct (the_key key =? 0) eqn:K0.
    { cbn [new_seg Z.ltb Z.compare orb done] in H. injection H as <- <- <-. exists s. auto. }
    rewrite (g_key _ _ G). destruct (m_key m (the_key key)) as [id|] eqn:Ek; cbn [option_map].
    + destruct (m_seg m id) as [d|] eqn:Es; [|exfalso; eapply g_keys; eauto].
      assert (B : ((0 <? 0)%Z || (Z.of_N (lenN d) <? 0)%Z) = false) by lia. rewrite B in H. cbn [done] in H. injection H as <- <- <-.
      eexists. split; [split; reflexivity|]. destruct R as [F' G' D' Mx]. constructor; auto.
      * eapply files_ext; [exact F| |reflexivity]. intros rp. reflexivity.
      * destruct G. constructor; auto.
        -- intros k. cbn [with_name s_name set_key m_key]. destruct name_eq_dec as [Z|Z].
           ++ injection Z as ->. now rewrite N.eqb_refl.
           ++ rewrite (proj2 (N.eqb_neq _ _)) by congruence. apply g_key0.
        -- intros k j. cbn [set_key m_key m_seg]. destruct (k =? the_key key); [discriminate|apply g_keys0].
      * cbn [with_name s_open]. eapply hands_grows; [|exact D]. constructor; auto; [cbn; lia|eauto].
    + cbn [done] in H. injection H as <- <- <-. exists s. auto.
  - (* Close *)
    cbn [uses_closed] in Uc. destruct (nth_error hs h) as [hd|] eqn:Eh.
    + assert (Lh : (h < length (s_open s))%nat) by (rewrite <- (d_len _ _ _ D); apply nth_error_Some; congruence).
      destruct (nth_error (s_open s) h) as [[[r len]|]|] eqn:Oh; [|contradiction|apply nth_error_None in Oh; lia].
      destruct (close_rel _ _ _ _ _ _ _ _ _ R Eh Oh) as (m1 & E & R1). rewrite E in H. cbn [done] in H. injection H as <- <- <-.
      eexists. split; [split; reflexivity|exact R1].
    + injection H as <- <- <-. apply nth_error_None in Eh. rewrite (d_len _ _ _ D) in Eh. apply nth_error_None in Eh. rewrite Eh. exists s. auto.
  - (* reading a byte *)
    cbn [uses_closed] in Uc. destruct (nth_error hs h) as [hd|] eqn:Eh.
    + assert (Lh : (h < length (s_open s))%nat) by (rewrite <- (d_len _ _ _ D); apply nth_error_Some; congruence).
      destruct (nth_error (s_open s) h) as [[[r len]|]|] eqn:Oh; [|contradiction|apply nth_error_None in Oh; lia].
      pose proof (d_live _ _ _ D _ _ _ _ Eh Oh) as V. injection H as <- <- <-. exists s. split; [|exact R].
      exists (content m r). split; [eapply content_live; eauto|]. split; [reflexivity|]. unfold get, byte_of. rewrite (locate_live _ _ _ _ _ V).
      destruct (len <=? i); [reflexivity|]. destruct (i <? lenN (content m r)); [reflexivity|]. now destruct (i <? _).
    + injection H as <- <- <-. apply nth_error_None in Eh. rewrite (d_len _ _ _ D) in Eh. apply nth_error_None in Eh. rewrite Eh. exists s. auto.
  - (* writing a byte *)
    cbn [uses_closed] in Uc. destruct (nth_error hs h) as [hd|] eqn:Eh.
    + assert (Lh : (h < length (s_open s))%nat) by (rewrite <- (d_len _ _ _ D); apply nth_error_Some; congruence).
      destruct (nth_error (s_open s) h) as [[[r len]|]|] eqn:Oh; [|contradiction|apply nth_error_None in Oh; lia].
      pose proof (d_live _ _ _ D _ _ _ _ Eh Oh) as V. unfold put in H. rewrite (locate_live _ _ _ _ _ V) in H. unfold byte_of.
      pose proof (content_live _ _ _ _ _ _ _ _ R V) as Hd.
      destruct (len <=? i) eqn:Q1.
      { injection H as <- <- <-. eexists. split; [|exact R]. exists (content m r). auto. }
      destruct (i <? lenN (content m r)) eqn:Q2.
      { injection H as <- <- <-. eexists. split; [exists (content m r); rewrite Q2; auto|].
        apply put_rel with (hd := hd) (len := len); auto. lia. }
      destruct (i <? _) eqn:Q3 in H; injection H as <- <- <-; (eexists; split; [exists (content m r); rewrite Q2, Q3; auto|exact R]).
    + injection H as <- <- <-. apply nth_error_None in Eh. rewrite (d_len _ _ _ D) in Eh. apply nth_error_None in Eh. rewrite Eh. exists s. auto.
Qed.

Lemma rel_boot w max : sane w -> rel w max (boot w max) [] (at_boot w).
Proof.
  intros S. constructor.
  - constructor; auto. intros [|c rp]; reflexivity.
  - constructor; auto; cbn; discriminate.
  - constructor; auto.
    + intros h hd r len E. now destruct h.
    + intros h h' hd hd' r len r' len' _ E. now destruct h.
  - reflexivity.
Qed.
Lemma rel_files w0 max m hs s : rel w0 max m hs s -> files_are (m_world m) s.
Proof.
  intros R rp. pose proof (R_f _ _ _ _ _ R) as F. rewrite (f_path _ _ _ F). destruct rp as [|c rp]; [cbn; auto|].
  unfold look. destruct (w_tree (m_world m) (c :: rp)) as [[|i]|] eqn:T; auto.
  exists (w_data (m_world m) i). split; [|reflexivity]. rewrite (f_file _ _ _ F).
  assert (Hi : i < w_nexti (m_world m)) by (eapply sane_ino; [apply F|exact T]). now rewrite (proj2 (N.ltb_lt _ _) Hi).
Qed.

Definition uses_closed_dec s o : {uses_closed s o} + {~ uses_closed s o}.
Proof.
  destruct o; cbn [uses_closed]; try (right; intros E; exact E);
    (destruct (nth_error (s_open s) h) as [[x|]|]; [right; discriminate|left; reflexivity|right; discriminate]).
Defined.

Lemma history_ok w0 max os : Forall path_proper os -> forall m hs s m' hs' rs,
  rel w0 max m hs s -> perform_all os m hs = (m', hs', rs) ->
  exists os1 os2 rs1 rs2 m1 hs1 s1, os = os1 ++ os2 /\ rs = rs1 ++ rs2 /\
    perform_all os1 m hs = (m1, hs1, rs1) /\ perform_all os2 m1 hs1 = (m', hs', rs2) /\
    meets_all (w_cwd w0) (is_dir w0) max os1 s s1 rs1 /\ rel w0 max m1 hs1 s1 /\
    match os2 with [] => True | o :: _ => uses_closed s1 o end.
Proof.
  induction os as [|o os IH]; intros PP m hs s m' hs' rs R E; cbn [perform_all] in E.
  - injection E as <- <- <-. exists [], [], [], [], m, hs, s. repeat apply conj; try reflexivity; try exact I; [constructor|exact R].
  - inversion PP; subst. destruct (uses_closed_dec s o) as [U|U].
    + exists [], (o :: os), [], rs, m, hs, s. repeat apply conj; try reflexivity; [exact E|constructor|exact R|exact U].
    + destruct (perform o m hs) as [[ma hsa] r] eqn:Eo. destruct (perform_all os ma hsa) as [[mb hsb] rsb] eqn:Es. injection E as <- <- <-.
      destruct (perform_ok _ _ _ _ _ _ _ _ _ R H1 U Eo) as (s' & M & R').
      destruct (IH H2 _ _ _ _ _ _ R' Es) as (os1 & os2 & rs1 & rs2 & m1 & hs1 & s1 & -> & -> & P1 & P2 & MM & R1 & U1).
      exists (o :: os1), os2, (r :: rs1), rs2, m1, hs1, s1. repeat apply conj; try reflexivity; auto.
      * cbn [perform_all]. now rewrite Eo, P1.
      * econstructor; eauto.
Qed.

(** after closing *)
Lemma closed_faults w0 max m hs s h hd r len m' : rel w0 max m hs s -> nth_error hs h = Some hd -> nth_error (s_open s) h = Some (Some (r, len)) ->
  CloseMem hd m = (m', MOk tt) ->
  (forall i, i < len -> locate hd i m' = Faults) /\ exists m'', CloseMem hd m' = (m'', MErr (MSys EINVAL)).
Proof.
  intros R Eh Oh. pose proof (d_live _ _ _ (R_d _ _ _ _ _ R) _ _ _ _ Eh Oh) as V. pose proof V as (A & B & C & K).
  pose proof (extent_pos _ _ _ _ V) as X.
  assert (PI : forall i, i < len -> in_range (h_addr hd) (extent m r len) (h_addr hd + i / page_size) = true).
  { intros i L. apply in_rangeP. split; [apply N.le_add_r|]. pose proof (page_in len i L) as Q. enough (Y : i / page_size < extent m r len) by (now apply N.add_lt_mono_l).
    destruct r as [j|id]; cbn [extent]; [exact Q|]. destruct K as (_ & d & -> & Ld). pose proof (pages_mono _ _ Ld). eapply N.lt_le_trans; eauto. }
  assert (LF : (forall x, in_range (h_addr hd) (extent m r len) x = true -> m_page m' (h_proc hd) x = None) -> forall i, i < len -> locate hd i m' = Faults).
  { intros H i L. unfold locate. rewrite A. destruct (N.leb_spec len i); [lia|]. now rewrite H by (apply PI; exact L). }
  unfold CloseMem. destruct r as [i|id].
  - destruct K as (K1 & (fd & Hfd) & K3). rewrite Hfd. unfold Munmap_slice at 1. rewrite A, (proj2 (N.eqb_neq len 0)) by lia. cbn [orb].
    assert (E : existsb (same_slice (h_proc hd, h_addr hd, len)) (m_active m) = true).
    { apply existsb_exists. eexists. split; [exact K3|]. now apply same_slice_spec. }
    rewrite E. cbn [negb]. intros Q0. apply (f_equal fst) in Q0. cbn [fst] in Q0. subst m'. split.
    + apply LF. intros x Hx. cbn [set_world m_page unmap_range set_page set_active] in *. cbn [extent] in Hx. now rewrite N.eqb_refl, Hx.
    + unfold Munmap_slice. rewrite (proj2 (N.eqb_neq len 0)) by lia. cbn [orb set_world m_active unmap_range set_page set_active].
      assert (E' : existsb (same_slice (h_proc hd, h_addr hd, len)) (filter (fun x => negb (same_slice (h_proc hd, h_addr hd, len) x)) (m_active m)) = false).
      { apply not_true_is_false. intros Z. apply existsb_exists in Z as (y & I1 & I2). apply filter_In in I1 as [_ I1]. rewrite I2 in I1. discriminate I1. }
      rewrite E'. cbn [negb]. eexists. reflexivity.
  - destruct K as (Hfd & d & Ed & Ld). rewrite Hfd. unfold shmdt at 1. rewrite (C _ X), N.sub_diag, Ed. intros Q0. apply (f_equal fst) in Q0. cbn [fst] in Q0. subst m'.
    assert (PN : forall x, in_range (h_addr hd) (extent m (RSeg id) len) x = true -> m_page (set_page m (fun q x => if (q =? h_proc hd) && in_range (h_addr hd) (pages (lenN d)) x then
           match m_page m q x with
           | Some (RSeg j, k) => if (j =? id) && (k =? x - h_addr hd) then None else m_page m q x
           | y => y
           end
         else m_page m q x)) (h_proc hd) x = None).
    { intros x Hx. cbn [set_page m_page]. pose proof (C _ Hx) as Hp. cbn [extent] in Hx. rewrite Ed in Hx. now rewrite N.eqb_refl, Hx, Hp, !N.eqb_refl. }
    split.
    + apply LF. exact PN.
    + unfold shmdt. rewrite PN by exact X. eauto.
Qed.

Lemma nth_upd_else {A} (x : A) l n m : n <> m -> nth_error (upd_nth n x l) m = nth_error l m.
Proof. revert n m. induction l as [|y l IH]; intros [|n] [|m] H; cbn; auto; congruence. Qed.
Lemma meets_closed cwd isdir max o s s' r h : meets cwd isdir max o s s' r -> nth_error (s_open s') h = Some None ->
  nth_error (s_open s) h = Some None \/ o = OClose h.
Proof.
  assert (Same : forall x, x = s -> nth_error (s_open x) h = Some None -> nth_error (s_open s) h = Some None \/ o = OClose h) by (intros x ->; auto).
  assert (Tk : forall s0 r0 len x rep, s_open s0 = s_open s -> taken s0 r0 len x rep -> nth_error (s_open x) h = Some None -> nth_error (s_open s) h = Some None \/ o = OClose h).
  { intros s0 r0 len x rep E [[_ ->]|[_ ->]] H; [|rewrite E in H; auto]. cbn [with_handle s_open] in H. left. rewrite <- E.
    destruct (Nat.lt_ge_cases h (length (s_open s0))) as [L|L]; [now rewrite nth_error_app1 in H|].
    rewrite nth_error_app2 in H by exact L. destruct (h - length (s_open s0))%nat as [|[|?]]; discriminate H. }
  assert (Fc : forall s0 r0 size x rep, s_open s0 = s_open s -> file_created s0 r0 size x rep -> nth_error (s_open x) h = Some None -> nth_error (s_open s) h = Some None \/ o = OClose h).
  { intros s0 r0 size x rep E Q H. unfold file_created in Q. destruct (size <=? 0)%Z.
    - destruct Q as [-> _]. cbn [with_data s_open] in H. rewrite E in H. auto.
    - eapply Tk; [|exact Q|exact H]. exact E. }
  assert (Sc : forall k size x rep, seg_created max s k size x rep -> nth_error (s_open x) h = Some None -> nth_error (s_open s) h = Some None \/ o = OClose h).
  { intros k size x rep Q H. unfold seg_created in Q. destruct (_ && _).
    - destruct Q as (r0 & _ & Q). eapply Tk; [|exact Q|exact H]. now destruct k.
    - destruct Q as [-> _]. auto. }
  intros M H. destruct o as [p a path size|p a path|path|p a key size|p a key|key|h'|h' i|h' i b]; cbn [meets] in M; cbv zeta in M.
  - destruct (isdir _); [apply (Same s'); [apply M|exact H]|]. destruct (s_name s _) as [r0|]; [eapply Fc; eauto|].
    destruct (isdir _); [|apply (Same s'); [apply M|exact H]]. destruct M as (r0 & _ & M). eapply Fc; [|exact M|exact H]. reflexivity.
  - destruct (isdir _); [apply (Same s'); [apply M|exact H]|]. destruct (s_name s _) as [r0|]; [|apply (Same s'); [apply M|exact H]].
    destruct (s_data s r0) as [[|b d]|]; try (apply (Same s'); [apply M|exact H]). eapply Tk; eauto.
  - destruct (isdir _); [apply (Same s'); [apply M|exact H]|]. destruct (s_name s _) as [r0|]; [|apply (Same s'); [apply M|exact H]].
    destruct M as [-> _]. auto.
  - destruct (_ =? 0); [eapply Sc; eauto|]. destruct (s_name s _) as [r0|].
    + destruct M as (d & _ & M). destruct (_ || _); [apply (Same s'); [apply M|exact H]|]. eapply Tk; eauto.
    + destruct (_ =? 0)%Z; [apply (Same s'); [apply M|exact H]|]. eapply Sc; eauto.
  - destruct (_ =? 0); [apply (Same s'); [apply M|exact H]|]. destruct (s_name s _) as [r0|]; [|apply (Same s'); [apply M|exact H]].
    destruct M as (d & _ & M). eapply Tk; eauto.
  - destruct (_ =? 0); [apply (Same s'); [apply M|exact H]|]. destruct (s_name s _) as [r0|]; [|apply (Same s'); [apply M|exact H]].
    destruct M as [-> _]. auto.
  - destruct (nth_error (s_open s) h') as [x|] eqn:E; [|apply (Same s'); [apply M|exact H]]. destruct M as [-> _].
    destruct (Nat.eq_dec h' h) as [->|N]; [auto|]. left. cbn [without_handle s_open] in H. rewrite nth_upd_else in H by exact N. exact H.
  - destruct (nth_error (s_open s) h') as [[[r0 len]|]|]; try (apply (Same s'); [apply M|exact H]). destruct M as (d & _ & -> & _). auto.
  - destruct (nth_error (s_open s) h') as [[[r0 len]|]|]; try (apply (Same s'); [apply M|exact H]). destruct M as (d & _ & _ & ->). destruct r; auto.
Qed.
Lemma meets_all_closed cwd isdir max os s s' rs h : meets_all cwd isdir max os s s' rs -> nth_error (s_open s') h = Some None ->
  nth_error (s_open s) h = Some None \/ In (OClose h) os.
Proof.
  induction 1 as [|o os s s1 s2 r rs U M _ IH]; intros H; [auto|]. destruct (IH H) as [E|E]; [|right; right; exact E].
  destruct (meets_closed _ _ _ _ _ _ _ _ M E) as [X|X]; [auto|right; left; exact X].
Qed.
Lemma careful_ok w0 max os m hs rs : sane w0 -> Forall path_proper os -> careful os -> perform_all os (boot w0 max) [] = (m, hs, rs) ->
  exists s, meets_all (w_cwd w0) (is_dir w0) max os (at_boot w0) s rs /\ rel w0 max m hs s.
Proof.
  intros S PP C E. destruct (history_ok w0 max os PP _ _ _ _ _ _ (rel_boot w0 max S) E) as (os1 & os2 & rs1 & rs2 & m1 & hs1 & s1 & -> & -> & P1 & P2 & M & R & U).
  destruct os2 as [|o os2].
  - cbn [perform_all] in P2. injection P2 as <- <- <-. rewrite !app_nil_r. eauto.
  - exfalso. assert (T : exists h, target o = Some h /\ nth_error (s_open s1) h = Some None). { destruct o; cbn [uses_closed target] in *; try contradiction; eauto. }
    destruct T as (h & T1 & T2). destruct (meets_all_closed _ _ _ _ _ _ _ _ M T2) as [X|X].
    + cbn in X. now destruct h.
    + apply in_split in X as (l1 & l2 & ->). apply (C l1 h l2 o os2); [|exact T1]. now rewrite <- app_assoc.
Qed.

(** ** Consequences, for a handle known to be open *)
Lemma perform_get w0 max m hs s h r len i : rel w0 max m hs s -> nth_error (s_open s) h = Some (Some (r, len)) ->
  exists d, s_data s r = Some d /\ perform (OGet h i) m hs = (m, hs, byte_of len i d (ByteIs (nth (N.to_nat i) d x00))).
Proof.
  intros R O. destruct (perform (OGet h i) m hs) as [[m' hs'] rep] eqn:E.
  assert (U : ~ uses_closed s (OGet h i)) by (cbn [uses_closed]; rewrite O; discriminate).
  destruct (perform_ok _ _ (OGet h i) _ _ _ _ _ _ R I U E) as (s' & M & _). cbn [meets] in M. rewrite O in M. destruct M as (d & Hd & _ & ->).
  exists d. split; [exact Hd|]. f_equal. cbn [perform] in E. destruct (nth_error hs h); now injection E as <- <- _.
Qed.
Lemma perform_put w0 max m hs s h r len i b m' hs' rep : rel w0 max m hs s -> nth_error (s_open s) h = Some (Some (r, len)) ->
  perform (OPut h i b) m hs = (m', hs', rep) ->
  exists d, s_data s r = Some d /\ rep = byte_of len i d Done /\ hs' = hs /\
    rel w0 max m' hs (match rep with Done => with_data s r (firstn (N.to_nat i) d ++ b :: skipn (S (N.to_nat i)) d) | _ => s end).
Proof.
  intros R O E. assert (U : ~ uses_closed s (OPut h i b)) by (cbn [uses_closed]; rewrite O; discriminate).
  destruct (perform_ok _ _ (OPut h i b) _ _ _ _ _ _ R I U E) as (s' & M & R'). cbn [meets] in M. rewrite O in M. destruct M as (d & Hd & Hr & Hs).
  assert (hs' = hs). { cbn [perform] in E. destruct (nth_error hs h) as [hd|]; [|now injection E as <- <- <-]. destruct (put hd i b m). now injection E as <- <- <-. }
  subst hs'. exists d. rewrite <- Hs. auto.
Qed.
Lemma nth_put (i j : nat) b (d : bytes) z : (i < length d)%nat ->
  nth j (firstn i d ++ b :: skipn (S i) d) z = if Nat.eq_dec j i then b else nth j d z.
Proof.
  revert i j. induction d as [|x d IH]; intros i j H; cbn [length] in H; [lia|]. destruct i as [|i], j as [|j]; cbn [firstn skipn app nth]; try reflexivity.
  rewrite IH by lia. destruct (Nat.eq_dec j i), (Nat.eq_dec (S j) (S i)); congruence.
Qed.
