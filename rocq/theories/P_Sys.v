(** * Lemmas about the file-system model *)
From Coq Require Import Lia ZifyBool ZifyNat ZifyN.
From Verif Require Import M_Base M_Sys M_FileOps S_World P_Base.
Open Scope N_scope.

Lemma has_nul_false p : has_nul p = false <-> ~ In x00 p.
Proof.
  unfold has_nul. rewrite <- not_true_iff_false, existsb_exists. split; intros H Q; apply H.
  - exists x00. split; auto.
  - destruct Q as (b & I & E). apply byte_eqb_eq in E. now subst.
Qed.

Lemma beqb_spec a b : reflect (a = b) (beqb a b).
Proof. unfold beqb. destruct list_eq_dec; constructor; auto. Qed.

Lemma proper_tests p : proper p -> has_nul p = false /\ beqb p [] = false.
Proof.
  intros [H1 H2]. split; [now apply has_nul_false|]. destruct (beqb_spec p []); auto; contradiction.
Qed.

Lemma is_dir_look w p : is_dir w p = true <-> look w p = Some EDir.
Proof.
  unfold is_dir, look. destruct p; [tauto|].
  destruct (w_tree w _) as [[|i]|]; split; congruence.
Qed.
Lemma is_dir_look_false w p : is_dir w p = false <-> look w p <> Some EDir.
Proof.
  rewrite <- is_dir_look. destruct (is_dir w p); split; try congruence; auto.
Qed.

(** ** Worlds after updates *)

Lemma look_set_fd w fd o p : look (set_fd w fd o) p = look w p.
Proof. reflexivity. Qed.
Lemma look_bump_fd w p : look (bump_fd w) p = look w p.
Proof. reflexivity. Qed.
Lemma look_bump_ino w p : look (bump_ino w) p = look w p.
Proof. reflexivity. Qed.

Lemma sane_set_fd w fd o :
  sane w -> fd < w_nextfd w ->
  (forall q i, o = Some q -> of_ino q = Some i -> i < w_nexti w) ->
  sane (set_fd w fd o).
Proof.
  intros [H1 H2 HT H3 H4] L F. constructor; cbn; auto.
  - intros f Hf. destruct N.eq_dec; [lia|auto].
  - intros f q i E Q. destruct N.eq_dec; [eauto|eauto].
Qed.
Lemma sane_close w fd : sane w -> sane (set_fd w fd None).
Proof.
  intros [H1 H2 HT H3 H4]. constructor; cbn; auto.
  - intros f Hf. destruct N.eq_dec; auto.
  - intros f q i E Q. destruct N.eq_dec; [discriminate|eauto].
Qed.
Lemma sane_new_fd w q :
  sane w -> (forall i, of_ino q = Some i -> i < w_nexti w) ->
  sane (bump_fd (set_fd w (w_nextfd w) (Some q))).
Proof.
  intros [H1 H2 HT H3 H4] F. constructor; cbn; auto.
  - intros f Hf. destruct N.eq_dec; [lia|]. apply H3. lia.
  - intros f q' i E Q. destruct N.eq_dec; [injection E as <-; eauto|eauto].
Qed.
Lemma sane_set_data w i d : sane w -> sane (set_data w i d).
Proof. intros [H1 H2 HT H3 H4]. constructor; cbn; auto. Qed.
Lemma sane_create w rp :
  sane w -> w_tree w rp = None -> rp <> [] -> has_dir w rp ->
  sane (bump_ino (set_data (set_tree w rp (Some (NFile (w_nexti w)))) (w_nexti w) [])).
Proof.
  intros [H1 H2 HT H3 H4] Hn Hnr Hd. constructor; cbn; auto.
  - intros p i. destruct rp_eq_dec; [intros E; injection E as <-; lia|]. intros E. apply H1 in E. lia.
  - intros p q i. destruct (rp_eq_dec p rp) as [Hp|Hp], (rp_eq_dec q rp) as [Hq|Hq]; intros E1 E2.
    + congruence.
    + injection E1 as <-. apply H1 in E2. lia.
    + injection E2 as <-. apply H1 in E1. lia.
    + exact (H2 _ _ _ E1 E2).
  - intros p c H. destruct (rp_eq_dec p rp) as [->|Np].
    + exfalso. destruct (rp_eq_dec (rp ++ [c]) rp) as [E|E].
      * apply (f_equal (@length bytes)) in E. rewrite app_length in E. cbn in E. lia.
      * apply HT in H. destruct H as [->|H]; [|congruence]. now apply Hnr.
    + destruct (rp_eq_dec (p ++ [c]) rp) as [E|E]; [|now apply (HT p c)].
      subst rp. unfold has_dir in Hd. rewrite removelast_last in Hd. unfold look in Hd.
      destruct p as [|x p]; [now left|right]. destruct (w_tree w (x :: p)) as [[|j]|]; congruence.
  - intros fd o i E Q. pose proof (H4 _ _ _ E Q). lia.
Qed.
Lemma sane_unlink w rp i : sane w -> w_tree w rp = Some (NFile i) -> rp <> [] -> sane (set_tree w rp None).
Proof.
  intros [H1 H2 HT H3 H4] F Nr. constructor; cbn; auto.
  - intros p j. destruct rp_eq_dec; [discriminate|]. apply H1.
  - intros p q j. destruct (rp_eq_dec p rp), (rp_eq_dec q rp); try discriminate. apply H2.
  - intros p c H. destruct (rp_eq_dec (p ++ [c]) rp); [congruence|].
    apply HT in H. destruct H as [H|H]; [now left|]. right.
    destruct rp_eq_dec; [congruence|exact H].
Qed.
Lemma sane_tick w : sane w -> sane (bump_tick w).
Proof. intros [H1 H2 HT H3 H4]. constructor; auto. Qed.
Lemma sane_rtick w : sane w -> sane (bump_rtick w).
Proof. intros [H1 H2 HT H3 H4]. constructor; auto. Qed.

(** a regular file's inode *)
Lemma look_file w rp d :
  look w rp = Some (EFile d) -> exists i, w_tree w rp = Some (NFile i) /\ w_data w i = d /\ rp <> [].
Proof.
  unfold look. destruct rp as [|c rp]; [discriminate|].
  destruct (w_tree w _) as [[|i]|]; try discriminate. intros [= <-]. exists i. repeat split. discriminate.
Qed.
Lemma look_none w rp : look w rp = None -> w_tree w rp = None /\ rp <> [].
Proof.
  unfold look. destruct rp as [|c rp]; [discriminate|].
  destruct (w_tree w _) as [[|i]|]; try discriminate. intros _. split; [reflexivity|discriminate].
Qed.

Lemma look_set_data w rp i d : w_tree w rp = Some (NFile i) -> rp <> [] ->
  look (set_data w i d) rp = Some (EFile d).
Proof.
  intros E N. unfold look. cbn. destruct rp; [contradiction|]. rewrite E.
  destruct N.eq_dec; [reflexivity|contradiction].
Qed.
Lemma look_set_data_other w rp i d q : sane w -> w_tree w rp = Some (NFile i) -> q <> rp ->
  look (set_data w i d) q = look w q.
Proof.
  intros S E N. unfold look. cbn. destruct q as [|c q]; [reflexivity|].
  destruct (w_tree w (c :: q)) as [[|j]|] eqn:F; auto.
  destruct N.eq_dec; auto. subst j. exfalso. apply N. eapply sane_inj; eauto.
Qed.

(** ** open, write, close: the common shape of every modifying call *)

Definition open_write (fl : oflags) (path data : bytes) : prog (outcome unit) :=
  Call (Open path fl) (fun r =>
  match r with
  | RErr e => Ret (Err (ESys e))
  | ROk fd =>
      Call (Write fd data) (fun r =>
      Call (Close fd) (fun _ =>
      match r with
      | RErr e => Ret (Err (ESys e))
      | ROk _ => Ret (Ok tt)
      end))
  end).

(** what it does to the content *)
Definition written (fl : oflags) (data old : bytes) : bytes :=
  let base := if o_trunc fl then [] else old in
  write_at (if o_append fl then lenN base else 0) data base.

Lemma write_at_end d old : write_at (lenN old) d old = old ++ d.
Proof.
  unfold write_at. destruct d as [|b d]; [now rewrite app_nil_r|].
  rewrite N.sub_diag. cbn [zeros N.to_nat repeat]. rewrite app_nil_r.
  unfold lenN. rewrite Nat2N.id, firstn_all. rewrite skipn_all2 by lia. now rewrite app_nil_r.
Qed.
Lemma write_at_0 d old : write_at 0 d old = d ++ skipn (length d) old.
Proof. unfold write_at. destruct d; reflexivity. Qed.

(** opening an existing regular file *)
Lemma open_existing w p fl rp d :
  names w p rp -> look w rp = Some (EFile d) -> o_creat fl && o_excl fl = false ->
  exists i, w_tree w rp = Some (NFile i) /\ w_data w i = d /\
    exec (Open p fl) w =
      (bump_fd (set_fd (if o_trunc fl then set_data w i [] else w) (w_nextfd w)
         (Some (OFile (Some i) 0 (o_append fl) (o_rd fl) (o_wr fl)))), ROk (w_nextfd w)).
Proof.
  intros [P R] L X. destruct (look_file _ _ _ L) as (i & T & D & N). exists i. repeat split; auto.
  cbn [exec]. unfold sys_open. destruct (proper_tests p P) as [-> ->]. rewrite R.
  assert (is_dir w rp = false) as ->. { apply is_dir_look_false. rewrite L. discriminate. }
  rewrite T, X. reflexivity.
Qed.

Lemma open_missing w p fl rp :
  names w p rp -> look w rp = None -> (o_creat fl = false \/ ~ has_dir w rp) ->
  exec (Open p fl) w = (w, RErr (missing w rp)).
Proof.
  intros [P R] L C. destruct (look_none _ _ L) as (T & N).
  cbn [exec]. unfold sys_open. destruct (proper_tests p P) as [-> ->]. rewrite R.
  assert (is_dir w rp = false) as ->. { apply is_dir_look_false. rewrite L. discriminate. }
  rewrite T. destruct (o_creat fl); [|reflexivity].
  destruct C as [C|C]; [discriminate|].
  assert (is_dir w (parent rp) = false) as ->; [|reflexivity].
  apply is_dir_look_false. exact C.
Qed.

Lemma open_create w p fl rp :
  names w p rp -> look w rp = None -> o_creat fl = true -> has_dir w rp ->
  exec (Open p fl) w =
    (bump_fd (set_fd (bump_ino (set_data (set_tree w rp (Some (NFile (w_nexti w)))) (w_nexti w) []))
       (w_nextfd w) (Some (OFile (Some (w_nexti w)) 0 (o_append fl) (o_rd fl) (o_wr fl)))), ROk (w_nextfd w)).
Proof.
  intros [P R] L C D. destruct (look_none _ _ L) as (T & N).
  cbn [exec]. unfold sys_open. destruct (proper_tests p P) as [-> ->]. rewrite R.
  assert (is_dir w rp = false) as ->. { apply is_dir_look_false. rewrite L. discriminate. }
  rewrite T, C.
  assert (is_dir w (parent rp) = true) as ->; [|reflexivity].
  apply is_dir_look. exact D.
Qed.

Lemma open_dir w p fl rp :
  names w p rp -> look w rp = Some EDir -> o_wr fl = true -> o_excl fl = false ->
  exec (Open p fl) w = (w, RErr EISDIR).
Proof.
  intros [P R] L W X. cbn [exec]. unfold sys_open. destruct (proper_tests p P) as [-> ->]. rewrite R.
  assert (is_dir w rp = true) as ->. { now apply is_dir_look. }
  rewrite X, andb_false_r, W. reflexivity.
Qed.

Lemma open_dir_read w p rp :
  names w p rp -> look w rp = Some EDir ->
  exec (Open p O_RDONLY) w =
    (bump_fd (set_fd w (w_nextfd w) (Some (OFile None 0 false true false))), ROk (w_nextfd w)).
Proof.
  intros [P R] L. cbn [exec]. unfold sys_open. destruct (proper_tests p P) as [-> ->]. rewrite R.
  assert (is_dir w rp = true) as ->. { now apply is_dir_look. }
  reflexivity.
Qed.

(** an improper path is always refused *)
Definition improper_errno (p : bytes) : errno := if has_nul p then EINVAL else ENOENT.
Lemma open_improper w p fl : ~ proper p -> exec (Open p fl) w = (w, RErr (improper_errno p)).
Proof.
  intros N. cbn [exec]. unfold sys_open, improper_errno. destruct (has_nul p) eqn:E; [reflexivity|].
  destruct (beqb_spec p []) as [->|Q]; [reflexivity|]. exfalso. apply N. split; [exact Q|].
  now apply has_nul_false.
Qed.

(** after a write through a descriptor on inode [i] *)
Lemma exec_write w fd o i d :
  w_fds w fd = Some o -> of_ino o = Some i -> of_wr o = true ->
  exec (Write fd d) w =
    (set_fd (set_data w i (write_at (if of_append o then lenN (w_data w i) else of_pos o) d (w_data w i))) fd
       (Some (OFile (Some i) ((if of_append o then lenN (w_data w i) else of_pos o) + lenN d) (of_append o) (of_rd o) (of_wr o))),
     ROk (lenN d)).
Proof. intros F I W. cbn [exec]. unfold sys_write. rewrite F, I, W. reflexivity. Qed.

Lemma open_write_file fl p data w rp d :
  o_wr fl = true -> o_excl fl = false -> sane w -> names w p rp -> look w rp = Some (EFile d) ->
  exists w', run (open_write fl p data) w = (w', Ok tt) /\ sane w' /\ same_but rp w w' /\
    look w' rp = Some (EFile (written fl data d)).
Proof.
  intros W X S N L.
  destruct (open_existing w p fl rp d N L) as (i & T & D & E).
  { rewrite X. apply andb_false_r. }
  pose proof (look_file _ _ _ L) as (_ & _ & _ & Nn).
  unfold open_write. cbn [run]. rewrite E. cbn [run].
  pose (w0 := if o_trunc fl then set_data w i [] else w).
  assert (S0 : sane w0) by (unfold w0; destruct (o_trunc fl); auto using sane_set_data).
  assert (T0 : w_tree w0 rp = Some (NFile i)) by (unfold w0; destruct (o_trunc fl); exact T).
  assert (I0 : i < w_nexti w) by (eapply sane_ino; eauto).
  assert (F0 : w_fds w0 = w_fds w /\ w_nextfd w0 = w_nextfd w /\ w_nexti w0 = w_nexti w /\ w_cwd w0 = w_cwd w)
    by (unfold w0; destruct (o_trunc fl); auto).
  destruct F0 as (F1 & F2 & F3 & F4).
  fold w0.
  set (o := OFile (Some i) 0 (o_append fl) (o_rd fl) (o_wr fl)).
  set (w1 := bump_fd (set_fd w0 (w_nextfd w) (Some o))).
  assert (S1 : sane w1).
  { unfold w1. rewrite <- F2. apply sane_new_fd; auto. cbn. intros j [= <-]. now rewrite F3. }
  assert (G : w_fds w1 (w_nextfd w) = Some o). { cbn. destruct N.eq_dec; congruence. }
  rewrite (exec_write w1 (w_nextfd w) o i data G eq_refl W).
  cbn [run exec].
  set (dd := write_at _ _ _).
  eexists. split; [reflexivity|].
  assert (DD : dd = written fl data d).
  { unfold dd, written, o. cbn [of_append of_pos]. unfold w1. cbn [w_data bump_fd set_fd].
    assert (w_data w0 i = if o_trunc fl then [] else d) as ->.
    { unfold w0. destruct (o_trunc fl); cbn; [|exact D]. destruct N.eq_dec; congruence. }
    reflexivity. }
  split; [|split; [split; [|split]|]].
  - apply sane_close. apply sane_set_fd; [now apply sane_set_data|..].
    + cbn. rewrite F2. lia.
    + intros q j [= <-] [= <-]. cbn. rewrite F3. exact I0.
  - cbn. exact F4.
  - intros q Hq. rewrite !look_set_fd.
    rewrite look_set_data_other with (rp := rp); auto.
    unfold w1. rewrite look_bump_fd, look_set_fd. unfold w0.
    destruct (o_trunc fl); [|reflexivity]. now apply look_set_data_other with (rp := rp).
  - intros fd. cbn. rewrite F1. destruct (N.eq_dec fd (w_nextfd w)) as [->|Q].
    + symmetry. apply S. lia.
    + reflexivity.
  - rewrite !look_set_fd. rewrite DD. now apply look_set_data.
Qed.

Lemma look_create_other w rp q :
  sane w -> q <> rp ->
  look (bump_ino (set_data (set_tree w rp (Some (NFile (w_nexti w)))) (w_nexti w) [])) q = look w q.
Proof.
  intros S Hq. unfold look. cbn. destruct q as [|c q]; [reflexivity|].
  destruct rp_eq_dec; [contradiction|].
  destruct (w_tree w (c :: q)) as [[|j]|] eqn:F; auto.
  destruct N.eq_dec; auto. subst j. apply (sane_ino w S) in F. lia.
Qed.

Lemma open_write_create fl p data w rp :
  o_wr fl = true -> o_creat fl = true -> sane w -> names w p rp -> look w rp = None -> has_dir w rp ->
  exists w', run (open_write fl p data) w = (w', Ok tt) /\ sane w' /\ same_but rp w w' /\
    look w' rp = Some (EFile (written fl data [])).
Proof.
  intros W C S N L H.
  pose proof (look_none _ _ L) as (T & Nn).
  unfold open_write. cbn [run]. rewrite (open_create w p fl rp N L C H). cbn [run].
  set (w0 := bump_ino _).
  assert (S0 : sane w0) by (now apply sane_create).
  assert (T0 : w_tree w0 rp = Some (NFile (w_nexti w))).
  { cbn. destruct rp_eq_dec; congruence. }
  set (o := OFile (Some (w_nexti w)) 0 (o_append fl) (o_rd fl) (o_wr fl)).
  set (w1 := bump_fd (set_fd w0 (w_nextfd w) (Some o))).
  assert (S1 : sane w1).
  { unfold w1. change (w_nextfd w) with (w_nextfd w0). apply sane_new_fd; auto. cbn. intros j [= <-]. lia. }
  assert (G : w_fds w1 (w_nextfd w) = Some o). { cbn. destruct N.eq_dec; congruence. }
  rewrite (exec_write w1 (w_nextfd w) o (w_nexti w) data G eq_refl W).
  cbn [run exec].
  set (dd := write_at _ _ _).
  eexists. split; [reflexivity|].
  assert (DD : dd = written fl data []).
  { unfold dd, written, o. cbn [of_append of_pos]. unfold w1, w0.
    cbn [w_data bump_fd set_fd bump_ino set_data]. destruct N.eq_dec; [|congruence].
    destruct (o_trunc fl); reflexivity. }
  split; [|split; [split; [|split]|]].
  - apply sane_close. apply sane_set_fd; [now apply sane_set_data|..].
    + cbn. lia.
    + intros q j [= <-] [= <-]. cbn. lia.
  - reflexivity.
  - intros q Hq. rewrite !look_set_fd.
    rewrite look_set_data_other with (rp := rp); auto.
    unfold w1. rewrite look_bump_fd, look_set_fd. now apply look_create_other.
  - intros fd. cbn. destruct (N.eq_dec fd (w_nextfd w)) as [->|Q].
    + symmetry. apply S. lia.
    + reflexivity.
  - rewrite !look_set_fd. rewrite DD. now apply look_set_data.
Qed.

Lemma open_write_missing fl p data w rp :
  names w p rp -> look w rp = None -> (o_creat fl = false \/ ~ has_dir w rp) ->
  run (open_write fl p data) w = (w, Err (ESys (missing w rp))).
Proof. intros N L C. unfold open_write. cbn [run]. rewrite (open_missing w p fl rp N L C). reflexivity. Qed.
Lemma open_write_dir fl p data w rp :
  names w p rp -> look w rp = Some EDir -> o_wr fl = true -> o_excl fl = false ->
  run (open_write fl p data) w = (w, Err (ESys EISDIR)).
Proof. intros N L W X. unfold open_write. cbn [run]. rewrite (open_dir w p fl rp N L W X). reflexivity. Qed.
Lemma open_write_improper fl p data w :
  ~ proper p -> run (open_write fl p data) w = (w, Err (ESys (improper_errno p))).
Proof. intros N. unfold open_write. cbn [run]. rewrite (open_improper w p fl N). reflexivity. Qed.

(** the modifying calls have this shape *)
Lemma append_record_shape cd p f :
  AppendFileHeaderFileRecord cd p f = open_write O_APPEND_CREATE_WRONLY p (M_File.MarshalToByte cd f).
Proof. reflexivity. Qed.
Lemma append_board_shape cd p b :
  AppendBoardHeaderFileRecord cd p b = open_write O_APPEND_CREATE_WRONLY p (M_Board.BoardHeader_MarshalBinary cd b).
Proof. reflexivity. Qed.
Lemma write_article_shape p c : WriteBoardArticleFile p c = open_write O_WRONLY_CREATE p c.
Proof. reflexivity. Qed.
Lemma append_article_shape p c : AppendBoardArticleFile p c = open_write O_APPEND_WRONLY p c.
Proof. reflexivity. Qed.
Lemma write_draft_shape p c : WriteUserDraft p c = open_write O_WRONLY_CREATE_TRUNC p c.
Proof. reflexivity. Qed.

(** ** Reading *)

Lemma exec_read w fd o i n :
  w_fds w fd = Some o -> of_ino o = Some i -> of_rd o = true ->
  exec (Read fd n) w =
    (set_fd w fd (Some (OFile (Some i) (of_pos o + lenN (sub (of_pos o) n (w_data w i))) (of_append o) (of_rd o) (of_wr o))),
     ROk (sub (of_pos o) n (w_data w i))).
Proof. intros F I R. cbn [exec]. unfold sys_read. rewrite F, I, R. reflexivity. Qed.

Lemma run_bind {A B} (p : prog A) (k : A -> prog B) w :
  run (bind p k) w = let '(w', a) := run p w in run (k a) w'.
Proof.
  revert w. induction p as [a|R c f IH]; intros w; cbn; [reflexivity|].
  destruct (exec c w) as [w' r]. apply IH.
Qed.
Lemma run_pbind {A B} (p : prog (outcome A)) (k : A -> prog (outcome B)) w :
  run (pbind p k) w =
  let '(w', o) := run p w in
  match o with Ok a => run (k a) w' | Err e => (w', Err e) | Panic => (w', Panic) | Diverge => (w', Diverge) end.
Proof.
  unfold pbind. rewrite run_bind. destruct (run p w) as [w' [a|e| |]]; reflexivity.
Qed.

(** Two worlds that agree except on the descriptor table. *)
Definition same_store (w w' : world) : Prop :=
  w_cwd w' = w_cwd w /\ w_tree w' = w_tree w /\ w_data w' = w_data w /\ w_nexti w' = w_nexti w
  /\ w_clock w' = w_clock w /\ w_rand w' = w_rand w /\ w_tick w' = w_tick w /\ w_rtick w' = w_rtick w.
Lemma same_store_look w w' q : same_store w w' -> look w' q = look w q.
Proof. intros (_ & T & D & _). unfold look. now rewrite T, D. Qed.

(** in a sane world, a missing file in an existing directory is ENOENT *)
Lemma sane_ancestor w : sane w -> forall p q, q <> [] -> w_tree w (q ++ p) <> None -> p <> [] -> w_tree w q = Some NDir.
Proof.
  intros S. induction p as [|c p IH] using rev_ind; intros q Nq H Np; [contradiction|].
  rewrite app_assoc in H. apply (sane_tree w S) in H. destruct H as [H|H].
  - apply app_eq_nil in H. tauto.
  - destruct p as [|c' p]; [now rewrite app_nil_r in H|].
    apply IH; auto; [congruence|discriminate].
Qed.
Lemma missing_enoent w rp : sane w -> has_dir w rp -> missing w rp = ENOENT.
Proof.
  intros S H. unfold missing.
  assert (existsb (fun a => is_file (w_tree w a)) (ancestors rp) = false) as ->; [|reflexivity].
  apply not_true_iff_false. rewrite existsb_exists. intros (a & I & F).
  unfold ancestors in I. apply in_map_iff in I. destruct I as (k & <- & I). apply in_seq in I.
  unfold has_dir, look in H.
  assert (L : (2 <= length rp)%nat) by lia.
  destruct (exists_last (l := rp)) as (p & c & ->); [destruct rp; cbn in L; [lia|discriminate]|].
  rewrite removelast_last in H. rewrite app_length in L, I. cbn in L, I.
  rewrite firstn_app in F. replace (k - length p)%nat with 0%nat in F by lia. cbn in F. rewrite app_nil_r in F.
  destruct p as [|x p]; [cbn in L; lia|].
  destruct (w_tree w (x :: p)) as [[|j]|] eqn:E; try discriminate.
  assert (w_tree w (firstn k (x :: p)) = Some NDir) as G.
  { destruct (Nat.eq_dec k (length (x :: p))) as [->|Nk]; [now rewrite firstn_all|].
    apply sane_ancestor with (p := skipn k (x :: p)); auto.
    - destruct k; [lia|discriminate].
    - rewrite firstn_skipn. congruence.
    - intros Q. apply (f_equal (@length bytes)) in Q. rewrite skipn_length in Q. cbn [length] in Q, I, Nk. lia. }
  rewrite G in F. discriminate.
Qed.
