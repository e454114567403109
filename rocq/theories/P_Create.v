(** * Creating articles: uniqueness of names under every schedule *)
From Coq Require Import Lia ZifyBool ZifyNat ZifyN DecimalString DecimalN Permutation.
From Verif Require Import M_Base M_Sys M_Path M_File M_Board M_FileOps M_DB.
From Verif Require Import S_World S_Path S_Store S_Digits S_Create.
From Verif Require Import P_Base P_Digits P_Sys P_Path P_FileOps P_BoardList P_Store P_Pool.
Open Scope N_scope.

(** ** Names *)
Definition digit_or_minus (b : byte) : Prop := b = x2d \/ In b (str "0123456789").
Lemma uint_digits u : Forall digit_or_minus (str (NilEmpty.string_of_uint u)).
Proof. induction u; cbn; constructor; auto; right; cbn; tauto. Qed.
Lemma fmt_d_chars t : Forall digit_or_minus (fmt_d t).
Proof. destruct t; cbn [fmt_d]; try apply uint_digits. constructor; [now left|apply uint_digits]. Qed.
Lemma digit_not b : digit_or_minus b -> b <> x2f /\ b <> x00 /\ b <> x2e.
Proof. intros [->|H]; [repeat split; discriminate|]. cbn in H. repeat destruct H as [<-|H]; try contradiction; repeat split; discriminate. Qed.
Lemma hex_digit_not n : n < 16 -> hex_digit n <> x2f /\ hex_digit n <> x00 /\ hex_digit n <> x2e.
Proof.
  intros H.
  assert (In n [0;1;2;3;4;5;6;7;8;9;10;11;12;13;14;15]) as X.
  { assert (n = 0 \/ n = 1 \/ n = 2 \/ n = 3 \/ n = 4 \/ n = 5 \/ n = 6 \/ n = 7 \/ n = 8 \/ n = 9 \/ n = 10 \/ n = 11 \/ n = 12 \/ n = 13 \/ n = 14 \/ n = 15) by lia.
    cbn. repeat destruct H0 as [->|H0]; subst; tauto. }
  cbn in X. repeat destruct X as [<-|X]; try contradiction; repeat split; vm_compute; discriminate.
Qed.
Lemma article_name_chars t r : ~ In x2f (article_name t r) /\ ~ In x00 (article_name t r).
Proof.
  assert (G : Forall (fun b => b <> x2f /\ b <> x00) (article_name t r)).
  { unfold article_name. repeat (apply Forall_app; split).
    - repeat constructor; discriminate.
    - eapply Forall_impl; [|apply fmt_d_chars]. intros b Hb. apply digit_not in Hb. tauto.
    - repeat constructor; discriminate.
    - unfold fmt_3X. assert (D : forall m, m mod 16 < 16) by (intros; apply N.mod_lt; discriminate).
      repeat (constructor; [split; apply hex_digit_not, D|]). constructor. }
  rewrite Forall_forall in G. split; intros H; apply G in H; tauto.
Qed.
Lemma article_name_plain b t r : ident b -> plain_object (Article b (article_name t r)).
Proof.
  intros I. pose proof (article_name_chars t r) as [N1 N2]. split; [exact I|]. 
  assert (E : exists x, article_name t r = x4d :: x) by (eexists; reflexivity). destruct E as [x E].
  split; [|rewrite E; split; discriminate]. unfold component. rewrite E in *. repeat split; try discriminate; assumption.
Qed.

(** the names the code makes, and all names of that form *)
Lemma article_name_fresh t r : r < 4096 -> fresh_name (article_name t r).
Proof. intros H. exists t, r, (fmt_d t), (fmt_3X r). split; [exact H|]. split; [apply fmt_d_decimal|]. split; [now apply fmt_3X_hex3|reflexivity]. Qed.
Lemma fresh_name_plain b n : ident b -> fresh_name n -> plain_object (Article b n).
Proof.
  intros I (t & r & ts & rs & _ & D & [H _] & E).
  assert (G : Forall (fun c => c <> x2f /\ c <> x00) n).
  { rewrite E. repeat (apply Forall_app; split).
    - repeat constructor; discriminate.
    - eapply Forall_impl; [|exact (decimal_chars t ts D)]. intros c Hc. cbn in Hc. repeat destruct Hc as [<-|Hc]; try contradiction; split; discriminate.
    - repeat constructor; discriminate.
    - eapply Forall_impl; [|exact (numeral_chars 16 rs r H)]. intros c Hc. cbn in Hc. repeat destruct Hc as [<-|Hc]; try contradiction; split; discriminate. }
  rewrite Forall_forall in G. assert (E' : exists x, n = x4d :: x) by (rewrite E; eexists; reflexivity). destruct E' as [x E']. clear E.
  split; [exact I|]. split; [|rewrite E'; split; discriminate]. unfold component.
  split; [rewrite E'; discriminate|]. split; [rewrite E'; discriminate|]. split; [rewrite E'; discriminate|]. split; intros Q; apply G in Q; tauto.
Qed.
Lemma article_head_text owner b title date : article_head owner b title date = ccmd_text (NewHeaded b owner date title).
Proof. reflexivity. Qed.

(** ** Programs that only create *)
Definition claim := (bytes * bytes * bytes)%type.
Definition result := list (ccmd * outcome FileHeader).
Section Create.
Variables (wd : bytes) (w0 : world).
Hypothesis Nwd : ~ In x00 wd.

(** [ok cl o p]: the client has created [cl] (newest first), holds the newest one
    open if [o] is its descriptor, and will behave. *)
Fixpoint ok (p : prog result) : list claim -> option N -> Prop :=
  match p with
  | Ret rs => fun cl o => o = None /\ cl = created (rev rs)
  | Call c k => 
      match c in sys R return (R -> list claim -> option N -> Prop) -> list claim -> option N -> Prop with
      | Now => fun K cl o => forall t, K t cl o
      | Rand n => fun K cl o => 0 < n /\ forall r, r < n -> K r cl o
      | Open path fl => fun K cl o => fl = O_WRONLY_CREATE_EXCL /\ o = None /\ exists b t r, ident b /\ r < 4096 /\
          GetBoardArticleFilePath wd b (article_name t r) = Ok path /\
          (forall e, K (RErr e) cl None) /\ (forall fd, K (ROk fd) ((b, article_name t r, []) :: cl) (Some fd))
      | Write fd d => fun K cl o => exists b n x cl', cl = (b, n, x) :: cl' /\ o = Some fd /\
          K (ROk (lenN d)) ((b, n, x ++ d) :: cl') o
      | Close fd => fun K cl o => o = Some fd /\ K tt cl None
      | _ => fun _ _ _ => False
      end (fun r => ok (k r))
  end.

Definition cplace (c : claim) : rpath := home_dir (w_cwd w0) wd ++ object_comps (Article (fst (fst c)) (snd (fst c))).
Definition key (c : claim) : bytes * bytes := fst c.
Definition cplain (c : claim) : Prop := ident (fst (fst c)) /\ fresh_name (snd (fst c)).
Lemma cplain_object c : cplain c -> plain_object (Article (fst (fst c)) (snd (fst c))).
Proof. intros [I F]. now apply fresh_name_plain. Qed.
Lemma cplace_inj c d : cplain c -> cplain d -> cplace c = cplace d -> key c = key d.
Proof.
  intros C D E. apply app_inv_head in E. apply object_comps_inj in E; try now apply cplain_object.
  destruct c as [[b n] x], d as [[b' n'] x']. cbn in *. congruence.
Qed.
Lemma cplace_nonroot c : cplain c -> cplace c <> [].
Proof. intros C E. apply app_eq_nil in E. destruct E as [_ E]. revert E. apply object_comps_nonempty. now apply cplain_object. Qed.

Record cinv (n : nat) (w : world) (ps : list (prog result)) (st : nat -> list claim * option N) : Prop := {
  ci_sane : sane w;
  ci_cwd : w_cwd w = w_cwd w0;
  ci_len : length ps = n;
  ci_out : forall q, (forall i c, (i < n)%nat -> In c (fst (st i)) -> q <> cplace c) -> look w q = look w0 q;
  ci_in : forall i c, (i < n)%nat -> In c (fst (st i)) ->
    cplain c /\ look w0 (cplace c) = None /\ look w (cplace c) = Some (EFile (snd c));
  ci_nodup : forall i, (i < n)%nat -> NoDup (map key (fst (st i)));
  ci_dis : forall i j c d, (i < n)%nat -> (j < n)%nat -> i <> j -> In c (fst (st i)) -> In d (fst (st j)) -> key c <> key d;
  ci_ok : forall i p, nth_error ps i = Some p -> ok p (fst (st i)) (snd (st i));
  ci_own : forall i fd, (i < n)%nat -> snd (st i) = Some fd -> fd < w_nextfd w /\
    exists c cl ino, fst (st i) = c :: cl /\ w_tree w (cplace c) = Some (NFile ino) /\
      w_fds w fd = Some (OFile (Some ino) (lenN (snd c)) false false true);
  ci_fd : forall i j fd, (i < n)%nat -> (j < n)%nat -> i <> j -> snd (st i) = Some fd -> snd (st j) <> Some fd }.

Definition upd (st : nat -> list claim * option N) i x j := if Nat.eqb j i then x else st j.
Lemma upd_same st i x : upd st i x i = x.
Proof. unfold upd. now rewrite Nat.eqb_refl. Qed.
Lemma upd_other st i x j : i <> j -> upd st i x j = st j.
Proof. intros H. unfold upd. destruct (Nat.eqb_spec j i); congruence. Qed.

(** Changes of the world that leave the tree and the contents alone. *)
Lemma quiet_step n w ps st i p1 w1 cl o :
  cinv n w ps st -> nth_error ps i <> None -> fst (st i) = cl ->
  sane w1 -> w_cwd w1 = w_cwd w -> (forall q, look w1 q = look w q) -> w_tree w1 = w_tree w ->
  (forall fd, snd (st i) <> Some fd -> w_fds w1 fd = w_fds w fd) -> w_nextfd w1 = w_nextfd w ->
  (o = snd (st i) /\ w_fds w1 = w_fds w \/ o = None) -> ok p1 cl o ->
  cinv n w1 (upd_nth i p1 ps) (upd st i (cl, o)).
Proof.
  intros C Hi Ecl S1 E1 E2 E3 E4 E5 Ho K.
  assert (Li : (i < n)%nat) by (rewrite <- (ci_len _ _ _ _ C); now apply nth_error_Some).
  assert (F : forall j, fst (upd st i (cl, o) j) = fst (st j)).
  { intros j. destruct (Nat.eq_dec i j) as [<-|N]; [rewrite upd_same; now cbn|now rewrite upd_other]. }
  constructor; auto.
  - rewrite E1. apply C.
  - rewrite upd_nth_length. apply C.
  - intros q Hq. rewrite E2. apply C. intros j c Hj Hc. apply (Hq j); [exact Hj|now rewrite F].
  - intros j c Hj Hc. rewrite F in Hc. rewrite E2. now apply (ci_in _ _ _ _ C j).
  - intros j Hj. rewrite F. now apply C.
  - intros j k c d Hj Hk N. rewrite !F. now apply C.
  - intros j p Hp. destruct (Nat.eq_dec i j) as [<-|N].
    + rewrite upd_same. rewrite nth_upd_same in Hp by (rewrite (ci_len _ _ _ _ C); exact Li). now injection Hp as <-.
    + rewrite upd_other by exact N. rewrite nth_upd_other in Hp by exact N. now apply C.
  - intros j fd Hj Hfd. rewrite F, E3, E5. destruct (Nat.eq_dec i j) as [<-|N].
    + rewrite upd_same in Hfd. cbn in Hfd. destruct Ho as [[-> Ef]| ->]; [|discriminate]. rewrite Ef. now apply C.
    + rewrite upd_other in Hfd by exact N. destruct (ci_own _ _ _ _ C j fd Hj Hfd) as (L & c & cl' & ino & A & B & D).
      split; [exact L|]. exists c, cl', ino. split; [exact A|]. split; [exact B|]. rewrite E4; [exact D|].
      intros Z. apply (ci_fd _ _ _ _ C i j fd Li Hj N Z Hfd).
  - intros j k fd Hj Hk N Hfd Hfd'.
    destruct (Nat.eq_dec i j) as [<-|Nj]; [|destruct (Nat.eq_dec i k) as [<-|Nk]].
    + rewrite upd_same in Hfd. rewrite upd_other in Hfd' by exact N. cbn in Hfd.
      destruct Ho as [[-> _]| ->]; [|discriminate]. now apply (ci_fd _ _ _ _ C i k fd Hj Hk N).
    + rewrite upd_same in Hfd'. rewrite upd_other in Hfd by exact Nj. cbn in Hfd'.
      destruct Ho as [[-> _]| ->]; [|discriminate]. now apply (ci_fd _ _ _ _ C j i fd Hj Hk N).
    + rewrite upd_other in Hfd, Hfd' by auto. now apply (ci_fd _ _ _ _ C j k fd Hj Hk N).
Qed.

Lemma look_same_tree w w' : w_tree w' = w_tree w -> w_data w' = w_data w -> forall q, look w' q = look w q.
Proof. intros E1 E2 q. unfold look. now rewrite E1, E2. Qed.

Lemma step_ok n w ps st i p : cinv n w ps st -> nth_error ps i = Some p ->
  exists st', cinv n (fst (step1 p w)) (upd_nth i (snd (step1 p w)) ps) st'.
Proof.
  intros C Hp.
  assert (Hn : nth_error ps i <> None) by congruence.
  assert (Li : (i < n)%nat) by (rewrite <- (ci_len _ _ _ _ C); now apply nth_error_Some).
  pose proof (ci_ok _ _ _ _ C i p Hp) as K. destruct p as [rs|R c k].
  { cbn [step1 fst snd]. exists st. rewrite upd_nth_id by exact Hp. exact C. }
  cbn [step1]. destruct (st i) as [cl o] eqn:Es. cbn [fst snd] in K.
  destruct c as [path fl| | |fd d| | | |fd| | | |m]; try contradiction; cbn [ok] in K.
  - (* open *)
    destruct K as (-> & -> & b & t & r & Ib & Hr & Ep & Ke & Kf).
    set (c := (b, article_name t r, []) : claim).
    assert (Pc : cplain c) by (split; [exact Ib|now apply article_name_fresh]).
    destruct (object_resolves (w_cwd w0) wd (Article b (article_name t r))) as (p' & Ep' & Pp & Rp).
    { now apply (cplain_object c). }
    { exact Nwd. }
    cbn [object_path] in Ep'. rewrite Ep in Ep'. injection Ep' as <-.
    assert (Nm : names w path (cplace c)).
    { split; [exact Pp|]. rewrite (ci_cwd _ _ _ _ C). exact Rp. }
    destruct (look w (cplace c)) as [e|] eqn:Lk.
    + (* taken *)
      assert (exists e, exec (Open path O_WRONLY_CREATE_EXCL) w = (w, RErr e)) as [er E].
      { cbn [exec]. unfold sys_open. destruct (proper_tests path Pp) as [-> ->]. destruct Nm as [_ ->].
        unfold look in Lk. destruct (is_dir w (cplace c)) eqn:Ed; [cbn; eauto|].
        destruct (cplace c) as [|x y]; [discriminate Ed|]. destruct (w_tree w (x :: y)) as [[|j]|]; try discriminate; cbn; eauto. }
      rewrite E. cbn [fst snd]. exists (upd st i (cl, None)).
      apply (quiet_step n w ps st i _ w cl None C Hn); auto; try (now rewrite Es). apply C.
    + destruct (is_dir w (parent (cplace c))) eqn:Dr.
      * (* created *)
        rewrite (open_create w path O_WRONLY_CREATE_EXCL (cplace c) Nm Lk eq_refl) by (now apply is_dir_look).
        cbn [fst snd o_append o_rd o_wr O_WRONLY_CREATE_EXCL].
        set (wc := bump_ino _). set (w1 := bump_fd _).
        assert (Sc : sane wc).
        { destruct (look_none _ _ Lk). apply sane_create; auto; [apply C|now apply is_dir_look]. }
        assert (S1 : sane w1).
        { unfold w1. change (w_nextfd w) with (w_nextfd wc). apply sane_new_fd; [exact Sc|]. cbn. intros j [= <-]. lia. }
        assert (Lo : forall q, q <> cplace c -> look w1 q = look w q).
        { intros q Hq. unfold w1. rewrite look_bump_fd, look_set_fd. apply look_create_other; [apply C|exact Hq]. }
        assert (Lc : look w1 (cplace c) = Some (EFile [])).
        { unfold w1. rewrite look_bump_fd, look_set_fd. unfold look, wc.
          destruct (cplace c) as [|x y] eqn:Ec; [now apply cplace_nonroot in Ec|]. cbn [w_tree w_data bump_ino set_data set_tree].
          destruct rp_eq_dec; [|congruence]. destruct N.eq_dec; [reflexivity|congruence]. }
        assert (New : forall j d, (j < n)%nat -> In d (fst (st j)) -> cplace d <> cplace c).
        { intros j d Hj Hd E. destruct (ci_in _ _ _ _ C j d Hj Hd) as (_ & _ & X). rewrite E, Lk in X. discriminate. }
        assert (L0 : look w0 (cplace c) = None).
        { rewrite <- Lk. symmetry. apply (ci_out _ _ _ _ C). intros j d Hj Hd E. now apply (New j d). }
        assert (NewK : forall j d, (j < n)%nat -> In d (fst (st j)) -> key c <> key d).
        { intros j d Hj Hd E. apply (New j d Hj Hd).
          unfold cplace. unfold key in E. destruct d as [[b' n'] x']. cbn in E |- *. now injection E as -> ->. }
        pose proof (fun j => ci_in _ _ _ _ C j) as Old.
        exists (upd st i (c :: cl, Some (w_nextfd w))). constructor.
        -- exact S1.
        -- apply (ci_cwd _ _ _ _ C).
        -- rewrite upd_nth_length. apply C.
        -- intros q Hq.
           assert (q <> cplace c) by (apply (Hq i c Li); rewrite upd_same; now left).
           rewrite Lo by assumption. apply C. intros j d Hj Hd. apply (Hq j d Hj).
           destruct (Nat.eq_dec i j) as [<-|N]; [rewrite upd_same; right; rewrite Es in Hd; exact Hd|now rewrite upd_other].
        -- intros j d Hj Hd.
           destruct (Nat.eq_dec i j) as [<-|N].
           ++ rewrite upd_same in Hd. destruct Hd as [<-|Hd]; [auto|].
              assert (Hd' : In d (fst (st i))) by (rewrite Es; exact Hd).
              rewrite Lo by (now apply (New i)). now apply (Old i).
           ++ rewrite upd_other in Hd by exact N. rewrite Lo by (now apply (New j)). now apply (Old j).
        -- intros j Hj. destruct (Nat.eq_dec i j) as [<-|N]; [|rewrite upd_other by exact N; now apply C].
           rewrite upd_same. cbn [fst map]. constructor.
           ++ intros Hk. apply in_map_iff in Hk. destruct Hk as (d & Ek & Hd). apply (NewK i d Hj); [rewrite Es; exact Hd|auto].
           ++ pose proof (ci_nodup _ _ _ _ C i Hj) as X. now rewrite Es in X.
        -- intros j k' d e Hj Hk N Hd He.
           destruct (Nat.eq_dec i j) as [<-|Nj]; [|destruct (Nat.eq_dec i k') as [<-|Nk]].
           ++ rewrite upd_same in Hd. rewrite upd_other in He by exact N. destruct Hd as [<-|Hd]; [now apply (NewK k')|].
              apply (ci_dis _ _ _ _ C i k'); auto. rewrite Es. exact Hd.
           ++ rewrite upd_same in He. rewrite upd_other in Hd by exact Nj. destruct He as [<-|He]; [intros Z; now apply (NewK j d)|].
              apply (ci_dis _ _ _ _ C j i); auto. rewrite Es. exact He.
           ++ rewrite upd_other in Hd, He by auto. apply (ci_dis _ _ _ _ C j k'); auto.
        -- intros j p Hj. destruct (Nat.eq_dec i j) as [<-|N].
           ++ rewrite upd_same. rewrite nth_upd_same in Hj by (rewrite (ci_len _ _ _ _ C); exact Li). injection Hj as <-. apply Kf.
           ++ rewrite upd_other by exact N. rewrite nth_upd_other in Hj by exact N. now apply C.
        -- intros j fd Hj Hfd. destruct (Nat.eq_dec i j) as [<-|N].
           ++ rewrite upd_same in *. cbn [fst snd] in *. injection Hfd as <-. split; [cbn; lia|].
              exists c, cl, (w_nexti w). split; [reflexivity|]. unfold w1, wc. cbn [w_tree w_data w_fds bump_ino bump_fd set_fd set_data set_tree].
              destruct rp_eq_dec; [|congruence]. destruct N.eq_dec; [auto|congruence].
           ++ rewrite upd_other in * by exact N. destruct (ci_own _ _ _ _ C j fd Hj Hfd) as (L & d & cl' & ino & A & B & D).
              split; [cbn; lia|]. exists d, cl', ino. split; [exact A|]. split.
              ** unfold w1, wc. cbn [w_tree w_data w_fds bump_ino bump_fd set_fd set_data set_tree]. destruct rp_eq_dec as [Z|_]; [|exact B]. exfalso. apply (New j d Hj); [|exact Z]. rewrite A. now left.
              ** unfold w1, wc. cbn [w_tree w_data w_fds bump_ino bump_fd set_fd set_data set_tree]. destruct N.eq_dec as [Z|_]; [lia|exact D].
        -- intros j k' fd Hj Hk N Hfd Hfd'.
           destruct (Nat.eq_dec i j) as [<-|Nj]; [|destruct (Nat.eq_dec i k') as [<-|Nk]].
           ++ rewrite upd_same in Hfd. rewrite upd_other in Hfd' by exact N. cbn in Hfd. injection Hfd as <-.
              apply (ci_own _ _ _ _ C k') in Hfd'; [lia|exact Hk].
           ++ rewrite upd_same in Hfd'. rewrite upd_other in Hfd by exact Nj. cbn in Hfd'. injection Hfd' as <-.
              apply (ci_own _ _ _ _ C j) in Hfd; [lia|exact Hj].
           ++ rewrite upd_other in Hfd, Hfd' by auto. now apply (ci_fd _ _ _ _ C j k' fd Hj Hk N).
      * rewrite (open_missing w path O_WRONLY_CREATE_EXCL (cplace c) Nm Lk).
        2:{ right. now apply is_dir_look_false. }
        cbn [fst snd]. exists (upd st i (cl, None)).
        apply (quiet_step n w ps st i _ w cl None C Hn); auto; try (now rewrite Es). apply C.
  - (* write *)
    destruct K as (b & nm & x & cl' & -> & -> & K).
    destruct (ci_own _ _ _ _ C i fd Li) as (Lf & c & cl2 & ino & A & B & D); [now rewrite Es|].
    rewrite Es in A. cbn in A. injection A as <- <-. cbn [snd] in D.
    set (c := (b, nm, x) : claim) in *. set (c' := (b, nm, x ++ d) : claim).
    rewrite (exec_write w fd _ ino d D eq_refl eq_refl). cbn [fst snd of_append of_rd of_wr of_pos].
    destruct (ci_in _ _ _ _ C i c Li) as (Pc & L0 & Lc); [rewrite Es; now left|].
    destruct (look_file _ _ _ Lc) as (ino' & T' & D' & Nr). rewrite B in T'. injection T' as <-. cbn [snd c] in D'.
    rewrite D', write_at_end.
    set (w1 := set_fd _ _ _).
    assert (S1 : sane w1).
    { apply sane_set_fd; [apply sane_set_data; apply C|cbn; lia|]. intros q j [= <-] [= <-]. cbn. eapply sane_ino; [apply C|exact B]. }
    assert (Lo : forall q, q <> cplace c -> look w1 q = look w q).
    { intros q Hq. unfold w1. rewrite look_set_fd. now apply look_set_data_other with (rp := cplace c); [apply C| |]. }
    assert (Lc1 : look w1 (cplace c) = Some (EFile (x ++ d))).
    { unfold w1. rewrite look_set_fd. now apply look_set_data. }
    assert (Oth : forall j e, (j < n)%nat -> In e (fst (st j)) -> e <> c \/ i <> j -> key e <> key c -> cplace e <> cplace c).
    { intros j e Hj He _ Hk E. destruct (ci_in _ _ _ _ C j e Hj He) as (Pe & _). apply Hk. now apply cplace_inj. }
    assert (Kc : key c' = key c) by reflexivity. assert (Pl : cplace c' = cplace c) by reflexivity.
    assert (ND : ~ In (key c) (map key cl') /\ NoDup (map key cl')).
    { pose proof (ci_nodup _ _ _ _ C i Li) as X. rewrite Es in X. cbn [fst map] in X. now inversion X. }
    exists (upd st i (c' :: cl', Some fd)). constructor.
    + exact S1.
    + apply (ci_cwd _ _ _ _ C).
    + rewrite upd_nth_length. apply C.
    + intros q Hq. assert (q <> cplace c) by (rewrite <- Pl; apply (Hq i c' Li); rewrite upd_same; now left).
      rewrite Lo by assumption. apply C. intros j e Hj He.
      destruct (Nat.eq_dec i j) as [<-|N].
      * rewrite Es in He. destruct He as [<-|He]; [assumption|]. apply (Hq i e Hj). rewrite upd_same. now right.
      * apply (Hq j e Hj). now rewrite upd_other.
    + intros j e Hj He. destruct (Nat.eq_dec i j) as [<-|N].
      * rewrite upd_same in He. destruct He as [<-|He].
        -- rewrite Pl. split; [exact Pc|]. split; [exact L0|exact Lc1].
        -- assert (He' : In e (fst (st i))) by (rewrite Es; now right).
           destruct (ci_in _ _ _ _ C i e Hj He') as (Q1 & Q2 & Q3). split; [exact Q1|]. split; [exact Q2|]. rewrite Lo; [exact Q3|].
           apply (Oth i e Hj He'); [left|].
           ++ intros ->. apply ND. now apply in_map.
           ++ intros Z. apply ND. rewrite <- Z. now apply in_map.
      * rewrite upd_other in He by exact N. destruct (ci_in _ _ _ _ C j e Hj He) as (Q1 & Q2 & Q3).
        split; [exact Q1|]. split; [exact Q2|]. rewrite Lo; [exact Q3|]. apply (Oth j e Hj He); [now right|].
        apply (ci_dis _ _ _ _ C j i e c); auto. rewrite Es. now left.
    + intros j Hj. destruct (Nat.eq_dec i j) as [<-|N]; [|rewrite upd_other by exact N; now apply C].
      rewrite upd_same. pose proof (ci_nodup _ _ _ _ C i Hj) as X. rewrite Es in X. exact X.
    + intros j k' e e' Hj Hk N He He'.
      destruct (Nat.eq_dec i j) as [<-|Nj]; [|destruct (Nat.eq_dec i k') as [<-|Nk]].
      * rewrite upd_same in He. rewrite upd_other in He' by exact N. destruct He as [<-|He].
        -- rewrite Kc. apply (ci_dis _ _ _ _ C i k'); auto. rewrite Es. now left.
        -- apply (ci_dis _ _ _ _ C i k'); auto. rewrite Es. now right.
      * rewrite upd_same in He'. rewrite upd_other in He by exact Nj. destruct He' as [<-|He'].
        -- rewrite Kc. apply (ci_dis _ _ _ _ C j i); auto. rewrite Es. now left.
        -- apply (ci_dis _ _ _ _ C j i); auto. rewrite Es. now right.
      * rewrite upd_other in He, He' by auto. apply (ci_dis _ _ _ _ C j k'); auto.
    + intros j p Hj. destruct (Nat.eq_dec i j) as [<-|N].
      * rewrite upd_same. rewrite nth_upd_same in Hj by (rewrite (ci_len _ _ _ _ C); exact Li). injection Hj as <-. exact K.
      * rewrite upd_other by exact N. rewrite nth_upd_other in Hj by exact N. now apply C.
    + intros j fd' Hj Hfd. destruct (Nat.eq_dec i j) as [<-|N].
      * rewrite upd_same in *. cbn [fst snd] in *. injection Hfd as <-. split; [exact Lf|].
        exists c', cl', ino. split; [reflexivity|]. split; [exact B|]. unfold w1. cbn [set_fd w_fds]. destruct N.eq_dec; [|congruence].
        unfold c'. cbn [snd]. unfold lenN. rewrite app_length, Nat2N.inj_add. reflexivity.
      * rewrite upd_other in * by exact N. destruct (ci_own _ _ _ _ C j fd' Hj Hfd) as (L & e & cl3 & ino3 & A3 & B3 & D3).
        split; [exact L|]. exists e, cl3, ino3. split; [exact A3|]. split; [exact B3|]. unfold w1. cbn. destruct N.eq_dec as [->|_]; [|exact D3].
        exfalso. apply (ci_fd _ _ _ _ C i j fd Li Hj N); [now rewrite Es|exact Hfd].
    + intros j k' fd' Hj Hk N Hfd Hfd'.
      destruct (Nat.eq_dec i j) as [<-|Nj]; [|destruct (Nat.eq_dec i k') as [<-|Nk]].
      * rewrite upd_same in Hfd. rewrite upd_other in Hfd' by exact N. cbn in Hfd. apply (ci_fd _ _ _ _ C i k' fd' Hj Hk N); [now rewrite Es|exact Hfd'].
      * rewrite upd_same in Hfd'. rewrite upd_other in Hfd by exact Nj. cbn in Hfd'. apply (ci_fd _ _ _ _ C j i fd' Hj Hk N); [exact Hfd|now rewrite Es].
      * rewrite upd_other in Hfd, Hfd' by auto. now apply (ci_fd _ _ _ _ C j k' fd' Hj Hk N).
  - (* close *)
    destruct K as (-> & K). cbn [exec fst snd]. exists (upd st i (cl, None)).
    apply (quiet_step n w ps st i _ _ cl None C Hn); auto; try (now rewrite Es).
    + apply sane_close, C.
    + intros fd' Hfd. cbn. destruct N.eq_dec as [->|_]; [|reflexivity]. rewrite Es in Hfd. now cbn in Hfd.
  - (* now *)
    cbn [exec fst snd]. exists (upd st i (cl, o)).
    apply (quiet_step n w ps st i _ _ cl o C Hn); auto; try (now rewrite Es).
    + apply sane_tick, C.
    + left. rewrite Es. auto.
  - (* rand *)
    destruct K as [Hm K]. cbn [exec fst snd]. exists (upd st i (cl, o)).
    apply (quiet_step n w ps st i _ _ cl o C Hn); auto; try (now rewrite Es).
    + apply sane_rtick, C.
    + left. rewrite Es. auto.
    + apply K. apply N.mod_lt. lia.
Qed.

Lemma pool_ok_run n sched : forall w ps st, cinv n w ps st ->
  exists st', cinv n (fst (run_pool sched w ps)) (snd (run_pool sched w ps)) st'.
Proof.
  induction sched as [|i sched IH]; intros w ps st C; cbn [run_pool]; [eauto|].
  destruct (nth_error ps i) as [p|] eqn:Hp; [|eauto].
  destruct (step_ok n w ps st i p C Hp) as [st1 C1]. destruct (step1 p w) as [w1 p1]. cbn [fst snd] in C1. eauto.
Qed.

(** ** The programs of the creators are such programs *)
Lemma article_path b t r : ident b -> exists p, GetBoardArticleFilePath wd b (article_name t r) = Ok p.
Proof.
  intros Ib. destruct (object_resolves (w_cwd w0) wd (Article b (article_name t r))) as (p & E & _); [now apply article_name_plain|exact Nwd|].
  exists p. exact E.
Qed.
Lemma ok_filename fuel b (k : outcome bytes -> prog result) cl : ident b ->
  (forall n, ok (k (Ok n)) ((b, n, []) :: cl) None) -> ok (k Diverge) cl None ->
  ok (bind (CreateBoardArticleFilename fuel wd b) k) cl None.
Proof.
  intros Ib K1 K2. induction fuel as [|fuel IH]; [exact K2|]. cbn -[article_name N.mul]. intros t. split; [lia|]. intros r Hr.
  destruct (article_path b t r Ib) as [p E]. rewrite E. cbn -[article_name]. split; [reflexivity|]. split; [reflexivity|].
  exists b, t, r. repeat (split; [assumption|]). split; [now intros e|]. intros fd. cbn -[article_name]. auto.
Qed.
Lemma ok_fixed fuel b t (k : outcome (bytes * N) -> prog result) cl : ident b ->
  (forall n fd, ok (k (Ok (n, fd))) ((b, n, []) :: cl) (Some fd)) -> ok (k Diverge) cl None ->
  ok (bind (create_fixed_time fuel wd b t) k) cl None.
Proof.
  intros Ib K1 K2. induction fuel as [|fuel IH]; [exact K2|]. cbn -[article_name N.mul]. split; [lia|]. intros r Hr.
  destruct (article_path b t r Ib) as [p E]. rewrite E. cbn -[article_name]. split; [reflexivity|]. split; [reflexivity|].
  exists b, t, r. repeat (split; [assumption|]). split; [now intros e|]. intros fd. cbn -[article_name]. auto.
Qed.
Lemma ok_assoc {A B} (p : prog A) (h : A -> prog B) (k : B -> prog result) : forall cl o,
  ok (bind p (fun a => bind (h a) k)) cl o -> ok (bind (bind p h) k) cl o.
Proof.
  induction p as [a|R c h' IH]; intros cl o; [auto|].
  destruct c; cbn [bind ok]; try tauto.
  - intros (E & E' & b & t & r & I1 & I2 & I3 & Ke & Kf). split; [exact E|]. split; [exact E'|]. exists b, t, r. repeat (split; [assumption|]).
    split; intros; apply IH; auto.
  - intros (b & n & x & cl' & -> & -> & K). exists b, n, x, cl'. repeat (split; [reflexivity|]). now apply IH.
  - intros [E K]. split; [exact E|]. now apply IH.
  - intros K t. now apply IH.
  - intros [E K]. split; [exact E|]. intros r Hr. now apply IH, K.
Qed.
Lemma ok_creator fuel cs : Forall (fun c => ident (ccmd_board c)) cs -> forall got,
  ok (creator_from fuel wd cs got) (created got) None.
Proof.
  induction 1 as [|c cs Hc _ IH]; intros got; cbn [creator_from].
  { cbn. rewrite rev_involutive. auto. }
  destruct c as [b owner date title|b owner date title]; cbn [ccmd_board ccmd_prog] in *.
  - unfold CreateArticleRecord, pbind. apply ok_assoc, ok_filename; [exact Hc| |].
    + intros n. cbn [bind]. exact (IH ((NewEmpty b owner date title, Ok _) :: got)).
    + cbn [bind]. exact (IH ((NewEmpty b owner date title, Diverge) :: got)).
  - cbn [NewArticleRecordWithMap bind]. cbn [ok]. intros t. unfold pbind. apply ok_assoc, ok_fixed; [exact Hc| |].
    + intros n fd. cbn -[article_head]. exists b, n, [], (created got). split; [reflexivity|]. split; [reflexivity|]. split; [reflexivity|].
      exact (IH ((NewHeaded b owner date title, Ok _) :: got)).
    + cbn [bind]. exact (IH ((NewHeaded b owner date title, Diverge) :: got)).
Qed.

(** At the start nothing has been created. *)
Lemma cinv_start fuel css : sane w0 -> Forall (Forall (fun c => ident (ccmd_board c))) css ->
  cinv (length css) w0 (map (creator fuel wd) css) (fun _ => ([], None)).
Proof.
  intros S0 Ic. constructor; cbn [fst snd]; auto; try contradiction; try discriminate.
  - apply map_length.
  - constructor.
  - intros i p Hp. rewrite nth_error_map in Hp. destruct (nth_error css i) as [cs|] eqn:E; [|discriminate]. injection Hp as <-.
    apply ok_creator. apply nth_error_In in E. rewrite Forall_forall in Ic. now apply Ic.
Qed.
End Create.

(** A program run alone is a pool of one. *)
Lemma run_as_pool {A} (p : prog A) : forall w, exists n, run_pool (repeat 0%nat n) w [p] = (fst (run p w), [Ret (snd (run p w))]).
Proof.
  induction p as [a|R c k IH]; intros w; [exists 0%nat; reflexivity|].
  cbn [run]. destruct (exec c w) as [w1 r] eqn:E. destruct (IH r w1) as [n H]. exists (S n).
  cbn [repeat run_pool nth_error step1]. rewrite E. cbn [upd_nth]. exact H.
Qed.

Lemma board_entry_place w0 wd b n x : ident b -> board_entry w0 wd b n = cplace wd w0 (b, n, x).
Proof.
  intros [(Hn & _) _]. unfold board_entry, board_dir, cplace. cbn [fst snd object_comps]. rewrite <- app_assoc. f_equal.
  destruct b as [|c b]; [contradiction|]. cbn [id_dirs firstn flat_map app]. now rewrite app_nil_r.
Qed.
Lemma board_entry_parent w0 wd b n : removelast (board_entry w0 wd b n) = board_dir w0 wd b.
Proof. apply removelast_last. Qed.

(** ** What the attempts do *)
Lemma article_names wd w b t r p : ident b -> ~ In x00 wd -> GetBoardArticleFilePath wd b (article_name t r) = Ok p ->
  names w p (board_entry w wd b (article_name t r)).
Proof.
  intros Ib Nw E. destruct (object_resolves (w_cwd w) wd (Article b (article_name t r))) as (p' & Ep & Pp & Rp); [now apply article_name_plain|exact Nw|].
  cbn [object_path] in Ep. rewrite E in Ep. injection Ep as <-. split; [exact Pp|]. rewrite Rp. symmetry. exact (board_entry_place w wd b _ [] Ib).
Qed.
(** no directory: every attempt fails *)
Lemma open_no_dir wd w b t r p : ident b -> ~ In x00 wd -> sane w -> GetBoardArticleFilePath wd b (article_name t r) = Ok p ->
  look w (board_dir w wd b) <> Some EDir -> exists e, exec (Open p O_WRONLY_CREATE_EXCL) w = (w, RErr e).
Proof.
  intros Ib Nw Sw E H. pose proof (article_names wd w b t r p Ib Nw E) as Nm.
  destruct (look w (board_entry w wd b (article_name t r))) as [e|] eqn:Lk.
  - exfalso. unfold board_entry in Lk. unfold look in Lk.
    destruct (board_dir w wd b ++ [article_name t r]) eqn:Q; [now apply app_eq_nil in Q|]. rewrite <- Q in Lk.
    destruct (sane_tree _ Sw (board_dir w wd b) (article_name t r)) as [X|X].
    + intros Z. rewrite Z in Lk. discriminate.
    + unfold board_dir in X. now apply app_eq_nil in X.
    + apply H. unfold look. now rewrite X; destruct (board_dir w wd b).
  - rewrite (open_missing w p _ _ Nm Lk); [eauto|]. right. unfold has_dir. now rewrite board_entry_parent.
Qed.
Lemma open_taken wd w b t r p : ident b -> ~ In x00 wd -> GetBoardArticleFilePath wd b (article_name t r) = Ok p ->
  look w (board_entry w wd b (article_name t r)) <> None -> exists e, exec (Open p O_WRONLY_CREATE_EXCL) w = (w, RErr e).
Proof.
  intros Ib Nw E Lk. pose proof (article_names wd w b t r p Ib Nw E) as [Pp Rp].
  cbn [exec]. unfold sys_open. destruct (proper_tests p Pp) as [-> ->]. rewrite Rp.
  set (q := board_entry w wd b (article_name t r)) in *.
  unfold look in Lk. destruct (is_dir w q) eqn:Ed; [cbn; eauto|].
  destruct q as [|x y]; [discriminate Ed|]. destruct (w_tree w (x :: y)) as [[|j]|]; try contradiction; cbn; eauto.
Qed.

(** ** When a name is found *)
Lemma bump_candidate w n : candidate (bump_rtick (bump_tick w)) n = candidate w (S n).
Proof. unfold candidate. cbn [w_clock w_tick w_rand w_rtick bump_tick bump_rtick]. now rewrite <- !plus_n_Sm. Qed.
(** the n-th name tried for the time [t] *)
Definition dated (t : Z) (w : world) (n : nat) : bytes := article_name t (w_rand w (w_rtick w + n)%nat mod 4096).
Lemma bump_dated t w n : dated t (bump_rtick w) n = dated t w (S n).
Proof. unfold dated. cbn [w_rand w_rtick bump_rtick]. now rewrite <- !plus_n_Sm. Qed.

Section Search.
Variables (wd b : bytes).
Hypothesis (Ib : ident b) (Nw : ~ In x00 wd).

Lemma run_attempt fuel w p : GetBoardArticleFilePath wd b (candidate w 0) = Ok p ->
  run (CreateBoardArticleFilename (S fuel) wd b) w =
  (let w1 := bump_rtick (bump_tick w) in
   let '(w2, r) := exec (Open p O_WRONLY_CREATE_EXCL) w1 in
   match r with ROk fd => (set_fd w2 fd None, Ok (candidate w 0)) | RErr _ => run (CreateBoardArticleFilename fuel wd b) w2 end).
Proof.
  intros E. cbn [CreateBoardArticleFilename run].
  change (exec Now w) with (bump_tick w, w_clock w (w_tick w)). cbv beta iota.
  change (exec (Rand 4096) (bump_tick w)) with (bump_rtick (bump_tick w), w_rand w (w_rtick w) mod 4096). cbv beta iota zeta. cbn [w_rand w_rtick bump_tick].
  unfold candidate in E |- *. rewrite !Nat.add_0_r in E |- *.
  change (str "M." ++ fmt_d (w_clock w (w_tick w)) ++ str ".A." ++ fmt_3X (w_rand w (w_rtick w) mod 4096))
    with (article_name (w_clock w (w_tick w)) (w_rand w (w_rtick w) mod 4096)) in *.
  rewrite E. cbv zeta. cbn [run]. destruct (exec (Open p O_WRONLY_CREATE_EXCL) _) as [w2 [fd|e]]; reflexivity.
Qed.
Lemma run_dated fuel w p t : GetBoardArticleFilePath wd b (dated t w 0) = Ok p ->
  run (create_fixed_time (S fuel) wd b t) w =
  (let '(w2, r) := exec (Open p O_WRONLY_CREATE_EXCL) (bump_rtick w) in
   match r with ROk fd => (w2, Ok (dated t w 0, fd)) | RErr _ => run (create_fixed_time fuel wd b t) w2 end).
Proof.
  intros E. cbn [create_fixed_time run].
  change (exec (Rand 4096) w) with (bump_rtick w, w_rand w (w_rtick w) mod 4096). cbv beta iota zeta. cbn [w_rand w_rtick bump_tick].
  unfold dated in E |- *. rewrite !Nat.add_0_r in E |- *.
  rewrite E. cbn [run]. destruct (exec (Open p O_WRONLY_CREATE_EXCL) _) as [w2 [fd|e]]; reflexivity.
Qed.
Lemma candidate_path w n : exists p, GetBoardArticleFilePath wd b (candidate w n) = Ok p.
Proof. exact (article_path wd w Nw b _ _ Ib). Qed.
Lemma dated_path t w n : exists p, GetBoardArticleFilePath wd b (dated t w n) = Ok p.
Proof. exact (article_path wd w Nw b _ _ Ib). Qed.

Lemma candidate_is w n : exists t r, candidate w n = article_name t r.
Proof. eexists _, _. reflexivity. Qed.
Lemma dated_is t w n : exists t' r, dated t w n = article_name t' r.
Proof. eexists _, _. reflexivity. Qed.
Definition can_write (w : world) (fd : N) : Prop := forall d, exists w3 m, exec (Write fd d) w = (w3, ROk m).
Lemma open_free w n p : look w (board_dir w wd b) = Some EDir ->
  (exists t r, n = article_name t r) -> GetBoardArticleFilePath wd b n = Ok p ->
  look w (board_entry w wd b n) = None -> exists w2 fd, exec (Open p O_WRONLY_CREATE_EXCL) w = (w2, ROk fd) /\ can_write w2 fd.
Proof.
  intros D (t & r & ->) E L. pose proof (article_names wd w b t r p Ib Nw E) as Nm.
  rewrite (open_create w p O_WRONLY_CREATE_EXCL _ Nm L eq_refl); [|unfold has_dir; now rewrite board_entry_parent].
  eexists _, _. split; [reflexivity|]. intros d. cbn [exec]. unfold sys_write. cbn [w_fds bump_fd set_fd]. 
  destruct N.eq_dec; [|congruence]. eexists _, _. reflexivity.
Qed.

Lemma filename_returns : forall n w, look w (board_dir w wd b) = Some EDir ->
  look w (board_entry w wd b (candidate w n)) = None ->
  forall fuel, (n < fuel)%nat -> exists w' nm, run (CreateBoardArticleFilename fuel wd b) w = (w', Ok nm).
Proof.
  induction n as [|n IH]; intros w D L fuel Hf; (destruct fuel as [|fuel]; [lia|]); destruct (candidate_path w 0) as [p Ep];
    rewrite (run_attempt fuel w p Ep); cbv zeta.
  - destruct (open_free (bump_rtick (bump_tick w)) (candidate w 0) p D (candidate_is w 0) Ep) as (w2 & fd & -> & Hw); [assumption|].
    eexists _, _. reflexivity.
  - set (w1 := bump_rtick (bump_tick w)).
    destruct (look w (board_entry w wd b (candidate w 0))) as [e|] eqn:L0.
    + destruct (open_taken wd w1 b _ _ p Ib Nw Ep) as [er ->].
      { change (look w (board_entry w wd b (candidate w 0)) <> None). congruence. }
      apply (IH w1); [exact D| |lia]. unfold w1. rewrite bump_candidate. exact L.
    + destruct (open_free w1 (candidate w 0) p D (candidate_is w 0) Ep) as (w2 & fd & -> & Hw); [assumption|]. eexists _, _. reflexivity.
Qed.
Lemma dated_returns : forall n w t, look w (board_dir w wd b) = Some EDir ->
  look w (board_entry w wd b (dated t w n)) = None ->
  forall fuel, (n < fuel)%nat -> exists w' nm fd, run (create_fixed_time fuel wd b t) w = (w', Ok (nm, fd)) /\ can_write w' fd.
Proof.
  induction n as [|n IH]; intros w t D L fuel Hf; (destruct fuel as [|fuel]; [lia|]); destruct (dated_path t w 0) as [p Ep];
    rewrite (run_dated fuel w p t Ep).
  - destruct (open_free (bump_rtick w) (dated t w 0) p D (dated_is t w 0) Ep) as (w2 & fd & -> & Hw); [assumption|].
    eexists _, _, _. split; [reflexivity|exact Hw].
  - set (w1 := bump_rtick w).
    destruct (look w (board_entry w wd b (dated t w 0))) as [e|] eqn:L0.
    + destruct (open_taken wd w1 b _ _ p Ib Nw Ep) as [er ->].
      { change (look w (board_entry w wd b (dated t w 0)) <> None). congruence. }
      apply (IH w1 t); [exact D| |lia]. unfold w1. rewrite bump_dated. exact L.
    + destruct (open_free w1 (dated t w 0) p D (dated_is t w 0) Ep) as (w2 & fd & -> & Hw); [assumption|]. eexists _, _, _. split; [reflexivity|exact Hw].
Qed.

Lemma filename_diverges : forall fuel w, sane w -> look w (board_dir w wd b) <> Some EDir ->
  exists w', run (CreateBoardArticleFilename fuel wd b) w = (w', Diverge).
Proof.
  induction fuel as [|fuel IH]; intros w Sw D; [eexists; reflexivity|]. destruct (candidate_path w 0) as [p Ep].
  rewrite (run_attempt fuel w p Ep). cbv zeta.
  edestruct (open_no_dir wd (bump_rtick (bump_tick w)) b) as [e ->]; [exact Ib|exact Nw|now apply sane_rtick, sane_tick|exact Ep|exact D|].
  apply IH; [now apply sane_rtick, sane_tick|exact D].
Qed.
Lemma dated_diverges : forall fuel w t, sane w ->
  look w (board_dir w wd b) <> Some EDir \/
  (forall n, look w (board_entry w wd b (dated t w n)) <> None) ->
  exists w', run (create_fixed_time fuel wd b t) w = (w', Diverge).
Proof.
  induction fuel as [|fuel IH]; intros w t Sw D; [eexists; reflexivity|]. destruct (dated_path t w 0) as [p Ep].
  rewrite (run_dated fuel w p t Ep).
  assert (exists e, exec (Open p O_WRONLY_CREATE_EXCL) (bump_rtick w) = (bump_rtick w, RErr e)) as [e ->].
  { destruct D as [D|D].
    - eapply (open_no_dir wd (bump_rtick w) b); [exact Ib|exact Nw|now apply sane_rtick|exact Ep|exact D].
    - apply (open_taken wd (bump_rtick w) b _ _ p Ib Nw Ep). exact (D 0%nat). }
  apply IH; [now apply sane_rtick|]. destruct D as [D|D]; [now left|right].
  intros n. rewrite bump_dated. exact (D (S n)).
Qed.
End Search.

(** ** Different times give different names *)
Lemma str_inj a b : str a = str b -> a = b.
Proof. intros E. apply (f_equal string_of_list_byte) in E. unfold str in E. now rewrite !string_of_list_byte_of_string in E. Qed.
Lemma fmt_d_inj t t' : fmt_d t = fmt_d t' -> t = t'.
Proof.
  assert (U : forall m n, str (NilEmpty.string_of_uint (N.to_uint m)) = str (NilEmpty.string_of_uint (N.to_uint n)) -> m = n).
  { intros m n E. apply str_inj in E. apply (f_equal NilEmpty.uint_of_string) in E. rewrite !NilEmpty.usu in E.
    injection E as E. now apply DecimalN.Unsigned.to_uint_inj. }
  assert (P : forall p x, fmt_d (Zneg p) = str (NilEmpty.string_of_uint x) -> False).
  { intros p x. cbn [fmt_d]. destruct x; cbn; discriminate. }
  destruct t as [|p|p], t' as [|q|q]; intros E; auto; try (exfalso; exact (P _ _ E)); try (exfalso; exact (P _ _ (eq_sym E))).
  - apply (U 0 (Npos q)) in E. discriminate.
  - apply (U (Npos p) 0) in E. discriminate.
  - apply (U (Npos p) (Npos q)) in E. now injection E as ->.
  - cbn [fmt_d] in E. injection E as E. apply (U (Npos p) (Npos q)) in E. now injection E as ->.
Qed.
Lemma split_dot a : forall a' x y, ~ In x2e a -> ~ In x2e a' -> a ++ x2e :: x = a' ++ x2e :: y -> a = a'.
Proof.
  induction a as [|c a IH]; intros [|c' a'] x y N N' E; auto.
  - cbn in E. injection E as <- _. exfalso. apply N'. now left.
  - cbn in E. injection E as -> _. exfalso. apply N. now left.
  - cbn in E. injection E as <- E. f_equal. apply (IH a' x y); auto; intros H; [apply N|apply N']; now right.
Qed.
Lemma article_name_time t r t' r' : article_name t r = article_name t' r' -> t = t'.
Proof.
  intros E. unfold article_name in E. apply app_inv_head in E. apply fmt_d_inj.
  apply (split_dot _ _ (str "A." ++ fmt_3X r) (str "A." ++ fmt_3X r')); [| |exact E];
    intros H; pose proof (fmt_d_chars t) as G; pose proof (fmt_d_chars t') as G'; rewrite Forall_forall in G, G';
    [apply G in H|apply G' in H]; apply digit_not in H; tauto.
Qed.
Lemma many_times w : clock_advances w -> forall k, exists ns M, length ns = k /\
  NoDup (map (fun n => w_clock w (w_tick w + n)%nat) ns) /\ forall n, In n ns -> (w_clock w (w_tick w + n)%nat <= M)%Z.
Proof.
  intros A. induction k as [|k (ns & M & L & ND & B)].
  - exists [], 0%Z. split; [reflexivity|]. split; [constructor|]. contradiction.
  - destruct (A (M + 1)%Z) as [n Hn]. exists (n :: ns), (w_clock w (w_tick w + n)%nat). split; [now cbn; rewrite L|]. split.
    + cbn [map]. constructor; [|exact ND]. intros H. apply in_map_iff in H. destruct H as (m & E & Hm). apply B in Hm. lia.
    + intros m [<-|Hm]; [lia|]. apply B in Hm. lia.
Qed.
Lemma free_candidate w (l : list bytes) : clock_advances w -> exists n, ~ In (candidate w n) l.
Proof.
  intros A. destruct (many_times w A (S (length l))) as (ns & M & L & ND & _).
  assert (NN : NoDup (map (candidate w) ns)).
  { clear L. induction ns as [|n ns IH]; [constructor|]. cbn [map] in *. apply NoDup_cons_iff in ND. destruct ND as [N1 N2].
    constructor; [|auto]. intros H. apply in_map_iff in H. destruct H as (m & E & Hm). apply N1. apply in_map_iff. exists m. split; [|exact Hm].
    now apply article_name_time in E. }
  assert (D : forall xs, (forall n, In n xs -> In (candidate w n) l) \/ exists n, ~ In (candidate w n) l).
  { induction xs as [|x xs [IH|IH]]; [left; contradiction| |now right].
    destruct (in_dec (list_eq_dec byte_eq_dec) (candidate w x) l) as [H|H]; [|right; eauto]. left. intros n [<-|Hn]; auto. }
  destruct (D ns) as [H|H]; [|exact H]. exfalso.
  assert (Q : (length (map (candidate w) ns) <= length l)%nat).
  { apply NoDup_incl_length; [exact NN|]. intros x Hx. apply in_map_iff in Hx. destruct Hx as (n & <- & Hn). auto. }
  rewrite map_length, L in Q. lia.
Qed.
