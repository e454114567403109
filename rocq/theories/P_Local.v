(** * Programs that work on one file

    What a program does to one file, step by step, as long as nobody else touches
    this file: a weakest precondition over the content of the file and the one
    descriptor the program holds. *)
From Coq Require Import Lia ZifyBool ZifyNat ZifyN.
From Verif Require Import M_Base M_Sys M_Path M_File M_Board M_Userec M_FileOps M_DB.
From Verif Require Import S_World S_Path S_Layout S_File S_Board S_Userec S_BoardList S_Store S_Pool.
From Verif Require Import P_Base P_Layout P_Records P_Sys P_Read P_Path P_FileOps P_BoardList P_Store.
Open Scope N_scope.

Record view := View {
  v_data : option bytes;
  v_fd : option (N * (N * bool * bool * bool)) }.   (* position, append, readable, writable *)
Definition v_held (v : view) : option N := option_map fst (v_fd v).

(** [m] bounds the number of steps considered. *)
Fixpoint wp {A} (pt : bytes) (m : nat) (p : prog A) (Q : nat -> view -> A -> Prop) (v : view) {struct p} : Prop :=
  match p with
  | Ret a => Q m v a
  | Call c k =>
      match m with
      | O => True
      | Datatypes.S m' =>
          match c in sys R return (R -> prog A) -> Prop with
          | Open q fl => fun k => q = pt /\
              match v_data v with
              | Some d => o_creat fl && o_excl fl = false /\
                  forall fd, wp pt m' (k (ROk fd)) Q
                    (View (Some (if o_trunc fl then [] else d)) (Some (fd, (0, o_append fl, o_rd fl, o_wr fl))))
              | None =>
                  if o_creat fl then forall fd, wp pt m' (k (ROk fd)) Q
                    (View (Some []) (Some (fd, (0, o_append fl, o_rd fl, o_wr fl))))
                  else wp pt m' (k (RErr ENOENT)) Q v
              end
          | Read fd n => fun k => exists d pos app wr, v = View (Some d) (Some (fd, (pos, app, true, wr))) /\
              wp pt m' (k (ROk (sub pos n d))) Q (View (Some d) (Some (fd, (pos + lenN (sub pos n d), app, true, wr))))
          | ReadAll fd => fun k => exists d pos app wr, v = View (Some d) (Some (fd, (pos, app, true, wr))) /\
              wp pt m' (k (ROk (skipn (N.to_nat pos) d))) Q
                (View (Some d) (Some (fd, (pos + lenN (skipn (N.to_nat pos) d), app, true, wr))))
          | Write fd x => fun k => exists d pos app rd, v = View (Some d) (Some (fd, (pos, app, rd, true))) /\
              wp pt m' (k (ROk (lenN x))) Q
                (View (Some (write_at (if app then lenN d else pos) x d))
                      (Some (fd, ((if app then lenN d else pos) + lenN x, app, rd, true))))
          | SeekSet fd off => fun k => exists d pos app rd wr, v = View (Some d) (Some (fd, (pos, app, rd, wr))) /\ (0 <= off)%Z /\
              wp pt m' (k (ROk (Z.to_N off))) Q (View (Some d) (Some (fd, (Z.to_N off, app, rd, wr))))
          | Close fd => fun k => v_held v = Some fd /\ wp pt m' (k tt) Q (View (v_data v) None)
          | Stat q => fun k => q = pt /\
              wp pt m' (k (match v_data v with Some _ => ROk false | None => RErr ENOENT end)) Q v
          | Unlink q => fun k => q = pt /\
              match v_data v with
              | Some _ => wp pt m' (k (ROk tt)) Q (View None None)
              | None => wp pt m' (k (RErr ENOENT)) Q v
              end
          | _ => fun _ => False
          end k
      end
  end.

Lemma wp_bind {A B} pt (p : prog A) (f : A -> prog B) Q : forall m v,
  wp pt m p (fun m v a => wp pt m (f a) Q v) v -> wp pt m (bind p f) Q v.
Proof.
  induction p as [a|R c k IH]; intros m v H; [exact H|]. destruct m as [|m]; [exact Logic.I|].
  cbn [bind]. destruct c; cbn [wp] in *; try contradiction.
  - destruct H as [-> H]. split; [reflexivity|]. destruct (v_data v) as [d|].
    + destruct H as [Hx H]. split; [exact Hx|]. intros fd. now apply IH.
    + destruct (o_creat fl); [intros fd|]; now apply IH.
  - destruct H as (d & pos & app & wr & -> & H). exists d, pos, app, wr. split; [reflexivity|]. now apply IH.
  - destruct H as (d & pos & app & wr & -> & H). exists d, pos, app, wr. split; [reflexivity|]. now apply IH.
  - destruct H as (x & pos & app & rd & -> & H). exists x, pos, app, rd. split; [reflexivity|]. now apply IH.
  - destruct H as (x & pos & app & rd & wr & -> & Ho & H). exists x, pos, app, rd, wr. split; [reflexivity|]. split; [exact Ho|]. now apply IH.
  - destruct H as [Hh H]. split; [exact Hh|]. now apply IH.
  - destruct H as [-> H]. split; [reflexivity|]. now apply IH.
  - destruct H as [-> H]. split; [reflexivity|]. destruct (v_data v); now apply IH.
Qed.
Lemma wp_weaken {A} pt (p : prog A) (Q Q' : nat -> view -> A -> Prop) :
  (forall m v a, Q (Datatypes.S m) v a -> Q' m v a) ->
  forall m v, wp pt (Datatypes.S m) p Q v -> wp pt m p Q' v.
Proof.
  intros HQ. induction p as [a|R c k IH]; intros m v H; [now apply HQ|]. destruct m as [|m]; [exact Logic.I|].
  destruct c; cbn [wp] in *; try contradiction.
  - destruct H as [-> H]. split; [reflexivity|]. destruct (v_data v) as [d|].
    + destruct H as [Hx H]. split; [exact Hx|]. intros fd. now apply IH.
    + destruct (o_creat fl); [intros fd|]; now apply IH.
  - destruct H as (d & pos & app & wr & -> & H). exists d, pos, app, wr. split; [reflexivity|]. now apply IH.
  - destruct H as (d & pos & app & wr & -> & H). exists d, pos, app, wr. split; [reflexivity|]. now apply IH.
  - destruct H as (x & pos & app & rd & -> & H). exists x, pos, app, rd. split; [reflexivity|]. now apply IH.
  - destruct H as (x & pos & app & rd & wr & -> & Ho & H). exists x, pos, app, rd, wr. split; [reflexivity|]. split; [exact Ho|]. now apply IH.
  - destruct H as [Hh H]. split; [exact Hh|]. now apply IH.
  - destruct H as [-> H]. split; [reflexivity|]. now apply IH.
  - destruct H as [-> H]. split; [reflexivity|]. destruct (v_data v); now apply IH.
Qed.
Lemma wp_ext {A} pt (p : prog A) (Q Q' : nat -> view -> A -> Prop) :
  (forall m v a, Q m v a -> Q' m v a) -> forall m v, wp pt m p Q v -> wp pt m p Q' v.
Proof.
  intros HQ. induction p as [a|R c k IH]; intros m v H; [now apply HQ|]. destruct m as [|m]; [exact Logic.I|].
  destruct c; cbn [wp] in *; try contradiction.
  - destruct H as [-> H]. split; [reflexivity|]. destruct (v_data v) as [d|].
    + destruct H as [Hx H]. split; [exact Hx|]. intros fd. now apply IH.
    + destruct (o_creat fl); [intros fd|]; now apply IH.
  - destruct H as (d & pos & app & wr & -> & H). exists d, pos, app, wr. split; [reflexivity|]. now apply IH.
  - destruct H as (d & pos & app & wr & -> & H). exists d, pos, app, wr. split; [reflexivity|]. now apply IH.
  - destruct H as (x & pos & app & rd & -> & H). exists x, pos, app, rd. split; [reflexivity|]. now apply IH.
  - destruct H as (x & pos & app & rd & wr & -> & Ho & H). exists x, pos, app, rd, wr. split; [reflexivity|]. split; [exact Ho|]. now apply IH.
  - destruct H as [Hh H]. split; [exact Hh|]. now apply IH.
  - destruct H as [-> H]. split; [reflexivity|]. now apply IH.
  - destruct H as [-> H]. split; [reflexivity|]. destruct (v_data v); now apply IH.
Qed.

(** ** One step in a real file system *)
Definition view_ok (w : world) (rp : rpath) (v : view) : Prop :=
  look w rp = option_map EFile (v_data v) /\
  match v_fd v with
  | None => True
  | Some (fd, (pos, app, rd, wr)) =>
      exists ino, w_tree w rp = Some (NFile ino) /\ w_fds w fd = Some (OFile (Some ino) pos app rd wr)
  end.

(** what a step on the file [rp] leaves alone *)
Definition local_step (rp : rpath) (held : option N) (w w1 : world) : Prop :=
  same_else rp w w1 /\ w_nextfd w <= w_nextfd w1 /\
  (forall fd, fd < w_nextfd w -> held <> Some fd -> w_fds w1 fd = w_fds w fd) /\
  (forall q, q <> rp -> w_tree w1 q = w_tree w q).

Lemma wp_step {A R} pt rp m (c : sys R) (k : R -> prog A) Q v w :
  sane w -> names w pt rp -> has_dir w rp -> view_ok w rp v -> (forall fd, v_held v = Some fd -> fd < w_nextfd w) ->
  wp pt (Datatypes.S m) (Call c k) Q v ->
  exists v', sane (fst (exec c w)) /\ local_step rp (v_held v) w (fst (exec c w)) /\
    view_ok (fst (exec c w)) rp v' /\ wp pt m (k (snd (exec c w))) Q v' /\
    (v_held v' = None \/ v_held v' = v_held v \/
     v_held v' = Some (w_nextfd w) /\ w_nextfd w < w_nextfd (fst (exec c w))).
Proof.
  intros S N D [Lo Hfd] Lt H.
  assert (Refl : local_step rp (v_held v) w w).
  { split; [apply same_else_refl|]. split; [lia|]. auto. }
  destruct c; cbn [wp] in H; try contradiction.
  - (* Open *)
    destruct H as [-> H]. destruct (v_data v) as [d|] eqn:Ed; cbn [option_map] in Lo.
    + destruct H as [Hx H]. destruct (open_existing w pt fl rp d N Lo Hx) as (ino & T & Da & X). rewrite X. cbn [fst snd].
      pose proof (look_file _ _ _ Lo) as (_ & _ & _ & Nn).
      assert (Sb : sane (if o_trunc fl then set_data w ino [] else w)) by (destruct (o_trunc fl); [now apply sane_set_data|exact S]).
      assert (Nf : w_nextfd (if o_trunc fl then set_data w ino [] else w) = w_nextfd w) by (now destruct (o_trunc fl)).
      assert (Ni : w_nexti (if o_trunc fl then set_data w ino [] else w) = w_nexti w) by (now destruct (o_trunc fl)).
      assert (Tr : w_tree (if o_trunc fl then set_data w ino [] else w) = w_tree w) by (now destruct (o_trunc fl)).
      assert (Fd : w_fds (if o_trunc fl then set_data w ino [] else w) = w_fds w) by (now destruct (o_trunc fl)).
      assert (Cw : w_cwd (if o_trunc fl then set_data w ino [] else w) = w_cwd w) by (now destruct (o_trunc fl)).
      assert (Lr : look (if o_trunc fl then set_data w ino [] else w) rp = Some (EFile (if o_trunc fl then [] else d))).
      { destruct (o_trunc fl); [now apply look_set_data|exact Lo]. }
      assert (Le : forall q, q <> rp -> look (if o_trunc fl then set_data w ino [] else w) q = look w q).
      { intros q Hq. destruct (o_trunc fl); [now apply look_set_data_other with (rp := rp)|reflexivity]. }
      set (wb := if o_trunc fl then set_data w ino [] else w) in *. clearbody wb.
      eexists. split; [|split; [|split; [|split; [apply (H (w_nextfd w))|]]]].
      * rewrite <- Nf. apply sane_new_fd; [exact Sb|]. cbn. intros j [= <-]. rewrite Ni. eapply sane_ino; eauto.
      * split; [split; [exact Cw|intros q Hq; now rewrite look_bump_fd, look_set_fd, Le]|]. split; [cbn; lia|]. split.
        { intros fd Hlt _. cbn. destruct N.eq_dec; [lia|now rewrite Fd]. }
        intros q _. cbn. now rewrite Tr.
      * split; [now rewrite look_bump_fd, look_set_fd|]. cbn. exists ino. rewrite Tr. split; [exact T|].
        destruct N.eq_dec; [reflexivity|congruence].
      * right. right. split; [reflexivity|]. cbn. lia.
    + destruct (o_creat fl) eqn:Cf.
      * rewrite (open_create w pt fl rp N Lo Cf D). cbn [fst snd].
        destruct (look_none _ _ Lo) as [Tn Nn].
        set (wc := bump_ino (set_data (set_tree w rp (Some (NFile (w_nexti w)))) (w_nexti w) [])).
        assert (Sc : sane wc) by (apply sane_create; auto).
        eexists. split; [|split; [|split; [|split; [apply (H (w_nextfd w))|]]]].
        -- change (w_nextfd w) with (w_nextfd wc). apply sane_new_fd; [exact Sc|]. cbn. intros j [= <-]. lia.
        -- split; [split; [reflexivity|]|].
           { intros q Hq. rewrite look_bump_fd, look_set_fd. now apply look_create_other. }
           split; [cbn; lia|]. split.
           { intros fd Hlt _. cbn. destruct N.eq_dec; [lia|reflexivity]. }
           intros q Hq. cbn. destruct rp_eq_dec; [congruence|reflexivity].
        -- split.
           { assert (T1 : w_tree wc rp = Some (NFile (w_nexti w))) by (cbn; destruct rp_eq_dec; congruence).
             rewrite look_bump_fd, look_set_fd. cbn [v_data option_map]. unfold look. fold wc. rewrite T1.
             destruct rp; [contradiction|]. cbn. now destruct N.eq_dec. }
           cbn. exists (w_nexti w). split; [destruct rp_eq_dec; congruence|]. destruct N.eq_dec; [reflexivity|congruence].
        -- right. right. split; [reflexivity|]. cbn. lia.
      * rewrite (open_missing w pt fl rp N Lo (or_introl Cf)), (missing_enoent w rp S D). cbn [fst snd].
        exists v. split; [exact S|]. split; [exact Refl|]. split; [split; [now rewrite Ed|exact Hfd]|]. split; [exact H|]. auto.
  - (* Read *)
    destruct H as (d & pos & app & wr & -> & H). cbn [v_fd v_data option_map] in *. destruct Hfd as (ino & T & F).
    destruct (look_file _ _ _ Lo) as (ino' & T' & Da & Nn). rewrite T in T'. injection T' as <-.
    rewrite (exec_read w fd _ ino n F eq_refl eq_refl). cbn [of_pos of_append of_rd of_wr fst snd]. rewrite Da.
    specialize (Lt fd eq_refl).
    eexists. split; [|split; [|split; [|split; [exact H|right; left; reflexivity]]]].
    + apply sane_set_fd; [exact S|exact Lt|]. intros q j [= <-] [= <-]. eapply sane_ino; eauto.
    + split; [split; [reflexivity|intros q _; reflexivity]|]. split; [cbn; lia|]. split; [|reflexivity].
      intros g Hg Ng. cbn. destruct N.eq_dec as [->|]; [|reflexivity]. exfalso. now apply Ng.
    + split; [exact Lo|]. cbn. exists ino. split; [exact T|]. destruct N.eq_dec; [reflexivity|congruence].
  - (* ReadAll *)
    destruct H as (d & pos & app & wr & -> & H). cbn [v_fd v_data option_map] in *. destruct Hfd as (ino & T & F).
    destruct (look_file _ _ _ Lo) as (ino' & T' & Da & Nn). rewrite T in T'. injection T' as <-.
    cbn [exec]. unfold sys_read_all. rewrite F. cbn [of_ino of_pos of_append of_rd of_wr fst snd]. rewrite Da.
    specialize (Lt fd eq_refl).
    eexists. split; [|split; [|split; [|split; [exact H|right; left; reflexivity]]]].
    + apply sane_set_fd; [exact S|exact Lt|]. intros q j [= <-] [= <-]. eapply sane_ino; eauto.
    + split; [split; [reflexivity|intros q _; reflexivity]|]. split; [cbn; lia|]. split; [|reflexivity].
      intros g Hg Ng. cbn. destruct N.eq_dec as [->|]; [|reflexivity]. exfalso. now apply Ng.
    + split; [exact Lo|]. cbn. exists ino. split; [exact T|]. destruct N.eq_dec; [reflexivity|congruence].
  - (* Write *)
    destruct H as (x & pos & app & rd & -> & H). cbn [v_fd v_data option_map] in *. destruct Hfd as (ino & T & F).
    destruct (look_file _ _ _ Lo) as (ino' & T' & Da & Nn). rewrite T in T'. injection T' as <-.
    rewrite (exec_write w fd _ ino d F eq_refl eq_refl). cbn [of_pos of_append of_rd of_wr fst snd]. rewrite Da.
    specialize (Lt fd eq_refl).
    eexists. split; [|split; [|split; [|split; [exact H|right; left; reflexivity]]]].
    + apply sane_set_fd; [now apply sane_set_data|exact Lt|]. intros q j [= <-] [= <-]. change (ino < w_nexti w). eapply sane_ino; eauto.
    + split; [split; [reflexivity|intros q Hq; rewrite look_set_fd; now apply look_set_data_other with (rp := rp)]|]. split; [cbn; lia|]. split; [|reflexivity].
      intros g Hg Ng. cbn. destruct N.eq_dec as [->|]; [|reflexivity]. exfalso. now apply Ng.
    + split; [rewrite look_set_fd; now apply look_set_data|]. cbn. exists ino. split; [exact T|]. destruct N.eq_dec; [reflexivity|congruence].
  - (* SeekSet *)
    destruct H as (x & pos & app & rd & wr & -> & Ho & H). cbn [v_fd v_data option_map] in *. destruct Hfd as (ino & T & F).
    cbn [exec]. unfold sys_seek_set. rewrite F. assert ((off <? 0)%Z = false) as -> by lia.
    cbn [of_ino of_pos of_append of_rd of_wr fst snd].
    specialize (Lt fd eq_refl).
    eexists. split; [|split; [|split; [|split; [exact H|right; left; reflexivity]]]].
    + apply sane_set_fd; [exact S|exact Lt|]. intros q j [= <-] [= <-]. eapply sane_ino; eauto.
    + split; [split; [reflexivity|intros q _; reflexivity]|]. split; [cbn; lia|]. split; [|reflexivity].
      intros g Hg Ng. cbn. destruct N.eq_dec as [->|]; [|reflexivity]. exfalso. now apply Ng.
    + split; [exact Lo|]. cbn. exists ino. split; [exact T|]. destruct N.eq_dec; [reflexivity|congruence].
  - (* Close *)
    destruct H as [Hh H]. cbn [exec fst snd].
    eexists. split; [|split; [|split; [|split; [exact H|left; reflexivity]]]].
    + now apply sane_close.
    + split; [split; [reflexivity|intros q _; reflexivity]|]. split; [cbn; lia|]. split; [|reflexivity].
      intros g Hg Ng. cbn. destruct N.eq_dec as [->|]; [|reflexivity]. exfalso. now apply Ng.
    + split; [exact Lo|exact Logic.I].
  - (* Stat *)
    destruct H as [-> H]. exists v.
    assert (E : exec (Stat pt) w = (w, match v_data v with Some _ => ROk false | None => RErr ENOENT end)).
    { destruct (v_data v) as [d|]; cbn [option_map] in Lo.
      - exact (stat_file pt w rp d N Lo).
      - rewrite (stat_missing pt w rp N Lo). now rewrite missing_enoent. }
    rewrite E. cbn [fst snd]. split; [exact S|]. split; [exact Refl|]. split; [split; assumption|]. auto.
  - (* Unlink *)
    destruct H as [-> H]. destruct (v_data v) as [d|] eqn:Ed; cbn [option_map] in Lo.
    + destruct (unlink_file pt w rp d S N Lo) as (U & S' & L' & B). rewrite U. cbn [fst snd].
      eexists. split; [exact S'|]. split; [|split; [|split; [exact H|left; reflexivity]]].
      * split; [now apply same_but_else|]. split; [cbn; lia|]. split; [reflexivity|].
        intros q Hq. cbn. destruct rp_eq_dec; [congruence|reflexivity].
      * split; [exact L'|exact Logic.I].
    + rewrite (unlink_missing pt w rp N Lo), (missing_enoent w rp S D). cbn [fst snd].
      exists v. split; [exact S|]. split; [exact Refl|]. split; [split; [now rewrite Ed|exact Hfd]|]. auto.
Qed.

(** ** Every library call *)
Definition res_map {A} (k : A -> answer) (o : outcome A) : outcome answer :=
  match o with Ok a => Ok (k a) | Err e => Err e | Panic => Panic | Diverge => Diverge end.
Lemma wp_answer {A} pt m (k : A -> answer) p (P : option bytes -> outcome answer -> Prop) v :
  wp pt m p (fun _ v o => P (v_data v) (res_map k o)) v -> wp pt m (answer_with k p) (fun _ v o => P (v_data v) o) v.
Proof.
  intros H. unfold answer_with, pbind. apply wp_bind. eapply wp_ext; [|exact H]. intros m' v' [a|e| |] Q; exact Q.
Qed.

Lemma wp_open_write pt m fl data old (P : option bytes -> outcome unit -> Prop) :
  o_wr fl = true -> o_creat fl && o_excl fl = false ->
  (forall d, old = Some d -> P (Some (written fl data d)) (Ok tt)) ->
  (old = None -> if o_creat fl then P (Some (written fl data [])) (Ok tt) else P None (Err (ESys ENOENT))) ->
  wp pt m (open_write fl pt data) (fun _ v o => P (v_data v) o) (View old None).
Proof.
  intros W X H1 H2. destruct m as [|m]; [exact Logic.I|]. split; [reflexivity|]. cbn [v_data].
  destruct old as [d|].
  - split; [exact X|]. intros fd. destruct m as [|m]; [exact Logic.I|]. cbn [wp]. rewrite W.
    eexists _, _, _, _. split; [reflexivity|]. destruct m as [|m]; [exact Logic.I|]. split; [reflexivity|].
    exact (H1 d eq_refl).
  - specialize (H2 eq_refl). destruct (o_creat fl); [|exact H2]. intros fd. destruct m as [|m]; [exact Logic.I|]. cbn [wp]. rewrite W.
    eexists _, _, _, _. split; [reflexivity|]. destruct m as [|m]; [exact Logic.I|]. split; [reflexivity|].
    unfold written in H2. destruct (o_trunc fl); exact H2.
Qed.

Lemma wp_read_all pt m old (P : option bytes -> outcome bytes -> Prop) :
  (forall d, old = Some d -> P (Some d) (Ok d)) -> (old = None -> P None (Err (ESys ENOENT))) ->
  wp pt m (open_read_all pt) (fun _ v o => P (v_data v) o) (View old None).
Proof.
  intros H1 H2. destruct m as [|m]; [exact Logic.I|]. split; [reflexivity|]. cbn [v_data].
  destruct old as [d|]; [|exact (H2 eq_refl)].
  split; [reflexivity|]. intros fd. destruct m as [|m]; [exact Logic.I|]. cbn [wp].
  eexists _, _, _, _. split; [reflexivity|]. destruct m as [|m]; [exact Logic.I|]. split; [reflexivity|].
  exact (H1 d eq_refl).
Qed.

Lemma wp_read_loop {X} pt size (dec : bytes -> outcome X) closes fd d (P : option bytes -> outcome (list X) -> Prop) :
  0 < size -> decodes size dec ->
  (forall l, Forall2 (fun s a => dec s = Ok a) (cut size d) l -> P (Some d) (Ok l)) ->
  forall n m pos acc pre,
  (m < n)%nat -> Forall2 (fun s a => dec s = Ok a) pre (rev acc) ->
  cut size d = pre ++ cut size (skipn (N.to_nat pos) d) ->
  wp pt m (read_loop size dec false closes n fd acc) (fun _ v o => P (v_data v) o) (View (Some d) (Some (fd, (pos, false, true, false)))).
Proof.
  intros Pos Dd HP. induction n as [|n IH]; intros m pos acc pre Hm G Ec; [lia|].
  destruct m as [|m]; [exact Logic.I|]. cbn [read_loop wp].
  exists d, pos, false, false. split; [reflexivity|].
  set (rest := skipn (N.to_nat pos) d) in *.
  assert (Sb : sub pos size d = sub 0 size rest) by reflexivity. rewrite Sb.
  destruct rest as [|b rest0] eqn:Er.
  - replace (sub 0 size []) with (@nil byte) by (unfold sub; cbn; now rewrite firstn_nil).
    rewrite cut_nil, app_nil_r in Ec. assert (R : P (Some d) (Ok (rev acc))) by (apply HP; now rewrite Ec).
    unfold close_if. destruct closes; [|exact R]. destruct m as [|m]; [exact Logic.I|]. split; [reflexivity|exact R].
  - rewrite <- Er in Ec |- *.
    assert (Nr : rest <> []) by (rewrite Er; discriminate).
    destruct (sub 0 size rest) as [|x y] eqn:Es.
    { exfalso. apply (f_equal (@length byte)) in Es. unfold sub in Es. cbn [N.to_nat skipn] in Es. rewrite firstn_length, Er in Es. cbn [length] in Es. lia. }
    rewrite <- Es. destruct (Dd (fill size (sub 0 size rest)) (lenN_fill _ _)) as [a Ea].
    cbv beta iota zeta. rewrite Es, <- Es. cbn [negb]. rewrite Ea.
    assert (Le : lenN (sub 0 size rest) = N.min size (lenN rest)).
    { unfold sub, lenN. cbn [N.to_nat skipn]. rewrite firstn_length. lia. }
    apply (IH m _ (a :: acc) (pre ++ [fill size (sub 0 size rest)])); [lia| |].
    + cbn [rev]. apply Forall2_app; [exact G|]. constructor; [exact Ea|constructor].
    + rewrite Ec, (cut_step size rest Pos Nr), <- app_assoc. cbn [app]. do 2 f_equal.
      assert (Sk : skipn (N.to_nat size) rest = skipn (N.to_nat (pos + lenN (sub 0 size rest))) d).
      { rewrite Le. unfold rest. rewrite skipn_skipn. unfold lenN. rewrite skipn_length.
        destruct (N.le_gt_cases size (N.of_nat (length d - N.to_nat pos))) as [Q|Q].
        - f_equal. lia.
        - rewrite !skipn_all2 by lia. reflexivity. }
      now rewrite Sk.
Qed.
Lemma wp_records {X} pt size (dec : bytes -> outcome X) closes n m old (P : option bytes -> outcome (list X) -> Prop) :
  0 < size -> decodes size dec -> (m <= n)%nat ->
  (forall d l, old = Some d -> Forall2 (fun s a => dec s = Ok a) (cut size d) l -> P (Some d) (Ok l)) ->
  (old = None -> P None (Err (ESys ENOENT))) ->
  wp pt m (open_records size dec false closes n pt) (fun _ v o => P (v_data v) o) (View old None).
Proof.
  intros Pos Dd Hm H1 H2. destruct m as [|m]; [exact Logic.I|]. split; [reflexivity|]. cbn [v_data].
  destruct old as [d|]; [|exact (H2 eq_refl)]. split; [reflexivity|]. intros fd.
  apply (wp_read_loop pt size dec closes fd d P Pos Dd (fun l => H1 d l eq_refl) n m 0 [] []); [lia|constructor|reflexivity].
Qed.

Lemma write_article_meets cd b f c old :
  call_meets cd (WriteArticle b f c) old (Some (c ++ skipn (length c) (old_or_empty old))) (Ok Done).
Proof.
  split; [|reflexivity]. exists (skipn (length c) (old_or_empty old)). split; [reflexivity|].
  destruct (Nat.le_gt_cases (length (old_or_empty old)) (length c)) as [Q|Q].
  - left. split; [now apply skipn_all2|exact Q].
  - right. destruct old as [d|]; cbn [old_or_empty] in *; [|cbn in Q; lia].
    exists (firstn (length c) d). split; [now rewrite firstn_skipn|]. rewrite firstn_length. lia.
Qed.

Lemma call_wp cd wd c fuel p old m :
  call_ok c -> object_path wd (call_object c) = Ok p -> (m <= fuel)%nat ->
  wp p m (call_prog cd wd c fuel) (fun _ v r => call_meets cd c old (v_data v) r) (View old None).
Proof.
  intros [Pc Hi] E Hm.
  destruct c; cbn [call_object object_path] in E; cbn [call_prog]; apply wp_answer.
  - unfold AddArticleRecordFileRecord, pbind, lift. rewrite E. cbn [bind]. rewrite append_record_shape.
    apply wp_open_write with (P := fun d o => call_meets cd (AddRecord b f) old d (res_map (fun _ => Done) o)); try reflexivity.
    + intros d ->. unfold written. cbn [O_APPEND_CREATE_WRONLY o_trunc o_append]. rewrite write_at_end. exists (MarshalToByte cd f). split; [apply file_encode|auto].
    + intros ->. unfold written. cbn [O_APPEND_CREATE_WRONLY o_trunc o_append o_creat]. rewrite write_at_end. exists (MarshalToByte cd f). split; [apply file_encode|auto].
  - unfold UpdateArticleRecord, pbind, lift. rewrite E. cbn [bind]. unfold UpdateFileHeaderFileRecord.
    destruct m as [|m]; [exact Logic.I|]. split; [reflexivity|]. cbn [v_data].
    destruct old as [d|]; [|split; reflexivity]. split; [reflexivity|]. intros fd.
    destruct m as [|m]; [exact Logic.I|]. eexists _, _, _, _, _. split; [reflexivity|].
    rewrite update_offset by exact Hi. split; [lia|]. rewrite N2Z.id.
    destruct m as [|m]; [exact Logic.I|]. eexists _, _, _, _. split; [reflexivity|].
    destruct m as [|m]; [exact Logic.I|]. split; [reflexivity|].
    exists (MarshalToByte cd f), (write_at (i * 128) (MarshalToByte cd f) d). split; [apply file_encode|]. split; [|split; reflexivity].
    apply write_patched. intros Q. pose proof (marshal_length cd f) as X. rewrite Q in X. discriminate.
  - (* ListRecords *)
    unfold ReadBoardArticleRecordsFile, pbind, lift. rewrite E. cbn [bind]. apply wp_bind.
    eapply wp_ext; [intros m' v' o Q; exact Q|]. unfold OpenFileHeaderFile.
    apply wp_ext with (Q := fun _ v o => call_meets cd (ListRecords b) old (v_data v)
      (res_map Files match o with Err e => if says_no_such_file p e then Ok [] else Err e | _ => o end)).
    { intros m' v' o Q. destruct o as [l|e| |]; try exact Q. destruct (says_no_such_file p e); exact Q. }
    apply wp_records with (P := fun d o => call_meets cd (ListRecords b) old d
      (res_map Files match o with Err e => if says_no_such_file p e then Ok [] else Err e | _ => o end)); auto; [reflexivity|apply header_decodes| |].
    + intros d l -> G. split; [reflexivity|]. exists (cut 128 d), l. split; [exact (cut_slots 128 d eq_refl)|]. split; [|reflexivity].
      apply (decode_slots _ (NewFileHeaderWithByte cd)); [reflexivity| |exact G]. intros s Ls. apply file_decode. unfold lenN. lia.
    + intros ->. split; [reflexivity|]. exists [], []. split; [|split; [constructor|reflexivity]]. split; [constructor|]. exists 0%nat. cbn. split; [reflexivity|lia].
  - (* ListTreasures *)
    unfold ReadBoardTreasureRecordsFile, pbind, lift. rewrite E. cbn [bind]. unfold OpenFileHeaderFile.
    apply wp_records with (P := fun d o => call_meets cd (ListTreasures b path) old d (res_map Files o)); auto; [reflexivity|apply header_decodes| |].
    + intros d l -> G. split; [reflexivity|]. exists (cut 128 d), l. split; [exact (cut_slots 128 d eq_refl)|]. split; [|reflexivity].
      apply (decode_slots _ (NewFileHeaderWithByte cd)); [reflexivity| |exact G]. intros s Ls. apply file_decode. unfold lenN. lia.
    + intros ->. split; reflexivity.
  - (* WriteArticle *)
    unfold DB_WriteBoardArticleFile, pbind, lift. rewrite E. cbn [bind]. rewrite write_article_shape.
    apply wp_open_write with (P := fun d o => call_meets cd (WriteArticle b f c) old d (res_map (fun _ => Done) o)); try reflexivity.
    + intros d ->. unfold written. cbn [O_WRONLY_CREATE o_trunc o_append]. rewrite write_at_0. exact (write_article_meets cd b f c (Some d)).
    + intros ->. unfold written. cbn [O_WRONLY_CREATE o_trunc o_append o_creat]. rewrite write_at_0. exact (write_article_meets cd b f c None).
  - (* AppendArticle *)
    unfold DB_AppendBoardArticleFile, pbind, lift. rewrite E. cbn [bind]. rewrite append_article_shape.
    apply wp_open_write with (P := fun d o => call_meets cd (AppendArticle b f c) old d (res_map (fun _ => Done) o)); try reflexivity.
    + intros d ->. unfold written. cbn [O_APPEND_WRONLY o_trunc o_append]. rewrite write_at_end. split; reflexivity.
    + intros ->. split; reflexivity.
  - (* ReadArticle *)
    unfold DB_ReadBoardArticleFile, pbind, lift. rewrite E. cbn [bind]. rewrite read_article_shape.
    apply wp_read_all with (P := fun d o => call_meets cd (ReadArticle b f) old d (res_map Bytes o)).
    + intros d ->. split; reflexivity.
    + intros ->. split; reflexivity.
  - (* ReadTreasure *)
    unfold ReadBoardTreasureFile, pbind, lift. rewrite E. cbn [bind]. rewrite read_article_shape.
    apply wp_read_all with (P := fun d o => call_meets cd (ReadTreasure b path f) old d (res_map Bytes o)).
    + intros d ->. split; reflexivity.
    + intros ->. split; reflexivity.
  - (* WriteDraft *)
    unfold DB_WriteUserDraft, pbind, lift. rewrite E. cbn [bind]. rewrite write_draft_shape.
    apply wp_open_write with (P := fun x o => call_meets cd (WriteDraft u d c) old x (res_map (fun _ => Done) o)); try reflexivity.
    + intros x ->. unfold written. cbn [O_WRONLY_CREATE_TRUNC o_trunc o_append]. rewrite write_at_0, skipn_nil, app_nil_r. split; reflexivity.
    + intros ->. unfold written. cbn [O_WRONLY_CREATE_TRUNC o_trunc o_append o_creat]. rewrite write_at_0, skipn_nil, app_nil_r. split; reflexivity.
  - (* DeleteDraft *)
    unfold DB_DeleteUserDraft, pbind, lift. rewrite E. cbn [bind]. unfold DeleteUserDraft.
    destruct m as [|m]; [exact Logic.I|]. split; [reflexivity|]. cbn [v_data]. destruct old; split; reflexivity.
  - (* ReadDraft *)
    unfold GetUserDrafts, pbind, lift. rewrite E. cbn [bind]. unfold ReadUserDraft.
    destruct m as [|m]; [exact Logic.I|]. split; [reflexivity|]. cbn [v_data]. destruct old as [x|]; [|split; reflexivity].
    rewrite read_file_shape.
    apply wp_read_all with (P := fun y o => call_meets cd (ReadDraft u d) (Some x) y (res_map Bytes o)); [|discriminate].
    intros y [= <-]. split; reflexivity.
  - (* AddBoard *)
    unfold AddBoardRecord, pbind, lift. rewrite E. cbn [bind]. rewrite append_board_shape.
    apply wp_open_write with (P := fun d o => call_meets cd (AddBoard h) old d (res_map (fun _ => Done) o)); try reflexivity.
    + intros d ->. unfold written. cbn [O_APPEND_CREATE_WRONLY o_trunc o_append]. rewrite write_at_end. exists (BoardHeader_MarshalBinary cd h). split; [apply board_encode|auto].
    + intros ->. unfold written. cbn [O_APPEND_CREATE_WRONLY o_trunc o_append o_creat]. rewrite write_at_end. exists (BoardHeader_MarshalBinary cd h). split; [apply board_encode|auto].
  - (* ListBoards *)
    unfold ReadBoardRecords, pbind, lift. rewrite E. cbn [bind]. unfold OpenBoardHeaderFile. change BoardHeaderRecordLength with 256.
    apply wp_records with (P := fun d o => call_meets cd ListBoards old d (res_map BoardList o)); auto; [reflexivity| | |].
    + intros b Lb. destruct (board_decode cd b) as (x & E' & _); [lia|eauto].
    + intros d l -> G. split; [reflexivity|]. exists (cut 256 d), l. split; [exact (cut_slots 256 d eq_refl)|]. split; [|reflexivity].
      apply (decode_slots _ (UnmarshalBoardHeader cd)); [reflexivity| |exact G]. intros s Ls. apply board_decode. unfold lenN. lia.
    + intros ->. split; reflexivity.
  - (* ListUsers *)
    unfold ReadUserRecords, pbind, lift. rewrite E. cbn [bind]. unfold OpenUserecFile.
    apply wp_records with (P := fun d o => call_meets cd ListUsers old d (res_map UserList o)); auto; [reflexivity| | |].
    + intros b Lb. destruct (userec_decode cd b) as (x & E' & _); [lia|eauto].
    + intros d l -> G. split; [reflexivity|]. exists (cut 512 d), l. split; [exact (cut_slots 512 d eq_refl)|]. split; [|reflexivity].
      apply (decode_slots _ (UnmarshalUserec cd)); [reflexivity| |exact G]. intros s Ls. apply userec_decode. unfold lenN. lia.
    + intros ->. split; reflexivity.
Qed.

(** the program of a call starts with a system call *)
Lemma call_starts cd wd c fuel p : call_ok c -> object_path wd (call_object c) = Ok p ->
  exists R (k : sys R) h, call_prog cd wd c fuel = Call k h.
Proof.
  intros _ E. destruct c; cbn [call_object object_path] in E; cbn [call_prog];
  unfold AddArticleRecordFileRecord, UpdateArticleRecord, ReadBoardArticleRecordsFile, ReadBoardTreasureRecordsFile,
    DB_WriteBoardArticleFile, DB_AppendBoardArticleFile, DB_ReadBoardArticleFile, ReadBoardTreasureFile,
    DB_WriteUserDraft, DB_DeleteUserDraft, GetUserDrafts, AddBoardRecord, ReadBoardRecords, ReadUserRecords, pbind, lift;
  rewrite E; eexists _, _, _; reflexivity.
Qed.
