(** * Adding and reading at the same time, on a disk that fails *)
From Coq Require Import Lia ZifyBool ZifyNat ZifyN.
From Verif Require Import M_Base M_Sys M_Path M_File M_Board M_Userec M_FileOps M_DB M_Fault M_Stop.
From Verif Require Import S_World S_Path S_Layout S_File S_Board S_Userec S_BoardList S_Store S_Fault S_Pool S_PostPool S_AddPool.
From Verif Require Import P_Base P_Sys P_Path P_Records P_Read P_FileOps P_Store P_BoardList P_Pool P_Create P_Post P_Visit P_Fault P_PostPool.
Open Scope N_scope.

Lemma after_snoc s h i t o : after s (h ++ [(i, t)]) o = after_one o (after s h o) t.
Proof. unfold after. rewrite map_app, fold_left_app. reflexivity. Qed.
Definition about (t : trace) : object := match t with Added o _ | Seen o _ => o end.
Lemma after_other o x t : about t <> o -> after_one o x t = x.
Proof. destruct t as [o' v|o' y]; cbn; [|reflexivity]. intros N. destruct (object_eq_dec o' o); [contradiction|reflexivity]. Qed.
Lemma seen_snoc s h i t : seen_truly s h -> (forall o x, t = Seen o x -> x = after s h o) -> seen_truly s (h ++ [(i, t)]).
Proof.
  intros T L h1 j o x h2 E. destruct h2 as [|e h2] using rev_ind.
  - apply app_inj_tail in E as [-> [= -> ->]]. now apply L.
  - change (h1 ++ (j, Seen o x) :: h2 ++ [e]) with (h1 ++ ((j, Seen o x) :: h2) ++ [e]) in E. rewrite app_assoc in E. apply app_inj_tail in E as [E _]. exact (T _ _ _ _ _ E).
Qed.

Lemma own_map {X} i (ts : list X) h : own i (h ++ map (pair i) ts) = own i h ++ ts.
Proof. unfold own. rewrite filter_app, map_app. f_equal. induction ts as [|t ts IH]; [reflexivity|]. cbn. rewrite Nat.eqb_refl. cbn. now f_equal. Qed.
Lemma own_map_other {X} i j (ts : list X) h : i <> j -> own j (h ++ map (pair i) ts) = own j h.
Proof.
  intros N. unfold own. rewrite filter_app, map_app. assert (map snd (filter (fun x => Nat.eqb (fst x) j) (map (pair i) ts)) = []) as ->; [|now rewrite app_nil_r].
  induction ts as [|t ts IH]; [reflexivity|]. cbn. destruct (Nat.eqb_spec i j); [contradiction|exact IH].
Qed.

Inductive hold := HAdd (o : object) | HRead (o : object) (pos : N) | HDone.

Section Pool.
Variables (cd : codec) (wd : bytes) (w0 : world) (O : object -> Prop) (s : store).
Hypothesis Nwd : ~ In x00 wd.
Definition good (o : object) : Prop := O o /\ plain_object o.
Definition place (o : object) : rpath := home_dir (w_cwd w0) wd ++ object_comps o.
Notation event := (nat * trace)%type.

Section Programs.
Variables (U : list trace -> Prop) (F : list (outcome answer) -> list trace -> Prop).
Fixpoint aok (p : prog (list (outcome answer))) : list trace -> option (N * hold) -> Prop :=
  match p with
  | Ret rs => fun E _ => U E /\ F rs E
  | Call c k => fun E h => U E /\
      match c in sys R return (R -> list trace -> option (N * hold) -> Prop) -> Prop with
      | Open path fl => fun K => exists o, good o /\ object_path wd o = Ok path /\ K (RErr EIO) E None /\
          ((fl = O_APPEND_CREATE_WRONLY /\ forall fd, K (ROk fd) (E ++ [Added o []]) (Some (fd, HAdd o))) \/
           (fl = O_APPEND_WRONLY /\ (forall fd, K (ROk fd) E (Some (fd, HAdd o))) /\ K (RErr ENOENT) (E ++ [Seen o None]) None) \/
           (fl = O_RDONLY /\ (forall fd, K (ROk fd) E (Some (fd, HRead o 0))) /\ K (RErr ENOENT) (E ++ [Seen o None]) None))
      | Write fd d => fun K => exists o, good o /\ h = Some (fd, HAdd o) /\
          K (ROk (lenN d)) (E ++ [Added o d]) (Some (fd, HDone)) /\
          forall n, K (RErr EIO) (E ++ [Added o (firstn n d)]) (Some (fd, HDone))
      | Read fd n => fun K => exists o pos, good o /\ h = Some (fd, HRead o pos) /\
          (forall d, K (ROk (sub pos n d)) (E ++ [Seen o (Some d)]) (Some (fd, HRead o (pos + lenN (sub pos n d))))) /\ K (RErr EIO) E h
      | ReadAll fd => fun K => exists o, good o /\ h = Some (fd, HRead o 0) /\
          (forall d, K (ROk d) (E ++ [Seen o (Some d)]) (Some (fd, HDone))) /\ K (RErr EIO) E (Some (fd, HDone))
      | Close fd => fun K => (exists t, h = Some (fd, t)) /\ K tt E None
      | _ => fun _ => False
      end (fun r => aok (k r))
  end.
Lemma aok_u p E h : aok p E h -> U E.
Proof. destruct p; intros H; apply H. Qed.
End Programs.

(** ** The files *)
Record agw (w : world) (h : list event) : Prop := {
  a_sane : sane w;
  a_cwd : w_cwd w = w_cwd w0;
  a_dir : forall o, good o -> has_dir w (place o);
  a_at : forall o, good o -> look w (place o) = option_map EFile (after s h o);
  a_seen : seen_truly s h;
  a_out : forall q, (forall o, good o -> q <> place o) -> look w q = look w0 q }.

Lemma place_at w o p : w_cwd w = w_cwd w0 -> plain_object o -> object_path wd o = Ok p -> names w p (place o).
Proof. intros C Pl E. destruct (object_resolves (w_cwd w0) wd o Pl Nwd) as (p' & E' & Pr & R). rewrite E in E'. injection E' as <-. split; [exact Pr|]. now rewrite C. Qed.
Lemma place_inj o o' : good o -> good o' -> place o = place o' -> o = o'.
Proof. intros [_ P] [_ P'] E. apply app_inv_head in E. now apply object_comps_inj. Qed.
Lemma place_nonroot o : good o -> place o <> [].
Proof. intros [_ P] E. apply app_eq_nil in E as [_ E]. now apply (object_comps_nonempty o P). Qed.

Lemma agw_quiet w w1 h : agw w h -> sane w1 -> w_cwd w1 = w_cwd w -> (forall q, look w1 q = look w q) -> agw w1 h.
Proof.
  intros G S E L. constructor; auto.
  - rewrite E. apply G.
  - intros o Go. unfold has_dir. rewrite L. now apply (a_dir _ _ G).
  - intros o Go. rewrite L. now apply (a_at _ _ G).
  - apply G.
  - intros q H. rewrite L. now apply (a_out _ _ G).
Qed.
Lemma agw_event w w1 h i t : agw w h -> sane w1 -> w_cwd w1 = w_cwd w -> good (about t) -> 
  (forall o x, t = Seen o x -> x = after s h o) ->
  look w1 (place (about t)) = option_map EFile (after_one (about t) (after s h (about t)) t) -> (forall q, q <> place (about t) -> look w1 q = look w q) ->
  agw w1 (h ++ [(i, t)]).
Proof.
  intros G S E Go Se L Lo. constructor; auto.
  - rewrite E. apply G.
  - intros o Ho. pose proof (a_dir _ _ G o Ho) as D. unfold has_dir in *. rewrite Lo; [exact D|]. intros Z. rewrite Z, (a_at _ _ G _ Go) in D. destruct (after s h (about t)); discriminate D.
  - intros o Ho. rewrite after_snoc. destruct (object_eq_dec (about t) o) as [<-|N]; [exact L|]. rewrite after_other by exact N. rewrite Lo; [now apply (a_at _ _ G)|].
    intros Z. apply N. symmetry. now apply place_inj.
  - apply seen_snoc; [apply G|exact Se].
  - intros q H. rewrite Lo by now apply H. now apply (a_out _ _ G).
Qed.
Lemma agw_seen w w1 h i o x : agw w h -> sane w1 -> w_cwd w1 = w_cwd w -> good o -> x = after s h o -> (forall q, look w1 q = look w q) -> agw w1 (h ++ [(i, Seen o x)]).
Proof.
  intros G S E Go Ex L. apply (agw_event w w1); auto.
  - intros o' x' [= <- <-]. exact Ex.
  - cbn [about after_one]. rewrite L. now apply (a_at _ _ G).
Qed.

Definition aopened (w : world) (fd : N) (t : hold) : Prop :=
  match t with
  | HDone => True
  | HAdd o => exists ino pos rd, w_fds w fd = Some (OFile (Some ino) pos true rd true) /\ w_tree w (place o) = Some (NFile ino)
  | HRead o pos => exists ino app wr, w_fds w fd = Some (OFile (Some ino) pos app true wr) /\ w_tree w (place o) = Some (NFile ino)
  end.
Definition fd_of (o : option (N * hold)) : option N := option_map fst o.
Lemma aopened_moves w w1 o fd t : vmoves w w1 o -> fd < w_nextfd w -> o <> Some fd -> aopened w fd t -> aopened w1 fd t.
Proof.
  intros Mv L N Op. destruct t as [e|e pos|]; [| |exact I]; cbn [aopened] in *; destruct Op as (ino & a & b & A & B); exists ino, a, b;
  rewrite (vmv_fds _ _ _ Mv fd L N); (split; [exact A|]); now apply (vmv_tree _ _ _ Mv).
Qed.

Variable css : list (list call).
Definition cok (cs : list call) := aok (underway cd wd cs) (did_all cd wd cs).
Record ainv (w : world) (ps : list (prog (list (outcome answer)))) (st : nat -> option (N * hold)) (h : list event) : Prop := {
  i_gw : agw w h;
  i_len : length ps = length css;
  i_who : forall i t, In (i, t) h -> (i < length css)%nat;
  i_ok : forall i p cs, nth_error ps i = Some p -> nth_error css i = Some cs -> cok cs p (own i h) (st i);
  i_fd : forall i fd t, (i < length css)%nat -> st i = Some (fd, t) -> fd < w_nextfd w /\ aopened w fd t;
  i_dis : forall i j fd t t', (i < length css)%nat -> (j < length css)%nat -> i <> j -> st i = Some (fd, t) -> st j = Some (fd, t') -> False }.

(** client [i] moves on, with the traces [ts] *)
Lemma astep w ps st h i p w1 p1 o1 ts cs :
  ainv w ps st h -> nth_error ps i = Some p -> nth_error css i = Some cs ->
  agw w1 (h ++ map (pair i) ts) -> vmoves w w1 (fd_of (st i)) ->
  cok cs p1 (own i h ++ ts) o1 ->
  (forall fd t, o1 = Some (fd, t) -> fd < w_nextfd w1 /\ aopened w1 fd t /\ (w_nextfd w <= fd \/ exists t', st i = Some (fd, t'))) ->
  exists st' h', ainv w1 (upd_nth i p1 ps) st' h'.
Proof.
  intros C Hp Hm G Mv K Ho. exists (P_Post.put st i o1), (h ++ map (pair i) ts).
  assert (Li : (i < length css)%nat) by (apply nth_error_Some; congruence).
  assert (Lp : (i < length ps)%nat) by (apply nth_error_Some; congruence).
  constructor.
  - exact G.
  - rewrite upd_nth_length. apply C.
  - intros j t Hj. apply in_app_iff in Hj as [Hj|Hj]; [exact (i_who _ _ _ _ C j t Hj)|]. apply in_map_iff in Hj as (t' & [= <- <-] & _). exact Li.
  - intros j p' cs' Hj Hm'. destruct (Nat.eq_dec i j) as [<-|N].
    + rewrite put_same, own_map. rewrite nth_upd_same in Hj by exact Lp. injection Hj as <-. rewrite Hm in Hm'. injection Hm' as <-. exact K.
    + rewrite put_other, own_map_other by exact N. rewrite nth_upd_other in Hj by exact N. now apply (i_ok _ _ _ _ C).
  - intros j fd t Hj Hs. destruct (Nat.eq_dec i j) as [<-|N].
    + rewrite put_same in Hs. destruct (Ho fd t Hs) as (A & B & _). auto.
    + rewrite put_other in Hs by exact N. destruct (i_fd _ _ _ _ C j fd t Hj Hs) as [A B]. pose proof (vmv_next _ _ _ Mv). split; [lia|].
      apply (aopened_moves w w1 (fd_of (st i))); auto. intros Z. destruct (st i) as [[fd' t']|] eqn:Es; [|discriminate Z]. injection Z as ->. exact (i_dis _ _ _ _ C i j fd t' t Li Hj N Es Hs).
  - assert (D : forall j fd t t', (j < length css)%nat -> i <> j -> o1 = Some (fd, t) -> st j = Some (fd, t') -> False).
    { intros j fd t t' Hj N E1 E2. destruct (Ho fd t E1) as (_ & _ & [X|[t2 X]]).
      - destruct (i_fd _ _ _ _ C j fd t' Hj E2). lia.
      - exact (i_dis _ _ _ _ C i j fd t2 t' Li Hj N X E2). }
    intros j k fd t t' Hj Hk N E1 E2. destruct (Nat.eq_dec i j) as [<-|Nj]; [|destruct (Nat.eq_dec i k) as [<-|Nk]].
    + rewrite put_same in E1. rewrite put_other in E2 by exact N. now apply (D k fd t t').
    + rewrite put_same in E2. rewrite put_other in E1 by exact Nj. now apply (D j fd t' t).
    + rewrite put_other in E1, E2 by assumption. exact (i_dis _ _ _ _ C j k fd t t' Hj Hk N E1 E2).
Qed.

Lemma add_look w h o : agw w h -> good o -> forall ino, w_tree w (place o) = Some (NFile ino) -> after s h o = Some (w_data w ino).
Proof.
  intros G Go ino T. pose proof (a_at _ _ G o Go) as L. rewrite (tree_look w _ ino (place_nonroot o Go) T) in L.
  destruct (after s h o); [|discriminate L]. now injection L as <-.
Qed.

Lemma astep_ok w ps st h i R (c : sys R) k w1 r : ainv w ps st h -> nth_error ps i = Some (Call c k) ->
  exec c w = (w1, r) \/ fails c w w1 r -> exists st' h', ainv w1 (upd_nth i (k r) ps) st' h'.
Proof.
  intros C Hp X.
  assert (exists cs, nth_error css i = Some cs) as [cs Hm].
  { destruct (nth_error css i) eqn:E; [eauto|]. apply nth_error_None in E. rewrite <- (i_len _ _ _ _ C) in E. apply nth_error_None in E. congruence. }
  assert (Li : (i < length css)%nat) by (apply nth_error_Some; congruence).
  pose proof (i_ok _ _ _ _ C i _ cs Hp Hm) as K. pose proof (i_gw _ _ _ _ C) as G. pose proof (a_sane _ _ G) as S. pose proof (a_cwd _ _ G) as Cw.
  assert (Mv0 : forall x, vmoves w w x) by (intros x; constructor; auto; lia).
  assert (G0 : agw w (h ++ map (pair i) [])) by (cbn [map]; now rewrite app_nil_r).
  (* nothing happens *)
  assert (Still : forall o p, cok cs p (own i h) o -> (o = None \/ o = st i \/ exists fd t, st i = Some (fd, t) /\ o = Some (fd, HDone)) -> exists st' h', ainv w (upd_nth i p ps) st' h').
  { intros o p Ko Ho. apply (astep w ps st h i _ w p o [] cs C Hp Hm); auto.
    - now rewrite app_nil_r.
    - intros fd t Z. destruct Ho as [Ho|[Ho|(fd' & t' & Es & Ho)]].
      + congruence.
      + rewrite Ho in Z. destruct (i_fd _ _ _ _ C i fd t Li Z). eauto.
      + rewrite Ho in Z. injection Z as <- <-. destruct (i_fd _ _ _ _ C i fd' t' Li Es) as [A _]. split; [exact A|]. split; [exact I|]. right. eauto. }
  unfold cok in K. cbn [aok] in K. destruct K as [_ K].
  destruct c as [path fl|fd n|fd|fd d| | | |fd| | | |m]; try contradiction.
  - (* open *)
    destruct K as (o & Go & Ep & Kf & K). pose proof (place_at w o path Cw (proj2 Go) Ep) as Nm. pose proof (a_at _ _ G o Go) as L. pose proof (a_dir _ _ G o Go) as Hd.
    destruct X as [X|[-> ->]]; [|apply (Still None); [exact Kf|now left]].
    destruct (after s h o) as [d|] eqn:Ea; cbn [option_map] in L.
    + (* the file is there *)
      assert (Go2 : forall fl' T ts, o_excl fl' = false -> o_trunc fl' = false -> fl = fl' ->
        (forall w2, sane w2 -> w_cwd w2 = w_cwd w -> (forall q, look w2 q = look w q) -> agw w2 (h ++ map (pair i) ts)) ->
        (forall w2 ino, w_fds w2 (w_nextfd w) = Some (OFile (Some ino) 0 (o_append fl') (o_rd fl') (o_wr fl')) -> w_tree w2 (place o) = Some (NFile ino) -> aopened w2 (w_nextfd w) T) ->
        (forall fd, cok cs (k (ROk fd)) (own i h ++ ts) (Some (fd, T))) -> exists st' h', ainv w1 (upd_nth i (k r) ps) st' h').
      { intros fl' T ts Ex Tr -> Gw Op Kx. destruct (existing_world w path fl' _ _ S Nm L Ex Tr) as (w2 & ino & E & S1 & C1 & L1 & Mv & T1 & N1 & F1).
        rewrite E in X. injection X as <- <-. apply (astep w ps st h i _ w2 _ (Some (w_nextfd w, T)) ts cs C Hp Hm); auto.
        - now apply vmoves_none.
        - intros fd t [= <- <-]. split; [lia|]. split; [now apply (Op w2 ino)|left; lia]. }
      destruct K as [(-> & K)|[(-> & K & _)|(-> & K & _)]].
      * apply (Go2 O_APPEND_CREATE_WRONLY (HAdd o) [Added o []]); auto.
        -- intros w2 S2 C2 L2. cbn [map]. apply (agw_event w w2); auto; [discriminate|]. cbn [about after_one]. rewrite L2, L, Ea. destruct object_eq_dec; [|contradiction]. cbn. now rewrite app_nil_r.
        -- intros w2 ino F1 T1. cbn [aopened]. eexists _, _, _. split; [exact F1|exact T1].
      * apply (Go2 O_APPEND_WRONLY (HAdd o) []); auto.
        -- intros w2 S2 C2 L2. apply (agw_quiet w w2); auto.
        -- intros w2 ino F1 T1. cbn [aopened]. eexists _, _, _. split; [exact F1|exact T1].
        -- intros fd. rewrite app_nil_r. apply K.
      * apply (Go2 O_RDONLY (HRead o 0) []); auto.
        -- intros w2 S2 C2 L2. apply (agw_quiet w w2); auto.
        -- intros w2 ino F1 T1. cbn [aopened]. eexists _, _, _. split; [exact F1|exact T1].
        -- intros fd. rewrite app_nil_r. apply K.
    + (* it is not *)
      assert (No : o_creat fl = false -> cok cs (k (RErr ENOENT)) (own i h ++ [Seen o None]) None -> exists st' h', ainv w1 (upd_nth i (k r) ps) st' h').
      { intros Cr Kx. rewrite (open_missing w path fl _ Nm L (or_introl Cr)), (missing_enoent w _ S Hd) in X. injection X as <- <-.
        apply (astep w ps st h i _ w _ None [Seen o None] cs C Hp Hm); auto; [|discriminate]. cbn [map]. now apply (agw_seen w w). }
      destruct K as [(-> & K)|[(-> & _ & K)|(-> & _ & K)]]; [|now apply No|now apply No].
      destruct (created_world w path O_APPEND_CREATE_WRONLY _ S Nm L eq_refl Hd) as (E & S1 & L1 & Lo & Mv & T1 & F1).
      rewrite E in X. revert E S1 L1 Lo Mv T1 F1 X. set (w2 := bump_fd _). intros E S1 L1 Lo Mv T1 F1 X. injection X as <- <-.
      apply (astep w ps st h i _ w2 _ (Some (w_nextfd w, HAdd o)) [Added o []] cs C Hp Hm); auto.
      * cbn [map]. apply (agw_event w w2); auto; [discriminate|]. cbn [about after_one]. rewrite L1, Ea. now destruct object_eq_dec.
      * now apply vmoves_none.
      * exact (K (w_nextfd w)).
      * intros fd t [= <- <-]. split; [cbn; lia|]. split; [|left; lia]. cbn [aopened]. eexists _, _, _. split; [exact F1|exact T1].
  - (* read *)
    destruct K as (o & pos & Go & So & K & Kf). destruct X as [X|[-> ->]]; [|apply (Still (st i)); auto].
    destruct (i_fd _ _ _ _ C i _ _ Li So) as [Lf (ino & app & wr & F & T)].
    rewrite (exec_read w fd _ ino n F eq_refl eq_refl) in X. cbn [of_pos of_append of_rd of_wr] in X.
    destruct (read_world w fd _ ino _ n S F eq_refl Lf T (pos + lenN (sub pos n (w_data w ino)))) as (S1 & C1 & N1 & L1 & Mv & F1 & T1). cbn [of_append of_rd of_wr] in *.
    revert S1 C1 N1 L1 Mv F1 T1 X. set (w2 := set_fd _ _ _). intros S1 C1 N1 L1 Mv F1 T1 X. injection X as <- <-.
    apply (astep w ps st h i _ w2 _ (Some (fd, HRead o (pos + lenN (sub pos n (w_data w ino))))) [Seen o (Some (w_data w ino))] cs C Hp Hm); auto.
    + cbn [map]. apply (agw_seen w w2); auto. symmetry. now apply (add_look w h o G).
    + rewrite So. exact Mv.
    + apply K.
    + intros fd' t [= <- <-]. split; [lia|]. split; [|right; eauto]. cbn [aopened]. eexists _, _, _. split; [exact F1|exact T1].
  - (* read all *)
    destruct K as (o & Go & So & K & Kf). destruct X as [X|[-> ->]]; [|apply (Still (Some (fd, HDone))); [exact Kf|right; right; eauto]].
    destruct (i_fd _ _ _ _ C i _ _ Li So) as [Lf (ino & app & wr & F & T)].
    cbn [exec] in X. unfold sys_read_all in X. rewrite F in X. cbn [of_ino of_pos of_append of_rd of_wr N.to_nat skipn] in X.
    destruct (read_world w fd _ ino _ 0 S F eq_refl Lf T (0 + lenN (w_data w ino))) as (S1 & C1 & N1 & L1 & Mv & F1 & T1). cbn [of_append of_rd of_wr] in *.
    revert S1 C1 N1 L1 Mv F1 T1 X. set (w2 := set_fd _ _ _). intros S1 C1 N1 L1 Mv F1 T1 X. injection X as <- <-.
    apply (astep w ps st h i _ w2 _ (Some (fd, HDone)) [Seen o (Some (w_data w ino))] cs C Hp Hm); auto.
    + cbn [map]. apply (agw_seen w w2); auto. symmetry. now apply (add_look w h o G).
    + rewrite So. exact Mv.
    + apply K.
    + intros fd' t [= <- <-]. split; [lia|]. split; [exact I|right; eauto].
  - (* write *)
    destruct K as (o & Go & So & K & Kf). destruct (i_fd _ _ _ _ C i _ _ Li So) as [Lf (ino & pos & rd & F & T)].
    assert (W : forall v, fst (exec (Write fd v) w) = w1 -> cok cs (k r) (own i h ++ [Added o v]) (Some (fd, HDone)) -> exists st' h', ainv w1 (upd_nth i (k r) ps) st' h').
    { intros v E1 Kx. destruct (write_world w fd _ ino _ v (TDone) S F eq_refl eq_refl Lf T (place_nonroot o Go)) as (w2 & E & S1 & C1 & N1 & L1 & Lo & Mv).
      cbn [of_append of_pos] in L1. rewrite write_at_end in L1. rewrite E in E1. cbn [fst] in E1. subst w2.
      apply (astep w ps st h i _ w1 _ (Some (fd, HDone)) [Added o v] cs C Hp Hm); auto.
      - cbn [map]. apply (agw_event w w1); auto; [discriminate|]. cbn [about after_one]. rewrite L1, (add_look w h o G Go ino T). now destruct object_eq_dec.
      - rewrite So. exact (vmoves_some _ _ _ _ Mv).
      - intros fd' t [= <- <-]. split; [lia|]. split; [exact I|right; eauto]. }
    destruct X as [X|[[n ->] ->]].
    + apply (W d); [now rewrite X|]. rewrite (exec_write w fd _ ino d F eq_refl eq_refl) in X. injection X as _ <-. exact K.
    + apply (W (firstn n d)); [reflexivity|apply Kf].
  - (* close *)
    destruct X as [X|[]]. destruct K as ([t So] & K). cbn [exec] in X. injection X as <- <-.
    apply (astep w ps st h i _ _ _ None [] cs C Hp Hm).
    + cbn [map]. rewrite app_nil_r. apply (agw_quiet w); auto. now apply sane_close.
    + rewrite So. constructor; [|auto|cbn; lia]. intros fd' Hf Hn. cbn. destruct N.eq_dec as [->|]; [|reflexivity]. now destruct Hn.
    + rewrite app_nil_r. exact K.
    + discriminate.
Qed.
Lemma apool_run w ps w' ps' : fpool w ps w' ps' -> forall st h, ainv w ps st h -> exists st' h', ainv w' ps' st' h'.
Proof.
  induction 1 as [w ps|w ps i R c k w1 r w' ps' Hp X _ IH]; intros st h C; [eauto|].
  destruct (astep_ok w ps st h i R c k w1 r C Hp X) as (st1 & h1 & C1). eauto.
Qed.

(** ** The calls are such programs *)
Section Calls.
Variables (U : list trace -> Prop) (F : list (outcome answer) -> list trace -> Prop).
Notation ok := (aok U F).
Lemma ok_assoc {A B} (p : prog A) (g : A -> prog B) (k : B -> prog (list (outcome answer))) : forall E h,
  ok (bind p (fun a => bind (g a) k)) E h -> ok (bind (bind p g) k) E h.
Proof.
  induction p as [a|R c f IH]; intros E h; [auto|]. destruct c; cbn [bind aok]; intros [HU H]; (split; [exact HU|]); auto.
  - destruct H as (o & Go & Ep & Kf & H). exists o. split; [exact Go|]. split; [exact Ep|]. split; [now apply IH|].
    destruct H as [(-> & H)|[(-> & H & H')|(-> & H & H')]]; [left|right; left|right; right]; auto.
  - destruct H as (o & pos & Go & So & H & H'). exists o, pos. auto.
  - destruct H as (o & Go & So & H & H'). exists o. auto.
  - destruct H as (o & Go & So & H & H'). exists o. auto.
  - destruct H as [Hf H]. auto.
Qed.
Lemma ok_add (cr : bool) o path v (k : outcome unit -> prog (list (outcome answer))) E h : let op := if cr then [Added o []] else [] in
  good o -> object_path wd o = Ok path -> U E -> U (E ++ op) ->
  ok (k (Err (ESys EIO))) E None -> (cr = false -> ok (k (Err (ESys ENOENT))) (E ++ [Seen o None]) None) ->
  ok (k (Ok tt)) (E ++ op ++ [Added o v]) None -> (forall n, ok (k (Err (ESys EIO))) (E ++ op ++ [Added o (firstn n v)]) None) ->
  ok (bind (open_write (if cr then O_APPEND_CREATE_WRONLY else O_APPEND_WRONLY) path v) k) E h.
Proof.
  intros op Go Ep U0 U1 Kf Km K Kn. unfold open_write. cbn [bind aok]. split; [exact U0|]. exists o. split; [exact Go|]. split; [exact Ep|]. split; [exact Kf|].
  assert (W : forall fd, ok (bind (Call (Write fd v) (fun r => Call (Close fd) (fun _ => match r with RErr e => Ret (Err (ESys e)) | ROk _ => Ret (Ok tt) end))) k) (E ++ op) (Some (fd, HAdd o))).
  { intros fd. cbn [bind aok]. split; [exact U1|]. exists o. split; [exact Go|]. split; [reflexivity|]. rewrite <- app_assoc. split.
    - split; [exact (aok_u _ _ _ _ _ K)|]. split; [eauto|exact K].
    - intros n. rewrite <- app_assoc. split; [exact (aok_u _ _ _ _ _ (Kn n))|]. split; [eauto|exact (Kn n)]. }
  destruct cr; [left|right; left]; (split; [reflexivity|]).
  - exact W.
  - split; [intros fd; specialize (W fd); unfold op in W; rewrite app_nil_r in W; exact W|now apply Km].
Qed.
Lemma ok_read_all o path (k : outcome bytes -> prog (list (outcome answer))) E h :
  good o -> object_path wd o = Ok path -> U E ->
  ok (k (Err (ESys EIO))) E None -> ok (k (Err (ESys ENOENT))) (E ++ [Seen o None]) None ->
  (forall d, ok (k (Ok d)) (E ++ [Seen o (Some d)]) None) ->
  ok (bind (ReadBoardArticleFile path) k) E h.
Proof.
  intros Go Ep U0 Kf Km K. unfold ReadBoardArticleFile. cbn [bind aok]. split; [exact U0|]. exists o. split; [exact Go|]. split; [exact Ep|]. split; [exact Kf|].
  right. right. split; [reflexivity|]. split; [|exact Km]. intros fd. split; [exact U0|]. exists o. split; [exact Go|]. split; [reflexivity|]. split.
  - intros d. split; [exact (aok_u _ _ _ _ _ (K d))|]. split; [eauto|exact (K d)].
  - split; [exact U0|]. split; [eauto|exact Kf].
Qed.
Lemma ok_loop {A} (size : N) (decode : bytes -> outcome A) (decoded : bytes -> A -> Prop) closes o (k : outcome (list A) -> prog (list (outcome answer))) E :
  0 < size -> (forall d, lenN d = size -> exists a, decode d = Ok a /\ decoded d a) -> good o ->
  (forall tr, Forall (sees o) tr -> U (E ++ tr)) ->
  (forall tr ss l h, slots_read o (N.to_nat size) 0 tr ss -> Forall2 decoded ss l -> ok (k (Ok l)) (E ++ tr) h) ->
  (forall tr h, Forall (sees o) tr -> ok (k Diverge) (E ++ tr) h) ->
  forall fuel fd pos acc tr ss, Forall (sees o) tr -> Forall2 decoded ss (rev acc) ->
  (forall tr2 ss2, slots_read o (N.to_nat size) (N.to_nat pos) tr2 ss2 -> slots_read o (N.to_nat size) 0 (tr ++ tr2) (ss ++ ss2)) ->
  ok (bind (read_loop size decode false closes fuel fd acc) k) (E ++ tr) (Some (fd, HRead o pos)).
Proof.
  intros Hs Dec Go Us K Kd. induction fuel as [|fuel IH]; intros fd pos acc tr ss Tr Fa Sl; cbn [read_loop bind]; [now apply Kd|].
  cbn [aok]. split; [now apply Us|]. exists o, pos. split; [exact Go|]. split; [reflexivity|].
  assert (Ln : lenN (repeat x00 (N.to_nat size)) = size) by (unfold lenN; rewrite repeat_length; lia).
  split.
  - intros d. rewrite <- app_assoc. assert (Tr' : Forall (sees o) (tr ++ [Seen o (Some d)])) by (apply Forall_app; split; [exact Tr|]; repeat constructor; eexists; reflexivity).
    destruct (sub pos size d) as [|x v] eqn:Es.
    + assert (length d <= N.to_nat pos)%nat.
      { unfold sub in Es. destruct (le_lt_dec (length d) (N.to_nat pos)) as [L|L]; [exact L|]. exfalso. apply (f_equal (@length byte)) in Es. rewrite firstn_length, skipn_length in Es. cbn in Es. lia. }
      assert (Kr : forall h, ok (k (Ok (rev acc))) (E ++ tr ++ [Seen o (Some d)]) h).
      { intros h. apply (K _ ss); [|exact Fa]. rewrite <- (app_nil_r ss). apply Sl. now constructor. }
      destruct closes; cbn [close_if bind aok]; [|apply Kr]. split; [now apply Us|]. split; [eauto|apply Kr].
    + set (y := x :: v) in *. assert (Ly : length y = Nat.min (N.to_nat size) (length d - N.to_nat pos)).
      { rewrite <- Es. unfold sub. now rewrite firstn_length, skipn_length. }
      assert (Fl : fill size y = y ++ repeat x00 (N.to_nat size - length y)).
      { rewrite fill_pad. rewrite firstn_all2 by lia. f_equal. unfold zeros. f_equal. unfold lenN. lia. }
      destruct (Dec (fill size y)) as (a & Da & Dd). { rewrite Fl. unfold lenN. rewrite app_length, repeat_length. lia. }
      change (ok (bind match decode (fill size y) with Ok a => read_loop size decode false closes fuel fd (a :: acc) | Err e => close_if closes fd (Ret (Err e)) | Panic => close_if closes fd (Ret Panic) | Diverge => Ret Diverge end k)
        (E ++ tr ++ [Seen o (Some d)]) (Some (fd, HRead o (pos + lenN y)))). rewrite Da.
      apply (IH fd (pos + lenN y) (a :: acc) _ (ss ++ [fill size y])); [exact Tr'|cbn [rev]; apply Forall2_app; [exact Fa|constructor; [exact Dd|constructor]]|].
      intros tr2 ss2 H2. rewrite <- !app_assoc. apply Sl. cbn [app]. rewrite Fl. apply sr_slot.
      * assert (0 < length y)%nat by (cbn; lia). lia.
      * rewrite <- Es. unfold sub. reflexivity.
      * replace (N.to_nat pos + length y)%nat with (N.to_nat (pos + lenN y)) by (unfold lenN; lia). exact H2.
  - destruct (Dec (fill size [])) as (a & Da & Dd). { rewrite fill_nil. exact Ln. }
    cbn [bind]. rewrite Da. apply (IH fd pos (a :: acc) tr (ss ++ [repeat x00 (N.to_nat size)])); [exact Tr|cbn [rev]; apply Forall2_app; [exact Fa|]|].
    + constructor; [|constructor]. rewrite fill_nil in Dd. exact Dd.
    + intros tr2 ss2 H2. rewrite <- app_assoc. apply Sl. now apply sr_failed.
Qed.
Lemma ok_records {A} (size : N) (decode : bytes -> outcome A) (decoded : bytes -> A -> Prop) closes fuel o path (k : outcome (list A) -> prog (list (outcome answer))) E h :
  0 < size -> (forall d, lenN d = size -> exists a, decode d = Ok a /\ decoded d a) -> good o -> object_path wd o = Ok path ->
  (forall tr, Forall (sees o) tr -> U (E ++ tr)) ->
  (forall tr ss l h, slots_read o (N.to_nat size) 0 tr ss -> Forall2 decoded ss l -> ok (k (Ok l)) (E ++ tr) h) ->
  (forall tr h, Forall (sees o) tr -> ok (k Diverge) (E ++ tr) h) ->
  ok (k (Err (ESys EIO))) E None -> ok (k (Err (ESys ENOENT))) (E ++ [Seen o None]) None ->
  ok (bind (open_records size decode false closes fuel path) k) E h.
Proof.
  intros Hs Dec Go Ep Us K Kd Kf Km. unfold open_records. cbn [bind aok]. split; [rewrite <- (app_nil_r E); now apply Us|]. exists o. split; [exact Go|]. split; [exact Ep|].
  split; [exact Kf|]. right. right. split; [reflexivity|]. split; [|exact Km]. intros fd. rewrite <- (app_nil_r E).
  apply (ok_loop size decode decoded closes o k E Hs Dec Go Us K Kd fuel fd 0 [] [] []); [constructor|constructor|auto].
Qed.
Lemma ok_call c fuel (k : outcome answer -> prog (list (outcome answer))) E h :
  call_ok c -> O (call_object c) -> adds_or_reads c = true ->
  (forall t, begun cd wd c t -> U (E ++ t)) -> (forall r t h, did cd wd c r t -> ok (k r) (E ++ t) h) ->
  ok (bind (call_prog cd wd c fuel) k) E h.
Proof.
  intros [Pl _] Oc Kd Ub K. assert (Go : good (call_object c)) by (split; assumption).
  destruct (object_resolves (w_cwd w0) wd (call_object c) Pl Nwd) as (p & Ep & _).
  assert (K0 : forall r h, did cd wd c r [] -> ok (k r) E h). { intros r h' D. rewrite <- (app_nil_r E). now apply K. }
  assert (U0 : U E). { rewrite <- (app_nil_r E). apply Ub. left. eexists. apply did_failed. }
  assert (Us : forall tr, Forall (sees (call_object c)) tr -> U (E ++ tr)) by (intros tr H; apply Ub; right; right; exact H).
  assert (Uo : U (E ++ opening c)) by (apply Ub; right; left; reflexivity).
  destruct c; cbn in Kd; try discriminate Kd; cbn [call_object object_path] in *; unfold call_prog, answer_with; apply ok_assoc.
  - (* AddRecord *)
    unfold AddArticleRecordFileRecord, pbind, lift. cbn [bind]. rewrite Ep, append_record_shape.
    apply (ok_add true (Index b) p (MarshalToByte cd f)); auto; [apply K0, did_failed|discriminate|apply (K _ _ _ (did_added cd wd (AddRecord b f) _ (file_encode cd f)))|].
    intros n. exact (K _ _ _ (did_torn cd wd (AddRecord b f) _ n (file_encode cd f))).
  - (* ListRecords *)
    unfold ReadBoardArticleRecordsFile, pbind, lift. cbn [bind]. rewrite Ep. apply ok_assoc. unfold OpenFileHeaderFile.
    apply (ok_records 128 _ (file_decoded cd) true fuel (Index b) p); auto; [lia| | | | |].
    + intros d Ld. apply file_decode. lia.
    + intros tr ss l h' Sl Fl. cbn [bind]. apply K. apply (did_listed cd wd (ListRecords b) tr ss); [reflexivity|exact Sl|]. cbn. eauto.
    + intros tr h' H. cbn [bind]. apply K. now apply did_unended.
    + cbn [bind]. unfold says_no_such_file. destruct (contains noent_text p) eqn:Ec; cbn [bind]; apply K0; [|apply did_failed].
      apply (did_hidden cd wd (ListRecords b) b p eq_refl Ep). now apply contains_occurs.
    + cbn [bind says_no_such_file]. apply K. now apply did_empty.
  - (* ListTreasures *)
    unfold ReadBoardTreasureRecordsFile, pbind, lift. cbn [bind]. rewrite Ep. unfold OpenFileHeaderFile.
    apply (ok_records 128 _ (file_decoded cd) true fuel (TreasureIndex b path) p); auto; [lia| | | | |].
    + intros d Ld. apply file_decode. lia.
    + intros tr ss l h' Sl Fl. cbn [bind]. apply K. apply (did_listed cd wd (ListTreasures b path) tr ss); [reflexivity|exact Sl|]. cbn. eauto.
    + intros tr h' H. cbn [bind]. apply K. now apply did_unended.
    + apply K0, did_failed.
    + cbn [bind]. apply K. apply (did_missing cd wd (ListTreasures b path)); [reflexivity|discriminate].
  - (* AppendArticle *)
    unfold DB_AppendBoardArticleFile, pbind, lift. cbn [bind]. rewrite Ep, append_article_shape.
    apply (ok_add false (Article b f) p c); auto; [apply K0, did_failed| | |].
    + intros _. cbn [bind]. apply K. apply (did_missing cd wd (AppendArticle b f c)); [reflexivity|discriminate].
    + exact (K _ _ _ (did_added cd wd (AppendArticle b f c) c eq_refl)).
    + intros n. exact (K _ _ _ (did_torn cd wd (AppendArticle b f c) c n eq_refl)).
  - (* ReadArticle *)
    unfold DB_ReadBoardArticleFile, pbind, lift. cbn [bind]. rewrite Ep.
    apply (ok_read_all (Article b f) p); auto; [apply K0, did_failed| |].
    + cbn [bind]. apply K. apply (did_missing cd wd (ReadArticle b f)); [reflexivity|discriminate].
    + intros d. cbn [bind]. apply K. now apply (did_read cd wd (ReadArticle b f)).
  - unfold ReadBoardTreasureFile, pbind, lift. cbn [bind]. rewrite Ep.
    apply (ok_read_all (Treasure b path f) p); auto; [apply K0, did_failed| |].
    + cbn [bind]. apply K. apply (did_missing cd wd (ReadTreasure b path f)); [reflexivity|discriminate].
    + intros d. cbn [bind]. apply K. now apply (did_read cd wd (ReadTreasure b path f)).
  - (* AddBoard *)
    unfold AddBoardRecord, pbind, lift. cbn [bind]. rewrite Ep, append_board_shape.
    apply (ok_add true Boards p (BoardHeader_MarshalBinary cd h0)); auto; [apply K0, did_failed|discriminate|apply (K _ _ _ (did_added cd wd (AddBoard h0) _ (board_encode cd h0)))|].
    intros n. exact (K _ _ _ (did_torn cd wd (AddBoard h0) _ n (board_encode cd h0))).
  - unfold ReadBoardRecords, pbind, lift. cbn [bind]. rewrite Ep. unfold OpenBoardHeaderFile, BoardHeaderRecordLength.
    apply (ok_records 256 _ (board_decoded cd) false fuel Boards p); auto; [lia| | | | |].
    + intros d Ld. apply board_decode. lia.
    + intros tr ss l h' Sl Fl. cbn [bind]. apply K. apply (did_listed cd wd ListBoards tr ss); [reflexivity|exact Sl|]. cbn. eauto.
    + intros tr h' H. cbn [bind]. apply K. now apply did_unended.
    + apply K0, did_failed.
    + cbn [bind]. apply K. apply (did_missing cd wd ListBoards); [reflexivity|discriminate].
  - unfold ReadUserRecords, pbind, lift. cbn [bind]. rewrite Ep. unfold OpenUserecFile.
    apply (ok_records 512 _ (userec_decoded cd) false fuel Passwds p); auto; [lia| | | | |].
    + intros d Ld. apply userec_decode. lia.
    + intros tr ss l h' Sl Fl. cbn [bind]. apply K. apply (did_listed cd wd ListUsers tr ss); [reflexivity|exact Sl|]. cbn. eauto.
    + intros tr h' H. cbn [bind]. apply K. now apply did_unended.
    + apply K0, did_failed.
    + cbn [bind]. apply K. apply (did_missing cd wd ListUsers); [reflexivity|discriminate].
Qed.
End Calls.

Lemma ok_client fuel : forall cs dn rs E h, Forall call_ok cs -> Forall (fun c => O (call_object c)) cs -> Forall (fun c => adds_or_reads c = true) cs ->
  did_all cd wd dn rs E -> cok (dn ++ cs) (client_from cd wd fuel cs (rev rs)) E h.
Proof.
  induction cs as [|c cs IH]; intros dn rs E h Fo FO Fk D; cbn [client_from].
  - rewrite app_nil_r, rev_involutive. split; [|exact D]. exists dn, rs, E, [], []. rewrite !app_nil_r. auto.
  - inversion Fo; inversion FO; inversion Fk; subst. apply ok_call; auto.
    + intros t B. exists dn, rs, E, (c :: cs), t. auto.
    + intros r t h' Dc. replace (dn ++ c :: cs) with ((dn ++ [c]) ++ cs) by now rewrite <- app_assoc.
      replace (r :: rev rs) with (rev (rs ++ [r])) by now rewrite rev_app_distr. apply IH; auto. now constructor.
Qed.
End Pool.

Lemma did_together cd wd O s css fuel w w' ps' : ~ In x00 wd -> sane w -> stored w wd O s ->
  Forall call_ok (concat css) -> Forall (fun c => O (call_object c)) (concat css) -> Forall (fun c => adds_or_reads c = true) (concat css) ->
  fpool w (map (client cd wd fuel) css) w' ps' -> exists h, added_together cd wd O s css w w' ps' h.
Proof.
  intros Nw S St Fo FO Fk R.
  assert (Sub : forall i cs (Q : call -> Prop), nth_error css i = Some cs -> Forall Q (concat css) -> Forall Q cs).
  { intros i cs Q H HF. apply Forall_forall. intros c Hc. rewrite Forall_forall in HF. apply HF. apply in_concat. exists cs. split; [now apply nth_error_In in H|exact Hc]. }
  assert (I0 : ainv cd wd w O s css w (map (client cd wd fuel) css) (fun _ => None) []).
  { constructor.
    - constructor; auto.
      + intros o [Oo Po]. destruct (St o Oo Po) as (p & rp & E & N & D & L). pose proof (object_names wd o p w rp Po Nw E N) as Rp. unfold place. now rewrite <- Rp.
      + intros o [Oo Po]. destruct (St o Oo Po) as (p & rp & E & N & D & L). pose proof (object_names wd o p w rp Po Nw E N) as Rp. unfold place. rewrite <- Rp. exact L.
      + intros h1 i o x h2 E. destruct h1; discriminate E.
    - apply map_length.
    - intros i t [].
    - intros i p cs Hp Hc. rewrite nth_error_map, Hc in Hp. injection Hp as <-. cbn [own filter map].
      apply (ok_client cd wd w O Nw fuel cs [] [] [] None); [exact (Sub i cs _ Hc Fo)|exact (Sub i cs _ Hc FO)|exact (Sub i cs _ Hc Fk)|constructor].
    - discriminate.
    - discriminate. }
  destruct (apool_run cd wd w O s Nw css _ _ _ _ R _ _ I0) as (st & h & C). exists h. destruct C as [G Ln Wh Ok _ _].
  split; [|split; [|split; [|split; [|split; [|split; [|split; [|split]]]]]]].
  - intros o Oo Po. destruct (object_resolves (w_cwd w) wd o Po Nw) as (p & E & _). exists p, (place wd w o). split; [exact E|].
    split; [apply place_at; auto; apply G|]. split; [apply (a_dir _ _ _ _ _ _ G); now split|apply (a_at _ _ _ _ _ _ G); now split].
  - apply G.
  - apply G.
  - apply G.
  - intros q H. apply (a_out _ _ _ _ _ _ G). intros o [Oo Po] ->. destruct (object_resolves (w_cwd w) wd o Po Nw) as (p & E & _).
    apply (H o p Oo Po E). apply place_at; auto.
  - exact Ln.
  - exact Wh.
  - intros i cs Hc. destruct (nth_error ps' i) as [p|] eqn:Hp; [exact (aok_u _ _ _ _ _ _ _ (Ok i p cs Hp Hc))|].
    apply nth_error_None in Hp. assert (i < length css)%nat by (apply nth_error_Some; congruence). lia.
  - intros i cs rs Hc Hp. apply (Ok i _ cs Hp Hc).
Qed.
