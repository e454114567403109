(** * Posting, listing and reading under every schedule *)
From Coq Require Import Lia ZifyBool ZifyNat ZifyN.
From Verif Require Import M_Base M_Sys M_Path M_File M_Board M_FileOps M_DB M_BbsTool.
From Verif Require Import S_World S_Path S_File S_Store S_Create S_BbsTool S_Post S_Visit.
From Verif Require Import P_Base P_Sys P_Path P_Records P_Read P_FileOps P_BoardList P_Store P_Pool P_PoolList P_Create P_BbsTool P_Post.
Open Scope N_scope.

Lemma firstn_grow {A} k (l x : list A) : (k <= length l)%nat -> firstn k (l ++ x) = firstn k l.
Proof. intros H. rewrite firstn_app. replace (k - length l)%nat with 0%nat by lia. cbn. apply app_nil_r. Qed.
Lemma heard_bound cd wd w vs log i rs k D : heard cd wd w vs log i rs k D -> (k <= length log)%nat.
Proof. induction 1; lia. Qed.
Lemma heard_grow cd wd w vs log x i rs k D : heard cd wd w vs log i rs k D -> heard cd wd w vs (log ++ x) i rs k D.
Proof.
  assert (G : forall k', (k' <= length log)%nat -> (k' <= length (log ++ x))%nat) by (intros; rewrite app_length; lia).
  induction 1 as [|rs k D m n k' H IH L E|rs k D m H IH|rs k D b l k' H IH L E Rl|rs k D b H IH|rs k D b n d H IH Lk|rs k D b n j m k' H IH Lk L E Hi Hb|rs k D b n H IH Lk Fr Hd Hs Ho|rs k D b n e H IH Lk Hj Hd].
  - constructor.
  - eapply heard_posted; [exact IH|split; [lia|apply G; lia]|]. now rewrite firstn_grow by lia.
  - now apply heard_searching.
  - apply (heard_list _ _ _ _ _ _ rs k D b l k'); auto; rewrite ?firstn_grow by lia; auto. split; [lia|apply G; lia].
  - now apply heard_endless.
  - now apply heard_old_text.
  - apply (heard_text _ _ _ _ _ _ rs k D b n j m k'); auto; rewrite ?firstn_grow by lia; auto. split; [lia|apply G; lia].
  - now apply heard_no_text.
  - apply heard_no_article; auto. pose proof (heard_bound _ _ _ _ _ _ _ _ _ H). rewrite firstn_grow by lia. exact Hj.
Qed.

(** A diary with the calls that did not end left out. *)
Inductive fills : diary -> diary -> Prop :=
| fills_nil : fills [] []
| fills_same R rs x : fills R rs -> fills (R ++ [x]) (rs ++ [x])
| fills_searching R rs m : fills R rs -> fills R (rs ++ [(Posts m, Posted Diverge)])
| fills_endless R rs b : fills R rs -> fills R (rs ++ [(Lists b, Listed Diverge)]).
Lemma snoc_inj {A} (l l' : list A) x x' : l ++ [x] = l' ++ [x'] -> l = l' /\ x = x'.
Proof. intros E. apply app_inj_tail in E. exact E. Qed.
Lemma nil_snoc {A} (l : list A) x : [] = l ++ [x] -> False.
Proof. destruct l; discriminate. Qed.
Lemma fills_shown R rs b n o : fills R rs -> In (Shows b n, Shown o) rs -> In (Shows b n, Shown o) R.
Proof.
  induction 1 as [|R rs x F IH|R rs m F IH|R rs b' F IH]; intros H; [exact H|..]; apply in_app_iff in H as [H|[H|[]]]; try discriminate H; auto.
  - apply in_app_iff. left. auto.
  - subst x. apply in_app_iff. right. now left.
Qed.
Lemma fills_heard cd wd w vs log i R rs : fills R rs -> forall k D, heard cd wd w vs log i R k D -> heard cd wd w vs log i rs k D.
Proof.
  induction 1 as [|R rs x F IH|R rs m F IH|R rs b F IH]; intros k D H.
  - exact H.
  - remember (R ++ [x]) as R' eqn:E. destruct H; try (apply snoc_inj in E as [-> <-]).
    + now apply nil_snoc in E.
    + eapply heard_posted; eauto.
    + apply heard_searching; auto.
    + eapply heard_list; eauto.
    + apply heard_endless; auto.
    + apply heard_old_text; auto.
    + eapply heard_text; eauto.
    + apply heard_no_text; auto. intros t Ht Z. apply (fills_shown _ _ _ _ _ F) in Z. eapply H3; eauto.
    + apply heard_no_article; auto.
  - apply heard_searching; auto.
  - apply heard_endless; auto.
Qed.

(** The records in a text. *)
Definition records_in (cd : codec) (d : bytes) (l : list FileHeader) : Prop :=
  exists ss, d = concat ss /\ Forall2 (fun s f => length s = 128%nat /\ file_decoded cd s f) ss l.
Lemma records_nil cd : records_in cd [] [].
Proof. exists []. split; [reflexivity|constructor]. Qed.
Lemma records_snoc cd d l s f : records_in cd d l -> length s = 128%nat -> file_decoded cd s f -> records_in cd (d ++ s) (l ++ [f]).
Proof.
  intros (ss & -> & F) L H. exists (ss ++ [s]). split; [rewrite concat_app; cbn; now rewrite app_nil_r|].
  apply Forall2_app; [exact F|]. constructor; [auto|constructor].
Qed.
Lemma records_split cd : forall ss d' l, Forall (fun s => length s = 128%nat) ss -> records_in cd (concat ss ++ d') l ->
  exists l1 l2, l = l1 ++ l2 /\ Forall2 (fun s f => length s = 128%nat /\ file_decoded cd s f) ss l1 /\ records_in cd d' l2.
Proof.
  induction ss as [|s ss IH]; intros d' l F R.
  - exists [], l. split; [reflexivity|]. split; [constructor|exact R].
  - inversion F as [|? ? Ls Fs]; subst. destruct R as (tt & E & R). cbn [concat] in E. rewrite <- app_assoc in E.
    destruct R as [|t f tt l [Lt Ht] R]; [destruct s; [discriminate Ls|discriminate E]|].
    cbn [concat] in E. apply app_inv_len in E as [<- E]; [|congruence].
    destruct (IH d' l Fs) as (l1 & l2 & -> & F1 & R2); [exists tt; auto|].
    exists (f :: l1), l2. split; [reflexivity|]. split; [constructor; auto|exact R2].
Qed.
Lemma records_encoded cd : forall fs vs l, Forall2 (file_encoded cd) fs vs -> records_in cd (concat vs) l -> Forall2 (file_decoded cd) vs l.
Proof.
  intros fs vs l F R.
  assert (L : Forall (fun s : bytes => length s = 128%nat) vs).
  { clear R. induction F as [|f v fs vs H F IH]; [constructor|]. constructor; [pose proof (proj1 H); lia|exact IH]. }
  rewrite <- (app_nil_r (concat vs)) in R. destruct (records_split cd vs [] l L R) as (l1 & l2 & -> & F1 & (ss & E & R2)).
  destruct R2 as [|s f ss l [Ls _] R2].
  - rewrite app_nil_r. clear - F1. induction F1 as [|? ? ? ? [_ H] ? IH]; constructor; auto.
  - destruct s; [discriminate Ls|discriminate E].
Qed.

Local Hint Resolve incl_refl : core.
Inductive vtarget := VPost (t : target) | VRead (b d : bytes) | VShow (b n : bytes).
Section Visit.
Variables (cd : codec) (wd : bytes) (w0 : world) (vs : list (list action)).
Hypothesis Nwd : ~ In x00 wd.
Hypothesis AFine : forall acts a, In acts vs -> In a acts -> action_fine w0 wd a.
Let css := map messages_of vs.

Lemma messages_in acts m : In m (messages_of acts) <-> In (Posts m) acts.
Proof.
  induction acts as [|[m'|b|b n] acts IH]; cbn; [tauto| | |].
  - rewrite IH. split; (intros [H|H]; [left; congruence|now right]).
  - rewrite IH. split; [auto|intros [H|H]; [discriminate H|exact H]].
  - rewrite IH. split; [auto|intros [H|H]; [discriminate H|exact H]].
Qed.
Lemma Fine : forall ms m, In ms css -> In m ms -> ident (m_board m) /\ index_fine w0 wd (m_board m).
Proof. intros ms m H1 H2. apply in_map_iff in H1 as (acts & <- & H1). apply messages_in in H2. exact (AFine acts (Posts m) H1 H2). Qed.

Notation gw := (gw cd wd w0 css).
Notation rec_bytes := (rec_bytes cd).
Notation iplace := (iplace wd w0).
Notation eplace := (eplace wd w0).
Definition aplace (b n : bytes) : rpath := home_dir (w_cwd w0) wd ++ object_comps (Article b n).

(** ** Programs that behave *)
Definition quiet (M L W D : list pst) : Prop := M = D /\ L = D /\ W = D.
Definition say_posted (e : pst) : action * answer := (Posts (fst e), Posted (Ok [Out (str "new filename: " ++ snd e)])).
Fixpoint vok (acts : list action) (p : prog diary) : list pst -> list pst -> list pst -> list pst -> diary -> option (N * vtarget) -> Prop :=
  match p with
  | Ret rs => fun M L W D R o => quiet M L W D /\ fills R rs /\ map fst rs = acts
  | Call c k =>
      match c in sys X return (X -> list pst -> list pst -> list pst -> list pst -> diary -> option (N * vtarget) -> Prop) ->
                              list pst -> list pst -> list pst -> list pst -> diary -> option (N * vtarget) -> Prop with
      | Now => fun K M L W D R o => forall t, K t M L W D R o
      | Rand n => fun K M L W D R o => 0 < n /\ forall r, r < n -> K r M L W D R o
      | Open path fl => fun K M L W D R _ =>
          ((fl = O_WRONLY_CREATE_EXCL /\ exists m t r, In (Posts m) acts /\ r < 4096 /\
              GetBoardArticleFilePath wd (m_board m) (article_name t r) = Ok path /\
              (forall e, K (RErr e) M L W D R None) /\
              (forall fd, ~ In (m, article_name t r) M -> K (ROk fd) (M ++ [(m, article_name t r)]) L W D R (Some (fd, VPost TDone)))) \/
           (fl = O_APPEND_CREATE_WRONLY /\ exists e, In e M /\
              GetBoardArticlesDirectoryPath wd (m_board (fst e)) = Ok path /\ (forall fd, K (ROk fd) M L W D R (Some (fd, VPost (TIdx e))))) \/
           (fl = O_WRONLY_CREATE /\ exists e, In e M /\
              GetBoardArticleFilePath wd (m_board (fst e)) (snd e) = Ok path /\ (forall fd, K (ROk fd) M L W D R (Some (fd, VPost (TArt e))))) \/
           (fl = O_RDONLY /\ quiet M L W D /\ exists b, In (Lists b) acts /\ GetBoardArticlesDirectoryPath wd b = Ok path /\
              K (RErr ENOENT) M L W D (R ++ [(Lists b, Listed (Ok []))]) None /\
              (forall fd, K (ROk fd) M L W D R (Some (fd, VRead b [])))) \/
           (fl = O_RDONLY /\ quiet M L W D /\ exists b n, In (Shows b n) acts /\ GetBoardArticleFilePath wd b n = Ok path /\
              (forall e, K (RErr e) M L W D (R ++ [(Shows b n, Shown (Err (ESys e)))]) None) /\
              (forall fd, K (ROk fd) M L W D R (Some (fd, VShow b n)))))
      | Read fd n => fun K M L W D R o => n = 128 /\ quiet M L W D /\ exists b d l, o = Some (fd, VRead b d) /\ In (Lists b) acts /\ records_in cd d l /\
          (forall c, lenN c = 128 -> K (ROk c) M L W D R (Some (fd, VRead b (d ++ c)))) /\
          K (ROk []) M L W D (R ++ [(Lists b, Listed (Ok l))]) (Some (fd, VPost TDone))
      | ReadAll fd => fun K M L W D R o => quiet M L W D /\ exists b n, o = Some (fd, VShow b n) /\ plain_object (Article b n) /\
          (forall t, K (ROk t) M L W D (R ++ [(Shows b n, Shown (Ok t))]) (Some (fd, VPost TDone)))
      | Write fd d => fun K M L W D R o =>
          (exists e, o = Some (fd, VPost (TIdx e)) /\ In e M /\ ~ In e L /\ d = rec_bytes e /\ K (ROk (lenN d)) M (L ++ [e]) W D R (Some (fd, VPost TDone))) \/
          (exists e, o = Some (fd, VPost (TArt e)) /\ L = D ++ [e] /\ In e M /\ ~ In e W /\ d = enc cd (m_text (fst e)) /\
             K (ROk (lenN d)) M L (W ++ [e]) (D ++ [e]) (R ++ [say_posted e]) (Some (fd, VPost TDone)))
      | Close fd => fun K M L W D R o => (exists T, o = Some (fd, T)) /\ K tt M L W D R None
      | _ => fun _ _ _ _ _ _ _ => False
      end (fun r => vok acts (k r))
  end.

(** ** The invariant *)
Definition idx (b : bytes) (log : posts_log) : bytes := text_at w0 (iplace b) ++ concat (map rec_bytes (on_board b log)).
Lemma idx_grow b log x : exists rest, idx b (log ++ x) = idx b log ++ rest.
Proof. unfold idx, on_board. rewrite filter_app, !map_app, concat_app, app_assoc. eauto. Qed.
Definition vopened (log : posts_log) (w : world) (fd : N) (t : vtarget) : Prop :=
  match t with
  | VPost t => opened wd w0 w fd t
  | VRead b d => ident b /\ (exists ino, w_fds w fd = Some (OFile (Some ino) (lenN d) false true false) /\ w_tree w (iplace b) = Some (NFile ino)) /\
      exists rest, idx b log = d ++ rest
  | VShow b n => exists ino, w_fds w fd = Some (OFile (Some ino) 0 false true false) /\ w_tree w (aplace b n) = Some (NFile ino)
  end.
(** the texts that a client has seen have been written *)
Definition seen (wrote : posts_log) (R : diary) : Prop := forall b n t, In (Shows b n, Shown (Ok t)) R -> t <> [] ->
  look w0 (board_entry w0 wd b n) = None -> exists j m, In (j, (m, n)) wrote /\ m_board m = b.
Definition told (log wrote : posts_log) (i : nat) (R : diary) (D : list pst) : Prop := (exists k, heard cd wd w0 vs log i R k D) /\ seen wrote R.
Lemma seen_more wrote wrote1 R : incl wrote wrote1 -> seen wrote R -> seen wrote1 R.
Proof. intros I H b n t H1 H2 H3. destruct (H b n t H1 H2 H3) as (j & m & A & B). exists j, m. auto. Qed.
Lemma seen_add wrote R x : seen wrote R -> (forall b n t, x <> (Shows b n, Shown (Ok t))) -> seen wrote (R ++ [x]).
Proof. intros H N b n t H1. apply in_app_iff in H1 as [H1|[H1|[]]]; [now apply H|]. now destruct (N b n t). Qed.
Record vinv (w : world) (ps : list (prog diary)) (st : nat -> option (N * vtarget)) (D : nat -> list pst) (R : nat -> diary)
    (made log wrote : posts_log) : Prop := {
  v_gw : gw w made log wrote;
  v_wl : incl wrote log;
  v_len : length ps = length vs;
  v_ok : forall i p acts, nth_error ps i = Some p -> nth_error vs i = Some acts ->
    vok acts p (by_client i made) (by_client i log) (by_client i wrote) (D i) (R i) (st i);
  v_heard : forall i, (i < length vs)%nat -> told log wrote i (R i) (D i);
  v_fd : forall i fd t, (i < length vs)%nat -> st i = Some (fd, t) -> fd < w_nextfd w /\ vopened log w fd t;
  v_dis : forall i j fd t t', (i < length vs)%nat -> (j < length vs)%nat -> i <> j -> st i = Some (fd, t) -> st j = Some (fd, t') -> False }.

(** One client, which holds the descriptor [o], moves from [w] to [w1]. *)
Record vmoves (w w1 : world) (o : option N) : Prop := {
  vmv_fds : forall fd, fd < w_nextfd w -> o <> Some fd -> w_fds w1 fd = w_fds w fd;
  vmv_tree : forall q ino, w_tree w q = Some (NFile ino) -> w_tree w1 q = Some (NFile ino);
  vmv_next : w_nextfd w <= w_nextfd w1 }.
Definition held (o : option (N * vtarget)) : option N := option_map fst o.
Lemma vmoves_none w w1 o : (forall x, moves w w1 x) -> vmoves w w1 o.
Proof. intros H. destruct (H None) as [A B C]. constructor; auto. intros fd L _. apply A; [exact L|discriminate]. Qed.
Lemma vmoves_some w w1 fd T : moves w w1 (Some (fd, T)) -> vmoves w w1 (Some fd).
Proof. intros [A B C]. constructor; auto. intros fd' L H. apply A; [exact L|]. intros t [= -> _]. now apply H. Qed.
Lemma vopened_moves w w1 o log x fd t : vmoves w w1 o -> fd < w_nextfd w -> o <> Some fd -> vopened log w fd t -> vopened (log ++ x) w1 fd t.
Proof.
  intros Mv L N O. destruct t as [t|b d|b n]; cbn [vopened] in *.
  - destruct t as [e|e|]; [| |exact I]; cbn in *.
    + destruct O as (ino & pos & rd & A & B). exists ino, pos, rd. rewrite (vmv_fds _ _ _ Mv fd L N). split; [exact A|]. now apply (vmv_tree _ _ _ Mv).
    + destruct O as (ino & rd & A & B). exists ino, rd. rewrite (vmv_fds _ _ _ Mv fd L N). split; [exact A|]. now apply (vmv_tree _ _ _ Mv).
  - destruct O as (Ib & (ino & A & B) & rest & E). split; [exact Ib|]. split.
    + exists ino. rewrite (vmv_fds _ _ _ Mv fd L N). split; [exact A|]. now apply (vmv_tree _ _ _ Mv).
    + destruct (idx_grow b log x) as [r2 ->]. rewrite E, <- app_assoc. eauto.
  - destruct O as (ino & A & B). exists ino. rewrite (vmv_fds _ _ _ Mv fd L N). split; [exact A|]. now apply (vmv_tree _ _ _ Mv).
Qed.
Lemma visit_step w ps st D R made log wrote i p w1 p1 o1 D1 R1 made1 x wrote1 acts :
  vinv w ps st D R made log wrote -> nth_error ps i = Some p -> nth_error vs i = Some acts ->
  gw w1 made1 (log ++ x) wrote1 -> incl wrote1 (log ++ x) -> vmoves w w1 (held (st i)) ->
  (forall j, i <> j -> by_client j made1 = by_client j made /\ by_client j (log ++ x) = by_client j log /\ by_client j wrote1 = by_client j wrote) ->
  vok acts p1 (by_client i made1) (by_client i (log ++ x)) (by_client i wrote1) D1 R1 o1 ->
  told (log ++ x) wrote1 i R1 D1 -> incl wrote wrote1 ->
  (forall fd t, o1 = Some (fd, t) -> fd < w_nextfd w1 /\ vopened (log ++ x) w1 fd t /\ (w_nextfd w <= fd \/ exists t', st i = Some (fd, t'))) ->
  vinv w1 (upd_nth i p1 ps) (put st i o1) (put D i D1) (put R i R1) made1 (log ++ x) wrote1.
Proof.
  intros C Hp Hm G Wl Mv Oth K Hk Iw Ho.
  assert (Li : (i < length vs)%nat) by (apply nth_error_Some; congruence).
  assert (Lp : (i < length ps)%nat) by (apply nth_error_Some; congruence).
  constructor.
  - exact G.
  - exact Wl.
  - rewrite upd_nth_length. apply C.
  - intros j p' acts' Hj Hm'. destruct (Nat.eq_dec i j) as [<-|N].
    + rewrite !put_same. rewrite nth_upd_same in Hj by exact Lp. injection Hj as <-. rewrite Hm in Hm'. injection Hm' as <-. exact K.
    + rewrite !put_other by exact N. rewrite nth_upd_other in Hj by exact N. destruct (Oth j N) as (-> & -> & ->). now apply (v_ok _ _ _ _ _ _ _ _ C).
  - intros j Hj. destruct (Nat.eq_dec i j) as [<-|N].
    + rewrite !put_same. exact Hk.
    + rewrite !put_other by exact N. destruct (v_heard _ _ _ _ _ _ _ _ C j Hj) as [[k Q] Q']. split; [|now apply (seen_more wrote)]. exists k. now apply heard_grow.
  - intros j fd t Hj Hs. destruct (Nat.eq_dec i j) as [<-|N].
    + rewrite put_same in Hs. destruct (Ho fd t Hs) as (A & B & _). auto.
    + rewrite put_other in Hs by exact N. destruct (v_fd _ _ _ _ _ _ _ _ C j fd t Hj Hs) as [A B]. pose proof (vmv_next _ _ _ Mv). split; [lia|].
      apply (vopened_moves w w1 (held (st i))); auto. intros Z. unfold held in Z. destruct (st i) as [[fd' t']|] eqn:Ei; [|discriminate Z]. injection Z as ->.
      exact (v_dis _ _ _ _ _ _ _ _ C i j fd t' t Li Hj N Ei Hs).
  - assert (Ds : forall j fd t t', (j < length vs)%nat -> i <> j -> o1 = Some (fd, t) -> st j = Some (fd, t') -> False).
    { intros j fd t t' Hj N E1 E2. destruct (Ho fd t E1) as (_ & _ & [X|[t2 X]]).
      - destruct (v_fd _ _ _ _ _ _ _ _ C j fd t' Hj E2). lia.
      - exact (v_dis _ _ _ _ _ _ _ _ C i j fd t2 t' Li Hj N X E2). }
    intros j k fd t t' Hj Hk' N E1 E2. destruct (Nat.eq_dec i j) as [<-|Nj]; [|destruct (Nat.eq_dec i k) as [<-|Nk]].
    + rewrite put_same in E1. rewrite put_other in E2 by exact N. now apply (Ds k fd t t').
    + rewrite put_same in E2. rewrite put_other in E1 by exact Nj. now apply (Ds j fd t' t).
    + rewrite put_other in E1, E2 by assumption. exact (v_dis _ _ _ _ _ _ _ _ C j k fd t t' Hj Hk' N E1 E2).
Qed.
(** the same when the log stays *)
Lemma visit_quiet w ps st D R made log wrote i p w1 p1 o1 D1 R1 made1 wrote1 acts :
  vinv w ps st D R made log wrote -> nth_error ps i = Some p -> nth_error vs i = Some acts ->
  gw w1 made1 log wrote1 -> incl wrote1 log -> vmoves w w1 (held (st i)) ->
  (forall j, i <> j -> by_client j made1 = by_client j made /\ by_client j wrote1 = by_client j wrote) ->
  vok acts p1 (by_client i made1) (by_client i log) (by_client i wrote1) D1 R1 o1 ->
  told log wrote1 i R1 D1 -> incl wrote wrote1 ->
  (forall fd t, o1 = Some (fd, t) -> fd < w_nextfd w1 /\ vopened log w1 fd t /\ (w_nextfd w <= fd \/ exists t', st i = Some (fd, t'))) ->
  exists st' D' R' made' log' wrote', vinv w1 (upd_nth i p1 ps) st' D' R' made' log' wrote'.
Proof.
  intros C Hp Hm G Wl Mv Oth K Hk Iw Ho. exists (put st i o1), (put D i D1), (put R i R1), made1, (log ++ []), wrote1.
  apply (visit_step w ps st D R made log wrote i p w1 p1 o1 D1 R1 made1 [] wrote1 acts); rewrite ?app_nil_r; auto.
  intros j N. destruct (Oth j N). auto.
Qed.

(** ** Places *)
Lemma aplace_entry b n : plain_object (Article b n) -> aplace b n = board_entry w0 wd b n.
Proof. intros P. rewrite (board_entry_place _ _ _ _ [] (proj1 P)). reflexivity. Qed.
Lemma aplace_nonroot b n : aplace b n <> [].
Proof. unfold aplace. intros E. apply app_eq_nil in E as [_ E]. discriminate E. Qed.
Lemma posted_dec b : posted_on css b \/ ~ posted_on css b.
Proof.
  destruct (in_dec (list_eq_dec Byte.byte_eq_dec) b (map m_board (concat css))) as [H|H]; [left|right].
  - apply in_map_iff in H as (m & <- & H). apply in_concat in H as (ms & H1 & H2). exists ms, m. auto.
  - intros (ms & m & H1 & H2 & <-). apply H. apply in_map, in_concat. eauto.
Qed.
Lemma not_made_dec (q : rpath) (made : posts_log) : (exists x, In x made /\ eplace (snd x) = q) \/ forall x, In x made -> q <> eplace (snd x).
Proof.
  destruct (in_dec rp_eq_dec q (map (fun x => eplace (snd x)) made)) as [H|H].
  - apply in_map_iff in H as (x & E & H). eauto.
  - right. intros x Hx E. apply H. apply in_map_iff. exists x. auto.
Qed.
(** the index holds the old records and the posts *)
Lemma index_now w made log wrote b : gw w made log wrote -> ident b -> index_fine w0 wd b ->
  look w (iplace b) = None /\ idx b log = [] \/ look w (iplace b) = Some (EFile (idx b log)).
Proof.
  intros G Ib Fi. destruct (posted_dec b) as [Po|Po].
  - destruct (g_idx _ _ _ _ _ _ _ _ G b Po) as [(A & B & E)|A]; [left|right; exact A]. split; [exact A|]. unfold idx, text_at. now rewrite B, E.
  - assert (on_board b log = []) as E.
    { destruct (on_board b log) as [|e l] eqn:E; [reflexivity|]. exfalso. apply Po. assert (H : In e (on_board b log)) by (rewrite E; now left).
      apply on_board_in in H as [<- [j H]]. apply (g_log _ _ _ _ _ _ _ _ G) in H. destruct (g_in _ _ _ _ _ _ _ _ G _ _ H) as ((ms & Hm & Hi) & _).
      apply nth_error_In in Hm. exists ms, (fst e). auto. }
    assert (L : look w (iplace b) = look w0 (iplace b)).
    { apply (g_out _ _ _ _ _ _ _ _ G).
      - intros b' Pb Z. apply iplace_inj in Z; [|exact Ib|now apply (posted_ident wd w0 css Fine)]. congruence.
      - intros [j e] H Z. cbn [snd] in Z. symmetry in Z. revert Z. apply eplace_iplace; [|exact Ib]. now apply (from_fine cd wd w0 css Fine j e _ _ _ _ G). }
    rewrite L. unfold idx, text_at. rewrite E. cbn [map concat]. rewrite app_nil_r. unfold index_fine in Fi. rewrite <- (iplace_entry wd w0 b Ib) in Fi.
    destruct (look w0 (iplace b)) as [[|d]|]; [contradiction|right|left]; auto.
Qed.
(** a file is there if and only if it was there, or has been created *)
Lemma article_now w made log wrote b n : gw w made log wrote -> plain_object (Article b n) ->
  (exists j m, In (j, (m, n)) made /\ m_board m = b /\ eplace (m, n) = aplace b n) \/
  (forall j m, In (j, (m, n)) made -> m_board m <> b) /\ look w (aplace b n) = look w0 (aplace b n).
Proof.
  intros G Pl. destruct (not_made_dec (aplace b n) made) as [([j [m n']] & Hi & E)|H].
  - cbn [snd] in E. pose proof (from_fine cd wd w0 css Fine j (m, n') _ _ _ _ G Hi) as (_ & _ & _ & Pl').
    assert (Z : m_board m = b /\ n' = n).
    { cbn [fst snd] in Pl'. unfold P_Post.eplace, aplace in E. apply app_inv_head in E. apply object_comps_inj in E; auto. injection E. auto. }
    destruct Z as [<- ->]. left. exists j, m. auto.
  - right. split.
    + intros j m Hi <-. exact (H _ Hi eq_refl).
    + apply (g_out _ _ _ _ _ _ _ _ G); [|exact H]. intros b' Pb Z. revert Z. exact (eplace_iplace wd w0 (Message b [] [] [] [], n) b' Pl (posted_ident wd w0 css Fine b' Pb)).
Qed.
Lemma dir_stays w made log wrote b : gw w made log wrote -> ident b -> look w0 (board_dir w0 wd b) = Some EDir -> has_dir w (iplace b).
Proof.
  intros G Ib Hd. rewrite (iplace_entry _ _ _ Ib). unfold has_dir, index_entry. rewrite board_entry_parent. rewrite <- Hd.
  assert (Ln : length (board_dir w0 wd b) = (length (home_dir (w_cwd w0) wd) + 3)%nat) by (unfold S_Create.board_dir; rewrite app_length; reflexivity).
  apply (g_out _ _ _ _ _ _ _ _ G).
  - intros b' Pb Z. apply (f_equal (@length _)) in Z. rewrite Ln in Z. rewrite (iplace_entry _ _ _ (posted_ident wd w0 css Fine b' Pb)) in Z.
    unfold index_entry, board_entry, S_Create.board_dir in Z. rewrite !app_length in Z. cbn [length] in Z. lia.
  - intros [j e] H Z. cbn [snd] in Z. apply (f_equal (@length _)) in Z. rewrite Ln in Z.
    destruct (from_fine cd wd w0 css Fine j e _ _ _ _ G H) as (Ie & _). rewrite (eplace_entry _ _ _ Ie) in Z.
    unfold board_entry, S_Create.board_dir in Z. rewrite !app_length in Z. cbn [length] in Z. lia.
Qed.

(** ** Right answers *)
Lemma recs_encoded l : Forall2 (file_encoded cd) (map (fun e => listed (fst e) (snd e)) l) (map rec_bytes l).
Proof.
  induction l as [|[m n] l IH]; [constructor|]. cbn [map]. constructor; [|exact IH]. cbn [fst snd].
  replace (rec_bytes (m, n)) with (MarshalToByte cd (listed m n)); [apply file_encode|]. unfold P_Post.rec_bytes, MarshalToByte. f_equal.
Qed.
Lemma list_right b log l : action_fine w0 wd (Lists b) -> records_in cd (idx b log) l -> right_list cd w0 wd b log l.
Proof.
  intros (Ib & _ & _ & ss & E & F) Rc. unfold idx in Rc. rewrite (iplace_entry wd w0 b Ib), E in Rc.
  destruct (records_split cd ss _ l F Rc) as (l1 & l2 & -> & F1 & R2).
  exists l1, l2, (map rec_bytes (on_board b log)). split; [reflexivity|]. split; [exists ss; auto|]. split; [apply recs_encoded|].
  eapply records_encoded; [apply recs_encoded|exact R2].
Qed.
Lemma hear_list b log wrote l i R D : action_fine w0 wd (Lists b) -> records_in cd (idx b log) l ->
  told log wrote i R D -> by_client i log = D -> told log wrote i (R ++ [(Lists b, Listed (Ok l))]) D.
Proof.
  intros F Rc [[k H] Sn] E. split; [|apply seen_add; [exact Sn|discriminate]]. exists (length log). apply (heard_list _ _ _ _ _ _ R k); [exact H| | |]; rewrite ?firstn_all.
  - pose proof (heard_bound _ _ _ _ _ _ _ _ _ H). lia.
  - exact E.
  - now apply list_right.
Qed.
Lemma hear_posted log wrote i R D e : told log wrote i R D -> by_client i log = D ++ [e] ->
  told log wrote i (R ++ [say_posted e]) (D ++ [e]).
Proof.
  intros [[k H] Sn] E. destruct e as [m n]. split; [|apply seen_add; [exact Sn|discriminate]]. exists (length log). apply (heard_posted _ _ _ _ _ _ R k); [exact H| |]; rewrite ?firstn_all.
  - pose proof (heard_bound _ _ _ _ _ _ _ _ _ H). lia.
  - exact E.
Qed.
Lemma in_firstn {A} k (l : list A) x : In x (firstn k l) -> In x l.
Proof. intros H. rewrite <- (firstn_skipn k l). apply in_app_iff. now left. Qed.
Lemma made_same w made log wrote i j m m' n : gw w made log wrote -> In (i, (m, n)) made -> In (j, (m', n)) made -> m_board m = m_board m' -> i = j /\ m = m'.
Proof.
  intros G H H' E. assert ((i, (m, n)) = (j, (m', n))) as Z; [|injection Z; auto].
  apply (NoDup_map_same ekey made); auto; [apply G|]. unfold ekey. cbn. now rewrite E.
Qed.
Lemma hear_text w made log wrote i R D b n t : gw w made log wrote -> incl wrote log -> plain_object (Article b n) ->
  told log wrote i R D -> by_client i made = D -> by_client i log = D -> by_client i wrote = D -> look w (aplace b n) = Some (EFile t) ->
  told log wrote i (R ++ [(Shows b n, Shown (Ok t))]) D.
Proof.
  intros G Wl Pl [[k H] Sn] EM EL EW L. split.
  2:{ intros b' n' t' Hi Ht Ln. apply in_app_iff in Hi as [Hi|[[= <- <- <-]|[]]]; [now apply (Sn b' n' t')|].
      destruct (article_now w made log wrote b n G Pl) as [(j & m & Hi & <- & Ep)|[_ Lo]].
      - destruct (g_in _ _ _ _ _ _ _ _ G _ _ Hi) as (_ & _ & _ & [[Q _]|[_ Q]]); [eauto|]. rewrite Ep, L in Q. injection Q as ->. contradiction.
      - rewrite L, (aplace_entry _ _ Pl), Ln in Lo. discriminate Lo. }
  destruct (article_now w made log wrote b n G Pl) as [(j & m & Hi & <- & Ep)|[No Lo]].
  - destruct (g_in _ _ _ _ _ _ _ _ G _ _ Hi) as (_ & Fr & L0 & Q). cbn [fst snd] in *. rewrite Ep, L in *. rewrite (aplace_entry _ _ Pl) in L0.
    destruct Q as [[Hw [= ->]]|[Hw [= ->]]].
    + exists (length log). apply (heard_text _ _ _ _ _ _ R k D (m_board m) n j m); auto; rewrite ?firstn_all; auto.
      pose proof (heard_bound _ _ _ _ _ _ _ _ _ H). lia.
    + exists k. apply heard_no_text; auto; [intros m' Hm E| |].
      2:{ intros t Ht Z. destruct (Sn _ _ _ Z Ht L0) as (j' & m' & Hj & Eb). pose proof (g_wrote _ _ _ _ _ _ _ _ G _ Hj) as Hj'.
          destruct (made_same w made log wrote j' j m' m n G Hj' Hi Eb) as [-> ->]. contradiction. }
      2:{ exists j. destruct (g_in _ _ _ _ _ _ _ _ G _ _ Hi) as ((ms & Hj & Hms) & _). unfold css in Hj. rewrite nth_error_map in Hj.
          destruct (nth_error vs j) as [acts|] eqn:Ev; [|discriminate Hj]. injection Hj as <-. apply messages_in in Hms. exists acts, m.
          split; [|auto]. intros ->. apply by_client_in in Hi. rewrite EM, <- EW in Hi. apply by_client_in in Hi. contradiction. }
      rewrite <- EW in Hm. apply by_client_in in Hm. apply Hw.
      pose proof (g_wrote _ _ _ _ _ _ _ _ G _ Hm) as Hm'. destruct (made_same w made log wrote i j m' m n G Hm' Hi E) as [<- <-]. exact Hm.
  - exists k. apply heard_old_text; auto. rewrite <- (aplace_entry _ _ Pl), <- Lo. exact L.
Qed.
Lemma hear_no_article w made log wrote i R D b n e : gw w made log wrote -> action_fine w0 wd (Shows b n) ->
  told log wrote i R D -> by_client i log = D -> look w (aplace b n) = None ->
  told log wrote i (R ++ [(Shows b n, Shown (Err e))]) D.
Proof.
  intros G [Pl Nd] [[k H] Sn] EL L. split; [|apply seen_add; [exact Sn|discriminate]].
  assert (No : forall j m, In (j, (m, n)) made -> m_board m <> b /\ True).
  { intros j m Hi. split; [|exact I]. intros <-. destruct (g_in _ _ _ _ _ _ _ _ G _ _ Hi) as (_ & _ & _ & [[_ Z]|[_ Z]]); change (eplace (m, n)) with (aplace (m_board m) n) in Z; rewrite L in Z; discriminate Z. }
  exists k. apply heard_no_article; auto.
  - destruct (article_now w made log wrote b n G Pl) as [(j & m & Hi & Eb & _)|[_ Lo]]; [now destruct (No j m Hi)|].
    rewrite <- (aplace_entry _ _ Pl), <- Lo. exact L.
  - intros j m Hi. apply in_firstn in Hi. apply (g_log _ _ _ _ _ _ _ _ G) in Hi. now apply (No j m).
  - intros m Hi. rewrite <- EL in Hi. apply by_client_in in Hi. apply (g_log _ _ _ _ _ _ _ _ G) in Hi. now apply (No i m).
Qed.

(** reading through a descriptor *)
Lemma read_world w fd o ino q (n : N) : sane w -> w_fds w fd = Some o -> of_ino o = Some ino -> fd < w_nextfd w -> w_tree w q = Some (NFile ino) ->
  forall pos, let w1 := set_fd w fd (Some (OFile (Some ino) pos (of_append o) (of_rd o) (of_wr o))) in
  sane w1 /\ w_cwd w1 = w_cwd w /\ w_nextfd w1 = w_nextfd w /\ (forall q', look w1 q' = look w q') /\ vmoves w w1 (Some fd) /\
  w_fds w1 fd = Some (OFile (Some ino) pos (of_append o) (of_rd o) (of_wr o)) /\ w_tree w1 q = Some (NFile ino).
Proof.
  intros S F I L T pos w1. split; [|split; [reflexivity|split; [reflexivity|split; [|split; [|split; [|exact T]]]]]].
  - apply sane_set_fd; [exact S|exact L|]. intros q' j [= <-] [= <-]. exact (sane_ino _ S _ _ T).
  - intros q'. apply look_set_fd.
  - constructor; [|auto|cbn; lia]. intros fd' _ Hn. cbn. destruct N.eq_dec as [->|]; [|reflexivity]. now destruct Hn.
  - cbn. destruct N.eq_dec; congruence.
Qed.
Lemma file_data w q ino d : look w q = Some (EFile d) -> w_tree w q = Some (NFile ino) -> w_data w ino = d.
Proof. intros L T. destruct (look_file _ _ _ L) as (ino' & T' & D & _). rewrite T in T'. injection T' as <-. exact D. Qed.
Lemma tree_look w q ino : q <> [] -> w_tree w q = Some (NFile ino) -> look w q = Some (EFile (w_data w ino)).
Proof. intros Q T. unfold look. rewrite T. now destruct q. Qed.
Lemma sub_beyond n (l : bytes) m : lenN l <= n -> sub n m l = [].
Proof.
  intros H. unfold sub. unfold lenN in H. rewrite skipn_all2 by lia. apply firstn_nil.
Qed.
Lemma firstn_len {A} (l l' : list A) : firstn (length l) (l ++ l') = l.
Proof. rewrite firstn_app, Nat.sub_diag, firstn_all. apply app_nil_r. Qed.
(** where a text of whole records is read, a whole record is read or nothing *)
Lemma read_record cd' b log d rest l : action_fine w0 wd (Lists b) -> idx b log = d ++ rest -> records_in cd' d l ->
  sub (lenN d) 128 (d ++ rest) = [] /\ rest = [] \/ exists c rest', lenN c = 128 /\ rest = c ++ rest' /\ sub (lenN d) 128 (d ++ rest) = c.
Proof.
  intros (Ib & _ & _ & ss & E & F) Ei (sd & -> & Fd).
  assert (X : sub (lenN (concat sd)) 128 (concat sd ++ rest) = firstn 128 rest).
  { unfold sub, lenN. rewrite Nat2N.id, skipn_app, skipn_all2 by lia. rewrite Nat.sub_diag. cbn [skipn app]. reflexivity. }
  rewrite X. assert (M : exists all, concat sd ++ rest = concat all /\ Forall (fun s : bytes => length s = 128%nat) all).
  { exists (ss ++ map rec_bytes (on_board b log)). split.
    - rewrite <- Ei, concat_app, <- E. unfold idx. now rewrite (iplace_entry wd w0 b Ib).
    - apply Forall_app. split; [exact F|]. apply Forall_forall. intros s Hs. apply in_map_iff in Hs as (e & <- & _).
      pose proof (marshal_length cd (NewArticleRecord (snd e) (m_owner (fst e)) (m_date (fst e)) (m_title (fst e)))) as Lm. unfold P_Post.rec_bytes, lenN in *. lia. }
  destruct M as (all & Ea & Fa). clear - Ea Fa Fd. revert all Ea Fa. induction Fd as [|s f sd l [Ls _] Fd IH]; intros all Ea Fa.
  - cbn [concat app] in Ea. destruct Fa as [|c all Lc Fa]; [left; subst; auto|]. right. exists c, (concat all). cbn [concat] in Ea. subst rest.
    split; [unfold lenN; lia|]. split; [reflexivity|]. rewrite <- Lc. apply firstn_len.
  - destruct Fa as [|c all Lc Fa]; cbn [concat] in Ea; [destruct s; [discriminate Ls|discriminate Ea]|].
    rewrite <- app_assoc in Ea. apply app_inv_len in Ea as [_ Ea]; [|congruence]. now apply (IH all).
Qed.

Lemma visit_ok w ps st D R made log wrote i p : vinv w ps st D R made log wrote -> nth_error ps i = Some p ->
  exists st' D' R' made' log' wrote', vinv (fst (step1 p w)) (upd_nth i (snd (step1 p w)) ps) st' D' R' made' log' wrote'.
Proof.
  intros C Hp.
  assert (exists acts, nth_error vs i = Some acts) as [acts Hm].
  { destruct (nth_error vs i) eqn:E; [eauto|]. apply nth_error_None in E. rewrite <- (v_len _ _ _ _ _ _ _ _ C) in E. apply nth_error_None in E. congruence. }
  assert (Li : (i < length vs)%nat) by (apply nth_error_Some; congruence).
  assert (Hc : nth_error css i = Some (messages_of acts)) by (unfold css; rewrite nth_error_map, Hm; reflexivity).
  pose proof (nth_error_In _ _ Hm) as Hv.
  pose proof (v_ok _ _ _ _ _ _ _ _ C i p acts Hp Hm) as K. pose proof (v_gw _ _ _ _ _ _ _ _ C) as G. pose proof (v_wl _ _ _ _ _ _ _ _ C) as Wl.
  pose proof (g_sane _ _ _ _ _ _ _ _ G) as S. pose proof (g_cwd _ _ _ _ _ _ _ _ G) as Cw.
  pose proof (v_heard _ _ _ _ _ _ _ _ C i Li) as Hk.
  destruct p as [rs|X c k].
  { cbn [step1 fst snd]. exists st, D, R, made, log, wrote. rewrite upd_nth_id by exact Hp. exact C. }
  cbn [step1]. destruct c as [path fl|fd n|fd|fd d| | | |fd| | | |m]; try contradiction; cbn [vok] in K.
  - (* open *)
    destruct K as [(-> & m & t & r & Hi & Hr & Ep & Ke & Kf)|[(-> & e & He & Ep & Kf)|[(-> & e & He & Ep & Kf)|[(-> & Q & b & Hb & Ep & Kn & Kf)|(-> & Q & b & n & Hb & Ep & Ke & Kf)]]]].
    + (* a new article *)
      destruct (AFine acts (Posts m) Hv Hi) as [Ib _].
      set (e := (m, article_name t r) : pst).
      pose proof (article_name_plain (m_board m) t r Ib) as Pl.
      pose proof (article_at wd w0 Nwd w _ _ _ Cw Pl Ep) as Nm. change (names w path (eplace e)) in Nm.
      assert (Stay : forall er, exec (Open path O_WRONLY_CREATE_EXCL) w = (w, RErr er) ->
        exists st' D' R' made' log' wrote', vinv (fst (let '(w1, r0) := exec (Open path O_WRONLY_CREATE_EXCL) w in (w1, k r0)))
          (upd_nth i (snd (let '(w1, r0) := exec (Open path O_WRONLY_CREATE_EXCL) w in (w1, k r0))) ps) st' D' R' made' log' wrote').
      { intros er ->. cbn [fst snd].
        apply (visit_quiet w ps st D R made log wrote i (Call (Open path O_WRONLY_CREATE_EXCL) k) w (k (RErr er)) None (D i) (R i) made wrote acts C Hp Hm G Wl); auto.
        - constructor; auto; lia.
        - intros fd tt Z. discriminate Z. }
      destruct (look w (eplace e)) as [x|] eqn:Lk.
      * assert (exists er, exec (Open path O_WRONLY_CREATE_EXCL) w = (w, RErr er)) as [er E]; [|exact (Stay er E)].
        cbn [exec]. unfold sys_open. destruct Nm as [Pp Rp]. destruct (proper_tests path Pp) as [-> ->]. rewrite Rp.
        unfold look in Lk. destruct (is_dir w (eplace e)) eqn:Ed; [cbn; eauto|].
        destruct (eplace e) as [|a b]; [discriminate Ed|]. destruct (w_tree w (a :: b)) as [[|j]|]; try discriminate; cbn; eauto.
      * destruct (is_dir w (parent (eplace e))) eqn:Dr.
        -- destruct (created_world w path O_WRONLY_CREATE_EXCL (eplace e) S Nm Lk eq_refl) as (E & S1 & L1 & Lo & Mv & _); [now apply is_dir_look|].
           revert E S1 L1 Lo Mv. set (w1 := bump_fd _). intros E S1 L1 Lo Mv. rewrite E. cbn [fst snd].
           apply (visit_quiet w ps st D R made log wrote i (Call (Open path O_WRONLY_CREATE_EXCL) k) w1 _ (Some (w_nextfd w, VPost TDone)) (D i) (R i) (made ++ [(i, e)]) wrote acts C Hp Hm); auto.
           ++ apply (gw_made cd wd w0 css Fine w w1 made log wrote i (messages_of acts) e G S1); auto; [now apply messages_in|now apply article_name_fresh].
           ++ now apply vmoves_none.
           ++ intros j N. rewrite by_client_other by exact N. auto.
           ++ rewrite by_client_snoc. apply Kf. intros Z. apply by_client_in in Z.
              destruct (g_in _ _ _ _ _ _ _ _ G _ _ Z) as (_ & _ & _ & [[_ X]|[_ X]]); fold e in X; rewrite Lk in X; discriminate X.
           ++ intros fd tt [= <- <-]. split; [cbn; lia|]. split; [exact I|]. left. lia.
        -- apply (Stay (missing w (eplace e))). apply (open_missing w path _ _ Nm Lk). right. now apply is_dir_look_false.
    + (* the index *)
      apply by_client_in in He. destruct (from_fine cd wd w0 css Fine i e _ _ _ _ G He) as (Ib & Ix & Po & Pl).
      pose proof (index_at wd w0 Nwd w _ _ Cw Ib Ep) as Nm.
      destruct (g_idx _ _ _ _ _ _ _ _ G _ Po) as [(L & L0 & Ol)|L].
      * assert (Hd : has_dir w (iplace (m_board (fst e)))).
        { destruct (g_in _ _ _ _ _ _ _ _ G _ _ He) as (_ & _ & _ & [[_ X]|[_ X]]); exact (index_dir wd w0 w e _ S Ib X). }
        destruct (created_world w path O_APPEND_CREATE_WRONLY (iplace (m_board (fst e))) S Nm L eq_refl Hd) as (E & S1 & L1 & Lo & Mv & T1 & F1).
        revert E S1 L1 Lo Mv T1 F1. set (w1 := bump_fd _). intros E S1 L1 Lo Mv T1 F1. rewrite E. cbn [fst snd].
        apply (visit_quiet w ps st D R made log wrote i (Call (Open path O_APPEND_CREATE_WRONLY) k) w1 _ (Some (w_nextfd w, VPost (TIdx e))) (D i) (R i) made wrote acts C Hp Hm); auto.
        -- apply (gw_index cd wd w0 css Fine w w1 made log wrote (m_board (fst e)) G S1); auto.
        -- now apply vmoves_none.
        -- intros fd tt [= <- <-]. split; [cbn; lia|]. split; [|left; lia]. cbn [vopened opened]. eexists _, _, _. split; [exact F1|exact T1].
      * destruct (existing_world w path O_APPEND_CREATE_WRONLY _ _ S Nm L eq_refl eq_refl) as (w1 & ino & E & S1 & C1 & L1 & Mv & T1 & N1 & F1).
        rewrite E. cbn [fst snd].
        apply (visit_quiet w ps st D R made log wrote i (Call (Open path O_APPEND_CREATE_WRONLY) k) w1 _ (Some (w_nextfd w, VPost (TIdx e))) (D i) (R i) made wrote acts C Hp Hm); auto.
        -- now apply (gw_quiet cd wd w0 css w w1).
        -- now apply vmoves_none.
        -- intros fd tt [= <- <-]. split; [lia|]. split; [|left; lia]. cbn [vopened opened]. eexists _, _, _. split; [exact F1|exact T1].
    + (* the article again *)
      apply by_client_in in He. destruct (from_fine cd wd w0 css Fine i e _ _ _ _ G He) as (Ib & Ix & Po & Pl).
      pose proof (article_at wd w0 Nwd w _ _ _ Cw Pl Ep) as Nm. change (names w path (eplace e)) in Nm.
      assert (exists d, look w (eplace e) = Some (EFile d)) as [d L].
      { destruct (g_in _ _ _ _ _ _ _ _ G _ _ He) as (_ & _ & _ & [[_ X]|[_ X]]); eauto. }
      destruct (existing_world w path O_WRONLY_CREATE _ _ S Nm L eq_refl eq_refl) as (w1 & ino & E & S1 & C1 & L1 & Mv & T1 & N1 & F1).
      rewrite E. cbn [fst snd].
      apply (visit_quiet w ps st D R made log wrote i (Call (Open path O_WRONLY_CREATE) k) w1 _ (Some (w_nextfd w, VPost (TArt e))) (D i) (R i) made wrote acts C Hp Hm); auto.
      * now apply (gw_quiet cd wd w0 css w w1).
      * now apply vmoves_none.
      * intros fd tt [= <- <-]. split; [lia|]. split; [|left; lia]. cbn [vopened opened]. eexists _, _. split; [exact F1|exact T1].
    + (* the index, for reading *)
      pose proof (AFine acts _ Hv Hb) as Fb. pose proof Fb as (Ib & Ix & Dr & _).
      pose proof (index_at wd w0 Nwd w _ _ Cw Ib Ep) as Nm. destruct Q as (_ & QL & _).
      destruct (index_now w made log wrote b G Ib Ix) as [[L E0]|L].
      * rewrite (open_missing w path O_RDONLY _ Nm L (or_introl eq_refl)), (missing_enoent w _ S (dir_stays w made log wrote b G Ib Dr)). cbn [fst snd].
        apply (visit_quiet w ps st D R made log wrote i (Call (Open path O_RDONLY) k) w (k (RErr ENOENT)) None (D i) (R i ++ [(Lists b, Listed (Ok []))]) made wrote acts C Hp Hm G Wl); auto.
        -- constructor; auto; lia.
        -- apply (hear_list b log wrote [] i); auto. rewrite E0. apply records_nil.
        -- intros fd tt Z. discriminate Z.
      * destruct (existing_world w path O_RDONLY _ _ S Nm L eq_refl eq_refl) as (w1 & ino & E & S1 & C1 & L1 & Mv & T1 & N1 & F1).
        rewrite E. cbn [fst snd].
        apply (visit_quiet w ps st D R made log wrote i (Call (Open path O_RDONLY) k) w1 _ (Some (w_nextfd w, VRead b [])) (D i) (R i) made wrote acts C Hp Hm); auto.
        -- now apply (gw_quiet cd wd w0 css w w1).
        -- now apply vmoves_none.
        -- intros fd tt [= <- <-]. split; [lia|]. split; [|left; lia]. cbn [vopened]. split; [exact Ib|]. split; [exists ino; auto|]. exists (idx b log). reflexivity.
    + (* an article, for reading *)
      pose proof (AFine acts _ Hv Hb) as Fb. pose proof Fb as (Pl & Nd).
      pose proof (article_at wd w0 Nwd w _ _ _ Cw Pl Ep) as Nm. change (names w path (aplace b n)) in Nm. destruct Q as (_ & QL & QW).
      destruct (look w (aplace b n)) as [[|t]|] eqn:L.
      * exfalso. destruct (article_now w made log wrote b n G Pl) as [(j & m & Hi & Eb & Ea)|[_ Lo]].
        -- destruct (g_in _ _ _ _ _ _ _ _ G _ _ Hi) as (_ & _ & _ & [[_ Z]|[_ Z]]); rewrite Ea, L in Z; discriminate Z.
        -- apply Nd. rewrite <- (aplace_entry _ _ Pl), <- Lo. exact L.
      * destruct (existing_world w path O_RDONLY _ _ S Nm L eq_refl eq_refl) as (w1 & ino & E & S1 & C1 & L1 & Mv & T1 & N1 & F1).
        rewrite E. cbn [fst snd].
        apply (visit_quiet w ps st D R made log wrote i (Call (Open path O_RDONLY) k) w1 _ (Some (w_nextfd w, VShow b n)) (D i) (R i) made wrote acts C Hp Hm); auto.
        -- now apply (gw_quiet cd wd w0 css w w1).
        -- now apply vmoves_none.
        -- intros fd tt [= <- <-]. split; [lia|]. split; [|left; lia]. cbn [vopened]. exists ino. auto.
      * rewrite (open_missing w path O_RDONLY _ Nm L (or_introl eq_refl)). cbn [fst snd].
        apply (visit_quiet w ps st D R made log wrote i (Call (Open path O_RDONLY) k) w _ None (D i) (R i ++ [(Shows b n, Shown (Err (ESys (missing w (aplace b n)))))]) made wrote acts C Hp Hm G Wl); auto.
        -- constructor; auto; lia.
        -- now apply (hear_no_article w made log wrote i).
        -- intros fd tt Z. discriminate Z.
  - (* read *)
    destruct K as (-> & Q & b & d & l & So & Hb & Rc & Kc & Ke). destruct (v_fd _ _ _ _ _ _ _ _ C i _ _ Li So) as [Lf (Ib & (ino & F & T) & rest & Er)].
    assert (Fb : action_fine w0 wd (Lists b)).
    { exact (AFine acts _ Hv Hb). }
    pose proof Fb as (_ & Ix & _).
    assert (Da : w_data w ino = idx b log).
    { destruct (index_now w made log wrote b G Ib Ix) as [[L _]|L]; [|exact (file_data w _ _ _ L T)].
      rewrite (tree_look w _ ino (iplace_nonroot wd w0 b) T) in L. discriminate L. }
    rewrite (exec_read w fd _ ino 128 F eq_refl eq_refl). cbn [of_pos of_append of_rd of_wr fst snd]. rewrite Da, Er.
    match goal with |- context [set_fd w fd (Some (OFile (Some ino) ?x false true false))] => set (pos := x) end.
    destruct (read_world w fd _ ino _ 128 S F eq_refl Lf T pos) as (S1 & C1 & N1 & L1 & Mv & F1 & T1). cbn [of_append of_rd of_wr] in *. 
    revert S1 C1 N1 L1 Mv F1 T1. set (w1 := set_fd _ _ _). intros S1 C1 N1 L1 Mv F1 T1.
    destruct (read_record cd b log d rest l Fb Er Rc) as [[X Y]|(c & rest' & Lc & Y & X)]; rewrite X.
    + subst rest. rewrite app_nil_r in Er.
      apply (visit_quiet w ps st D R made log wrote i (Call (Read fd 128) k) w1 _ (Some (fd, VPost TDone)) (D i) (R i ++ [(Lists b, Listed (Ok l))]) made wrote acts C Hp Hm); auto.
      * now apply (gw_quiet cd wd w0 css w w1).
      * rewrite So. exact Mv.
      * apply (hear_list b log wrote l i); auto; [rewrite Er; exact Rc|apply Q].
      * intros fd' tt [= <- <-]. split; [lia|]. split; [exact I|]. right. eauto.
    + apply (visit_quiet w ps st D R made log wrote i (Call (Read fd 128) k) w1 _ (Some (fd, VRead b (d ++ c))) (D i) (R i) made wrote acts C Hp Hm); auto.
      * now apply (gw_quiet cd wd w0 css w w1).
      * rewrite So. exact Mv.
      * intros fd' tt [= <- <-]. split; [lia|]. split; [|right; eauto]. cbn [vopened]. split; [exact Ib|]. split.
        -- exists ino. split; [|exact T1]. rewrite F1. unfold pos. rewrite X. do 2 f_equal. unfold lenN. rewrite app_length. lia.
        -- exists rest'. rewrite Er, Y. apply app_assoc.
  - (* read all *)
    destruct K as (Q & b & n & So & Pl & Kt). destruct (v_fd _ _ _ _ _ _ _ _ C i _ _ Li So) as [Lf (ino & F & T)].
    cbn [exec]. unfold sys_read_all. rewrite F. cbn [of_pos of_append of_rd of_wr of_ino fst snd N.to_nat skipn].
    match goal with |- context [set_fd w fd (Some (OFile (Some ino) ?x false true false))] => set (pos := x) end.
    destruct (read_world w fd _ ino _ 128 S F eq_refl Lf T pos) as (S1 & C1 & N1 & L1 & Mv & F1 & T1). cbn [of_append of_rd of_wr] in *.
    apply (visit_quiet w ps st D R made log wrote i (Call (ReadAll fd) k) _ _ (Some (fd, VPost TDone)) (D i) (R i ++ [(Shows b n, Shown (Ok (w_data w ino)))]) made wrote acts C Hp Hm); auto.
    + now apply (gw_quiet cd wd w0 css w).
    + rewrite So. exact Mv.
    + apply (hear_text w made log wrote i); auto; [apply Q|apply Q|apply Q|]. apply tree_look; [apply aplace_nonroot|exact T].
    + intros fd' tt [= <- <-]. split; [cbn; lia|]. split; [exact I|]. right. eauto.
  - (* write *)
    destruct K as [(e & So & He & Nl & -> & K)|(e & So & EL & He & Nl & -> & K)];
      destruct (v_fd _ _ _ _ _ _ _ _ C i _ _ Li So) as [Lf Op]; cbn [vopened opened] in Op; apply by_client_in in He; rewrite by_client_in in Nl;
      destruct (from_fine cd wd w0 css Fine i e _ _ _ _ G He) as (Ib & Ix & Po & Pl).
    + destruct Op as (ino & pos & rd & F & T).
      destruct (write_world w fd _ ino _ (rec_bytes e) (TIdx e) S F eq_refl eq_refl Lf T (iplace_nonroot wd w0 _)) as (w1 & E & S1 & C1 & N1 & L1 & Lo & Mv).
      cbn [of_append of_pos] in L1. rewrite write_at_end in L1.
      rewrite E. cbn [fst snd]. exists (put st i (Some (fd, VPost TDone))), (put D i (D i)), (put R i (R i)), made, (log ++ [(i, e)]), wrote.
      apply (visit_step w ps st D R made log wrote i (Call (Write fd (rec_bytes e)) k) w1 _ _ _ _ _ _ _ acts C Hp Hm).
      * apply (gw_listed cd wd w0 css Fine w w1 made log wrote i e (w_data w ino) G S1); auto.
        apply tree_look; [apply iplace_nonroot|exact T].
      * intros x Hx. apply in_app_iff. left. now apply Wl.
      * rewrite So. exact (vmoves_some _ _ _ _ Mv).
      * intros j N. rewrite by_client_other by exact N. auto.
      * rewrite by_client_snoc. exact K.
      * destruct Hk as [[k0 Hk] Sn]. split; [|exact Sn]. exists k0. now apply heard_grow.
      * apply incl_refl.
      * intros fd' tt [= <- <-]. split; [lia|]. split; [exact I|]. right. eauto.
    + destruct Op as (ino & rd & F & T).
      destruct (write_world w fd _ ino _ (enc cd (m_text (fst e))) (TArt e) S F eq_refl eq_refl Lf T (eplace_nonroot wd w0 _)) as (w1 & E & S1 & C1 & N1 & L1 & Lo & Mv).
      cbn [of_append of_pos] in L1.
      assert (w_data w ino = []) as D0.
      { destruct (g_in _ _ _ _ _ _ _ _ G _ _ He) as (_ & _ & _ & [[X _]|[_ X]]); [contradiction|]. exact (file_data w _ _ _ X T). }
      rewrite D0, write_at_0, skipn_nil, app_nil_r in L1.
      rewrite E. cbn [fst snd].
      apply (visit_quiet w ps st D R made log wrote i (Call (Write fd (enc cd (m_text (fst e)))) k) w1 _ (Some (fd, VPost TDone)) (D i ++ [e]) (R i ++ [say_posted e]) made (wrote ++ [(i, e)]) acts C Hp Hm).
      * now apply (gw_text cd wd w0 css Fine w w1 made log wrote i e G S1).
      * intros x Hx. apply in_app_iff in Hx as [Hx|[<-|[]]]; [now apply Wl|]. apply by_client_in. rewrite EL. apply in_app_iff. right. now left.
      * rewrite So. exact (vmoves_some _ _ _ _ Mv).
      * intros j N. rewrite by_client_other by exact N. auto.
      * rewrite by_client_snoc. exact K.
      * apply hear_posted; [|exact EL]. destruct Hk as [Hk Sn]. split; [exact Hk|]. apply (seen_more wrote); [|exact Sn]. intros x Hx. apply in_app_iff. now left.
      * intros x Hx. apply in_app_iff. now left.
      * intros fd' tt [= <- <-]. split; [lia|]. split; [exact I|]. right. eauto.
  - (* close *)
    destruct K as ([T So] & K). cbn [exec fst snd].
    apply (visit_quiet w ps st D R made log wrote i (Call (Close fd) k) _ _ None (D i) (R i) made wrote acts C Hp Hm); auto.
    + apply (gw_quiet cd wd w0 css w); auto. now apply sane_close.
    + rewrite So. constructor; [|auto|cbn; lia]. intros fd' Hf Hn. cbn. destruct N.eq_dec as [->|]; [|reflexivity]. now destruct Hn.
    + intros fd' tt Z. discriminate Z.
  - (* now *)
    cbn [exec fst snd].
    apply (visit_quiet w ps st D R made log wrote i (Call Now k) _ _ (st i) (D i) (R i) made wrote acts C Hp Hm); auto.
    + apply (gw_quiet cd wd w0 css w); auto. now apply sane_tick.
    + constructor; auto. cbn. lia.
    + intros fd t Z. destruct (v_fd _ _ _ _ _ _ _ _ C i fd t Li Z) as [A B]. split; [exact A|]. split; [exact B|]. right. eauto.
  - (* rand *)
    destruct K as [Hn K]. cbn [exec fst snd].
    apply (visit_quiet w ps st D R made log wrote i (Call (Rand m) k) _ _ (st i) (D i) (R i) made wrote acts C Hp Hm); auto.
    + apply (gw_quiet cd wd w0 css w); auto. now apply sane_rtick.
    + constructor; auto. cbn. lia.
    + apply K. apply N.mod_lt. lia.
    + intros fd t Z. destruct (v_fd _ _ _ _ _ _ _ _ C i fd t Li Z) as [A B]. split; [exact A|]. split; [exact B|]. right. eauto.
Qed.
Lemma visit_run sched : forall w ps st D R made log wrote, vinv w ps st D R made log wrote ->
  exists st' D' R' made' log' wrote', vinv (fst (run_pool sched w ps)) (snd (run_pool sched w ps)) st' D' R' made' log' wrote'.
Proof.
  induction sched as [|i sched IH]; intros w ps st D R made log wrote C; cbn [run_pool]; [eauto 8|].
  destruct (nth_error ps i) as [p|] eqn:Hp; [|eauto 8].
  destruct (visit_ok w ps st D R made log wrote i p C Hp) as (st1 & D1 & R1 & made1 & log1 & wrote1 & C1). destruct (step1 p w) as [w1 p1]. cbn [fst snd] in C1. eauto.
Qed.

(** ** The calls are such programs *)
Lemma vok_assoc acts {A B} (p : prog A) (h : A -> prog B) (k : B -> prog diary) : forall M L W D R o,
  vok acts (bind p (fun a => bind (h a) k)) M L W D R o -> vok acts (bind (bind p h) k) M L W D R o.
Proof.
  induction p as [a|X c h' IH]; intros M L W D R o; [auto|].
  destruct c; cbn [bind vok]; try tauto.
  - intros [(-> & m & t & r & H1 & H2 & H3 & Ke & Kf)|[(-> & e & H1 & H2 & Kf)|[(-> & e & H1 & H2 & Kf)|[(-> & Q & b & H1 & H2 & Kn & Kf)|(-> & Q & b & n & H1 & H2 & Ke & Kf)]]]].
    + left. split; [reflexivity|]. exists m, t, r. repeat (split; [assumption|]). split; intros; apply IH; auto.
    + right. left. split; [reflexivity|]. exists e. repeat (split; [assumption|]). intros; apply IH; auto.
    + right. right. left. split; [reflexivity|]. exists e. repeat (split; [assumption|]). intros; apply IH; auto.
    + right. right. right. left. split; [reflexivity|]. split; [exact Q|]. exists b. repeat (split; [assumption|]). split; intros; apply IH; auto.
    + right. right. right. right. split; [reflexivity|]. split; [exact Q|]. exists b, n. repeat (split; [assumption|]). split; intros; apply IH; auto.
  - intros (-> & Q & b & d & l & H1 & H2 & H3 & Kc & Ke). split; [reflexivity|]. split; [exact Q|]. exists b, d, l. repeat (split; [assumption|]). split; intros; apply IH; auto.
  - intros (Q & b & n & H1 & H2 & Kt). split; [exact Q|]. exists b, n. repeat (split; [assumption|]). intros; apply IH; auto.
  - intros [(e & H1 & H2 & H3 & H4 & K)|(e & H1 & H2 & H3 & H4 & H5 & K)]; [left|right]; exists e; repeat (split; [assumption|]); now apply IH.
  - intros [E K]. split; [exact E|]. now apply IH.
  - intros K t. now apply IH.
  - intros [E K]. split; [exact E|]. intros r Hr. now apply IH, K.
Qed.
Lemma vok_filename acts fuel m (k : outcome bytes -> prog diary) M L W D R : In (Posts m) acts -> ident (m_board m) ->
  (forall n, plain_object (Article (m_board m) n) -> ~ In (m, n) M -> vok acts (k (Ok n)) (M ++ [(m, n)]) L W D R None) -> (forall o, vok acts (k Diverge) M L W D R o) ->
  forall o, vok acts (bind (CreateBoardArticleFilename fuel wd (m_board m)) k) M L W D R o.
Proof.
  intros Hm Ib K1 K2. induction fuel as [|fuel IH]; intros o; [apply K2|]. cbn -[article_name N.mul]. intros t. split; [lia|]. intros r Hr.
  destruct (article_path wd w0 Nwd (m_board m) t r Ib) as [p E]. rewrite E. cbn -[article_name]. left. split; [reflexivity|].
  exists m, t, r. repeat (split; [assumption|]). split; [intros e; apply IH|]. intros fd N. cbn -[article_name]. split; [eauto|]. apply K1; [now apply article_name_plain|exact N].
Qed.
Lemma vok_append acts e (k : outcome unit -> prog diary) M L W D R : In e M -> ~ In e L -> ident (m_board (fst e)) ->
  vok acts (k (Ok tt)) M (L ++ [e]) W D R None ->
  vok acts (bind (AddArticleRecordFileRecord cd wd (m_board (fst e)) (NewArticleRecord (snd e) (m_owner (fst e)) (m_date (fst e)) (m_title (fst e)))) k) M L W D R None.
Proof.
  intros He Hn Ib K. unfold AddArticleRecordFileRecord, pbind, lift. cbn [bind].
  destruct (object_resolves (w_cwd w0) wd (Index (m_board (fst e))) Ib Nwd) as (p & Ep & _). cbn [object_path] in Ep. rewrite Ep.
  rewrite append_record_shape. unfold open_write. cbn [bind vok]. right. left. split; [reflexivity|]. exists e. split; [exact He|]. split; [exact Ep|].
  intros fd. cbn [bind vok]. left. exists e. split; [reflexivity|]. split; [exact He|]. split; [exact Hn|]. split; [reflexivity|]. split; [eauto|]. exact K.
Qed.
Lemma vok_write acts e (k : outcome unit -> prog diary) M L W D R : L = D ++ [e] -> In e M -> ~ In e W -> plain_object (Article (m_board (fst e)) (snd e)) ->
  vok acts (k (Ok tt)) M L (W ++ [e]) (D ++ [e]) (R ++ [say_posted e]) None ->
  vok acts (bind (DB_WriteBoardArticleFile wd (m_board (fst e)) (snd e) (enc cd (m_text (fst e)))) k) M L W D R None.
Proof.
  intros EL He Hn Pl K. unfold DB_WriteBoardArticleFile, pbind, lift. cbn [bind].
  destruct (object_resolves (w_cwd w0) wd (Article (m_board (fst e)) (snd e)) Pl Nwd) as (p & Ep & _). cbn [object_path] in Ep. rewrite Ep.
  rewrite write_article_shape. unfold open_write. cbn [bind vok]. right. right. left. split; [reflexivity|]. exists e. split; [exact He|]. split; [exact Ep|].
  intros fd. cbn [bind vok]. right. exists e. split; [reflexivity|]. split; [exact EL|]. split; [exact He|]. split; [exact Hn|]. split; [reflexivity|]. split; [eauto|]. exact K.
Qed.
Lemma vok_post acts fuel m (k : outcome (list out) -> prog diary) D R : In (Posts m) acts -> ident (m_board m) ->
  (forall n, vok acts (k (Ok [Out (str "new filename: " ++ n)])) (D ++ [(m, n)]) (D ++ [(m, n)]) (D ++ [(m, n)]) (D ++ [(m, n)]) (R ++ [say_posted (m, n)]) None) ->
  (forall o, vok acts (k Diverge) D D D D R o) -> forall o, vok acts (bind (post_message cd fuel wd m) k) D D D D R o.
Proof.
  intros Hm Ib K1 K2 o. unfold post_message, post, try, db_call, CreateArticleRecord, pbind.
  apply vok_assoc, vok_assoc, vok_filename; [exact Hm|exact Ib| |exact K2].
  intros n Pl Hn. cbn [bind fh_filename NewArticleRecord]. apply vok_assoc. apply (vok_append acts (m, n)); [apply in_app_iff; right; now left|exact Hn|exact Ib|].
  cbn [bind]. apply vok_assoc. apply (vok_write acts (m, n)); [reflexivity|apply in_app_iff; right; now left|exact Hn|exact Pl|]. cbn [bind]. apply K1.
Qed.
Lemma vok_read acts b (k : outcome (list FileHeader) -> prog diary) D R fd : In (Lists b) acts ->
  (forall l, vok acts (k (Ok l)) D D D D (R ++ [(Lists b, Listed (Ok l))]) None) -> (forall o, vok acts (k Diverge) D D D D R o) ->
  forall fuel acc d, records_in cd d (rev acc) ->
  vok acts (bind (read_loop 128 (NewFileHeaderWithByte cd) false true fuel fd acc) k) D D D D R (Some (fd, VRead b d)).
Proof.
  intros Hb K1 K2. induction fuel as [|fuel IH]; intros acc d Rc; [apply K2|].
  cbn [read_loop bind vok]. split; [reflexivity|]. split; [repeat split|]. exists b, d, (rev acc). split; [reflexivity|]. split; [exact Hb|]. split; [exact Rc|]. split.
  - intros c Lc. pose proof (fill_exact 128 c Lc) as Ef. destruct c as [|x c]; [discriminate Lc|]. rewrite Ef.
    destruct (file_decode cd (x :: c)) as (f & Ed & Df); [lia|]. rewrite Ed. apply IH. cbn [rev]. apply records_snoc; auto. unfold lenN in Lc. lia.
  - cbn [close_if bind vok]. split; [eauto|]. apply K1.
Qed.
Lemma vok_list acts fuel b (k : outcome (list FileHeader) -> prog diary) D R : In (Lists b) acts -> ident b ->
  (forall l, vok acts (k (Ok l)) D D D D (R ++ [(Lists b, Listed (Ok l))]) None) -> (forall o, vok acts (k Diverge) D D D D R o) ->
  forall o, vok acts (bind (ReadBoardArticleRecordsFile cd fuel wd b) k) D D D D R o.
Proof.
  intros Hb Ib K1 K2 o. unfold ReadBoardArticleRecordsFile, pbind, lift. cbn [bind].
  destruct (object_resolves (w_cwd w0) wd (Index b) Ib Nwd) as (p & Ep & _). cbn [object_path] in Ep. rewrite Ep.
  apply vok_assoc. unfold OpenFileHeaderFile, open_records. cbn [bind vok]. right. right. right. left. split; [reflexivity|]. split; [repeat split|].
  exists b. split; [exact Hb|]. split; [exact Ep|]. split; [apply K1|]. intros fd. apply vok_read; auto using records_nil.
Qed.
Lemma vok_show acts b n (k : outcome bytes -> prog diary) D R : In (Shows b n) acts -> plain_object (Article b n) ->
  (forall t, vok acts (k (Ok t)) D D D D (R ++ [(Shows b n, Shown (Ok t))]) None) ->
  (forall e, vok acts (k (Err (ESys e))) D D D D (R ++ [(Shows b n, Shown (Err (ESys e)))]) None) ->
  forall o, vok acts (bind (DB_ReadBoardArticleFile wd b n) k) D D D D R o.
Proof.
  intros Hb Pl K1 K2 o. unfold DB_ReadBoardArticleFile, pbind, lift. cbn [bind].
  destruct (object_resolves (w_cwd w0) wd (Article b n) Pl Nwd) as (p & Ep & _). cbn [object_path] in Ep. rewrite Ep.
  unfold ReadBoardArticleFile. cbn [bind vok]. right. right. right. right. split; [reflexivity|]. split; [repeat split|].
  exists b, n. split; [exact Hb|]. split; [exact Ep|]. split; [exact K2|]. intros fd. cbn [bind vok]. split; [repeat split|].
  exists b, n. split; [reflexivity|]. split; [exact Pl|]. intros t. cbn [bind vok]. split; [eauto|]. apply K1.
Qed.
Lemma vok_visitor fuel all todo : forall got D R o, map fst (rev got) ++ todo = all -> (forall a, In a all -> action_fine w0 wd a) -> fills R (rev got) ->
  vok all (visitor_from cd fuel wd todo got) D D D D R o.
Proof.
  induction todo as [|a todo IH]; intros got D R o E Hf F; cbn [visitor_from].
  { cbn [vok]. rewrite app_nil_r in E. split; [repeat split|]. auto. }
  assert (Hm : In a all) by (rewrite <- E; apply in_app_iff; right; now left). pose proof (Hf a Hm) as Fa.
  assert (E' : forall r, map fst (rev ((a, r) :: got)) ++ todo = all) by (intros r; cbn [rev]; rewrite map_app, <- app_assoc; exact E).
  destruct a as [m|b|b n].
  - apply vok_post; [exact Hm|apply Fa| |].
    + intros n. apply IH; [apply E'|exact Hf|]. now apply fills_same.
    + intros o'. apply IH; [apply E'|exact Hf|]. now apply fills_searching.
  - apply vok_list; [exact Hm|apply Fa| |].
    + intros l. apply IH; [apply E'|exact Hf|]. now apply fills_same.
    + intros o'. apply IH; [apply E'|exact Hf|]. now apply fills_endless.
  - apply vok_show; [exact Hm|apply Fa| |].
    + intros l. apply IH; [apply E'|exact Hf|]. now apply fills_same.
    + intros e. apply IH; [apply E'|exact Hf|]. now apply fills_same.
Qed.
Lemma vinv_start fuel : sane w0 -> vinv w0 (map (visitor cd fuel wd) vs) (fun _ => None) (fun _ => []) (fun _ => []) [] [] [].
Proof.
  intros S. constructor.
  - exact (p_gw _ _ _ _ _ _ _ _ _ _ (pinv_start cd wd w0 css Nwd Fine fuel S)).
  - intros x [].
  - apply map_length.
  - intros i p acts Hp Hm. rewrite nth_error_map, Hm in Hp. injection Hp as <-. apply vok_visitor; [reflexivity| |constructor].
    intros a H. apply nth_error_In in Hm. now apply (AFine acts a).
  - intros i _. split; [exists 0%nat; constructor|intros b n t []].
  - discriminate.
  - discriminate.
Qed.
End Visit.
