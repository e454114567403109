(** * Posting articles under every schedule *)
From Coq Require Import Lia ZifyBool ZifyNat ZifyN.
From Verif Require Import M_Base M_Sys M_Path M_File M_Board M_FileOps M_DB M_BbsTool.
From Verif Require Import S_World S_Path S_File S_Store S_Create S_BbsTool S_Post.
From Verif Require Import P_Base P_Sys P_Path P_FileOps P_BoardList P_Store P_Pool P_Create P_BbsTool.
Open Scope N_scope.

Lemma by_client_in i e l : In e (by_client i l) <-> In (i, e) l.
Proof.
  unfold by_client. rewrite in_map_iff. split.
  - intros ([j e'] & E & H). apply filter_In in H as [H X]. cbn in *. apply Nat.eqb_eq in X. congruence.
  - intros H. exists (i, e). split; [reflexivity|]. apply filter_In. split; [exact H|apply Nat.eqb_refl].
Qed.
Lemma by_client_snoc i e l : by_client i (l ++ [(i, e)]) = by_client i l ++ [e].
Proof. unfold by_client. rewrite filter_app, map_app. cbn. now rewrite Nat.eqb_refl. Qed.
Lemma by_client_other i j e l : i <> j -> by_client j (l ++ [(i, e)]) = by_client j l.
Proof. intros H. unfold by_client. rewrite filter_app. cbn. destruct (Nat.eqb_spec i j); [contradiction|]. now rewrite app_nil_r. Qed.
Lemma on_board_in b e l : In e (on_board b l) <-> m_board (fst e) = b /\ exists i, In (i, e) l.
Proof.
  unfold on_board. rewrite in_map_iff. split.
  - intros ([j e'] & E & H). apply filter_In in H as [H X]. cbn in *. subst. destruct (beqb_spec (m_board (fst e)) b); [|discriminate]. eauto.
  - intros [<- [i H]]. exists (i, e). split; [reflexivity|]. apply filter_In. split; [exact H|]. cbn. now destruct (beqb_spec (m_board (fst e)) (m_board (fst e))).
Qed.
Lemma on_board_snoc i e l : on_board (m_board (fst e)) (l ++ [(i, e)]) = on_board (m_board (fst e)) l ++ [e].
Proof. unfold on_board. rewrite filter_app, map_app. cbn. now destruct (beqb_spec (m_board (fst e)) (m_board (fst e))). Qed.
Lemma on_board_other b i e l : m_board (fst e) <> b -> on_board b (l ++ [(i, e)]) = on_board b l.
Proof. intros H. unfold on_board. rewrite filter_app. cbn. destruct (beqb_spec (m_board (fst e)) b); [contradiction|]. now rewrite app_nil_r. Qed.
Lemma NoDup_map_same {A B} (f : A -> B) l x y : NoDup (map f l) -> In x l -> In y l -> f x = f y -> x = y.
Proof.
  induction l as [|a l IH]; [contradiction|]. cbn [map]. intros N Hx Hy E. apply NoDup_cons_iff in N as [N1 N2].
  destruct Hx as [->|Hx], Hy as [->|Hy]; auto; exfalso; apply N1.
  - rewrite E. now apply in_map.
  - rewrite <- E. now apply in_map.
Qed.
Lemma NoDup_snoc {A} (l : list A) x : NoDup l -> ~ In x l -> NoDup (l ++ [x]).
Proof.
  induction l as [|a l IH]; intros N H; cbn; [constructor; auto; constructor|].
  apply NoDup_cons_iff in N as [N1 N2]. constructor.
  - intros Z. apply in_app_iff in Z as [Z|[Z|[]]]; [auto|]. apply H. now left.
  - apply IH; [exact N2|]. intros Z. apply H. now right.
Qed.

Definition pst := (message * bytes)%type.
Inductive target := TIdx (e : pst) | TArt (e : pst) | TDone.
Section Post.
Variables (cd : codec) (wd : bytes) (w0 : world) (css : list (list message)).
Hypothesis Nwd : ~ In x00 wd.
Hypothesis Fine : forall ms m, In ms css -> In m ms -> ident (m_board m) /\ index_fine w0 wd (m_board m).

Definition rec_bytes (e : pst) : bytes :=
  MarshalToByte cd (NewArticleRecord (snd e) (m_owner (fst e)) (m_date (fst e)) (m_title (fst e))).
Definition posted_on (b : bytes) : Prop := exists ms m, In ms css /\ In m ms /\ m_board m = b.
Definition iplace (b : bytes) : rpath := home_dir (w_cwd w0) wd ++ object_comps (Index b).
Definition eplace (e : pst) : rpath := home_dir (w_cwd w0) wd ++ object_comps (Article (m_board (fst e)) (snd e)).
Definition ekey (x : nat * pst) : bytes * bytes := (m_board (fst (snd x)), snd (snd x)).

(** ** Programs that behave
    [ok ms p M L W o]: a client with the messages [ms] has created [M], added [L] to
    indexes and written the texts of [W]. *)
Fixpoint ok (ms : list message) (p : prog report) : list pst -> list pst -> list pst -> option (N * target) -> Prop :=
  match p with
  | Ret rs => fun M L W o => o = None /\ M = L /\ L = W /\ map fst rs = ms /\ reported rs L
  | Call c k =>
      match c in sys R return (R -> list pst -> list pst -> list pst -> option (N * target) -> Prop) ->
                              list pst -> list pst -> list pst -> option (N * target) -> Prop with
      | Now => fun K M L W o => forall t, K t M L W o
      | Rand n => fun K M L W o => 0 < n /\ forall r, r < n -> K r M L W o
      | Open path fl => fun K M L W o => o = None /\
          ((fl = O_WRONLY_CREATE_EXCL /\ exists m t r, In m ms /\ r < 4096 /\
              GetBoardArticleFilePath wd (m_board m) (article_name t r) = Ok path /\
              (forall e, K (RErr e) M L W None) /\
              (forall fd, ~ In (m, article_name t r) M -> K (ROk fd) (M ++ [(m, article_name t r)]) L W (Some (fd, TDone)))) \/
           (fl = O_APPEND_CREATE_WRONLY /\ exists e, In e M /\ 
              GetBoardArticlesDirectoryPath wd (m_board (fst e)) = Ok path /\ (forall fd, K (ROk fd) M L W (Some (fd, TIdx e)))) \/
           (fl = O_WRONLY_CREATE /\ exists e, In e M /\
              GetBoardArticleFilePath wd (m_board (fst e)) (snd e) = Ok path /\ (forall fd, K (ROk fd) M L W (Some (fd, TArt e)))))
      | Write fd d => fun K M L W o =>
          (exists e, o = Some (fd, TIdx e) /\ In e M /\ ~ In e L /\ d = rec_bytes e /\ K (ROk (lenN d)) M (L ++ [e]) W (Some (fd, TDone))) \/
          (exists e, o = Some (fd, TArt e) /\ In e M /\ ~ In e W /\ d = enc cd (m_text (fst e)) /\ K (ROk (lenN d)) M L (W ++ [e]) (Some (fd, TDone)))
      | Close fd => fun K M L W o => (exists T, o = Some (fd, T)) /\ K tt M L W None
      | _ => fun _ _ _ _ _ => False
      end (fun r => ok ms (k r))
  end.

(** ** The files *)
Record gw (w : world) (made log wrote : posts_log) : Prop := {
  g_sane : sane w;
  g_cwd : w_cwd w = w_cwd w0;
  g_in : forall i e, In (i, e) made ->
    (exists ms, nth_error css i = Some ms /\ In (fst e) ms) /\ fresh_name (snd e) /\ look w0 (eplace e) = None /\
    (In (i, e) wrote /\ look w (eplace e) = Some (EFile (enc cd (m_text (fst e)))) \/
     ~ In (i, e) wrote /\ look w (eplace e) = Some (EFile []));
  g_log : incl log made;
  g_wrote : incl wrote made;
  g_nodup : NoDup (map ekey made);
  g_nodupl : NoDup log;
  g_idx : forall b, posted_on b ->
    look w (iplace b) = None /\ look w0 (iplace b) = None /\ on_board b log = [] \/
    look w (iplace b) = Some (EFile (text_at w0 (iplace b) ++ concat (map rec_bytes (on_board b log))));
  g_out : forall q, (forall b, posted_on b -> q <> iplace b) -> (forall x, In x made -> q <> eplace (snd x)) -> look w q = look w0 q }.

Definition opened (w : world) (fd : N) (t : target) : Prop :=
  match t with
  | TDone => True
  | TIdx e => exists ino pos rd, w_fds w fd = Some (OFile (Some ino) pos true rd true) /\ w_tree w (iplace (m_board (fst e))) = Some (NFile ino)
  | TArt e => exists ino rd, w_fds w fd = Some (OFile (Some ino) 0 false rd true) /\ w_tree w (eplace e) = Some (NFile ino)
  end.
Record pinv (w : world) (ps : list (prog report)) (st : nat -> option (N * target)) (made log wrote : posts_log) : Prop := {
  p_gw : gw w made log wrote;
  p_len : length ps = length css;
  p_ok : forall i p ms, nth_error ps i = Some p -> nth_error css i = Some ms ->
    ok ms p (by_client i made) (by_client i log) (by_client i wrote) (st i);
  p_fd : forall i fd t, (i < length css)%nat -> st i = Some (fd, t) -> fd < w_nextfd w /\ opened w fd t;
  p_dis : forall i j fd t t', (i < length css)%nat -> (j < length css)%nat -> i <> j -> st i = Some (fd, t) -> st j = Some (fd, t') -> False }.

Definition put {X} (st : nat -> X) i x j := if Nat.eqb j i then x else st j.
Lemma put_same {X} (st : nat -> X) i x : put st i x i = x.
Proof. unfold put. now rewrite Nat.eqb_refl. Qed.
Lemma put_other {X} (st : nat -> X) i x j : i <> j -> put st i x j = st j.
Proof. intros H. unfold put. destruct (Nat.eqb_spec j i); congruence. Qed.

(** One client moves from [w] to [w1]. *)
Record moves (w w1 : world) (st : option (N * target)) : Prop := {
  mv_fds : forall fd, fd < w_nextfd w -> (forall t, st <> Some (fd, t)) -> w_fds w1 fd = w_fds w fd;
  mv_tree : forall q ino, w_tree w q = Some (NFile ino) -> w_tree w1 q = Some (NFile ino);
  mv_next : w_nextfd w <= w_nextfd w1 }.
Lemma opened_moves w w1 o fd t : moves w w1 o -> fd < w_nextfd w -> (forall t, o <> Some (fd, t)) -> opened w fd t -> opened w1 fd t.
Proof.
  intros Mv L N O. destruct t as [e|e|]; [| |exact I]; cbn in *.
  - destruct O as (ino & pos & rd & A & B). exists ino, pos, rd. rewrite (mv_fds _ _ _ Mv fd L N). split; [exact A|]. now apply (mv_tree _ _ _ Mv).
  - destruct O as (ino & rd & A & B). exists ino, rd. rewrite (mv_fds _ _ _ Mv fd L N). split; [exact A|]. now apply (mv_tree _ _ _ Mv).
Qed.
Lemma client_step w ps st made log wrote i p w1 p1 o1 made1 log1 wrote1 ms :
  pinv w ps st made log wrote -> nth_error ps i = Some p -> nth_error css i = Some ms ->
  gw w1 made1 log1 wrote1 -> moves w w1 (st i) ->
  (forall j, i <> j -> by_client j made1 = by_client j made /\ by_client j log1 = by_client j log /\ by_client j wrote1 = by_client j wrote) ->
  ok ms p1 (by_client i made1) (by_client i log1) (by_client i wrote1) o1 ->
  (forall fd t, o1 = Some (fd, t) -> fd < w_nextfd w1 /\ opened w1 fd t /\ (w_nextfd w <= fd \/ exists t', st i = Some (fd, t'))) ->
  pinv w1 (upd_nth i p1 ps) (put st i o1) made1 log1 wrote1.
Proof.
  intros C Hp Hm G Mv Oth K Ho.
  assert (Li : (i < length css)%nat) by (apply nth_error_Some; congruence).
  assert (Lp : (i < length ps)%nat) by (apply nth_error_Some; congruence).
  constructor.
  - exact G.
  - rewrite upd_nth_length. apply C.
  - intros j p' ms' Hj Hm'. destruct (Nat.eq_dec i j) as [<-|N].
    + rewrite put_same. rewrite nth_upd_same in Hj by exact Lp. injection Hj as <-. rewrite Hm in Hm'. injection Hm' as <-. exact K.
    + rewrite put_other by exact N. rewrite nth_upd_other in Hj by exact N. destruct (Oth j N) as (-> & -> & ->). now apply (p_ok _ _ _ _ _ _ C).
  - intros j fd t Hj Hs. destruct (Nat.eq_dec i j) as [<-|N].
    + rewrite put_same in Hs. destruct (Ho fd t Hs) as (A & B & _). auto.
    + rewrite put_other in Hs by exact N. destruct (p_fd _ _ _ _ _ _ C j fd t Hj Hs) as [A B]. pose proof (mv_next _ _ _ Mv). split; [lia|].
      apply (opened_moves w w1 (st i)); auto. intros t' Z. exact (p_dis _ _ _ _ _ _ C i j fd t' t Li Hj N Z Hs).
  - assert (D : forall j fd t t', (j < length css)%nat -> i <> j -> o1 = Some (fd, t) -> st j = Some (fd, t') -> False).
    { intros j fd t t' Hj N E1 E2. destruct (Ho fd t E1) as (_ & _ & [X|[t2 X]]).
      - destruct (p_fd _ _ _ _ _ _ C j fd t' Hj E2). lia.
      - exact (p_dis _ _ _ _ _ _ C i j fd t2 t' Li Hj N X E2). }
    intros j k fd t t' Hj Hk N E1 E2. destruct (Nat.eq_dec i j) as [<-|Nj]; [|destruct (Nat.eq_dec i k) as [<-|Nk]].
    + rewrite put_same in E1. rewrite put_other in E2 by exact N. now apply (D k fd t t').
    + rewrite put_same in E2. rewrite put_other in E1 by exact Nj. now apply (D j fd t' t).
    + rewrite put_other in E1, E2 by assumption. exact (p_dis _ _ _ _ _ _ C j k fd t t' Hj Hk N E1 E2).
Qed.

(** ** Places *)
Lemma from_fine i e made log wrote w : gw w made log wrote -> In (i, e) made ->
  ident (m_board (fst e)) /\ index_fine w0 wd (m_board (fst e)) /\ posted_on (m_board (fst e)) /\ plain_object (Article (m_board (fst e)) (snd e)).
Proof.
  intros G H. destruct (g_in _ _ _ _ G i e H) as ((ms & Hm & Hi) & Nm & _). apply nth_error_In in Hm.
  destruct (Fine ms (fst e) Hm Hi) as [I X]. split; [exact I|]. split; [exact X|]. split; [exists ms, (fst e); auto|]. now apply fresh_name_plain.
Qed.
Lemma eplace_inj e e' : plain_object (Article (m_board (fst e)) (snd e)) -> plain_object (Article (m_board (fst e')) (snd e')) ->
  eplace e = eplace e' -> m_board (fst e) = m_board (fst e') /\ snd e = snd e'.
Proof. intros P P' E. apply app_inv_head in E. apply object_comps_inj in E; auto. injection E. auto. Qed.
Lemma eplace_iplace e b : plain_object (Article (m_board (fst e)) (snd e)) -> ident b -> eplace e <> iplace b.
Proof. intros P I E. apply app_inv_head in E. apply object_comps_inj in E; auto. discriminate. Qed.
Lemma iplace_inj b b' : ident b -> ident b' -> iplace b = iplace b' -> b = b'.
Proof. intros P P' E. apply app_inv_head in E. apply object_comps_inj in E; auto. now injection E. Qed.
Lemma posted_ident b : posted_on b -> ident b.
Proof. intros (ms & m & H1 & H2 & <-). now apply (Fine ms m). Qed.
Lemma iplace_entry b : ident b -> iplace b = index_entry w0 wd b.
Proof.
  intros [(Hn & _) _]. unfold iplace, index_entry, board_entry, board_dir. rewrite <- app_assoc. f_equal.
  destruct b as [|c b]; [contradiction|]. cbn [object_comps id_dirs firstn flat_map app]. now rewrite app_nil_r.
Qed.
Lemma eplace_entry e : ident (m_board (fst e)) -> eplace e = board_entry w0 wd (m_board (fst e)) (snd e).
Proof. intros I. rewrite (board_entry_place _ _ _ _ [] I). reflexivity. Qed.

(** ** The steps *)
Lemma gw_quiet w w1 made log wrote : gw w made log wrote -> sane w1 -> w_cwd w1 = w_cwd w -> (forall q, look w1 q = look w q) -> gw w1 made log wrote.
Proof.
  intros G S E L. constructor; try apply G; auto.
  - rewrite E. apply G.
  - intros i e H. rewrite L. now apply (g_in _ _ _ _ G).
  - intros b H. rewrite L. now apply (g_idx _ _ _ _ G).
  - intros q H1 H2. rewrite L. now apply (g_out _ _ _ _ G).
Qed.
Lemma gw_made w w1 made log wrote i ms e : gw w made log wrote -> sane w1 -> w_cwd w1 = w_cwd w ->
  nth_error css i = Some ms -> In (fst e) ms -> fresh_name (snd e) -> plain_object (Article (m_board (fst e)) (snd e)) ->
  look w (eplace e) = None -> look w1 (eplace e) = Some (EFile []) -> (forall q, q <> eplace e -> look w1 q = look w q) ->
  gw w1 (made ++ [(i, e)]) log wrote.
Proof.
  intros G S E Hm Hi Fr Pl L0 L1 Lo. pose proof (g_wrote _ _ _ _ G) as Iw.
  assert (New : forall x, In x made -> eplace (snd x) <> eplace e).
  { intros [j d] Hx Z. destruct (g_in _ _ _ _ G j d Hx) as (_ & _ & _ & [[_ X]|[_ X]]); cbn [snd] in Z; rewrite Z, L0 in X; discriminate X. }
  assert (Ib : forall b, posted_on b -> iplace b <> eplace e).
  { intros b Hb Z. symmetry in Z. revert Z. apply eplace_iplace; [exact Pl|now apply posted_ident]. }
  assert (Po : posted_on (m_board (fst e))) by (exists ms, (fst e); split; [now apply nth_error_In in Hm|auto]).
  constructor; auto.
  - rewrite E. apply G.
  - intros j d Hj. apply in_app_iff in Hj as [Hj|[[= <- <-]|[]]].
    + rewrite Lo by exact (New (j, d) Hj). now apply (g_in _ _ _ _ G).
    + split; [exists ms; auto|]. split; [exact Fr|]. split.
      * rewrite <- L0. symmetry. apply (g_out _ _ _ _ G); [|intros x Hx Z; now apply (New x Hx)]. intros b Hb Z. now apply (Ib b Hb).
      * right. split; [|exact L1]. intros Z. apply Iw in Z. now apply (New _ Z).
  - intros x Hx. apply in_app_iff. left. now apply (g_log _ _ _ _ G).
  - intros x Hx. apply in_app_iff. left. now apply Iw.
  - rewrite map_app. apply NoDup_snoc; [apply G|]. intros Z. apply in_map_iff in Z as (x & Ex & Hx). apply (New x Hx).
    destruct x as [j [m' n']], e as [m n]. unfold ekey in Ex. cbn in Ex. unfold eplace. cbn [fst snd]. injection Ex as -> ->. reflexivity.
  - apply G.
  - intros b Hb. rewrite Lo by now apply Ib. now apply (g_idx _ _ _ _ G).
  - intros q H1 H2. rewrite Lo.
    + apply (g_out _ _ _ _ G); [exact H1|]. intros x Hx. apply H2. apply in_app_iff. now left.
    + apply (H2 (i, e)). apply in_app_iff. right. now left.
Qed.
(** an empty index appears *)
Lemma gw_index w w1 made log wrote b : gw w made log wrote -> sane w1 -> w_cwd w1 = w_cwd w -> posted_on b ->
  look w (iplace b) = None -> look w1 (iplace b) = Some (EFile []) -> (forall q, q <> iplace b -> look w1 q = look w q) ->
  gw w1 made log wrote.
Proof.
  intros G S E Po L0 L1 Lo. pose proof (posted_ident b Po) as Ib. constructor; try apply G; auto.
  - rewrite E. apply G.
  - intros j d Hj. rewrite Lo; [now apply (g_in _ _ _ _ G)|]. apply eplace_iplace; [|exact Ib]. now apply (from_fine j d _ _ _ _ G).
  - intros b' Hb. destruct (rp_eq_dec (iplace b') (iplace b)) as [Z|Z].
    + apply iplace_inj in Z; [|now apply posted_ident|exact Ib]. subst b'. right.
      destruct (g_idx _ _ _ _ G b Po) as [(_ & X & ->)|X]; [|rewrite L0 in X; discriminate X]. rewrite L1. unfold text_at. rewrite X. reflexivity.
    + rewrite Lo by exact Z. now apply (g_idx _ _ _ _ G).
  - intros q H1 H2. rewrite Lo by now apply H1. now apply (g_out _ _ _ _ G).
Qed.
Lemma gw_listed w w1 made log wrote i e old : gw w made log wrote -> sane w1 -> w_cwd w1 = w_cwd w -> In (i, e) made -> ~ In (i, e) log ->
  look w (iplace (m_board (fst e))) = Some (EFile old) ->
  look w1 (iplace (m_board (fst e))) = Some (EFile (old ++ rec_bytes e)) -> (forall q, q <> iplace (m_board (fst e)) -> look w1 q = look w q) ->
  gw w1 made (log ++ [(i, e)]) wrote.
Proof.
  intros G S E He Nl L0 L1 Lo. destruct (from_fine i e _ _ _ _ G He) as (Ib & _ & Po & Pl). constructor; try apply G; auto.
  - rewrite E. apply G.
  - intros j d Hj. rewrite Lo; [now apply (g_in _ _ _ _ G)|]. apply eplace_iplace; [|exact Ib]. now apply (from_fine j d _ _ _ _ G).
  - intros x Hx. apply in_app_iff in Hx as [Hx|[<-|[]]]; [now apply (g_log _ _ _ _ G)|exact He].
  - apply NoDup_snoc; [apply G|exact Nl].
  - intros b' Hb. destruct (rp_eq_dec (iplace b') (iplace (m_board (fst e)))) as [Z|Z].
    + apply iplace_inj in Z; [|now apply posted_ident|exact Ib]. subst b'. right. rewrite on_board_snoc, L1, map_app, concat_app.
      destruct (g_idx _ _ _ _ G _ Po) as [(X & _)|X]; [rewrite L0 in X; discriminate X|]. rewrite L0 in X. injection X as ->.
      cbn [map concat]. now rewrite app_nil_r, app_assoc.
    + rewrite Lo by exact Z. rewrite on_board_other; [now apply (g_idx _ _ _ _ G)|]. intros X. apply Z. now rewrite X.
  - intros q H1 H2. rewrite Lo by now apply H1. now apply (g_out _ _ _ _ G).
Qed.
Lemma gw_text w w1 made log wrote i e : gw w made log wrote -> sane w1 -> w_cwd w1 = w_cwd w -> In (i, e) made ->
  look w1 (eplace e) = Some (EFile (enc cd (m_text (fst e)))) -> (forall q, q <> eplace e -> look w1 q = look w q) ->
  gw w1 made log (wrote ++ [(i, e)]).
Proof.
  intros G S E He L1 Lo. destruct (from_fine i e _ _ _ _ G He) as (Ib & _ & Po & Pl). constructor; try apply G; auto.
  - rewrite E. apply G.
  - intros j d Hj. destruct (g_in _ _ _ _ G j d Hj) as (Fm & Fr & L0 & Q). split; [exact Fm|]. split; [exact Fr|]. split; [exact L0|].
    destruct (from_fine j d _ _ _ _ G Hj) as (_ & _ & _ & Pd).
    destruct (rp_eq_dec (eplace d) (eplace e)) as [Z|Z].
    + assert ((j, d) = (i, e)) as [= -> ->].
      { apply (NoDup_map_same ekey made); auto; [apply G|]. apply eplace_inj in Z as [Z1 Z2]; auto. unfold ekey. cbn. now rewrite Z1, Z2. }
      left. split; [apply in_app_iff; right; now left|exact L1].
    + rewrite Lo by exact Z. destruct Q as [[Q1 Q2]|[Q1 Q2]]; [left|right]; (split; [|exact Q2]).
      * apply in_app_iff. now left.
      * intros X. apply in_app_iff in X as [X|[[= <- <-]|[]]]; auto.
  - intros x Hx. apply in_app_iff in Hx as [Hx|[<-|[]]]; [now apply (g_wrote _ _ _ _ G)|exact He].
  - intros b' Hb. rewrite Lo; [now apply (g_idx _ _ _ _ G)|]. intros Z. symmetry in Z. revert Z. apply eplace_iplace; [exact Pl|now apply posted_ident].
  - intros q H1 H2. rewrite Lo by exact (H2 _ He). now apply (g_out _ _ _ _ G).
Qed.

(** creating and opening files *)
Lemma created_world w p fl q : sane w -> names w p q -> look w q = None -> o_creat fl = true -> has_dir w q ->
  let w1 := bump_fd (set_fd (bump_ino (set_data (set_tree w q (Some (NFile (w_nexti w)))) (w_nexti w) []))
       (w_nextfd w) (Some (OFile (Some (w_nexti w)) 0 (o_append fl) (o_rd fl) (o_wr fl)))) in
  exec (Open p fl) w = (w1, ROk (w_nextfd w)) /\ sane w1 /\ look w1 q = Some (EFile []) /\ (forall q', q' <> q -> look w1 q' = look w q') /\
  (forall o, moves w w1 o) /\ w_tree w1 q = Some (NFile (w_nexti w)) /\
  w_fds w1 (w_nextfd w) = Some (OFile (Some (w_nexti w)) 0 (o_append fl) (o_rd fl) (o_wr fl)).
Proof.
  intros S N L C D w1. split; [exact (open_create w p fl q N L C D)|]. destruct (look_none _ _ L) as [T Nn].
  assert (S1 : sane w1).
  { unfold w1. set (wc := bump_ino _). change (w_nextfd w) with (w_nextfd wc).
    apply sane_new_fd; [apply sane_create; auto|]. cbn. intros j [= <-]. lia. }
  split; [exact S1|]. split; [|split; [|split; [|split]]].
  - unfold w1. rewrite look_bump_fd, look_set_fd. unfold look. destruct q as [|x y] eqn:Ec; [contradiction|]. cbn [w_tree w_data bump_ino set_data set_tree].
    destruct rp_eq_dec; [|congruence]. destruct N.eq_dec; [reflexivity|congruence].
  - intros q' Hq. unfold w1. rewrite look_bump_fd, look_set_fd. now apply look_create_other.
  - intros o. constructor.
    + intros fd Hf _. cbn. destruct N.eq_dec; [lia|reflexivity].
    + intros q' ino T'. cbn. destruct rp_eq_dec as [->|]; [|exact T']. rewrite T in T'. discriminate T'.
    + cbn. lia.
  - cbn. destruct rp_eq_dec; congruence.
  - cbn. destruct N.eq_dec; congruence.
Qed.
Lemma existing_world w p fl q d : sane w -> names w p q -> look w q = Some (EFile d) -> o_excl fl = false -> o_trunc fl = false ->
  exists w1 ino, exec (Open p fl) w = (w1, ROk (w_nextfd w)) /\ sane w1 /\ w_cwd w1 = w_cwd w /\ (forall q', look w1 q' = look w q') /\
  (forall o, moves w w1 o) /\ w_tree w1 q = Some (NFile ino) /\ w_nextfd w1 = w_nextfd w + 1 /\
  w_fds w1 (w_nextfd w) = Some (OFile (Some ino) 0 (o_append fl) (o_rd fl) (o_wr fl)).
Proof.
  intros S N L X Tr. destruct (open_existing w p fl q d N L) as (ino & T & D & E); [rewrite X; apply andb_false_r|]. rewrite Tr in E.
  eexists _, ino. split; [exact E|]. split; [apply sane_new_fd; [exact S|]; cbn; intros j [= <-]; exact (sane_ino _ S _ _ T)|].
  split; [reflexivity|]. split; [intros q'; now rewrite look_bump_fd, look_set_fd|]. split; [|split; [exact T|split; [cbn; lia|]]].
  - intros o. constructor; [|auto|cbn; lia]. intros fd Hf _. cbn. destruct N.eq_dec; [lia|reflexivity].
  - cbn. destruct N.eq_dec; congruence.
Qed.
(** writing through a descriptor *)
Lemma write_world w fd o ino q d T : sane w -> w_fds w fd = Some o -> of_ino o = Some ino -> of_wr o = true -> fd < w_nextfd w ->
  w_tree w q = Some (NFile ino) -> q <> [] ->
  exists w1, exec (Write fd d) w = (w1, ROk (lenN d)) /\ sane w1 /\ w_cwd w1 = w_cwd w /\ w_nextfd w1 = w_nextfd w /\
    look w1 q = Some (EFile (write_at (if of_append o then lenN (w_data w ino) else of_pos o) d (w_data w ino))) /\
    (forall q', q' <> q -> look w1 q' = look w q') /\ moves w w1 (Some (fd, T)).
Proof.
  intros S F I W Lf Tr Nn. rewrite (exec_write w fd o ino d F I W). eexists. split; [reflexivity|].
  split; [|split; [reflexivity|split; [reflexivity|split; [|split]]]].
  - apply sane_set_fd; [apply sane_set_data, S|exact Lf|]. intros q' j [= <-] [= <-]. cbn. exact (sane_ino _ S _ _ Tr).
  - rewrite look_set_fd. now apply look_set_data.
  - intros q' Hq. rewrite look_set_fd. now apply look_set_data_other with (rp := q).
  - constructor; [|auto|cbn; lia]. intros fd' Hf Hn. cbn. destruct N.eq_dec as [->|]; [|reflexivity]. now destruct (Hn T).
Qed.

Lemma article_at w b n p : w_cwd w = w_cwd w0 -> plain_object (Article b n) -> GetBoardArticleFilePath wd b n = Ok p ->
  names w p (home_dir (w_cwd w0) wd ++ object_comps (Article b n)).
Proof.
  intros C P E. destruct (object_resolves (w_cwd w0) wd (Article b n) P Nwd) as (p' & Ep & Pp & Rp). cbn [object_path] in Ep. rewrite E in Ep. injection Ep as <-.
  split; [exact Pp|]. now rewrite C.
Qed.
Lemma index_at w b p : w_cwd w = w_cwd w0 -> ident b -> GetBoardArticlesDirectoryPath wd b = Ok p -> names w p (iplace b).
Proof.
  intros C P E. destruct (object_resolves (w_cwd w0) wd (Index b) P Nwd) as (p' & Ep & Pp & Rp). cbn [object_path] in Ep. rewrite E in Ep. injection Ep as <-.
  split; [exact Pp|]. rewrite C. exact Rp.
Qed.
Lemma iplace_nonroot b : iplace b <> [].
Proof. unfold iplace. intros E. apply app_eq_nil in E as [_ E]. discriminate E. Qed.
Lemma eplace_nonroot e : eplace e <> [].
Proof. unfold eplace. intros E. apply app_eq_nil in E as [_ E]. discriminate E. Qed.
(** an article lies next to the index *)
Lemma index_dir w e d : sane w -> ident (m_board (fst e)) -> look w (eplace e) = Some (EFile d) -> has_dir w (iplace (m_board (fst e))).
Proof.
  intros S I L. rewrite (iplace_entry _ I). rewrite (eplace_entry _ I) in L. unfold has_dir, index_entry. rewrite board_entry_parent.
  destruct (look_file _ _ _ L) as (ino & T & _ & _). unfold board_entry in T.
  destruct (sane_tree _ S (board_dir w0 wd (m_board (fst e))) (snd e)) as [X|X]; [congruence|now apply app_eq_nil in X|].
  unfold look. rewrite X. now destruct (board_dir w0 wd (m_board (fst e))).
Qed.

Lemma step_ok w ps st made log wrote i p : pinv w ps st made log wrote -> nth_error ps i = Some p ->
  exists st' made' log' wrote', pinv (fst (step1 p w)) (upd_nth i (snd (step1 p w)) ps) st' made' log' wrote'.
Proof.
  intros C Hp.
  assert (exists ms, nth_error css i = Some ms) as [ms Hm].
  { destruct (nth_error css i) eqn:E; [eauto|]. apply nth_error_None in E. rewrite <- (p_len _ _ _ _ _ _ C) in E. apply nth_error_None in E. congruence. }
  assert (Li : (i < length css)%nat) by (apply nth_error_Some; congruence).
  pose proof (p_ok _ _ _ _ _ _ C i p ms Hp Hm) as K. pose proof (p_gw _ _ _ _ _ _ C) as G. pose proof (g_sane _ _ _ _ G) as S. pose proof (g_cwd _ _ _ _ G) as Cw.
  destruct p as [rs|R c k].
  { cbn [step1 fst snd]. exists st, made, log, wrote. rewrite upd_nth_id by exact Hp. exact C. }
  cbn [step1]. destruct c as [path fl| | |fd d| | | |fd| | | |m]; try contradiction; cbn [ok] in K.
  - (* open *)
    destruct K as (So & [(-> & m & t & r & Hi & Hr & Ep & Ke & Kf)|[(-> & e & He & Ep & Kf)|(-> & e & He & Ep & Kf)]]).
    + (* a new article *)
      destruct (Fine ms m) as [Ib _]; [now apply nth_error_In in Hm|exact Hi|].
      set (e := (m, article_name t r) : pst).
      pose proof (article_name_plain (m_board m) t r Ib) as Pl.
      pose proof (article_at w _ _ _ Cw Pl Ep) as Nm. change (names w path (eplace e)) in Nm.
      assert (Stay : forall er, exec (Open path O_WRONLY_CREATE_EXCL) w = (w, RErr er) ->
        exists st' made' log' wrote', pinv (fst (let '(w1, r0) := exec (Open path O_WRONLY_CREATE_EXCL) w in (w1, k r0)))
          (upd_nth i (snd (let '(w1, r0) := exec (Open path O_WRONLY_CREATE_EXCL) w in (w1, k r0))) ps) st' made' log' wrote').
      { intros er ->. cbn [fst snd]. exists (put st i None), made, log, wrote.
        apply (client_step w ps st made log wrote i (Call (Open path O_WRONLY_CREATE_EXCL) k) w _ _ _ _ _ ms C Hp Hm G); auto.
        - constructor; auto; lia.
        - intros fd tt Z. discriminate Z. }
      destruct (look w (eplace e)) as [x|] eqn:Lk.
      * assert (exists er, exec (Open path O_WRONLY_CREATE_EXCL) w = (w, RErr er)) as [er E]; [|exact (Stay er E)].
        cbn [exec]. unfold sys_open. destruct Nm as [Pp Rp]. destruct (proper_tests path Pp) as [-> ->]. rewrite Rp.
        unfold look in Lk. destruct (is_dir w (eplace e)) eqn:Ed; [cbn; eauto|].
        destruct (eplace e) as [|a b]; [discriminate Ed|]. destruct (w_tree w (a :: b)) as [[|j]|]; try discriminate; cbn; eauto.
      * destruct (is_dir w (parent (eplace e))) eqn:Dr.
        -- destruct (created_world w path O_WRONLY_CREATE_EXCL (eplace e) S Nm Lk eq_refl) as (E & S1 & L1 & Lo & Mv & _); [now apply is_dir_look|].
           revert E S1 L1 Lo Mv. set (w1 := bump_fd _). intros E S1 L1 Lo Mv. rewrite E. cbn [fst snd].
           exists (put st i (Some (w_nextfd w, TDone))), (made ++ [(i, e)]), log, wrote.
           apply (client_step w ps st made log wrote i (Call (Open path O_WRONLY_CREATE_EXCL) k) w1 _ _ _ _ _ ms C Hp Hm).
           ++ apply (gw_made w w1 made log wrote i ms e G S1); auto. now apply article_name_fresh.
           ++ apply Mv.
           ++ intros j N. rewrite by_client_other by exact N. auto.
           ++ rewrite by_client_snoc. apply Kf. intros Z. apply by_client_in in Z.
              destruct (g_in _ _ _ _ G _ _ Z) as (_ & _ & _ & [[_ X]|[_ X]]); fold e in X; rewrite Lk in X; discriminate X.
           ++ intros fd tt [= <- <-]. split; [cbn; lia|]. split; [exact I|]. left. lia.
        -- apply (Stay (missing w (eplace e))). apply (open_missing w path _ _ Nm Lk). right. now apply is_dir_look_false.
    + (* the index *)
      apply by_client_in in He. destruct (from_fine i e _ _ _ _ G He) as (Ib & Ix & Po & Pl).
      pose proof (index_at w _ _ Cw Ib Ep) as Nm.
      destruct (g_idx _ _ _ _ G _ Po) as [(L & L0 & Ol)|L].
      * assert (Hd : has_dir w (iplace (m_board (fst e)))).
        { destruct (g_in _ _ _ _ G _ _ He) as (_ & _ & _ & [[_ X]|[_ X]]); exact (index_dir w e _ S Ib X). }
        destruct (created_world w path O_APPEND_CREATE_WRONLY (iplace (m_board (fst e))) S Nm L eq_refl Hd) as (E & S1 & L1 & Lo & Mv & T1 & F1).
        revert E S1 L1 Lo Mv T1 F1. set (w1 := bump_fd _). intros E S1 L1 Lo Mv T1 F1. rewrite E. cbn [fst snd].
        exists (put st i (Some (w_nextfd w, TIdx e))), made, log, wrote.
        apply (client_step w ps st made log wrote i (Call (Open path O_APPEND_CREATE_WRONLY) k) w1 _ _ _ _ _ ms C Hp Hm); auto.
        -- apply (gw_index w w1 made log wrote (m_board (fst e)) G S1); auto.
        -- intros fd tt [= <- <-]. split; [cbn; lia|]. split; [|left; lia]. cbn [opened]. eexists _, _, _. split; [exact F1|exact T1].
      * destruct (existing_world w path O_APPEND_CREATE_WRONLY _ _ S Nm L eq_refl eq_refl) as (w1 & ino & E & S1 & C1 & L1 & Mv & T1 & N1 & F1).
        rewrite E. cbn [fst snd]. exists (put st i (Some (w_nextfd w, TIdx e))), made, log, wrote.
        apply (client_step w ps st made log wrote i (Call (Open path O_APPEND_CREATE_WRONLY) k) w1 _ _ _ _ _ ms C Hp Hm); auto.
        -- now apply (gw_quiet w w1).
        -- intros fd tt [= <- <-]. split; [lia|]. split; [|left; lia]. cbn [opened]. eexists _, _, _. split; [exact F1|exact T1].
    + (* the article again *)
      apply by_client_in in He. destruct (from_fine i e _ _ _ _ G He) as (Ib & Ix & Po & Pl).
      pose proof (article_at w _ _ _ Cw Pl Ep) as Nm. change (names w path (eplace e)) in Nm.
      assert (exists d, look w (eplace e) = Some (EFile d)) as [d L].
      { destruct (g_in _ _ _ _ G _ _ He) as (_ & _ & _ & [[_ X]|[_ X]]); eauto. }
      destruct (existing_world w path O_WRONLY_CREATE _ _ S Nm L eq_refl eq_refl) as (w1 & ino & E & S1 & C1 & L1 & Mv & T1 & N1 & F1).
      rewrite E. cbn [fst snd]. exists (put st i (Some (w_nextfd w, TArt e))), made, log, wrote.
      apply (client_step w ps st made log wrote i (Call (Open path O_WRONLY_CREATE) k) w1 _ _ _ _ _ ms C Hp Hm); auto.
      * now apply (gw_quiet w w1).
      * intros fd tt [= <- <-]. split; [lia|]. split; [|left; lia]. cbn [opened]. eexists _, _. split; [exact F1|exact T1].
  - (* write *)
    destruct K as [(e & So & He & Nl & -> & K)|(e & So & He & Nl & -> & K)];
      destruct (p_fd _ _ _ _ _ _ C i _ _ Li So) as [Lf Op]; cbn [opened] in Op; apply by_client_in in He; rewrite by_client_in in Nl;
      destruct (from_fine i e _ _ _ _ G He) as (Ib & Ix & Po & Pl).
    + destruct Op as (ino & pos & rd & F & T).
      destruct (write_world w fd _ ino _ (rec_bytes e) (TIdx e) S F eq_refl eq_refl Lf T (iplace_nonroot _)) as (w1 & E & S1 & C1 & N1 & L1 & Lo & Mv).
      cbn [of_append of_pos] in L1. rewrite write_at_end in L1.
      rewrite E. cbn [fst snd]. exists (put st i (Some (fd, TDone))), made, (log ++ [(i, e)]), wrote.
      apply (client_step w ps st made log wrote i (Call (Write fd (rec_bytes e)) k) w1 _ _ _ _ _ ms C Hp Hm).
      * apply (gw_listed w w1 made log wrote i e (w_data w ino) G S1); auto.
        unfold look. rewrite T. pose proof (iplace_nonroot (m_board (fst e))). now destruct (iplace (m_board (fst e))).
      * rewrite So. exact Mv.
      * intros j N. rewrite by_client_other by exact N. auto.
      * rewrite by_client_snoc. exact K.
      * intros fd' tt [= <- <-]. split; [lia|]. split; [exact I|]. right. eauto.
    + destruct Op as (ino & rd & F & T).
      destruct (write_world w fd _ ino _ (enc cd (m_text (fst e))) (TArt e) S F eq_refl eq_refl Lf T (eplace_nonroot _)) as (w1 & E & S1 & C1 & N1 & L1 & Lo & Mv).
      cbn [of_append of_pos] in L1.
      assert (w_data w ino = []) as D0.
      { destruct (g_in _ _ _ _ G _ _ He) as (_ & _ & _ & [[X _]|[_ X]]); [contradiction|]. destruct (look_file _ _ _ X) as (ino' & T' & D' & _).
        rewrite T in T'. now injection T' as <-. }
      rewrite D0, write_at_0, skipn_nil, app_nil_r in L1.
      rewrite E. cbn [fst snd]. exists (put st i (Some (fd, TDone))), made, log, (wrote ++ [(i, e)]).
      apply (client_step w ps st made log wrote i (Call (Write fd (enc cd (m_text (fst e)))) k) w1 _ _ _ _ _ ms C Hp Hm).
      * now apply (gw_text w w1 made log wrote i e G S1).
      * rewrite So. exact Mv.
      * intros j N. rewrite by_client_other by exact N. auto.
      * rewrite by_client_snoc. exact K.
      * intros fd' tt [= <- <-]. split; [lia|]. split; [exact I|]. right. eauto.
  - (* close *)
    destruct K as ([T So] & K). cbn [exec fst snd]. exists (put st i None), made, log, wrote.
    apply (client_step w ps st made log wrote i (Call (Close fd) k) _ _ _ _ _ _ ms C Hp Hm); auto.
    + apply (gw_quiet w); auto. now apply sane_close.
    + constructor; [|auto|cbn; lia]. intros fd' Hf Hn. cbn. destruct N.eq_dec as [->|]; [|reflexivity]. now destruct (Hn T).
    + intros fd' tt Z. discriminate Z.
  - (* now *)
    cbn [exec fst snd]. exists (put st i (st i)), made, log, wrote.
    apply (client_step w ps st made log wrote i (Call Now k) _ _ _ _ _ _ ms C Hp Hm); auto.
    + apply (gw_quiet w); auto. now apply sane_tick.
    + constructor; auto. cbn. lia.
    + intros fd t Z. destruct (p_fd _ _ _ _ _ _ C i fd t Li Z) as [A B]. split; [exact A|]. split; [exact B|]. right. eauto.
  - (* rand *)
    destruct K as [Hn K]. cbn [exec fst snd]. exists (put st i (st i)), made, log, wrote.
    apply (client_step w ps st made log wrote i (Call (Rand m) k) _ _ _ _ _ _ ms C Hp Hm); auto.
    + apply (gw_quiet w); auto. now apply sane_rtick.
    + constructor; auto. cbn. lia.
    + apply K. apply N.mod_lt. lia.
    + intros fd t Z. destruct (p_fd _ _ _ _ _ _ C i fd t Li Z) as [A B]. split; [exact A|]. split; [exact B|]. right. eauto.
Qed.
Lemma pool_run sched : forall w ps st made log wrote, pinv w ps st made log wrote ->
  exists st' made' log' wrote', pinv (fst (run_pool sched w ps)) (snd (run_pool sched w ps)) st' made' log' wrote'.
Proof.
  induction sched as [|i sched IH]; intros w ps st made log wrote C; cbn [run_pool]; [eauto 6|].
  destruct (nth_error ps i) as [p|] eqn:Hp; [|eauto 6].
  destruct (step_ok w ps st made log wrote i p C Hp) as (st1 & made1 & log1 & wrote1 & C1). destruct (step1 p w) as [w1 p1]. cbn [fst snd] in C1. eauto.
Qed.

(** ** Posting is such a program *)
Lemma ok_assoc ms {A B} (p : prog A) (h : A -> prog B) (k : B -> prog report) : forall M L W o,
  ok ms (bind p (fun a => bind (h a) k)) M L W o -> ok ms (bind (bind p h) k) M L W o.
Proof.
  induction p as [a|R c h' IH]; intros M L W o; [auto|].
  destruct c; cbn [bind ok]; try tauto.
  - intros (Eo & [(-> & m & t & r & H1 & H2 & H3 & Ke & Kf)|[(-> & e & H1 & H2 & Kf)|(-> & e & H1 & H2 & Kf)]]); (split; [exact Eo|]).
    + left. split; [reflexivity|]. exists m, t, r. repeat (split; [assumption|]). split; intros; apply IH; auto.
    + right. left. split; [reflexivity|]. exists e. repeat (split; [assumption|]). intros; apply IH; auto.
    + right. right. split; [reflexivity|]. exists e. repeat (split; [assumption|]). intros; apply IH; auto.
  - intros [(e & H1 & H2 & H3 & H4 & K)|(e & H1 & H2 & H3 & H4 & K)]; [left|right]; exists e; repeat (split; [assumption|]); now apply IH.
  - intros [E K]. split; [exact E|]. now apply IH.
  - intros K t. now apply IH.
  - intros [E K]. split; [exact E|]. intros r Hr. now apply IH, K.
Qed.
Lemma ok_filename ms fuel m (k : outcome bytes -> prog report) M L W : In m ms -> ident (m_board m) ->
  (forall n, plain_object (Article (m_board m) n) -> ~ In (m, n) M -> ok ms (k (Ok n)) (M ++ [(m, n)]) L W None) -> ok ms (k Diverge) M L W None ->
  ok ms (bind (CreateBoardArticleFilename fuel wd (m_board m)) k) M L W None.
Proof.
  intros Hm Ib K1 K2. induction fuel as [|fuel IH]; [exact K2|]. cbn -[article_name N.mul]. intros t. split; [lia|]. intros r Hr.
  destruct (article_path wd w0 Nwd (m_board m) t r Ib) as [p E]. rewrite E. cbn -[article_name]. split; [reflexivity|]. left. split; [reflexivity|].
  exists m, t, r. repeat (split; [assumption|]). split; [now intros e|]. intros fd N. cbn -[article_name]. split; [eauto|]. apply K1; [now apply article_name_plain|exact N].
Qed.
Lemma ok_append ms e (k : outcome unit -> prog report) M L W : In e M -> ~ In e L -> ident (m_board (fst e)) ->
  ok ms (k (Ok tt)) M (L ++ [e]) W None ->
  ok ms (bind (AddArticleRecordFileRecord cd wd (m_board (fst e)) (NewArticleRecord (snd e) (m_owner (fst e)) (m_date (fst e)) (m_title (fst e)))) k) M L W None.
Proof.
  intros He Hn Ib K. unfold AddArticleRecordFileRecord, pbind, lift. cbn [bind].
  destruct (object_resolves (w_cwd w0) wd (Index (m_board (fst e))) Ib Nwd) as (p & Ep & _). cbn [object_path] in Ep. rewrite Ep.
  rewrite append_record_shape. unfold open_write. cbn [bind ok]. split; [reflexivity|]. right. left. split; [reflexivity|]. exists e. split; [exact He|]. split; [exact Ep|].
  intros fd. cbn [bind ok]. left. exists e. split; [reflexivity|]. split; [exact He|]. split; [exact Hn|]. split; [reflexivity|]. split; [eauto|]. exact K.
Qed.
Lemma ok_write ms e (k : outcome unit -> prog report) M L W : In e M -> ~ In e W -> plain_object (Article (m_board (fst e)) (snd e)) ->
  ok ms (k (Ok tt)) M L (W ++ [e]) None ->
  ok ms (bind (DB_WriteBoardArticleFile wd (m_board (fst e)) (snd e) (enc cd (m_text (fst e)))) k) M L W None.
Proof.
  intros He Hn Pl K. unfold DB_WriteBoardArticleFile, pbind, lift. cbn [bind].
  destruct (object_resolves (w_cwd w0) wd (Article (m_board (fst e)) (snd e)) Pl Nwd) as (p & Ep & _). cbn [object_path] in Ep. rewrite Ep.
  rewrite write_article_shape. unfold open_write. cbn [bind ok]. split; [reflexivity|]. right. right. split; [reflexivity|]. exists e. split; [exact He|]. split; [exact Ep|].
  intros fd. cbn [bind ok]. right. exists e. split; [reflexivity|]. split; [exact He|]. split; [exact Hn|]. split; [reflexivity|]. split; [eauto|]. exact K.
Qed.
Lemma ok_post ms fuel m (k : outcome (list out) -> prog report) D : In m ms -> ident (m_board m) ->
  (forall n, ok ms (k (Ok [Out (str "new filename: " ++ n)])) (D ++ [(m, n)]) (D ++ [(m, n)]) (D ++ [(m, n)]) None) ->
  ok ms (k Diverge) D D D None -> ok ms (bind (post_message cd fuel wd m) k) D D D None.
Proof.
  intros Hm Ib K1 K2. unfold post_message, post, try, db_call, CreateArticleRecord, pbind.
  apply ok_assoc, ok_assoc, ok_filename; [exact Hm|exact Ib| |exact K2].
  intros n Pl Hn. cbn [bind fh_filename NewArticleRecord]. apply ok_assoc. apply (ok_append ms (m, n)); [apply in_app_iff; right; now left|exact Hn|exact Ib|].
  cbn [bind]. apply ok_assoc. apply (ok_write ms (m, n)); [apply in_app_iff; right; now left|exact Hn|exact Pl|]. cbn [bind]. apply K1.
Qed.
Lemma reported_app rs l rs' l' : reported rs l -> reported rs' l' -> reported (rs ++ rs') (l ++ l').
Proof. intros H H'. induction H; cbn; auto; now constructor. Qed.
Lemma ok_poster fuel all todo : forall got D, map fst (rev got) ++ todo = all -> (forall m, In m all -> ident (m_board m)) -> reported (rev got) D ->
  ok all (poster_from cd fuel wd todo got) D D D None.
Proof.
  induction todo as [|m todo IH]; intros got D E Hi R; cbn [poster_from].
  { cbn [ok]. rewrite app_nil_r in E. auto. }
  assert (Hm : In m all) by (rewrite <- E; apply in_app_iff; right; now left).
  apply ok_post; [exact Hm|now apply Hi| |].
  - intros n. apply IH; [|exact Hi|].
    + cbn [rev]. rewrite map_app, <- app_assoc. exact E.
    + cbn [rev]. apply reported_app; [exact R|]. constructor. constructor.
  - apply IH; [|exact Hi|].
    + cbn [rev]. rewrite map_app, <- app_assoc. exact E.
    + cbn [rev]. rewrite <- (app_nil_r D). apply reported_app; [exact R|]. constructor. constructor.
Qed.
Lemma pinv_start fuel : sane w0 -> pinv w0 (map (poster cd fuel wd) css) (fun _ => None) [] [] [].
Proof.
  intros S. constructor.
  - constructor; auto; try (now intros ? ? []); try (now intros ? []); try apply NoDup_nil.
    intros b Hb. destruct (look w0 (iplace b)) as [[|d]|] eqn:L.
    + exfalso. destruct Hb as (ms & m & H1 & H2 & <-). destruct (Fine ms m H1 H2) as [I X]. apply X. rewrite <- L. now rewrite iplace_entry.
    + right. unfold text_at. rewrite L. cbn. now rewrite app_nil_r.
    + left. auto.
  - apply map_length.
  - intros i p ms Hp Hm. rewrite nth_error_map, Hm in Hp. injection Hp as <-. apply ok_poster; [reflexivity| |constructor].
    intros m H. apply nth_error_In in Hm. now apply (Fine ms m).
  - discriminate.
  - discriminate.
Qed.
End Post.

(** ** Programs that do not look at the clock *)
Definition clocks (w : world) := (w_clock w, w_tick w, w_rand w, w_rtick w).
Definition no_clock {R} (c : sys R) : Prop := match c with Now | Rand _ => False | _ => True end.
Fixpoint timeless {A} (p : prog A) : Prop := match p with Ret _ => True | Call c k => no_clock c /\ forall r, timeless (k r) end.
Lemma exec_clocks {R} (c : sys R) w : no_clock c -> clocks (fst (exec c w)) = clocks w.
Proof.
  intros H. destruct c as [p fl|fd n|fd|fd d|fd off|fd|fd n|fd|p|p| |n]; try contradiction; cbn [exec].
  - unfold sys_open. destruct (has_nul p); [reflexivity|]. destruct (beqb p []); [reflexivity|]. cbv zeta.
    destruct (if is_dir w _ then Some NDir else _) as [[|i]|].
    + destruct (o_creat fl && o_excl fl); [reflexivity|]. destruct (o_wr fl || o_creat fl); reflexivity.
    + destruct (o_creat fl && o_excl fl); [reflexivity|]. destruct (o_trunc fl); reflexivity.
    + destruct (o_creat fl); [|reflexivity]. destruct is_dir; reflexivity.
  - unfold sys_read. destruct (w_fds w fd) as [o|]; [|reflexivity]. destruct (of_ino o); [|reflexivity]. destruct (of_rd o); reflexivity.
  - unfold sys_read_all. destruct (w_fds w fd) as [o|]; [|reflexivity]. destruct (of_ino o); [|reflexivity]. destruct (of_rd o); reflexivity.
  - unfold sys_write. destruct (w_fds w fd) as [o|]; [|reflexivity]. destruct (of_ino o); [|reflexivity]. destruct (of_wr o); reflexivity.
  - unfold sys_seek_set. destruct (w_fds w fd) as [o|]; [|reflexivity]. destruct (off <? 0)%Z; reflexivity.
  - unfold sys_seek_cur0. destruct (w_fds w fd); reflexivity.
  - unfold sys_ftruncate. destruct (w_fds w fd) as [o|]; [|reflexivity]. destruct (of_ino o); [|reflexivity]. destruct (of_wr o); reflexivity.
  - reflexivity.
  - unfold sys_stat. destruct (has_nul p); [reflexivity|]. destruct (beqb p []); [reflexivity|]. cbv zeta. destruct is_dir; [reflexivity|]. destruct (w_tree w _) as [[|i]|]; reflexivity.
  - unfold sys_unlink. destruct (has_nul p); [reflexivity|]. destruct (beqb p []); [reflexivity|]. cbv zeta.
    repeat match goal with |- context [match ?x with _ => _ end] => destruct x end; reflexivity.
Qed.
Lemma run_clocks {A} (p : prog A) : timeless p -> forall w, clocks (fst (run p w)) = clocks w.
Proof.
  induction p as [a|R c k IH]; intros H w; [reflexivity|]. destruct H as [Hc Hk]. cbn [run].
  pose proof (exec_clocks c w Hc) as E. destruct (exec c w) as [w1 r]. cbn [fst] in E. rewrite <- E. now apply IH.
Qed.
Lemma timeless_chk d : timeless (chkIsDir d).
Proof. split; [exact I|]. intros [fd|e]; [|exact I]. split; [exact I|]. intros r. split; [exact I|]. intros _. destruct r as [[|]|]; exact I. Qed.
Lemma timeless_read_all p : timeless (open_read_all p).
Proof. split; [exact I|]. intros [fd|e]; [|exact I]. split; [exact I|]. intros r. split; [exact I|]. intros _. destruct r; exact I. Qed.
Lemma clocks_candidate w w' n : clocks w' = clocks w -> candidate w' n = candidate w n.
Proof. intros [= E1 E2 E3 E4]. unfold candidate. now rewrite E1, E2, E3, E4. Qed.
(** opening the home *)
Lemma run_db_clocks {w e} : sane w -> home_ok w e ->
  exists w1, sane w1 /\ same_files w w1 /\ clocks w1 = clocks w /\ forall k, run (with_db e k) w = run (k (Some (te_home e))) w1.
Proof.
  intros S H. pose proof H as (_ & _ & rp & N & L). destruct (chk_dir w _ rp S N L) as (w1 & R & S1 & SF & _). exists w1. split; [exact S1|]. split; [exact SF|].
  split; [pose proof (run_clocks _ (timeless_chk (te_home e)) w) as E; now rewrite R in E|]. intros k.
  unfold with_db, openDB. rewrite run_bind, run_pbind, R. unfold lift. now rewrite (home_open w e H).
Qed.
