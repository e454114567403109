(** * Posting at the same time, on a disk that fails *)
From Coq Require Import Lia ZifyBool ZifyNat ZifyN.
From Verif Require Import M_Base M_Sys M_Path M_File M_Board M_FileOps M_DB M_BbsTool M_Fault M_Stop.
From Verif Require Import S_World S_Path S_File S_Store S_Create S_Scan S_Tool S_BbsTool S_Post S_PostFault S_PostPool.
From Verif Require Import P_Base P_Sys P_Path P_Records P_Store P_BoardList P_Pool P_Create P_BbsTool P_Post.
Open Scope N_scope.

Lemma own_in {X} i (e : X) l : In e (own i l) <-> In (i, e) l.
Proof.
  unfold own. rewrite in_map_iff. split.
  - intros ([j x] & <- & H). apply filter_In in H as [H E]. cbn in *. apply Nat.eqb_eq in E. now subst.
  - intros H. exists (i, e). split; [reflexivity|]. apply filter_In. split; [exact H|]. cbn. apply Nat.eqb_refl.
Qed.
Lemma own_snoc {X} i (e : X) l : own i (l ++ [(i, e)]) = own i l ++ [e].
Proof. unfold own. rewrite filter_app, map_app. cbn. now rewrite Nat.eqb_refl. Qed.
Lemma own_other {X} i j (e : X) l : i <> j -> own j (l ++ [(i, e)]) = own j l.
Proof. intros H. unfold own. rewrite filter_app, map_app. cbn. destruct (Nat.eqb_spec i j); [congruence|]. now rewrite app_nil_r. Qed.

(** A part of a post that was written: the whole, or any part. *)
Definition part := (pst * (nat * bool))%type.
Definition cut_off (x : nat * bool) (v : bytes) : bytes := if snd x then v else firstn (fst x) v.
Definition pst_eq_dec : forall x y : pst, {x = y} + {x <> y}.
Proof. decide equality; [apply (list_eq_dec byte_eq_dec)|]. decide equality; apply (list_eq_dec byte_eq_dec). Defined.
Fixpoint find_part (e : pst) (l : list part) : option (nat * bool) :=
  match l with [] => None | (e', x) :: l' => if pst_eq_dec e' e then Some x else find_part e l' end.
Lemma find_part_none e l : ~ In e (map fst l) -> find_part e l = None.
Proof. induction l as [|[e' x] l IH]; [reflexivity|]. cbn. intros H. destruct (pst_eq_dec e' e) as [->|_]; [exfalso; apply H; now left|]. apply IH. intros Z. apply H. now right. Qed.
Lemma find_part_snoc e l x : ~ In e (map fst l) -> find_part e (l ++ [(e, x)]) = Some x.
Proof. induction l as [|[e' y] l IH]; cbn; intros H. { now destruct (pst_eq_dec e e). } destruct (pst_eq_dec e' e) as [->|_]; [exfalso; apply H; now left|]. apply IH. intros Z. apply H. now right. Qed.
Lemma find_part_other e e' l x : e' <> e -> find_part e (l ++ [(e', x)]) = find_part e l.
Proof. intros N. induction l as [|[d y] l IH]; cbn. { now destruct (pst_eq_dec e' e). } destruct (pst_eq_dec d e); [reflexivity|exact IH]. Qed.
Lemma find_part_in e l x : find_part e l = Some x -> In (e, x) l.
Proof. induction l as [|[d y] l IH]; cbn; [discriminate|]. destruct (pst_eq_dec d e) as [->|_]; [intros [= ->]; now left|]. intros H. right. now apply IH. Qed.

Section Pool.
Variables (cd : codec) (wd : bytes) (w0 : world) (css : list (list message)).
Hypothesis Nwd : ~ In x00 wd.
Hypothesis Fine : forall ms m, In ms css -> In m ms -> ident (m_board m) /\ index_fine w0 wd (m_board m).
Notation rec_bytes := (rec_bytes cd).
Notation iplace := (iplace wd w0).
Notation eplace := (eplace wd w0).
Notation posted_on := (posted_on css).
Notation opened := (opened wd w0).

Definition piece (x : part) : bytes := cut_off (snd x) (rec_bytes (fst x)).
Definition text_now (W : list part) (e : pst) : bytes :=
  match find_part e W with Some x => cut_off x (enc cd (m_text (fst e))) | None => [] end.
(** the deed of a post with the record [x] *)
Definition deed_now (W : list part) (x : part) : deed :=
  let e := fst x in
  Deed (fst e)
    (if snd (snd x) then match find_part e W with Some (_, true) => said_posted (snd e) | _ => said_not_written end else said_not_added)
    (piece x) (Some (snd e, text_now W e)).

Fixpoint fok (ms : list message) (p : prog report) : list pst -> list part -> list part -> option (N * target) -> Prop :=
  match p with
  | Ret rs => fun M L W o => o = None /\ M = map fst L /\ map fst rs = ms /\ told_of rs (map (deed_now W) L)
  | Call c k =>
      match c in sys R return (R -> list pst -> list part -> list part -> option (N * target) -> Prop) ->
                              list pst -> list part -> list part -> option (N * target) -> Prop with
      | Now => fun K M L W o => forall t, K t M L W o
      | Rand n => fun K M L W o => 0 < n /\ forall r, r < n -> K r M L W o
      | Open path fl => fun K M L W o => o = None /\
          ((fl = O_WRONLY_CREATE_EXCL /\ exists m t r, In m ms /\ r < 4096 /\
              GetBoardArticleFilePath wd (m_board m) (article_name t r) = Ok path /\
              (forall e, K (RErr e) M L W None) /\
              (forall fd, ~ In (m, article_name t r) M -> K (ROk fd) (M ++ [(m, article_name t r)]) L W (Some (fd, TDone)))) \/
           (fl = O_APPEND_CREATE_WRONLY /\ exists e, In e M /\ ~ In e (map fst L) /\
              GetBoardArticlesDirectoryPath wd (m_board (fst e)) = Ok path /\ (forall fd, K (ROk fd) M L W (Some (fd, TIdx e))) /\
              K (RErr EIO) M (L ++ [(e, (0%nat, false))]) W None) \/
           (fl = O_WRONLY_CREATE /\ exists e, In (e, (0%nat, true)) L /\
              GetBoardArticleFilePath wd (m_board (fst e)) (snd e) = Ok path /\ (forall fd, K (ROk fd) M L W (Some (fd, TArt e))) /\
              K (RErr EIO) M L W None))
      | Write fd d => fun K M L W o =>
          (exists e, o = Some (fd, TIdx e) /\ In e M /\ ~ In e (map fst L) /\ d = rec_bytes e /\
             K (ROk (lenN d)) M (L ++ [(e, (0%nat, true))]) W (Some (fd, TDone)) /\
             forall n, K (RErr EIO) M (L ++ [(e, (n, false))]) W (Some (fd, TDone))) \/
          (exists e, o = Some (fd, TArt e) /\ In (e, (0%nat, true)) L /\ ~ In e (map fst W) /\ d = enc cd (m_text (fst e)) /\
             K (ROk (lenN d)) M L (W ++ [(e, (0%nat, true))]) (Some (fd, TDone)) /\
             forall n, K (RErr EIO) M L (W ++ [(e, (n, false))]) (Some (fd, TDone)))
      | Close fd => fun K M L W o => (exists T, o = Some (fd, T)) /\ K tt M L W None
      | _ => fun _ _ _ _ _ => False
      end (fun r => fok ms (k r))
  end.

(** ** The files *)
Definition parts := list (nat * part).
Definition pieces_on (b : bytes) (log : parts) : bytes := concat (map (fun x => piece (snd x)) (filter (fun x => beqb (m_board (fst (fst (snd x)))) b) log)).
Lemma pieces_snoc i x log : pieces_on (m_board (fst (fst x))) (log ++ [(i, x)]) = pieces_on (m_board (fst (fst x))) log ++ piece x.
Proof. unfold pieces_on. rewrite filter_app, map_app, concat_app. cbn. rewrite beqb_refl. cbn. now rewrite app_nil_r. Qed.
Lemma pieces_other b i x log : m_board (fst (fst x)) <> b -> pieces_on b (log ++ [(i, x)]) = pieces_on b log.
Proof. intros N. unfold pieces_on. rewrite filter_app, map_app, concat_app. cbn. destruct (beqb (m_board (fst (fst x))) b) eqn:E; [apply beqb_eq in E; contradiction|]. cbn. now rewrite app_nil_r. Qed.
Record fw (w : world) (made : posts_log) (log wrote : parts) : Prop := {
  f_sane : sane w;
  f_cwd : w_cwd w = w_cwd w0;
  f_in : forall i e, In (i, e) made ->
    (exists ms, nth_error css i = Some ms /\ In (fst e) ms) /\ fresh_name (snd e) /\ look w0 (eplace e) = None /\
    look w (eplace e) = Some (EFile (text_now (own i wrote) e));
  f_log : forall i e x, In (i, (e, x)) log -> In (i, e) made;
  f_wrote : forall i e x, In (i, (e, x)) wrote -> In (i, (e, (0%nat, true))) log;
  f_nodup : NoDup (map ekey made);
  f_nodupl : NoDup (map (fun x => (fst x, fst (snd x))) log);
  f_idx : forall b, posted_on b ->
    look w (iplace b) = None /\ look w0 (iplace b) = None /\ pieces_on b log = [] \/
    look w (iplace b) = Some (EFile (text_at w0 (iplace b) ++ pieces_on b log));
  f_out : forall q, (forall b, posted_on b -> q <> iplace b) -> (forall x, In x made -> q <> eplace (snd x)) -> look w q = look w0 q }.

Record finv (w : world) (ps : list (prog report)) (st : nat -> option (N * target)) (made : posts_log) (log wrote : parts) : Prop := {
  q_fw : fw w made log wrote;
  q_len : length ps = length css;
  q_ok : forall i p ms, nth_error ps i = Some p -> nth_error css i = Some ms -> fok ms p (own i made) (own i log) (own i wrote) (st i);
  q_fd : forall i fd t, (i < length css)%nat -> st i = Some (fd, t) -> fd < w_nextfd w /\ opened w fd t;
  q_dis : forall i j fd t t', (i < length css)%nat -> (j < length css)%nat -> i <> j -> st i = Some (fd, t) -> st j = Some (fd, t') -> False }.

Lemma fclient_step w ps st made log wrote i p w1 p1 o1 made1 log1 wrote1 ms :
  finv w ps st made log wrote -> nth_error ps i = Some p -> nth_error css i = Some ms ->
  fw w1 made1 log1 wrote1 -> moves w w1 (st i) ->
  (forall j, i <> j -> own j made1 = own j made /\ own j log1 = own j log /\ own j wrote1 = own j wrote) ->
  fok ms p1 (own i made1) (own i log1) (own i wrote1) o1 ->
  (forall fd t, o1 = Some (fd, t) -> fd < w_nextfd w1 /\ opened w1 fd t /\ (w_nextfd w <= fd \/ exists t', st i = Some (fd, t'))) ->
  finv w1 (upd_nth i p1 ps) (put st i o1) made1 log1 wrote1.
Proof.
  intros C Hp Hm G Mv Oth K Ho.
  assert (Li : (i < length css)%nat) by (apply nth_error_Some; congruence).
  assert (Lp : (i < length ps)%nat) by (apply nth_error_Some; congruence).
  constructor.
  - exact G.
  - rewrite upd_nth_length. apply C.
  - intros j p' ms' Hj Hm'. destruct (Nat.eq_dec i j) as [<-|N].
    + rewrite put_same. rewrite nth_upd_same in Hj by exact Lp. injection Hj as <-. rewrite Hm in Hm'. injection Hm' as <-. exact K.
    + rewrite put_other by exact N. rewrite nth_upd_other in Hj by exact N. destruct (Oth j N) as (-> & -> & ->). now apply (q_ok _ _ _ _ _ _ C).
  - intros j fd t Hj Hs. destruct (Nat.eq_dec i j) as [<-|N].
    + rewrite put_same in Hs. destruct (Ho fd t Hs) as (A & B & _). auto.
    + rewrite put_other in Hs by exact N. destruct (q_fd _ _ _ _ _ _ C j fd t Hj Hs) as [A B]. pose proof (mv_next _ _ _ Mv). split; [lia|].
      apply (opened_moves wd w0 w w1 (st i)); auto. intros t' Z. exact (q_dis _ _ _ _ _ _ C i j fd t' t Li Hj N Z Hs).
  - assert (D : forall j fd t t', (j < length css)%nat -> i <> j -> o1 = Some (fd, t) -> st j = Some (fd, t') -> False).
    { intros j fd t t' Hj N E1 E2. destruct (Ho fd t E1) as (_ & _ & [X|[t2 X]]).
      - destruct (q_fd _ _ _ _ _ _ C j fd t' Hj E2). lia.
      - exact (q_dis _ _ _ _ _ _ C i j fd t2 t' Li Hj N X E2). }
    intros j k fd t t' Hj Hk N E1 E2. destruct (Nat.eq_dec i j) as [<-|Nj]; [|destruct (Nat.eq_dec i k) as [<-|Nk]].
    + rewrite put_same in E1. rewrite put_other in E2 by exact N. now apply (D k fd t t').
    + rewrite put_same in E2. rewrite put_other in E1 by exact Nj. now apply (D j fd t' t).
    + rewrite put_other in E1, E2 by assumption. exact (q_dis _ _ _ _ _ _ C j k fd t t' Hj Hk N E1 E2).
Qed.

Lemma ffine i e made log wrote w : fw w made log wrote -> In (i, e) made ->
  ident (m_board (fst e)) /\ index_fine w0 wd (m_board (fst e)) /\ posted_on (m_board (fst e)) /\ plain_object (Article (m_board (fst e)) (snd e)).
Proof.
  intros G H. destruct (f_in _ _ _ _ G i e H) as ((ms & Hm & Hi) & Fr & _). apply nth_error_In in Hm. destruct (Fine ms (fst e) Hm Hi) as [A B].
  split; [exact A|]. split; [exact B|]. split; [exists ms, (fst e); auto|]. now apply fresh_name_plain.
Qed.
Lemma pid b : posted_on b -> ident b.
Proof. exact (posted_ident wd w0 css Fine b). Qed.

(** ** The steps *)
Lemma fw_quiet w w1 made log wrote : fw w made log wrote -> sane w1 -> w_cwd w1 = w_cwd w -> (forall q, look w1 q = look w q) -> fw w1 made log wrote.
Proof.
  intros G S E L. constructor; try apply G; auto.
  - rewrite E. apply G.
  - intros i e H. rewrite L. now apply (f_in _ _ _ _ G).
  - intros b H. rewrite L. now apply (f_idx _ _ _ _ G).
  - intros q H1 H2. rewrite L. now apply (f_out _ _ _ _ G).
Qed.
Lemma fw_made w w1 made log wrote i ms e : fw w made log wrote -> sane w1 -> w_cwd w1 = w_cwd w ->
  nth_error css i = Some ms -> In (fst e) ms -> fresh_name (snd e) -> plain_object (Article (m_board (fst e)) (snd e)) ->
  look w (eplace e) = None -> look w1 (eplace e) = Some (EFile []) -> (forall q, q <> eplace e -> look w1 q = look w q) ->
  fw w1 (made ++ [(i, e)]) log wrote.
Proof.
  intros G S E Hm Hi Fr Pl L0 L1 Lo.
  assert (New : forall x, In x made -> eplace (snd x) <> eplace e).
  { intros [j d] Hx Z. destruct (f_in _ _ _ _ G j d Hx) as (_ & _ & _ & X); cbn [snd] in Z; rewrite Z, L0 in X; discriminate X. }
  assert (Ib : forall b, posted_on b -> iplace b <> eplace e).
  { intros b Hb Z. symmetry in Z. revert Z. apply eplace_iplace; [exact Pl|now apply pid]. }
  constructor; auto.
  - rewrite E. apply G.
  - intros j d Hj. apply in_app_iff in Hj as [Hj|[[= <- <-]|[]]].
    + rewrite Lo by exact (New (j, d) Hj). now apply (f_in _ _ _ _ G).
    + split; [exists ms; auto|]. split; [exact Fr|]. split.
      * rewrite <- L0. symmetry. apply (f_out _ _ _ _ G); [|intros x Hx Z; now apply (New x Hx)]. intros b Hb Z. now apply (Ib b Hb).
      * unfold text_now. rewrite find_part_none; [exact L1|]. intros Z. apply in_map_iff in Z as ([e' x] & Ez & Z). cbn in Ez. subst e'. apply own_in in Z.
        apply (f_wrote _ _ _ _ G), (f_log _ _ _ _ G) in Z. now apply (New _ Z).
  - intros j d x Hx. apply in_app_iff. left. now apply (f_log _ _ _ _ G j d x).
  - apply G.
  - rewrite map_app. apply NoDup_snoc; [apply G|]. intros Z. apply in_map_iff in Z as (x & Ex & Hx). apply (New x Hx).
    destruct x as [j [m' n']], e as [m n]. unfold ekey in Ex. cbn in Ex. unfold P_Post.eplace. cbn [fst snd]. injection Ex as -> ->. reflexivity.
  - apply G.
  - intros b Hb. rewrite Lo by now apply Ib. now apply (f_idx _ _ _ _ G).
  - intros q H1 H2. rewrite Lo.
    + apply (f_out _ _ _ _ G); [exact H1|]. intros x Hx. apply H2. apply in_app_iff. now left.
    + apply (H2 (i, e)). apply in_app_iff. right. now left.
Qed.
Lemma fw_index w w1 made log wrote b : fw w made log wrote -> sane w1 -> w_cwd w1 = w_cwd w -> posted_on b ->
  look w (iplace b) = None -> look w1 (iplace b) = Some (EFile []) -> (forall q, q <> iplace b -> look w1 q = look w q) ->
  fw w1 made log wrote.
Proof.
  intros G S E Po L0 L1 Lo. pose proof (pid b Po) as Ib. constructor; try apply G; auto.
  - rewrite E. apply G.
  - intros j d Hj. rewrite Lo; [now apply (f_in _ _ _ _ G)|]. apply eplace_iplace; [|exact Ib]. now apply (ffine j d _ _ _ _ G).
  - intros b' Hb. destruct (rp_eq_dec (iplace b') (iplace b)) as [Z|Z].
    + apply iplace_inj in Z; [|now apply pid|exact Ib]. subst b'. right.
      destruct (f_idx _ _ _ _ G b Po) as [(_ & X & ->)|X]; [|rewrite L0 in X; discriminate X]. rewrite L1. unfold text_at. rewrite X. reflexivity.
    + rewrite Lo by exact Z. now apply (f_idx _ _ _ _ G).
  - intros q H1 H2. rewrite Lo by now apply H1. now apply (f_out _ _ _ _ G).
Qed.
Lemma keys_snoc (log : parts) i e x : NoDup (map (fun x => (fst x, fst (snd x))) log) -> ~ In e (map fst (own i log)) ->
  NoDup (map (fun x => (fst x, fst (snd x))) (log ++ [(i, (e, x))])).
Proof.
  intros N H. rewrite map_app. apply NoDup_snoc; [exact N|]. intros Z. apply in_map_iff in Z as ([j [d y]] & Ez & Z). cbn in Ez. injection Ez as -> ->.
  apply H. apply in_map_iff. exists (e, y). split; [reflexivity|]. now apply own_in.
Qed.
(** a piece is added, or none because the index could not be opened *)
Lemma fw_listed w w1 made log wrote i e x : fw w made log wrote -> sane w1 -> w_cwd w1 = w_cwd w -> In (i, e) made -> ~ In e (map fst (own i log)) ->
  (exists old, look w (iplace (m_board (fst e))) = Some (EFile old) /\
     look w1 (iplace (m_board (fst e))) = Some (EFile (old ++ piece (e, x)))) \/
  look w1 (iplace (m_board (fst e))) = look w (iplace (m_board (fst e))) /\ piece (e, x) = [] ->
  (forall q, q <> iplace (m_board (fst e)) -> look w1 q = look w q) ->
  fw w1 made (log ++ [(i, (e, x))]) wrote.
Proof.
  intros G S E He Nl L1 Lo. destruct (ffine i e _ _ _ _ G He) as (Ib & _ & Po & Pl). constructor; try apply G; auto.
  - rewrite E. apply G.
  - intros j d Hj. rewrite Lo; [now apply (f_in _ _ _ _ G)|]. apply eplace_iplace; [|exact Ib]. now apply (ffine j d _ _ _ _ G).
  - intros j d y Hx. apply in_app_iff in Hx as [Hx|[[= <- <- <-]|[]]]; [now apply (f_log _ _ _ _ G j d y)|exact He].
  - intros j d y Hx. apply in_app_iff. left. exact (f_wrote _ _ _ _ G j d y Hx).
  - apply keys_snoc; [apply G|exact Nl].
  - intros b' Hb. destruct (rp_eq_dec (iplace b') (iplace (m_board (fst e)))) as [Z|Z].
    + apply iplace_inj in Z; [|now apply pid|exact Ib]. subst b'. change (m_board (fst e)) with (m_board (fst (fst (e, x)))). rewrite pieces_snoc. cbn [fst].
      destruct L1 as [(old & L0 & L1)|[L1 Pe]].
      * right. rewrite L1. destruct (f_idx _ _ _ _ G _ Po) as [(X & _)|X]; [rewrite L0 in X; discriminate X|]. rewrite L0 in X. injection X as ->. now rewrite app_assoc.
      * rewrite L1, Pe, app_nil_r. exact (f_idx _ _ _ _ G _ Po).
    + rewrite Lo by exact Z. rewrite pieces_other; [now apply (f_idx _ _ _ _ G)|]. intros X. apply Z. cbn in X. now rewrite X.
  - intros q H1 H2. rewrite Lo by now apply H1. now apply (f_out _ _ _ _ G).
Qed.
Lemma fw_text w w1 made log wrote i e x : fw w made log wrote -> sane w1 -> w_cwd w1 = w_cwd w -> In (i, (e, (0%nat, true))) log -> ~ In e (map fst (own i wrote)) ->
  look w1 (eplace e) = Some (EFile (cut_off x (enc cd (m_text (fst e))))) -> (forall q, q <> eplace e -> look w1 q = look w q) ->
  fw w1 made log (wrote ++ [(i, (e, x))]).
Proof.
  intros G S E Hl Nw L1 Lo. pose proof (f_log _ _ _ _ G _ _ _ Hl) as He. destruct (ffine i e _ _ _ _ G He) as (Ib & _ & Po & Pl). constructor; try apply G; auto.
  - rewrite E. apply G.
  - intros j d Hj. destruct (f_in _ _ _ _ G j d Hj) as (Fm & Fr & L0 & Q). split; [exact Fm|]. split; [exact Fr|]. split; [exact L0|].
    destruct (ffine j d _ _ _ _ G Hj) as (_ & _ & _ & Pd).
    destruct (rp_eq_dec (eplace d) (eplace e)) as [Z|Z].
    + assert ((j, d) = (i, e)) as [= -> ->].
      { apply (NoDup_map_same ekey made); auto; [apply G|]. apply eplace_inj in Z as [Z1 Z2]; auto. unfold ekey. cbn. now rewrite Z1, Z2. }
      rewrite L1. unfold text_now. rewrite own_snoc, find_part_snoc by exact Nw. reflexivity.
    + rewrite Lo by exact Z. rewrite Q. unfold text_now. destruct (Nat.eq_dec i j) as [<-|Nj]; [|now rewrite own_other].
      rewrite own_snoc, find_part_other; [reflexivity|]. intros ->. now apply Z.
  - intros j d y Hx. apply in_app_iff in Hx as [Hx|[[= <- <- <-]|[]]]; [now apply (f_wrote _ _ _ _ G j d y)|exact Hl].
  - intros b' Hb. rewrite Lo; [now apply (f_idx _ _ _ _ G)|]. intros Z. symmetry in Z. revert Z. apply eplace_iplace; [exact Pl|now apply pid].
  - intros q H1 H2. rewrite Lo by exact (H2 _ He). now apply (f_out _ _ _ _ G).
Qed.

Lemma fstep_ok w ps st made log wrote i R (c : sys R) k w1 r : finv w ps st made log wrote -> nth_error ps i = Some (Call c k) ->
  exec c w = (w1, r) \/ fails c w w1 r ->
  exists st' made' log' wrote', finv w1 (upd_nth i (k r) ps) st' made' log' wrote'.
Proof.
  intros C Hp X.
  assert (exists ms, nth_error css i = Some ms) as [ms Hm].
  { destruct (nth_error css i) eqn:E; [eauto|]. apply nth_error_None in E. rewrite <- (q_len _ _ _ _ _ _ C) in E. apply nth_error_None in E. congruence. }
  assert (Li : (i < length css)%nat) by (apply nth_error_Some; congruence).
  pose proof (q_ok _ _ _ _ _ _ C i _ ms Hp Hm) as K. pose proof (q_fw _ _ _ _ _ _ C) as G. pose proof (f_sane _ _ _ _ G) as S. pose proof (f_cwd _ _ _ _ G) as Cw.
  assert (Still : forall o p L', fok ms p (own i made) L' (own i wrote) o -> L' = own i log -> o = None ->
    exists st' made' log' wrote', finv w (upd_nth i p ps) st' made' log' wrote').
  { intros o p L' Ko -> ->. exists (put st i None), made, log, wrote. eapply (fclient_step w ps st made log wrote i); eauto.
    - constructor; auto; lia.
    - intros fd tt Z. discriminate Z. }
  destruct c as [path fl| | |fd d| | | |fd| | | |m]; try contradiction; cbn [fok] in K.
  - (* open *)
    destruct K as (So & [(-> & m & t & r0 & Hi & Hr & Ep & Ke & Kf)|[(-> & e & He & Nl & Ep & Kf & Ke)|(-> & e & He & Ep & Kf & Ke)]]).
    + (* a new article *)
      destruct X as [X|[-> ->]]; [|exact (Still None _ _ (Ke EIO) eq_refl eq_refl)].
      destruct (Fine ms m) as [Ib _]; [now apply nth_error_In in Hm|exact Hi|].
      set (e := (m, article_name t r0) : pst).
      pose proof (article_name_plain (m_board m) t r0 Ib) as Pl.
      pose proof (article_at wd w0 Nwd w _ _ _ Cw Pl Ep) as Nm. change (names w path (eplace e)) in Nm.
      destruct (look w (eplace e)) as [x|] eqn:Lk.
      * assert (exists er, exec (Open path O_WRONLY_CREATE_EXCL) w = (w, RErr er)) as [er E].
        { cbn [exec]. unfold sys_open. destruct Nm as [Pp Rp]. destruct (proper_tests path Pp) as [-> ->]. rewrite Rp.
          unfold look in Lk. destruct (is_dir w (eplace e)) eqn:Ed; [cbn; eauto|].
          destruct (eplace e) as [|a b]; [discriminate Ed|]. destruct (w_tree w (a :: b)) as [[|j]|]; try discriminate; cbn; eauto. }
        rewrite E in X. injection X as <- <-. exact (Still None _ _ (Ke er) eq_refl eq_refl).
      * destruct (is_dir w (parent (eplace e))) eqn:Dr.
        -- destruct (created_world w path O_WRONLY_CREATE_EXCL (eplace e) S Nm Lk eq_refl) as (E & S1 & L1 & Lo & Mv & _); [now apply is_dir_look|].
           rewrite E in X. revert E S1 L1 Lo Mv X. set (w2 := bump_fd _). intros E S1 L1 Lo Mv X. injection X as <- <-.
           exists (put st i (Some (w_nextfd w, TDone))), (made ++ [(i, e)]), log, wrote.
           apply (fclient_step w ps st made log wrote i (Call (Open path O_WRONLY_CREATE_EXCL) k) w2 _ _ _ _ _ ms C Hp Hm).
           ++ apply (fw_made w w2 made log wrote i ms e G S1); auto. now apply article_name_fresh.
           ++ apply Mv.
           ++ intros j N. rewrite own_other by exact N. auto.
           ++ rewrite own_snoc. apply Kf. intros Z. apply own_in in Z.
              destruct (f_in _ _ _ _ G _ _ Z) as (_ & _ & _ & X); fold e in X; rewrite Lk in X; discriminate X.
           ++ intros fd tt [= <- <-]. split; [cbn; lia|]. split; [exact I|]. left. lia.
        -- rewrite (open_missing w path _ _ Nm Lk) in X; [|right; now apply is_dir_look_false]. injection X as <- <-.
           exact (Still None _ _ (Ke _) eq_refl eq_refl).
    + (* the index *)
      apply own_in in He. destruct (ffine i e _ _ _ _ G He) as (Ib & Ix & Po & Pl).
      destruct X as [X|[-> ->]].
      2: { exists (put st i None), made, (log ++ [(i, (e, (0%nat, false)))]), wrote.
        eapply (fclient_step w ps st made log wrote i); eauto.
        - apply (fw_listed w w made log wrote i e _ G S eq_refl He Nl); auto.
        - constructor; auto; lia.
        - intros j N. rewrite own_other by exact N. auto.
        - rewrite own_snoc. exact Ke.
        - intros fd tt Z. discriminate Z. }
      pose proof (index_at wd w0 Nwd w _ _ Cw Ib Ep) as Nm.
      destruct (f_idx _ _ _ _ G _ Po) as [(L & L0 & Ol)|L].
      * assert (Hd : has_dir w (iplace (m_board (fst e)))).
        { destruct (f_in _ _ _ _ G _ _ He) as (_ & _ & _ & Xx); exact (index_dir wd w0 w e _ S Ib Xx). }
        destruct (created_world w path O_APPEND_CREATE_WRONLY (iplace (m_board (fst e))) S Nm L eq_refl Hd) as (E & S1 & L1 & Lo & Mv & T1 & F1).
        rewrite E in X. revert E S1 L1 Lo Mv T1 F1 X. set (w2 := bump_fd _). intros E S1 L1 Lo Mv T1 F1 X. injection X as <- <-.
        exists (put st i (Some (w_nextfd w, TIdx e))), made, log, wrote.
        apply (fclient_step w ps st made log wrote i (Call (Open path O_APPEND_CREATE_WRONLY) k) w2 _ _ _ _ _ ms C Hp Hm); auto.
        -- apply (fw_index w w2 made log wrote (m_board (fst e)) G S1); auto.
        -- intros fd tt [= <- <-]. split; [cbn; lia|]. split; [|left; lia]. cbn [P_Post.opened]. eexists _, _, _. split; [exact F1|exact T1].
      * destruct (existing_world w path O_APPEND_CREATE_WRONLY _ _ S Nm L eq_refl eq_refl) as (w2 & ino & E & S1 & C1 & L1 & Mv & T1 & N1 & F1).
        rewrite E in X. injection X as <- <-. exists (put st i (Some (w_nextfd w, TIdx e))), made, log, wrote.
        apply (fclient_step w ps st made log wrote i (Call (Open path O_APPEND_CREATE_WRONLY) k) w2 _ _ _ _ _ ms C Hp Hm); auto.
        -- now apply (fw_quiet w w2).
        -- intros fd tt [= <- <-]. split; [lia|]. split; [|left; lia]. cbn [P_Post.opened]. eexists _, _, _. split; [exact F1|exact T1].
    + (* the article again *)
      destruct X as [X|[-> ->]]; [|exact (Still None _ _ Ke eq_refl eq_refl)].
      apply own_in in He. apply (f_log _ _ _ _ G) in He. destruct (ffine i e _ _ _ _ G He) as (Ib & Ix & Po & Pl).
      pose proof (article_at wd w0 Nwd w _ _ _ Cw Pl Ep) as Nm. change (names w path (eplace e)) in Nm.
      destruct (f_in _ _ _ _ G _ _ He) as (_ & _ & _ & L).
      destruct (existing_world w path O_WRONLY_CREATE _ _ S Nm L eq_refl eq_refl) as (w2 & ino & E & S1 & C1 & L1 & Mv & T1 & N1 & F1).
      rewrite E in X. injection X as <- <-. exists (put st i (Some (w_nextfd w, TArt e))), made, log, wrote.
      apply (fclient_step w ps st made log wrote i (Call (Open path O_WRONLY_CREATE) k) w2 _ _ _ _ _ ms C Hp Hm); auto.
      * now apply (fw_quiet w w2).
      * intros fd tt [= <- <-]. split; [lia|]. split; [|left; lia]. cbn [P_Post.opened]. eexists _, _. split; [exact F1|exact T1].
  - (* write *)
    destruct K as [(e & So & He & Nl & -> & K & Ke)|(e & So & Hl & Nl & -> & K & Ke)];
      destruct (q_fd _ _ _ _ _ _ C i _ _ Li So) as [Lf Op]; cbn [P_Post.opened] in Op.
    + apply own_in in He. destruct (ffine i e _ _ _ _ G He) as (Ib & Ix & Po & Pl). destruct Op as (ino & pos & rd & F & T).
      assert (Go : forall d x, d = piece (e, x) -> fst (exec (Write fd d) w) = w1 -> fok ms (k r) (own i made) (own i log ++ [(e, x)]) (own i wrote) (Some (fd, TDone)) ->
        exists st' made' log' wrote', finv w1 (upd_nth i (k r) ps) st' made' log' wrote').
      { intros d x Ed E1 Kx.
        destruct (write_world w fd _ ino _ d (TIdx e) S F eq_refl eq_refl Lf T (iplace_nonroot wd w0 _)) as (w2 & E & S1 & C1 & N1 & L1 & Lo & Mv).
        cbn [of_append of_pos] in L1. rewrite write_at_end in L1. rewrite E in E1. cbn [fst] in E1. subst w2.
        exists (put st i (Some (fd, TDone))), made, (log ++ [(i, (e, x))]), wrote.
        apply (fclient_step w ps st made log wrote i (Call (Write fd (rec_bytes e)) k) w1 _ _ _ _ _ ms C Hp Hm).
        - apply (fw_listed w w1 made log wrote i e x G S1 C1 He Nl); [|exact Lo]. left. exists (w_data w ino). rewrite Ed in L1. split; [|exact L1].
          unfold look. rewrite T. pose proof (iplace_nonroot wd w0 (m_board (fst e))). now destruct (iplace (m_board (fst e))).
        - rewrite So. exact Mv.
        - intros j N. rewrite own_other by exact N. auto.
        - rewrite own_snoc. exact Kx.
        - intros fd' tt [= <- <-]. split; [lia|]. split; [exact I|]. right. eauto. }
      destruct X as [X|[[n ->] ->]].
      * apply (Go (rec_bytes e) (0%nat, true) eq_refl); [now rewrite X|].
        destruct (write_world w fd _ ino _ (rec_bytes e) (TIdx e) S F eq_refl eq_refl Lf T (iplace_nonroot wd w0 _)) as (w2 & E & _). rewrite E in X. injection X as _ <-. exact K.
      * apply (Go (firstn n (rec_bytes e)) (n, false) eq_refl); [reflexivity|apply Ke].
    + pose proof Hl as He. apply own_in in He. pose proof He as Hl'. apply (f_log _ _ _ _ G) in He. destruct (ffine i e _ _ _ _ G He) as (Ib & Ix & Po & Pl). destruct Op as (ino & rd & F & T).
      assert (w_data w ino = []) as D0.
      { destruct (f_in _ _ _ _ G _ _ He) as (_ & _ & _ & Xx). unfold text_now in Xx. rewrite find_part_none in Xx by exact Nl. destruct (look_file _ _ _ Xx) as (ino' & T' & D' & _).
        rewrite T in T'. now injection T' as <-. }
      assert (Go : forall d x, d = cut_off x (enc cd (m_text (fst e))) -> fst (exec (Write fd d) w) = w1 -> fok ms (k r) (own i made) (own i log) (own i wrote ++ [(e, x)]) (Some (fd, TDone)) ->
        exists st' made' log' wrote', finv w1 (upd_nth i (k r) ps) st' made' log' wrote').
      { intros d x Ed E1 Kx.
        destruct (write_world w fd _ ino _ d (TArt e) S F eq_refl eq_refl Lf T (eplace_nonroot wd w0 _)) as (w2 & E & S1 & C1 & N1 & L1 & Lo & Mv).
        cbn [of_append of_pos] in L1. rewrite D0, write_at_0, skipn_nil, app_nil_r in L1. rewrite E in E1. cbn [fst] in E1. subst w2.
        exists (put st i (Some (fd, TDone))), made, log, (wrote ++ [(i, (e, x))]).
        apply (fclient_step w ps st made log wrote i (Call (Write fd (enc cd (m_text (fst e)))) k) w1 _ _ _ _ _ ms C Hp Hm).
        - apply (fw_text w w1 made log wrote i e x G S1); auto. now rewrite <- Ed.
        - rewrite So. exact Mv.
        - intros j N. rewrite own_other by exact N. auto.
        - rewrite own_snoc. exact Kx.
        - intros fd' tt [= <- <-]. split; [lia|]. split; [exact I|]. right. eauto. }
      destruct X as [X|[[n ->] ->]].
      * apply (Go (enc cd (m_text (fst e))) (0%nat, true) eq_refl); [now rewrite X|].
        destruct (write_world w fd _ ino _ (enc cd (m_text (fst e))) (TArt e) S F eq_refl eq_refl Lf T (eplace_nonroot wd w0 _)) as (w2 & E & _). rewrite E in X. injection X as _ <-. exact K.
      * apply (Go (firstn n (enc cd (m_text (fst e)))) (n, false) eq_refl); [reflexivity|apply Ke].
  - (* close *)
    destruct X as [X|[]]. destruct K as ([T So] & K). cbn [exec] in X. injection X as <- <-. exists (put st i None), made, log, wrote.
    apply (fclient_step w ps st made log wrote i (Call (Close fd) k) _ _ _ _ _ _ ms C Hp Hm); auto.
    + apply (fw_quiet w); auto. now apply sane_close.
    + constructor; [|auto|cbn; lia]. intros fd' Hf Hn. cbn. destruct N.eq_dec as [->|]; [|reflexivity]. now destruct (Hn T).
    + intros fd' tt Z. discriminate Z.
  - (* now *)
    destruct X as [X|[]]. cbn [exec] in X. injection X as <- <-. exists (put st i (st i)), made, log, wrote.
    apply (fclient_step w ps st made log wrote i (Call Now k) _ _ _ _ _ _ ms C Hp Hm); auto.
    + apply (fw_quiet w); auto. now apply sane_tick.
    + constructor; auto. cbn. lia.
    + intros fd t Z. destruct (q_fd _ _ _ _ _ _ C i fd t Li Z) as [A B]. split; [exact A|]. split; [exact B|]. right. eauto.
  - (* rand *)
    destruct X as [X|[]]. destruct K as [Hn K]. cbn [exec] in X. injection X as <- <-. exists (put st i (st i)), made, log, wrote.
    apply (fclient_step w ps st made log wrote i (Call (Rand m) k) _ _ _ _ _ _ ms C Hp Hm); auto.
    + apply (fw_quiet w); auto. now apply sane_rtick.
    + constructor; auto. cbn. lia.
    + apply K. apply N.mod_lt. lia.
    + intros fd t Z. destruct (q_fd _ _ _ _ _ _ C i fd t Li Z) as [A B]. split; [exact A|]. split; [exact B|]. right. eauto.
Qed.
Lemma fpool_run w ps w' ps' : fpool w ps w' ps' -> forall st made log wrote, finv w ps st made log wrote ->
  exists st' made' log' wrote', finv w' ps' st' made' log' wrote'.
Proof.
  induction 1 as [w ps|w ps i R c k w1 r w' ps' Hp X _ IH]; intros st made log wrote C; [eauto 6|].
  destruct (fstep_ok w ps st made log wrote i R c k w1 r C Hp X) as (st1 & made1 & log1 & wrote1 & C1). eauto.
Qed.

(** ** Posting is such a program *)
Lemma fok_assoc ms {A B} (p : prog A) (h : A -> prog B) (k : B -> prog report) : forall M L W o,
  fok ms (bind p (fun a => bind (h a) k)) M L W o -> fok ms (bind (bind p h) k) M L W o.
Proof.
  induction p as [a|R c h' IH]; intros M L W o; [auto|].
  destruct c; cbn [bind fok]; try tauto.
  - intros (Eo & [(-> & m & t & r & H1 & H2 & H3 & Ke & Kf)|[(-> & e & H1 & H2 & H3 & Kf & Ke)|(-> & e & H1 & H2 & Kf & Ke)]]); (split; [exact Eo|]).
    + left. split; [reflexivity|]. exists m, t, r. repeat (split; [assumption|]). split; intros; apply IH; auto.
    + right. left. split; [reflexivity|]. exists e. repeat (split; [assumption|]). split; intros; apply IH; auto.
    + right. right. split; [reflexivity|]. exists e. repeat (split; [assumption|]). split; intros; apply IH; auto.
  - intros [(e & H1 & H2 & H3 & H4 & K & Ke)|(e & H1 & H2 & H3 & H4 & K & Ke)]; [left|right]; exists e; repeat (split; [assumption|]); (split; [now apply IH|intros n; now apply IH]).
  - intros [E K]. split; [exact E|]. now apply IH.
  - intros K t. now apply IH.
  - intros [E K]. split; [exact E|]. intros r Hr. now apply IH, K.
Qed.
Lemma fok_filename ms fuel m (k : outcome bytes -> prog report) M L W : In m ms -> ident (m_board m) ->
  (forall n, plain_object (Article (m_board m) n) -> ~ In (m, n) M -> fok ms (k (Ok n)) (M ++ [(m, n)]) L W None) -> fok ms (k Diverge) M L W None ->
  fok ms (bind (CreateBoardArticleFilename fuel wd (m_board m)) k) M L W None.
Proof.
  intros Hm Ib K1 K2. induction fuel as [|fuel IH]; [exact K2|]. cbn -[article_name N.mul]. intros t. split; [lia|]. intros r Hr.
  destruct (article_path wd w0 Nwd (m_board m) t r Ib) as [p E]. rewrite E. cbn -[article_name]. split; [reflexivity|]. left. split; [reflexivity|].
  exists m, t, r. repeat (split; [assumption|]). split; [now intros e|]. intros fd N. cbn -[article_name]. split; [eauto|]. apply K1; [now apply article_name_plain|exact N].
Qed.
Lemma fok_append ms e (k : outcome unit -> prog report) M L W : In e M -> ~ In e (map fst L) -> ident (m_board (fst e)) ->
  fok ms (k (Ok tt)) M (L ++ [(e, (0%nat, true))]) W None ->
  (forall n, fok ms (k (Err (ESys EIO))) M (L ++ [(e, (n, false))]) W None) ->
  fok ms (bind (AddArticleRecordFileRecord cd wd (m_board (fst e)) (NewArticleRecord (snd e) (m_owner (fst e)) (m_date (fst e)) (m_title (fst e)))) k) M L W None.
Proof.
  intros He Hn Ib K Ke. unfold AddArticleRecordFileRecord, pbind, lift. cbn [bind].
  destruct (object_resolves (w_cwd w0) wd (Index (m_board (fst e))) Ib Nwd) as (p & Ep & _). cbn [object_path] in Ep. rewrite Ep.
  rewrite append_record_shape. unfold open_write. cbn [bind fok]. split; [reflexivity|]. right. left. split; [reflexivity|]. exists e. split; [exact He|]. split; [exact Hn|]. split; [exact Ep|].
  split; [|exact (Ke 0%nat)].
  intros fd. cbn [bind fok]. left. exists e. split; [reflexivity|]. split; [exact He|]. split; [exact Hn|]. split; [reflexivity|]. split; [split; [eauto|exact K]|].
  intros n. split; [eauto|exact (Ke n)].
Qed.
Lemma fok_write ms e (k : outcome unit -> prog report) M L W : In (e, (0%nat, true)) L -> ~ In e (map fst W) -> plain_object (Article (m_board (fst e)) (snd e)) ->
  fok ms (k (Ok tt)) M L (W ++ [(e, (0%nat, true))]) None ->
  fok ms (k (Err (ESys EIO))) M L W None -> (forall n, fok ms (k (Err (ESys EIO))) M L (W ++ [(e, (n, false))]) None) ->
  fok ms (bind (DB_WriteBoardArticleFile wd (m_board (fst e)) (snd e) (enc cd (m_text (fst e)))) k) M L W None.
Proof.
  intros He Hn Pl K Ko Ke. unfold DB_WriteBoardArticleFile, pbind, lift. cbn [bind].
  destruct (object_resolves (w_cwd w0) wd (Article (m_board (fst e)) (snd e)) Pl Nwd) as (p & Ep & _). cbn [object_path] in Ep. rewrite Ep.
  rewrite write_article_shape. unfold open_write. cbn [bind fok]. split; [reflexivity|]. right. right. split; [reflexivity|]. exists e. split; [exact He|]. split; [exact Ep|].
  split; [|exact Ko].
  intros fd. cbn [bind fok]. right. exists e. split; [reflexivity|]. split; [exact He|]. split; [exact Hn|]. split; [reflexivity|]. split; [split; [eauto|exact K]|].
  intros n. split; [eauto|exact (Ke n)].
Qed.
Lemma fok_post ms fuel m (k : outcome (list out) -> prog report) L W : In m ms -> ident (m_board m) -> incl (map fst W) (map fst L) ->
  (forall x W', incl (map fst W') (map fst (L ++ [x])) -> fst (fst x) = m -> map (deed_now W') L = map (deed_now W) L ->
     fok ms (k (d_said (deed_now W' x))) (map fst (L ++ [x])) (L ++ [x]) W' None) ->
  fok ms (k Diverge) (map fst L) L W None -> fok ms (bind (post_message cd fuel wd m) k) (map fst L) L W None.
Proof.
  intros Hm Ib Iw K1 K2. unfold post_message, post, try, db_call, CreateArticleRecord, pbind.
  apply fok_assoc, fok_assoc, fok_filename; [exact Hm|exact Ib| |exact K2].
  intros n Pl Hn. set (e := (m, n) : pst) in *. cbn [bind fh_filename NewArticleRecord]. apply fok_assoc.
  assert (Hw : ~ In e (map fst W)) by (intros Z; now apply Hn, Iw).
  assert (Dn : forall x y, map (deed_now (W ++ [(e, x)])) L = map (deed_now W) L /\ incl (map fst (W ++ [(e, x)])) (map fst (L ++ [(e, y)]))).
  { intros x y. split.
    - apply map_ext_in. intros [e' z] Hz. assert (e' <> e) by (intros ->; apply Hn; apply in_map_iff; now exists (e, z)).
      unfold deed_now, text_now. cbn [fst snd]. now rewrite find_part_other by congruence.
    - rewrite !map_app. intros a Ha. apply in_app_iff in Ha as [Ha|Ha]; apply in_app_iff; [left; now apply Iw|right; exact Ha]. }
  assert (I0 : forall y, incl (map fst W) (map fst (L ++ [(e, y)]))) by (intros y a Ha; rewrite map_app; apply in_app_iff; left; now apply Iw).
  assert (Em : forall y, map fst L ++ [e] = map fst (L ++ [(e, y)])) by (intros y; now rewrite map_app).
  apply (fok_append ms e); [apply in_app_iff; right; now left|exact Hn|exact Ib| |].
  - cbn [bind]. apply fok_assoc. refine (eq_ind_r (fun z => fok ms _ z _ _ None) _ (Em (0%nat, true))). apply (fok_write ms e); [apply in_app_iff; right; now left|exact Hw|exact Pl| | |].
    + cbn [bind]. destruct (Dn (0%nat, true) (0%nat, true)) as [D1 D2].
      pose proof (K1 (e, (0%nat, true)) (W ++ [(e, (0%nat, true))]) D2 eq_refl D1) as Q. unfold deed_now in Q. cbn [fst snd d_said] in Q. rewrite find_part_snoc in Q by exact Hw. exact Q.
    + cbn [bind]. pose proof (K1 (e, (0%nat, true)) W (I0 _) eq_refl eq_refl) as Q. unfold deed_now in Q. cbn [fst snd d_said] in Q. rewrite find_part_none in Q by exact Hw. exact Q.
    + intros j. cbn [bind]. destruct (Dn (j, false) (0%nat, true)) as [D1 D2].
      pose proof (K1 (e, (0%nat, true)) (W ++ [(e, (j, false))]) D2 eq_refl D1) as Q. unfold deed_now in Q. cbn [fst snd d_said] in Q. rewrite find_part_snoc in Q by exact Hw. exact Q.
  - intros j. cbn [bind]. refine (eq_ind_r (fun z => fok ms _ z _ _ None) _ (Em (j, false))). exact (K1 (e, (j, false)) W (I0 _) eq_refl eq_refl).
Qed.
Lemma told_of_app rs l rs' l' : told_of rs l -> told_of rs' l' -> told_of (rs ++ rs') (l ++ l').
Proof. intros H H'. induction H; cbn; auto; now constructor. Qed.
Lemma fok_poster fuel all todo : forall got L W, map fst (rev got) ++ todo = all -> (forall m, In m all -> ident (m_board m)) -> incl (map fst W) (map fst L) ->
  told_of (rev got) (map (deed_now W) L) -> fok all (poster_from cd fuel wd todo got) (map fst L) L W None.
Proof.
  induction todo as [|m todo IH]; intros got L W E Hi Iw R; cbn [poster_from].
  { cbn [fok]. rewrite app_nil_r in E. auto. }
  assert (Hm : In m all) by (rewrite <- E; apply in_app_iff; right; now left).
  apply fok_post; [exact Hm|now apply Hi|exact Iw| |].
  - intros x W' I' Ex Ed. apply IH; [|exact Hi|exact I'|].
    + cbn [rev]. rewrite map_app, <- app_assoc. exact E.
    + cbn [rev]. assert (Q : map (deed_now W') (L ++ [x]) = map (deed_now W) L ++ [deed_now W' x]) by (etransitivity; [apply map_app|]; f_equal; exact Ed).
      refine (eq_ind_r (fun z => told_of _ z) _ Q). apply told_of_app; [exact R|]. rewrite <- Ex. change (fst (fst x), d_said (deed_now W' x)) with (told (deed_now W' x)).
      constructor. constructor.
  - apply IH; [|exact Hi|exact Iw|].
    + cbn [rev]. rewrite map_app, <- app_assoc. exact E.
    + cbn [rev]. rewrite <- (app_nil_r (map _ L)). apply told_of_app; [exact R|]. constructor. constructor.
Qed.
Lemma finv_start fuel : sane w0 -> finv w0 (map (poster cd fuel wd) css) (fun _ => None) [] [] [].
Proof.
  intros S. constructor.
  - constructor; auto; try (now intros ? ? []); try (now intros ? ? ? []); try (now intros ? []); try apply NoDup_nil.
    intros b Hb. destruct (look w0 (iplace b)) as [[|d]|] eqn:L.
    + exfalso. destruct Hb as (ms & m & H1 & H2 & <-). destruct (Fine ms m H1 H2) as [I X]. apply X. rewrite <- L. now rewrite iplace_entry.
    + right. unfold text_at. rewrite L. cbn. now rewrite app_nil_r.
    + left. auto.
  - apply map_length.
  - intros i p ms Hp Hm. rewrite nth_error_map, Hm in Hp. injection Hp as <-. apply (fok_poster fuel ms ms [] [] []); [reflexivity| |easy|constructor].
    intros m H. apply nth_error_In in Hm. now apply (Fine ms m).
  - discriminate.
  - discriminate.
Qed.
End Pool.
