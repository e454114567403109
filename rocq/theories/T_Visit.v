(** * Posting, listing and reading at the same time *)
From Coq Require Import Lia ZifyBool ZifyNat ZifyN.
From Verif Require Import M_Base M_Sys M_Path M_File M_Board M_FileOps M_DB M_BbsTool.
From Verif Require Import S_World S_Path S_Layout S_File S_Store S_Create S_Scan S_Tool S_BbsTool S_Post S_Visit S_ExWorld S_Example.
From Verif Require Import P_Base P_Sys P_Path P_Read P_Layout P_Records P_Store P_BoardList P_Pool P_PoolList P_Create P_BbsTool P_Post P_Visit T_Records T_Store T_BoardList T_Create T_BbsTool T_Post.
Open Scope N_scope.

(** ** C62: one history *)
(** Any number of clients, any schedule, any initial files and clocks: there is one order [log] of
    all posts such that the files, and every answer that any client has got, agree with it. *)
Theorem C62_one_history : forall cd fuel wd w vs sched w' ps,
  sane w -> ~ In x00 wd ->
  (forall acts a, In acts vs -> In a acts -> action_fine w wd a) ->
  run_pool sched w (map (visitor cd fuel wd) vs) = (w', ps) ->
  sane w' /\ w_cwd w' = w_cwd w /\
  exists log : posts_log,
    NoDup (map (fun e => (m_board (fst (snd e)), snd (snd e))) log) /\
    (forall i m n, In (i, (m, n)) log -> (exists acts, nth_error vs i = Some acts /\ In (Posts m) acts) /\ fresh_name n /\
       look w (board_entry w wd (m_board m) n) = None /\
       (look w' (board_entry w wd (m_board m) n) = Some (EFile (enc cd (m_text m))) \/
        look w' (board_entry w wd (m_board m) n) = Some (EFile []))) /\
    (* the index of a board is the old one followed by its posts *)
    (forall b, (exists acts m, In acts vs /\ In (Posts m) acts /\ m_board m = b) ->
       exists es, Forall2 (file_encoded cd) (map (fun e => listed (fst e) (snd e)) (on_board b log)) es /\
         (look w' (index_entry w wd b) = Some (EFile (text_at w (index_entry w wd b) ++ concat es)) \/
          look w' (index_entry w wd b) = None /\ look w (index_entry w wd b) = None /\ es = [])) /\
    (* the answers of a client that has finished agree with the log, and its texts are complete *)
    (forall i acts rs, nth_error vs i = Some acts -> nth_error ps i = Some (Ret rs) ->
       map fst rs = acts /\ (exists k, heard cd wd w vs log i rs k (by_client i log)) /\
       forall m n, In (m, n) (by_client i log) -> look w' (board_entry w wd (m_board m) n) = Some (EFile (enc cd (m_text m)))) /\
    (* nothing else that existed has changed *)
    (forall q, look w q <> None -> (forall acts m, In acts vs -> In (Posts m) acts -> q <> index_entry w wd (m_board m)) -> look w' q = look w q).
Proof.
  intros cd fuel wd w vs sched w' ps S Nw AF R. pose proof (Fine wd w vs AF) as Fin.
  destruct (visit_run cd wd w vs Nw AF sched w _ _ _ _ _ _ _ (vinv_start cd wd w vs Nw AF fuel S)) as (st & D & Rp & made & log & wrote & C).
  rewrite R in C. cbn [fst snd] in C. pose proof (v_gw _ _ _ _ _ _ _ _ _ _ _ _ C) as G.
  assert (In_ : forall i m n, In (i, (m, n)) made -> eplace wd w (m, n) = board_entry w wd (m_board m) n).
  { intros i m n H. destruct (from_fine cd wd w _ Fin i (m, n) _ _ _ _ G H) as (I & _). now apply (eplace_entry wd w (m, n)). }
  split; [apply G|]. split; [apply G|]. exists log. split; [|split; [|split; [|split]]].
  - pose proof (g_nodupl _ _ _ _ _ _ _ _ G) as N. pose proof (g_log _ _ _ _ _ _ _ _ G) as I. pose proof (g_nodup _ _ _ _ _ _ _ _ G) as K.
    clear - N I K. induction log as [|x log IH]; [constructor|]. apply NoDup_cons_iff in N as [N1 N2]. cbn [map]. constructor.
    + intros Z. apply in_map_iff in Z as (y & E & Hy). apply N1. replace x with y; [exact Hy|].
      apply (NoDup_map_same ekey made); [exact K|apply I; now right|apply I; now left|exact E].
    + apply IH; [exact N2|]. intros y Hy. apply I. now right.
  - intros i m n H. pose proof (g_log _ _ _ _ _ _ _ _ G _ H) as Hm. destruct (g_in _ _ _ _ _ _ _ _ G i (m, n) Hm) as (A & B & E & F).
    rewrite (In_ i m n Hm) in *. split; [|split; [exact B|split; [exact E|destruct F as [[_ F]|[_ F]]; auto]]].
    destruct A as (ms & A1 & A2). rewrite nth_error_map in A1. destruct (nth_error vs i) as [acts|]; [|discriminate A1]. injection A1 as <-. apply messages_in in A2. eauto.
  - intros b Hb. assert (Po : posted_on (map messages_of vs) b).
    { destruct Hb as (acts & m & H1 & H2 & H3). exists (messages_of acts), m. split; [now apply in_map|]. split; [now apply messages_in|exact H3]. }
    pose proof (posted_ident wd w _ Fin b Po) as I. exists (map (rec_bytes cd) (on_board b log)). split; [apply recs_encoded|].
    rewrite <- (iplace_entry wd w b I). destruct (g_idx _ _ _ _ _ _ _ _ G b Po) as [(A & B & E)|A]; [right|left; exact A]. rewrite E. auto.
  - intros i acts rs Hm Hr. pose proof (v_ok _ _ _ _ _ _ _ _ _ _ _ _ C i _ acts Hr Hm) as K. cbn [vok] in K. destruct K as ((EM & EL & EW) & Fl & E).
    split; [exact E|]. split.
    + assert (Li : (i < length vs)%nat) by (apply nth_error_Some; congruence). destruct (v_heard _ _ _ _ _ _ _ _ _ _ _ _ C i Li) as [[k H] _].
      exists k. rewrite EL. exact (fills_heard _ _ _ _ _ _ _ _ Fl _ _ H).
    + intros m n H. rewrite EL, <- EW in H. apply by_client_in in H. pose proof (g_wrote _ _ _ _ _ _ _ _ G _ H) as Hd.
      destruct (g_in _ _ _ _ _ _ _ _ G i (m, n) Hd) as (_ & _ & _ & [[_ X]|[X _]]); [|contradiction]. now rewrite (In_ i m n Hd) in X.
  - intros q Hq Hn. apply (g_out _ _ _ _ _ _ _ _ G).
    + intros b (ms & m & H1 & H2 & <-). rewrite iplace_entry by now apply (Fin ms). apply in_map_iff in H1 as (acts & <- & H1). apply messages_in in H2. now apply (Hn acts m).
    + intros [i e] H Z. destruct (g_in _ _ _ _ _ _ _ _ G i e H) as (_ & _ & X & _). cbn [snd] in Z. rewrite <- Z in X. contradiction.
Qed.
Print Assumptions C62_one_history.

(** ** What that means for one client *)
Lemma heard_before cd wd w vs log i rs2 : forall rs1 k D, heard cd wd w vs log i (rs1 ++ rs2) k D ->
  exists k1 D1 D2, heard cd wd w vs log i rs1 k1 D1 /\ (k1 <= k)%nat /\ D = D1 ++ D2.
Proof.
  induction rs2 as [|x rs2 IH] using rev_ind; intros rs1 k D H.
  - rewrite app_nil_r in H. exists k, D, []. rewrite app_nil_r. auto.
  - rewrite app_assoc in H. remember ((rs1 ++ rs2) ++ [x]) as rs eqn:E.
    assert (Step : forall k0 D0 D', heard cd wd w vs log i (rs1 ++ rs2) k0 D0 -> (k0 <= k)%nat -> D = D0 ++ D' ->
      exists k1 D1 D2, heard cd wd w vs log i rs1 k1 D1 /\ (k1 <= k)%nat /\ D = D1 ++ D2).
    { intros k0 D0 D' H0 L ->. destruct (IH rs1 k0 D0 H0) as (k1 & D1 & D2 & A & B & ->). exists k1, D1, (D2 ++ D'). rewrite app_assoc. split; [exact A|]. split; [lia|reflexivity]. }
    destruct H; [now apply nil_snoc in E|..]; apply snoc_inj in E as [-> _];
      eapply Step; eauto; try lia; rewrite app_nil_r; reflexivity.
Qed.
Lemma heard_list_inv cd wd w vs log i rs b l k D : heard cd wd w vs log i (rs ++ [(Lists b, Listed (Ok l))]) k D ->
  exists k0, heard cd wd w vs log i rs k0 D /\ (k0 <= k <= length log)%nat /\ by_client i (firstn k log) = D /\ right_list cd w wd b (firstn k log) l.
Proof.
  intros H. remember (rs ++ [(Lists b, Listed (Ok l))]) as rs' eqn:E.
  destruct H; [now apply nil_snoc in E|..]; apply snoc_inj in E as [-> E]; try discriminate E. injection E as -> ->. eauto.
Qed.
Lemma heard_post_inv cd wd w vs log i rs m n k D : heard cd wd w vs log i (rs ++ [(Posts m, Posted (Ok [Out (str "new filename: " ++ n)]))]) k D ->
  exists k0 D0, heard cd wd w vs log i rs k0 D0 /\ D = D0 ++ [(m, n)] /\ (k0 <= k <= length log)%nat /\ by_client i (firstn k log) = D.
Proof.
  intros H. remember (rs ++ [(Posts m, Posted (Ok [Out (str "new filename: " ++ n)]))]) as rs' eqn:E.
  destruct H; [now apply nil_snoc in E|..]; apply snoc_inj in E as [-> E]; try discriminate E. injection E as -> E. subst. eauto 7.
Qed.
Lemma snoc_cut {A} (l : list A) x l' : l ++ x :: l' = (l ++ [x]) ++ l'.
Proof. now rewrite <- app_assoc. Qed.

Lemma firstn_more {A} (k k' : nat) (l : list A) : (k <= k')%nat -> exists x, firstn k' l = firstn k l ++ x.
Proof.
  intros H. exists (firstn (k' - k) (skipn k l)). rewrite <- (firstn_skipn k l) at 1. rewrite firstn_app, firstn_firstn.
  replace (Nat.min k' k) with k by lia. f_equal. rewrite firstn_length.
  destruct (Nat.le_gt_cases k (length l)) as [L|L]; [replace (Nat.min k (length l)) with k by lia; reflexivity|].
  rewrite skipn_all2 by lia. now rewrite !firstn_nil.
Qed.
Lemma same_pieces : forall (ss ts : list bytes) old old' cd, concat ss = concat ts ->
  Forall2 (fun s f => length s = 128%nat /\ file_decoded cd s f) ss old -> Forall2 (fun s f => length s = 128%nat /\ file_decoded cd s f) ts old' -> old = old'.
Proof.
  intros ss ts old old' cd E F. revert ts old' E. induction F as [|s f ss old [Ls Ds] F IH]; intros ts old' E F'.
  - destruct F' as [|t g ts old' [Lt _] F']; [reflexivity|]. destruct t; [discriminate Lt|discriminate E].
  - destruct F' as [|t g ts old' [Lt Dt] F']; [destruct s; [discriminate Ls|discriminate E]|].
    cbn [concat] in E. apply app_inv_len in E as [<- E]; [|congruence]. f_equal; [exact (file_decoded_fun cd _ _ _ Ds Dt)|now apply (IH ts)].
Qed.
Lemma right_list_grows cd w wd b log x l l' : right_list cd w wd b log l -> right_list cd w wd b (log ++ x) l' -> exists l2, l' = l ++ l2.
Proof.
  intros (old & new & es & -> & (ss & E & F) & En & De) (old' & new' & es' & -> & (ss' & E' & F') & En' & De').
  assert (old' = old) as -> by (apply (same_pieces ss' ss old' old cd); congruence || assumption).
  unfold on_board in En'. rewrite filter_app, !map_app in En'. fold (on_board b log) in En'. apply Forall2_app_inv_l in En' as (e1 & e2 & En1 & _ & ->).
  assert (e1 = es) as ->.
  { clear - En En1. revert e1 En1. induction En as [|f v fs es Hv F IH]; intros e1 En1; inversion En1 as [|? v' ? ? Hv' F1]; subst; [reflexivity|].
    f_equal; [exact (file_encoded_unique cd _ _ _ Hv' Hv)|now apply IH]. }
  apply Forall2_app_inv_l in De' as (n1 & n2 & D1 & _ & ->).
  assert (n1 = new) as ->.
  { clear - De D1. revert n1 D1. induction De as [|v f es new Hv F IH]; intros n1 D1; inversion D1 as [|? f' ? ? Hv' F1]; subst; [reflexivity|].
    f_equal; [exact (file_decoded_fun cd _ _ _ Hv' Hv)|now apply IH]. }
  exists n2. apply app_assoc.
Qed.
Lemma heard_at cd wd w vs log i rs1 x rs2 k D : heard cd wd w vs log i (rs1 ++ x :: rs2) k D ->
  exists k1 D1 D2, heard cd wd w vs log i (rs1 ++ [x]) k1 D1 /\ (k1 <= k)%nat /\ D = D1 ++ D2.
Proof. rewrite snoc_cut. apply heard_before. Qed.
Lemma run_pool_length {A} sched : forall w (ps : list (prog A)), length (snd (run_pool sched w ps)) = length ps.
Proof.
  induction sched as [|i sched IH]; intros w ps; [reflexivity|]. cbn [run_pool]. destruct (nth_error ps i) as [p|]; [|apply IH].
  destruct (step1 p w) as [w1 p1]. rewrite IH. apply upd_nth_length.
Qed.
Lemma finished_heard cd fuel wd w vs sched w' ps i rs :
  sane w -> ~ In x00 wd ->
  (forall acts a, In acts vs -> In a acts -> action_fine w wd a) ->
  run_pool sched w (map (visitor cd fuel wd) vs) = (w', ps) ->
  nth_error ps i = Some (Ret rs) ->
  exists log k D, heard cd wd w vs log i rs k D /\
    NoDup (map (fun e => (m_board (fst (snd e)), snd (snd e))) log) /\
    forall j m n, In (j, (m, n)) log -> (exists acts, nth_error vs j = Some acts /\ In (Posts m) acts) /\ fresh_name n /\ look w (board_entry w wd (m_board m) n) = None.
Proof.
  intros S Nw AF R Hr. destruct (C62_one_history cd fuel wd w vs sched w' ps S Nw AF R) as (_ & _ & log & N & L & _ & H & _).
  assert (exists acts, nth_error vs i = Some acts) as [acts Hv].
  { destruct (nth_error vs i) as [acts|] eqn:E'; [eauto|]. apply nth_error_None in E'.
    pose proof (run_pool_length sched w (map (visitor cd fuel wd) vs)) as Ln. rewrite R, map_length in Ln. cbn [snd] in Ln. rewrite <- Ln in E'. apply nth_error_None in E'. congruence. }
  destruct (H i acts rs Hv Hr) as (_ & [k Hk] & _). exists log, k, (by_client i log). split; [exact Hk|]. split; [exact N|].
  intros j m n Hj. destruct (L j m n Hj) as (A & B & C & _). auto.
Qed.
(** A list never gets shorter: what a client sees later begins with what it has seen. *)
Theorem C62_lists_grow : forall cd fuel wd w vs sched w' ps i rs rs1 rs2 rs3 b l l',
  sane w -> ~ In x00 wd ->
  (forall acts a, In acts vs -> In a acts -> action_fine w wd a) ->
  run_pool sched w (map (visitor cd fuel wd) vs) = (w', ps) ->
  nth_error ps i = Some (Ret rs) ->
  rs = rs1 ++ (Lists b, Listed (Ok l)) :: rs2 ++ (Lists b, Listed (Ok l')) :: rs3 ->
  exists l2, l' = l ++ l2.
Proof.
  intros cd fuel wd w vs sched w' ps i rs rs1 rs2 rs3 b l l' S Nw AF R Hr E.
  destruct (finished_heard cd fuel wd w vs sched w' ps i rs S Nw AF R Hr) as (log & k & D & Hk & _). subst rs.
  assert (Hk' := Hk). change (rs1 ++ (Lists b, Listed (Ok l)) :: rs2 ++ (Lists b, Listed (Ok l')) :: rs3) with (rs1 ++ ((Lists b, Listed (Ok l)) :: rs2) ++ (Lists b, Listed (Ok l')) :: rs3) in Hk.
  rewrite app_assoc in Hk. apply heard_at in Hk as (k1 & D1 & _ & Hk & _).
  apply heard_list_inv in Hk as (k0 & Hk & L1 & _ & Rl'). apply heard_at in Hk as (k2 & D2 & D3 & Hk & L2 & _).
  apply heard_list_inv in Hk as (k3 & _ & _ & _ & Rl). destruct (firstn_more k2 k1 log) as [x Ex]; [lia|]. rewrite Ex in Rl'.
  exact (right_list_grows cd w wd b _ x l l' Rl Rl').
Qed.
Print Assumptions C62_lists_grow.

(** A client that lists a board after posting to it finds its article, and gets its text. *)
Lemma right_list_has cd w wd b log l m n : right_list cd w wd b log l -> In (m, n) (on_board b log) -> file_fits cd (listed m n) -> In (listed m n) l.
Proof.
  intros (old & new & es & -> & _ & En & De) Hi Ft. apply in_app_iff. right.
  revert es new En De. induction (on_board b log) as [|[m' n'] on IH]; intros es new En De; [contradiction|].
  cbn [map] in En. inversion En as [|? v ? es' Hv En']; subst. inversion De as [|? f ? new' Hf De']; subst. destruct Hi as [[= -> ->]|Hi]; [left|right; eauto].
  rewrite (file_encoded_unique cd _ _ _ Hv (file_encode cd (listed m n))) in Hf. cbn [fst snd] in Hf.
  pose proof (is_rec_marshal cd (listed m n) Ft) as [Ln Rd].
  destruct (file_decode cd (MarshalToByte cd (listed m n))) as (g & Eg & Dg); [pose proof (marshal_length cd (listed m n)); lia|].
  rewrite Rd in Eg. apply (file_decoded_fun cd _ _ _ Hf) in Dg. rewrite Dg. injection Eg as <-. reflexivity.
Qed.
Lemma by_client_on_board i m n log : In (m, n) (by_client i log) -> In (m, n) (on_board (m_board m) log).
Proof. intros H. apply by_client_in in H. apply on_board_in. split; [reflexivity|]. eauto. Qed.
Theorem C62_own_posts_are_listed : forall cd fuel wd w vs sched w' ps i rs rs1 rs2 rs3 m n l,
  sane w -> ~ In x00 wd ->
  (forall acts a, In acts vs -> In a acts -> action_fine w wd a) ->
  run_pool sched w (map (visitor cd fuel wd) vs) = (w', ps) ->
  nth_error ps i = Some (Ret rs) -> file_fits cd (listed m n) ->
  rs = rs1 ++ (Posts m, Posted (Ok [Out (str "new filename: " ++ n)])) :: rs2 ++ (Lists (m_board m), Listed (Ok l)) :: rs3 ->
  In (listed m n) l.
Proof.
  intros cd fuel wd w vs sched w' ps i rs rs1 rs2 rs3 m n l S Nw AF R Hr Ft E.
  destruct (finished_heard cd fuel wd w vs sched w' ps i rs S Nw AF R Hr) as (log & k & D & Hk & _). subst rs.
  change (rs1 ++ ?x :: rs2 ++ ?y) with (rs1 ++ (x :: rs2) ++ y) in Hk.
  rewrite app_assoc in Hk. apply heard_at in Hk as (k1 & D1 & _ & Hk & _).
  apply heard_list_inv in Hk as (k0 & Hk & L1 & E1 & Rl). apply heard_at in Hk as (k2 & D2 & D3 & Hk & L2 & ->).
  apply heard_post_inv in Hk as (k3 & D0 & _ & -> & _ & E2).
  apply (right_list_has cd w wd _ _ l m n Rl); [|exact Ft]. apply (by_client_on_board i). rewrite E1. apply in_app_iff. left. apply in_app_iff. right. now left.
Qed.
Print Assumptions C62_own_posts_are_listed.

Lemma heard_show_inv cd wd w vs log i rs b n r k D : heard cd wd w vs log i (rs ++ [(Shows b n, Shown r)]) k D ->
  exists k0, heard cd wd w vs log i rs k0 D /\ (k0 <= k)%nat /\
    ((exists d, look w (board_entry w wd b n) = Some (EFile d) /\ r = Ok d) \/
     (exists j m, look w (board_entry w wd b n) = None /\ In (j, (m, n)) (firstn k log) /\ m_board m = b /\ r = Ok (enc cd (m_text m))) \/
     (look w (board_entry w wd b n) = None /\ (forall m, In (m, n) D -> m_board m <> b) /\ r = Ok [] /\ (forall t, t <> [] -> ~ In (Shows b n, Shown (Ok t)) rs) /\
        exists j acts m, j <> i /\ nth_error vs j = Some acts /\ In (Posts m) acts /\ m_board m = b) \/
     (exists e, look w (board_entry w wd b n) = None /\ (forall j m, In (j, (m, n)) (firstn k log) -> m_board m <> b) /\
        (forall m, In (m, n) D -> m_board m <> b) /\ r = Err e)).
Proof.
  intros H. remember (rs ++ [(Shows b n, Shown r)]) as rs' eqn:E.
  destruct H; [now apply nil_snoc in E|..]; apply snoc_inj in E as [-> E]; try discriminate E; injection E as -> -> <-; eexists; (split; [eassumption|]); (split; [lia|]); eauto 10.
Qed.
Lemma log_unique (log : posts_log) i j m m' n : NoDup (map (fun e => (m_board (fst (snd e)), snd (snd e))) log) ->
  In (i, (m, n)) log -> In (j, (m', n)) log -> m_board m = m_board m' -> i = j /\ m = m'.
Proof.
  intros N H H' E. assert ((i, (m, n)) = (j, (m', n))) as Z; [|injection Z; auto].
  apply (NoDup_map_same (fun e : nat * (message * bytes) => (m_board (fst (snd e)), snd (snd e))) log); auto. cbn. now rewrite E.
Qed.
Theorem C62_own_posts_are_shown : forall cd fuel wd w vs sched w' ps i rs rs1 rs2 rs3 m n r,
  sane w -> ~ In x00 wd ->
  (forall acts a, In acts vs -> In a acts -> action_fine w wd a) ->
  run_pool sched w (map (visitor cd fuel wd) vs) = (w', ps) ->
  nth_error ps i = Some (Ret rs) ->
  rs = rs1 ++ (Posts m, Posted (Ok [Out (str "new filename: " ++ n)])) :: rs2 ++ (Shows (m_board m) n, Shown r) :: rs3 ->
  r = Ok (enc cd (m_text m)).
Proof.
  intros cd fuel wd w vs sched w' ps i rs rs1 rs2 rs3 m n r S Nw AF R Hr E.
  destruct (finished_heard cd fuel wd w vs sched w' ps i rs S Nw AF R Hr) as (log & k & D & Hk & Nd & Lg). subst rs.
  change (rs1 ++ ?x :: rs2 ++ ?y) with (rs1 ++ (x :: rs2) ++ y) in Hk.
  rewrite app_assoc in Hk. apply heard_at in Hk as (k1 & D1 & _ & Hk & _).
  apply heard_show_inv in Hk as (k0 & Hk & L0 & Q). apply heard_at in Hk as (k2 & D2 & D3 & Hk & L2 & ->).
  apply heard_post_inv in Hk as (k3 & D0 & _ & -> & _ & E2).
  assert (Hd : In (m, n) ((D0 ++ [(m, n)]) ++ D3)) by (apply in_app_iff; left; apply in_app_iff; right; now left).
  assert (Hl : In (i, (m, n)) log).
  { apply (in_firstn k2). apply by_client_in. rewrite E2. apply in_app_iff. right. now left. }
  destruct (Lg i m n Hl) as (_ & _ & L).
  destruct Q as [(d & Z & _)|[(j & m' & _ & Hj & Eb & ->)|[(_ & Z & _)|(e & _ & _ & Z & _)]]].
  - rewrite L in Z. discriminate Z.
  - apply in_firstn in Hj. destruct (log_unique log j i m' m n Nd Hj Hl Eb) as [_ ->]. reflexivity.
  - now destruct (Z m Hd).
  - now destruct (Z m Hd).
Qed.
Print Assumptions C62_own_posts_are_shown.

(** ** C63: articles in a list can be read *)
(** the name in a record that is not cut off *)
Lemma name_in_record cd m n v f : file_encoded cd (listed m n) v -> file_decoded cd v f -> fresh_name n -> (length (fh_filename f) < 28)%nat -> fh_filename f = n.
Proof.
  intros (_ & (u & A & H) & _) ((u' & A' & T) & _) Fr L. rewrite <- (at_off_fun _ _ _ _ _ A A') in T. cbn [fh_filename listed] in H.
  assert (Nn : ~ In x00 n).
  { assert (I : ident (str "test")) by exact test_ident. destruct (fresh_name_plain (str "test") n I Fr) as (_ & C). apply C. }
  assert (Lu : length u = 28%nat) by (destruct A as (? & ? & _ & _ & Lu); lia).
  destruct T as (i & j & E & T1 & T2). destruct H as [[k ->]|[t ->]].
  - destruct i as [|i].
    + cbn [repeat app] in E. destruct (fh_filename f) as [|x s] eqn:Es.
      * destruct n as [|y n]; [reflexivity|]. destruct j; cbn in E; [discriminate E|]. injection E as -> _. exfalso. apply Nn. now left.
      * rewrite <- Es in *. assert (Z : forall (a b : bytes) k j, a ++ repeat x00 k = b ++ repeat x00 j -> ~ In x00 a -> (forall s', b <> s' ++ [x00]) -> b = a).
        { clear. intros a. induction a as [|x a IH]; intros b k j E Na Hb.
          - cbn [app] in E. destruct b as [|y b] using rev_ind; [reflexivity|]. exfalso. assert (In y (repeat x00 k)) as Hy by (rewrite E; apply in_app_iff; left; apply in_app_iff; right; now left).
            apply repeat_spec in Hy. subst y. now apply (Hb b).
          - destruct b as [|y b].
            + cbn [app] in E. destruct j; [discriminate E|]. cbn in E. injection E as -> _. exfalso. apply Na. now left.
            + injection E as -> E. f_equal. apply (IH b k j E); [intros H; apply Na; now right|]. intros s' ->. now apply (Hb (y :: s')). }
        exact (Z _ _ _ _ E Nn T2).
    + cbn [repeat app] in E. destruct n as [|y n]; [|injection E as -> _; exfalso; apply Nn; now left].
      destruct Fr as (t & r & ts & rs & _ & _ & _ & Z). discriminate Z.
  - assert (Nu : ~ In x00 u) by (intros Z; apply Nn, in_app_iff; now left).
    exfalso. assert (i = 0%nat) by (destruct i; [reflexivity|]; exfalso; apply Nu; rewrite E; now left). subst i. cbn [repeat app] in E.
    assert (j = 0%nat) by (destruct j; [reflexivity|]; exfalso; apply Nu; rewrite E; apply in_app_iff; right; now left). subst j. cbn [repeat] in E. rewrite app_nil_r in E. subst u. lia.
Qed.
(** The articles that a board had at first. *)
Definition old_names (cd : codec) (w : world) (wd b n : bytes) : Prop :=
  exists ss old, text_at w (index_entry w wd b) = concat ss /\ Forall2 (fun s f => length s = 128%nat /\ file_decoded cd s f) ss old /\ In n (map fh_filename old).
Lemma right_list_name cd w wd b log l f : right_list cd w wd b log l -> In f l -> (length (fh_filename f) < 28)%nat -> ~ old_names cd w wd b (fh_filename f) ->
  (forall j m n, In (j, (m, n)) log -> fresh_name n) -> exists j m, In (j, (m, fh_filename f)) log /\ m_board m = b.
Proof.
  intros (old & new & es & -> & (ss & E & F) & En & De) Hi L No Fr. apply in_app_iff in Hi as [Hi|Hi].
  - exfalso. apply No. exists ss, old. split; [exact E|]. split; [exact F|]. now apply in_map.
  - assert (exists m n v, In (m, n) (on_board b log) /\ file_encoded cd (listed m n) v /\ file_decoded cd v f) as (m & n & v & H1 & H2 & H3).
    { clear - En De Hi. revert es new En De Hi. induction (on_board b log) as [|[m n] on IH]; intros es new En De Hi; inversion En as [|? v ? es' Hv En']; subst; inversion De as [|? f' ? new' Hf De']; subst; [contradiction|].
      destruct Hi as [->|Hi]; [exists m, n, v; split; [now left|auto]|]. destruct (IH _ _ En' De' Hi) as (m' & n' & v' & A & B). exists m', n', v'. split; [now right|exact B]. }
    apply on_board_in in H1 as [H1 [j Hj]]. cbn [fst] in H1. exists j, m. split; [|exact H1].
    now rewrite (name_in_record cd m n v f H2 H3 (Fr _ _ _ Hj) L).
Qed.
(** One would rely on: when a list has shown a new article, its text can be read. *)
Definition C63_statement : Prop := forall cd fuel wd w vs sched w' ps i rs rs1 rs2 rs3 b n l f r,
  sane w -> ~ In x00 wd ->
  (forall acts a, In acts vs -> In a acts -> action_fine w wd a) ->
  run_pool sched w (map (visitor cd fuel wd) vs) = (w', ps) ->
  nth_error ps i = Some (Ret rs) ->
  rs = rs1 ++ (Lists b, Listed (Ok l)) :: rs2 ++ (Shows b n, Shown r) :: rs3 ->
  In f l -> fh_filename f = n -> (length n < 28)%nat -> ~ old_names cd w wd b n ->
  exists acts m, In acts vs /\ In (Posts m) acts /\ m_board m = b /\ r = Ok (enc cd (m_text m)).
(** It can be opened, and the whole text is there or nothing of it yet. *)
Theorem C63_listed_articles_open_partial : forall cd fuel wd w vs sched w' ps i rs rs1 rs2 rs3 b n l f r,
  sane w -> ~ In x00 wd ->
  (forall acts a, In acts vs -> In a acts -> action_fine w wd a) ->
  run_pool sched w (map (visitor cd fuel wd) vs) = (w', ps) ->
  nth_error ps i = Some (Ret rs) ->
  rs = rs1 ++ (Lists b, Listed (Ok l)) :: rs2 ++ (Shows b n, Shown r) :: rs3 ->
  In f l -> fh_filename f = n -> (length n < 28)%nat -> ~ old_names cd w wd b n ->
  exists j acts m, nth_error vs j = Some acts /\ In (Posts m) acts /\ m_board m = b /\
    (r = Ok (enc cd (m_text m)) \/ r = Ok [] /\ j <> i).
Proof.
  intros cd fuel wd w vs sched w' ps i rs rs1 rs2 rs3 b n l f r S Nw AF R Hr E Hf Ef Ln No.
  destruct (finished_heard cd fuel wd w vs sched w' ps i rs S Nw AF R Hr) as (log & k & D & Hk & Nd & Lg). subst rs.
  change (rs1 ++ ?x :: rs2 ++ ?y) with (rs1 ++ (x :: rs2) ++ y) in Hk.
  rewrite app_assoc in Hk. apply heard_at in Hk as (k1 & D1 & _ & Hk & _).
  apply heard_show_inv in Hk as (k0 & Hk & L0 & Q). apply heard_at in Hk as (k2 & D2 & D3 & Hk & L2 & ->).
  apply heard_list_inv in Hk as (k3 & _ & _ & _ & Rl). subst n.
  destruct (right_list_name cd w wd b _ l f Rl Hf Ln No) as (j & m & Hj & Eb).
  { intros j m n Hj. apply in_firstn in Hj. now apply (Lg j m n). }
  destruct (Lg j m _ (in_firstn _ _ _ Hj)) as (_ & _ & Lk). rewrite Eb in Lk.
  destruct Q as [(d & Z & _)|[(j' & m' & _ & Hj' & Eb' & ->)|[(_ & _ & -> & _ & j' & acts & m' & Nj & Hv & Hp & Eb')|(e & _ & Z & _)]]].
  - rewrite Lk in Z. discriminate Z.
  - apply in_firstn in Hj'. destruct (Lg j' m' _ Hj') as ((acts & Hv & Hp) & _). exists j', acts, m'. auto.
  - exists j', acts, m'. auto 7.
  - exfalso. apply (Z j m); [|exact Eb]. destruct (firstn_more k2 k1 log) as [x ->]; [lia|]. apply in_app_iff. now left.
Qed.
Print Assumptions C63_listed_articles_open_partial.
(** A text that has been shown is shown again. *)
Theorem C63_texts_stay : forall cd fuel wd w vs sched w' ps i rs rs1 rs2 rs3 b n t r,
  sane w -> ~ In x00 wd ->
  (forall acts a, In acts vs -> In a acts -> action_fine w wd a) ->
  run_pool sched w (map (visitor cd fuel wd) vs) = (w', ps) ->
  nth_error ps i = Some (Ret rs) ->
  rs = rs1 ++ (Shows b n, Shown (Ok t)) :: rs2 ++ (Shows b n, Shown r) :: rs3 -> t <> [] ->
  r = Ok t.
Proof.
  intros cd fuel wd w vs sched w' ps i rs rs1 rs2 rs3 b n t r S Nw AF R Hr E Nt.
  destruct (finished_heard cd fuel wd w vs sched w' ps i rs S Nw AF R Hr) as (log & k & D & Hk & Nd & Lg). subst rs.
  change (rs1 ++ ?x :: rs2 ++ ?y) with (rs1 ++ (x :: rs2) ++ y) in Hk.
  rewrite app_assoc in Hk. apply heard_at in Hk as (k1 & D1 & _ & Hk & _).
  apply heard_show_inv in Hk as (k0 & Hk & L0 & Q).
  apply heard_at in Hk as (k2 & D2 & D3 & Hk & L2 & ->).
  apply heard_show_inv in Hk as (k3 & _ & _ & Q0).
  destruct Q0 as [(d & Z & [= <-])|[(j & m & Z & Hj & Eb & [= ->])|[(_ & _ & [= ->] & _)|(e & _ & _ & _ & [=])]]]; [| |contradiction].
  - destruct Q as [(d & Z' & ->)|[(? & ? & Z' & _)|[(Z' & _)|(? & Z' & _)]]]; rewrite Z in Z'; congruence || discriminate Z'.
  - destruct Q as [(d & Z' & _)|[(j' & m' & _ & Hj' & Eb' & ->)|[(_ & _ & _ & Z' & _)|(e & _ & Z' & _)]]].
    + rewrite Z in Z'. discriminate Z'.
    + apply in_firstn in Hj, Hj'. destruct (log_unique log j' j m' m n Nd Hj' Hj) as [_ ->]; [congruence|reflexivity].
    + exfalso. apply (Z' _ Nt). apply in_app_iff. right. now left.
    + exfalso. apply (Z' j m); [|exact Eb]. destruct (firstn_more k2 k1 log) as [x ->]; [lia|]. apply in_app_iff. now left.
Qed.
Print Assumptions C63_texts_stay.

(** The index comes before the text: the list has the article, and it is empty. *)
Definition early : list (list action) := [[Posts hi]; [Lists (str "test"); Shows (str "test") (str "M.1600000000.A.008")]].
Definition early_sched : list nat := (repeat 0 9 ++ repeat 1 9 ++ repeat 0 9)%nat.
Definition early_end := run_pool early_sched crowded (map (visitor id_codec 20 sample_wd) early).
Definition early_name : bytes := str "M.1600000000.A.008".
Lemma crowded_fine b : b = str "test" -> action_fine crowded sample_wd (Lists b).
Proof.
  intros ->. split; [exact test_ident|]. split; [exact crowded_index|]. split; [vm_compute; reflexivity|].
  exists []. split; [vm_compute; reflexivity|constructor].
Qed.
Lemma article_plain n : fresh_name n -> plain_object (Article (str "test") n).
Proof. apply fresh_name_plain. exact test_ident. Qed.
Lemma early_fresh : fresh_name early_name.
Proof. exact (article_name_fresh 1600000000 8 eq_refl). Qed.
Lemma early_fine : forall acts a, In acts early -> In a acts -> action_fine crowded sample_wd a.
Proof.
  intros acts a [<-|[<-|[]]] Ha; [destruct Ha as [<-|[]]|destruct Ha as [<-|[<-|[]]]].
  - split; [exact test_ident|exact crowded_index].
  - now apply crowded_fine.
  - split; [apply article_plain, early_fresh|]. intros Z. vm_compute in Z. discriminate Z.
Qed.
Definition early_diary : diary := [(Lists (str "test"), Listed (Ok [listed hi early_name])); (Shows (str "test") early_name, Shown (Ok []))].
Lemma early_result : nth_error (snd early_end) 1 = Some (Ret early_diary).
Proof. vm_compute. reflexivity. Qed.
Lemma early_new : ~ old_names id_codec crowded sample_wd (str "test") early_name.
Proof.
  intros (ss & old & E & F & H). assert (E0 : text_at crowded (index_entry crowded sample_wd (str "test")) = []) by (vm_compute; reflexivity).
  rewrite E0 in E. destruct F as [|s f ss old [L _] F]; [contradiction|]. destruct s; [discriminate L|discriminate E].
Qed.
Theorem C63_refuted : ~ C63_statement.
Proof.
  intros C. destruct (C id_codec 20%nat sample_wd crowded early early_sched (fst early_end) (snd early_end) 1%nat early_diary [] [] []
    (str "test") early_name [listed hi early_name] (listed hi early_name) (Ok [])) as (acts & m & Ha & Hm & _ & E).
  - exact crowded_sane.
  - no_nul.
  - exact early_fine.
  - unfold early_end. generalize (run_pool early_sched crowded (map (visitor id_codec 20 sample_wd) early)). intros x. apply surjective_pairing.
  - exact early_result.
  - reflexivity.
  - now left.
  - reflexivity.
  - apply Nat.ltb_lt. reflexivity.
  - exact early_new.
  - destruct Ha as [<-|[<-|[]]]; cbn in Hm; [destruct Hm as [[= <-]|[]]|destruct Hm as [Z|[Z|[]]]; discriminate Z]. discriminate E.
Qed.
Print Assumptions C63_refuted.

(** ** Examples *)
(** Two clients post to the same board, list it and read what they find. *)
Definition guests : list (list action) :=
  [[Posts hi; Lists (str "test"); Shows (str "test") (str "M.1600000000.A.008"); Lists (str "test")];
   [Lists (str "test"); Posts (example_message "test" "Three" "third"); Lists (str "test"); Shows (str "test") (str "M.1600000000.A.007"); Shows (str "test") (str "M.1600000000.A.FFF")]].
Definition guests_sched : list nat := concat (repeat [0; 1; 1; 0]%nat 60).
Example C62_nonvacuous :
  let x := run_pool guests_sched crowded (map (visitor id_codec 20 sample_wd) guests) in
  let one := listed hi (str "M.1600000001.A.007") in
  let three := listed (example_message "test" "Three" "third") (str "M.1600000000.A.008") in
  sane crowded /\ ~ In x00 sample_wd /\
  (forall acts a, In acts guests -> In a acts -> action_fine crowded sample_wd a) /\
  file_fits id_codec one /\
  map finished (snd x) =
    [Some [(Posts hi, Posted (Ok [Out (str "new filename: " ++ str "M.1600000001.A.007")]));
           (Lists (str "test"), Listed (Ok [three; one]));
           (Shows (str "test") (str "M.1600000000.A.008"), Shown (Ok (str "third")));
           (Lists (str "test"), Listed (Ok [three; one]))];
     Some [(Lists (str "test"), Listed (Ok []));
           (Posts (example_message "test" "Three" "third"), Posted (Ok [Out (str "new filename: " ++ str "M.1600000000.A.008")]));
           (Lists (str "test"), Listed (Ok [three]));
           (Shows (str "test") (str "M.1600000000.A.007"), Shown (Ok (str "old")));
           (Shows (str "test") (str "M.1600000000.A.FFF"), Shown (Err (ESys ENOENT)))]].
Proof.
  cbv zeta. split; [exact crowded_sane|]. split; [no_nul|]. split; [|split; [unfold file_fits; fits|vm_compute; reflexivity]].
  intros acts a [<-|[<-|[]]] Ha; repeat destruct Ha as [<-|Ha]; try contradiction.
  all: try (now apply crowded_fine); try (split; [exact test_ident|exact crowded_index]).
  all: (split; [apply article_plain; first [exact early_fresh|exact (article_name_fresh 1600000000 7 eq_refl)|exact (article_name_fresh 1600000000 4095 eq_refl)]|intros Z; vm_compute in Z; discriminate Z]).
Qed.
Example C63_nonvacuous :
  sane crowded /\ ~ In x00 sample_wd /\ (forall acts a, In acts early -> In a acts -> action_fine crowded sample_wd a) /\
  nth_error (snd early_end) 1 = Some (Ret ([] ++ (Lists (str "test"), Listed (Ok [listed hi early_name])) :: [] ++ (Shows (str "test") early_name, Shown (Ok [])) :: [])) /\
  ~ old_names id_codec crowded sample_wd (str "test") early_name.
Proof. split; [exact crowded_sane|]. split; [no_nul|]. split; [exact early_fine|]. split; [exact early_result|exact early_new]. Qed.
