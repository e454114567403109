(** * All schedules of simultaneous clients *)
From Coq Require Import Lia ZifyBool ZifyNat ZifyN.
From Verif Require Import M_Base M_Sys M_Path M_File M_Board M_Userec M_FileOps M_DB.
From Verif Require Import S_World S_Path S_Layout S_File S_Board S_Userec S_BoardList S_Store S_Pool.
From Verif Require Import P_Base P_Layout P_Records P_Sys P_Read P_Path P_FileOps P_BoardList P_Store P_Local.
Open Scope N_scope.

Lemma nth_upd_same {A} (x : A) l n : (n < length l)%nat -> nth_error (upd_nth n x l) n = Some x.
Proof. revert n. induction l as [|y l IH]; intros [|n] H; cbn in *; try lia; auto with arith. Qed.
Lemma nth_upd_other {A} (x : A) l n m : n <> m -> nth_error (upd_nth n x l) m = nth_error l m.
Proof. revert n m. induction l as [|y l IH]; intros [|n] [|m] H; cbn; auto; congruence. Qed.
Lemma upd_nth_length {A} (x : A) l n : length (upd_nth n x l) = length l.
Proof. revert n. induction l as [|y l IH]; intros [|n]; cbn; auto. Qed.

Lemma of_client_app i a b : of_client i (a ++ b) = of_client i a ++ of_client i b.
Proof. apply filter_app. Qed.
Lemma of_client_same i c r : of_client i [Event i c r] = [Event i c r].
Proof. unfold of_client. cbn. now rewrite Nat.eqb_refl. Qed.
Lemma of_client_other i j c r : i <> j -> of_client j [Event i c r] = [].
Proof. intros H. unfold of_client. cbn. destruct (Nat.eqb_spec i j); congruence. Qed.

Definition creates (c : call) : bool := match c with AddRecord _ _ | AddBoard _ | WriteArticle _ _ _ => true | _ => false end.

Lemma history_snoc cd cs s s1 s2 rs c r :
  history_meets cd cs s s1 rs -> call_meets cd c (s1 (call_object c)) (s2 (call_object c)) r ->
  (forall o, o <> call_object c -> s2 o = s1 o) ->
  history_meets cd (cs ++ [c]) s s2 (rs ++ [r]).
Proof.
  intros H M F. induction H as [s|c0 cs s s1 s3 r0 rs M0 F0 H IH]; cbn [app].
  - econstructor; eauto. constructor.
  - econstructor; eauto.
Qed.

Lemma slots_concat size (l : list bytes) : (0 < size)%nat -> Forall (fun x => lenN x = N.of_nat size) l -> slots size (concat l) l.
Proof.
  intros P F. split.
  - eapply Forall_impl; [|exact F]. cbn. unfold lenN. lia.
  - exists 0%nat. cbn. rewrite app_nil_r. split; [reflexivity|lia].
Qed.
Lemma decoded_all {A} (D : bytes -> A -> Prop) (dec : bytes -> outcome A) size l l' :
  (forall s, N.of_nat (length s) = size -> exists a, dec s = Ok a /\ D s a) ->
  Forall (fun x => lenN x = size) l -> Forall2 (fun s a => dec s = Ok a) l l' -> Forall2 D l l'.
Proof.
  intros H F G. induction G as [|s a ss l E G IH]; constructor; apply Forall_cons_iff in F; destruct F as [Ls F'].
  - destruct (H s Ls) as (a' & E' & Q). rewrite E in E'. injection E' as <-. exact Q.
  - now apply IH.
Qed.

Section Pool.
Variables (cd : codec) (wd : bytes) (w0 : world) (O : object -> Prop) (s0 : store) (L : object -> Prop).
(** the articles that are only written, and may be new *)
Variable New : object -> Prop.
(** the objects that only one client uses, and those that several use *)
Variables (Own : nat -> object -> Prop) (Shared : object -> Prop).
Hypothesis HOS : forall i o, Own i o -> ~ Shared o.
Hypothesis HO1 : forall i j o, Own i o -> Own j o -> i = j.
Hypothesis HLS : forall o, L o -> Shared o.
Variable fuel : nat.
Variable css : list (list call).
Variable log0 : list event.

Hypothesis Nwd : ~ In x00 wd.
Hypothesis S0 : sane w0.
Hypothesis ST0 : stored w0 wd O s0.

(** what is assumed of each call *)
Definition needs_file (c : call) : bool :=
  match c with UpdateRecord _ _ _ | ListBoards => true | _ => false end.
Definition fine (c : call) : Prop :=
  call_ok c /\ O (call_object c) /\ (atomic_kind c = true /\ Shared (call_object c)) /\
  (match c with
   | UpdateRecord b _ _ => ~ L (Index b)
   | WriteArticle b f _ => s0 (Article b f) <> None \/ New (Article b f)
   | AppendArticle b f _ | ReadArticle b f => ~ New (Article b f)
   | _ => True
   end) /\
  (lists_records c = true -> L (call_object c)) /\
  (needs_file c = true -> s0 (call_object c) <> None).
Definition ok_call (i : nat) (c : call) : Prop :=
  call_ok c /\ O (call_object c) /\ (Own i (call_object c) \/ fine c).
Hypothesis Fine : forall i cs, nth_error css i = Some cs -> Forall (ok_call i) cs.
Definition creatable (o : object) : Prop :=
  match o with Index _ | Boards => True | Article _ _ => New o | _ => False end.
Lemma creates_creatable c : fine c -> creates c = true -> s0 (call_object c) = None -> creatable (call_object c).
Proof. intros (_ & _ & _ & F & _) H N. destruct c; try discriminate H; cbn; auto. cbn in N. tauto. Qed.
Definition listable (o : object) : bool :=
  match o with Index _ | TreasureIndex _ _ | Boards | Passwds => true | _ => false end.
Hypothesis HL : forall o, L o -> plain_object o.
Definition shared_plain : Prop := (forall o, Shared o -> plain_object o) /\ True.
Hypothesis HSP : shared_plain.
Hypothesis HL2 : forall o, L o -> listable o = true.
Definition aligned (s : store) : Prop :=
  forall o, L o -> N.divide (record_size o) (lenN (old_or_empty (s o))).
(** Where an object lives. *)
Definition place (o : object) : rpath := home_dir (w_cwd w0) wd ++ object_comps o.

Inductive pst : Type :=
| PNext (rem : list call)
| PSeek (rem : list call) (b : bytes) (i : N) (f : FileHeader) (fd : N)
| PWrite (rem : list call) (c : call) (data : bytes) (fd : N)
| PRead (rem : list call) (c : call) (A : Type) (size : N) (dec : bytes -> outcome A) (closes : bool)
    (K : list A -> answer) (ctx : list (outcome answer) -> prog (outcome (list A)) -> prog (list (outcome answer)))
    (n : nat) (acc : list A) (fd : N)
| PAll (rem : list call) (c : call) (fd : N)
| PClose (rem : list call) (o : object) (fd : N)
| PPriv (rem : list call) (c : call) (q : prog (outcome answer)) (v : view) (old : option bytes).

Definition next rem (A : list (outcome answer)) (r : outcome answer) := client_from cd wd fuel rem (r :: rev A).
Definition close_then (fd : N) (r : res N) : prog (outcome unit) :=
  Call (Close fd) (fun _ => match r with RErr e => Ret (Err (ESys e)) | ROk _ => Ret (Ok tt) end).

Definition prog_of (p : pst) (A : list (outcome answer)) : prog (list (outcome answer)) :=
  match p with
  | PNext rem => client_from cd wd fuel rem (rev A)
  | PSeek rem b i f fd =>
      bind (answer_with (fun _ : unit => Done)
        (Call (SeekSet fd (i64 (i64 (Z.of_N i) * 128))) (fun r =>
           match r with
           | RErr e => Call (Close fd) (fun _ => Ret (Err (ESys e)))
           | ROk _ => Call (Write fd (M_File.MarshalToByte cd f)) (close_then fd)
           end))) (next rem A)
  | PWrite rem c data fd =>
      bind (answer_with (fun _ : unit => Done) (Call (Write fd data) (close_then fd))) (next rem A)
  | PRead rem c X size dec closes K ctx n acc fd => ctx A (read_loop size dec false closes n fd acc)
  | PAll rem c fd =>
      bind (answer_with Bytes (Call (ReadAll fd) (fun r => Call (Close fd) (fun _ =>
        match r with RErr e => Ret (Err (ESys e)) | ROk d => Ret (Ok d) end)))) (next rem A)
  | PClose rem _ fd => Call (Close fd) (fun _ => client_from cd wd fuel rem (rev A))
  | PPriv rem c q _ _ => bind q (next rem A)
  end.

Definition pending (p : pst) : list call :=
  match p with
  | PNext rem | PClose rem _ _ => rem
  | PSeek rem b i f _ => UpdateRecord b i f :: rem
  | PWrite rem c _ _ | PAll rem c _ => c :: rem
  | PRead rem c _ _ _ _ _ _ _ _ _ => c :: rem
  | PPriv rem c _ _ _ => c :: rem
  end.
Definition held (p : pst) : option N :=
  match p with
  | PNext _ => None
  | PSeek _ _ _ _ fd | PWrite _ _ _ fd | PAll _ _ fd | PClose _ _ fd => Some fd
  | PRead _ _ _ _ _ _ _ _ _ _ fd => Some fd
  | PPriv _ _ _ v _ => v_held v
  end.

(** [m] is the number of steps still to be scheduled. *)
Definition okst (m : nat) (w : world) (p : pst) : Prop :=
  match p with
  | PNext _ => True
  | PClose _ o _ => O o /\ plain_object o /\ Shared o
  | PSeek rem b i f fd =>
      exists ino pos, w_tree w (place (Index b)) = Some (NFile ino) /\
        w_fds w fd = Some (OFile (Some ino) pos false false true) /\ Shared (Index b)
  | PWrite rem c data fd =>
      exists ino pos app, w_tree w (place (call_object c)) = Some (NFile ino) /\
        w_fds w fd = Some (OFile (Some ino) pos app false true) /\
        (forall d, call_meets cd c (Some d) (Some (write_at (if app then lenN d else pos) data d)) (Ok Done)) /\
        (creates c = true -> call_meets cd c None (Some data) (Ok Done) /\ (app = true \/ pos = 0)) /\
        (creates c = true \/ needs_file c = true \/ ~ creatable (call_object c)) /\
        (L (call_object c) -> app = true /\ N.divide (record_size (call_object c)) (lenN data)) /\ Shared (call_object c)
  | PRead rem c A size dec closes K ctx n acc fd =>
      exists ino xs y, w_tree w (place (call_object c)) = Some (NFile ino) /\
        w_fds w fd = Some (OFile (Some ino) (size * N.of_nat (length xs)) false true false) /\
        w_data w ino = concat xs ++ y /\ Forall (fun x => lenN x = size) xs /\
        Forall2 (fun x a => dec x = Ok a) xs (rev acc) /\ (m < n)%nat /\
        0 < size /\ size = record_size (call_object c) /\ L (call_object c) /\
        (forall x, lenN x = size -> exists a, dec x = Ok a) /\
        (forall l l', Forall (fun x => lenN x = size) l -> Forall2 (fun x a => dec x = Ok a) l l' ->
           call_meets cd c (Some (concat l)) (Some (concat l)) (Ok (K l'))) /\
        (creatable (call_object c) -> needs_file c = false -> call_meets cd c None None (Ok (K []))) /\
        (forall A R (k : sys R) h, ctx A (Call k h) = Call k (fun r => ctx A (h r))) /\
        (forall A l, ctx A (Ret (Ok l)) = next rem A (Ok (K l)))
  | PAll rem c fd =>
      exists ino, w_tree w (place (call_object c)) = Some (NFile ino) /\
        w_fds w fd = Some (OFile (Some ino) 0 false true false) /\ ~ creatable (call_object c) /\
        (forall d, call_meets cd c (Some d) (Some d) (Ok (Bytes d))) /\ Shared (call_object c)
  | PPriv rem c q v old =>
      view_ok w (place (call_object c)) v /\ (exists R (k : sys R) h, q = Call k h) /\
      exists p, object_path wd (call_object c) = Ok p /\ wp p m q (fun _ v r => call_meets cd c old (v_data v) r) v
  end.

(** The state of one object's file. *)
Definition creating (st : nat -> pst) (o : object) : Prop :=
  exists j rem c data fd, (j < length css)%nat /\ st j = PWrite rem c data fd /\ call_object c = o /\ creates c = true.
(** its only user is in the middle of a call *)
Definition busy (st : nat -> pst) (o : object) : Prop :=
  exists j rem c q v old, (j < length css)%nat /\ st j = PPriv rem c q v old /\ call_object c = o.
Definition kept_at (w : world) (s : store) (st : nat -> pst) (o : object) : Prop :=
  look w (place o) = option_map EFile (s o) \/
  (s o = None /\ look w (place o) = Some (EFile []) /\ creating st o) \/ busy st o.
Definition kept (w : world) (s : store) (st : nat -> pst) : Prop :=
  forall o, O o -> plain_object o -> has_dir w (place o) /\ kept_at w s st o.

Record inv (m : nat) (w : world) (ps : list (prog (list (outcome answer)))) (log : list event) (s : store)
    (st : nat -> pst) : Prop := {
  i_sane : sane w;
  i_cwd : w_cwd w = w_cwd w0;
  i_out : forall q, (forall o, O o -> plain_object o -> q <> place o) -> look w q = look w0 q;
  i_hist : history_meets cd (map ev_call log) s0 s (map ev_answer log);
  i_more : forall o, Shared o -> s0 o <> None -> s o <> None;
  i_priv : forall i rem c q v old, (i < length css)%nat -> st i = PPriv rem c q v old ->
    Own i (call_object c) /\ s (call_object c) = old;
  i_kept : kept w s st;
  i_al : aligned s;
  i_len : length ps = length css;
  i_own : forall e, In e log -> (ev_client e < length css)%nat;
  i_pre : exists more, log = log0 ++ more;
  i_st : forall i cs, nth_error css i = Some cs ->
    nth_error ps i = Some (prog_of (st i) (map ev_answer (of_client i log))) /\
    map ev_call (of_client i log) ++ pending (st i) = cs /\ okst m w (st i) /\
    (forall fd, held (st i) = Some fd -> fd < w_nextfd w);
  i_fd : forall i j fd, (i < length css)%nat -> (j < length css)%nat -> i <> j ->
    held (st i) = Some fd -> held (st j) <> Some fd }.

(** Objects and paths. *)
Lemma place_path o w : O o -> plain_object o -> w_cwd w = w_cwd w0 ->
  exists p, object_path wd o = Ok p /\ names w p (place o).
Proof.
  intros Oo P C. destruct (ST0 o Oo P) as (p & rp & E & N & _). exists p. split; [exact E|].
  pose proof (object_names wd o p w0 rp P Nwd E N) as R. unfold place. rewrite <- R.
  destruct N as [Pp Rp]. split; [exact Pp|]. now rewrite C.
Qed.
Lemma place_inj o o' : plain_object o -> plain_object o' -> place o = place o' -> o = o'.
Proof. intros P P' E. apply object_comps_inj; auto. now apply app_inv_head in E. Qed.

Lemma fine_at i cs : nth_error css i = Some cs -> Forall (ok_call i) cs.
Proof. exact (Fine i cs). Qed.
Lemma ok_shared i c : ok_call i c -> Shared (call_object c) -> fine c.
Proof. intros (_ & _ & [H|H]) S; [|exact H]. exfalso. eapply HOS; eauto. Qed.

(** The part of the state of others that a step may not touch. *)
Lemma okst_frame m w w1 p :
  okst (Datatypes.S m) w p ->
  (forall fd, held p = Some fd -> w_fds w1 fd = w_fds w fd) ->
  (forall o ino, Shared o -> w_tree w (place o) = Some (NFile ino) -> w_tree w1 (place o) = Some (NFile ino)) ->
  (forall o ino, L o -> w_tree w (place o) = Some (NFile ino) -> exists z, w_data w1 ino = w_data w ino ++ z) ->
  (forall rem c q v old, p = PPriv rem c q v old -> look w1 (place (call_object c)) = look w (place (call_object c)) /\
     w_tree w1 (place (call_object c)) = w_tree w (place (call_object c))) ->
  okst m w1 p.
Proof.
  intros H F T D P. destruct p; cbn [okst held] in *; auto.
  - destruct H as (ino & pos & H1 & H2 & H3). exists ino, pos. split; [now apply T|]. now rewrite (F fd eq_refl).
  - destruct H as (ino & pos & app & H1 & H2 & H3 & H4 & H5 & H6 & H7). exists ino, pos, app. split; [now apply T|].
    rewrite (F fd eq_refl). split; [exact H2|]. auto 6.
  - destruct H as (ino & xs & y & H1 & H2 & H3 & H4 & H5 & H6 & H7 & H8 & H9 & H10).
    destruct (D _ _ H9 H1) as (z & Z). exists ino, xs, (y ++ z). split; [apply T; [now apply HLS|exact H1]|].
    rewrite (F fd eq_refl). split; [exact H2|]. split; [now rewrite Z, H3, app_assoc|].
    split; [exact H4|]. split; [exact H5|]. split; [lia|]. split; [exact H7|]. split; [exact H8|]. split; [exact H9|exact H10].
  - destruct H as (ino & H1 & H2 & H3 & H4 & H5). exists ino. split; [now apply T|]. rewrite (F fd eq_refl). auto.
  - destruct H as ([V1 V2] & C & p & Ep & W). destruct (P _ _ _ _ _ eq_refl) as [Q1 Q2]. split; [split|split; [exact C|]].
    + now rewrite Q1.
    + destruct (v_fd v) as [[fd [[[pos app] rd] wr]]|] eqn:Ev; [|exact Logic.I]. rewrite Q2, F; [exact V2|]. unfold v_held. now rewrite Ev.
    + exists p. split; [exact Ep|]. eapply wp_weaken; [|exact W]. auto.
Qed.

Definition upd_st (st : nat -> pst) (i : nat) (p : pst) (j : nat) : pst := if Nat.eqb j i then p else st j.
Lemma upd_st_same st i p : upd_st st i p i = p.
Proof. unfold upd_st. now rewrite Nat.eqb_refl. Qed.
Lemma upd_st_other st i p j : i <> j -> upd_st st i p j = st j.
Proof. intros H. unfold upd_st. destruct (Nat.eqb_spec j i); congruence. Qed.

(** One step of client [i], which works on object [o]. *)
Lemma inv_update m w ps log s st i cs o w1 p1 ext s1 :
  inv (Datatypes.S m) w ps log s st -> nth_error css i = Some cs ->
  O o -> plain_object o ->
  sane w1 -> same_else (place o) w w1 ->
  (ext = [] /\ s1 = s \/
   exists c r, ext = [Event i c r] /\ call_object c = o /\ call_meets cd c (s o) (s1 o) r /\
     (forall x, x <> o -> s1 x = s x) /\ (Shared o -> s o <> None -> s1 o <> None) /\
     (L o -> N.divide (record_size o) (lenN (old_or_empty (s1 o))))) ->
  kept_at w1 s1 (upd_st st i p1) o ->
  (exists d, look w (place o) = option_map EFile d) ->
  (Own i o \/ Shared o) ->
  (forall rem c q v old, p1 = PPriv rem c q v old -> Own i (call_object c) /\ s1 (call_object c) = old) ->
  (forall rem c q v old, st i = PPriv rem c q v old -> call_object c = o) ->
  (forall rem c data fd, st i = PWrite rem c data fd -> creates c = true -> ext <> []) ->
  (forall rem c data fd, st i = PWrite rem c data fd -> creates c = true -> call_object c = o) ->
  pending (st i) = map ev_call ext ++ pending p1 ->
  okst m w1 p1 ->
  (held p1 = None \/ held p1 = held (st i) \/ held p1 = Some (w_nextfd w) /\ w_nextfd w < w_nextfd w1) ->
  w_nextfd w <= w_nextfd w1 ->
  (forall fd, fd < w_nextfd w -> held (st i) <> Some fd -> w_fds w1 fd = w_fds w fd) ->
  (forall x ino, Shared x -> w_tree w (place x) = Some (NFile ino) -> w_tree w1 (place x) = Some (NFile ino)) ->
  (forall x ino, L x -> w_tree w (place x) = Some (NFile ino) -> exists z, w_data w1 ino = w_data w ino ++ z) ->
  (forall q, q <> place o -> w_tree w1 q = w_tree w q) ->
  inv m w1 (upd_nth i (prog_of p1 (map ev_answer (of_client i (log ++ ext)))) ps) (log ++ ext) s1 (upd_st st i p1).
Proof.
  intros I Hi Oo Po S1 [C1 E1] X K Nf Os Pp W3 W1 W2 Pe Ok1 Hh Hn Hf Ht Hd Htq.
  assert (Li : (i < length css)%nat) by (apply nth_error_Some; congruence).
  assert (X' : forall x, x <> o -> s1 x = s x).
  { destruct X as [[_ ->]|(c & r & _ & _ & _ & X & _)]; auto. }
  constructor.
  - exact S1.
  - rewrite C1. apply I.
  - intros q Hq. rewrite E1; [now apply I|]. now apply Hq.
  - rewrite !map_app. destruct X as [[-> ->]|(c & r & -> & <- & M & X & _)]; cbn [map].
    + rewrite !app_nil_r. apply I.
    + eapply history_snoc; [apply I|exact M|exact X].
  - intros x Sx Hx. apply (i_more _ _ _ _ _ _ I) in Hx; [|exact Sx]. destruct (object_eq_dec x o) as [->|N]; [|now rewrite X'].
    destruct X as [[_ ->]|(c & r & _ & _ & _ & _ & X & _)]; auto.
  - intros j rem c q v old Lj Hj. destruct (Nat.eq_dec i j) as [<-|N].
    + rewrite upd_st_same in Hj. now apply (Pp rem c q v old).
    + rewrite upd_st_other in Hj by exact N. destruct (i_priv _ _ _ _ _ _ I _ _ _ _ _ _ Lj Hj) as [Q1 Q2]. split; [exact Q1|].
      rewrite X'; [exact Q2|]. intros Z. rewrite Z in Q1. destruct Os as [Os|Os]; [now apply N, (HO1 i j o)|eapply HOS; eauto].
  - intros x Ox Px. destruct (i_kept _ _ _ _ _ _ I x Ox Px) as [D Q]. split.
    { unfold has_dir in *. rewrite E1; [exact D|]. intros Z. rewrite Z in D. destruct Nf as [d Nf]. rewrite Nf in D. destruct d; discriminate. }
    destruct (object_eq_dec x o) as [->|N]; [exact K|].
    unfold kept_at. rewrite X' by exact N.
    rewrite E1; [|intros Z; apply N; now apply place_inj].
    destruct Q as [Q|[(Q1 & Q2 & j & rem & c & data & fd & Q3 & Q4 & Q5 & Q6)|(j & rem & c & q & v & old & Q1 & Q2 & Q3)]]; [now left| |].
    + right. left. split; [exact Q1|]. split; [exact Q2|].
      exists j, rem, c, data, fd. split; [exact Q3|]. split; [|auto]. rewrite upd_st_other; [exact Q4|].
      intros <-. apply N. rewrite <- Q5. eapply W2; eauto.
    + right. right. exists j, rem, c, q, v, old. split; [exact Q1|]. split; [|exact Q3]. rewrite upd_st_other; [exact Q2|].
      intros <-. apply N. rewrite <- Q3. eapply W3; eauto.
  - intros x Lx. destruct (object_eq_dec x o) as [->|N]; [|rewrite X' by exact N; now apply I].
    destruct X as [[_ ->]|(c & r & _ & _ & _ & _ & _ & X)]; [now apply I|auto].
  - rewrite upd_nth_length. apply I.
  - intros e He. apply in_app_or in He. destruct He as [He|He]; [now apply I|].
    destruct X as [[-> _]|(c & r & -> & _)]; [contradiction|]. destruct He as [<-|[]]. exact Li.
  - destruct (i_pre _ _ _ _ _ _ I) as [more E]. exists (more ++ ext). now rewrite E, app_assoc.
  - intros j cs' Hj. destruct (Nat.eq_dec i j) as [<-|N].
    + rewrite Hi in Hj. injection Hj as <-. rewrite upd_st_same. split.
      { apply nth_upd_same. rewrite (i_len _ _ _ _ _ _ I). exact Li. }
      destruct (i_st _ _ _ _ _ _ I i cs Hi) as (_ & Q & _ & Qf). rewrite of_client_app, map_app, <- app_assoc. split.
      { rewrite <- Q, Pe. do 2 f_equal. destruct X as [[-> _]|(c & r & -> & _)]; [reflexivity|]. now rewrite of_client_same. }
      split; [exact Ok1|]. intros fd Hfd. destruct Hh as [Z|[Z|[Z Z']]]; rewrite Z in Hfd; [discriminate|apply Qf in Hfd; lia|injection Hfd as <-; exact Z'].
    + destruct (i_st _ _ _ _ _ _ I j cs' Hj) as (Q1 & Q2 & Q3 & Qf). rewrite upd_st_other by exact N.
      rewrite nth_upd_other by exact N.
      assert (of_client j (log ++ ext) = of_client j log) as ->.
      { rewrite of_client_app. destruct X as [[-> _]|(c & r & -> & _)]; [apply app_nil_r|]. now rewrite of_client_other, app_nil_r. }
      split; [exact Q1|]. split; [exact Q2|]. split.
      { assert (Lj : (j < length css)%nat) by (apply nth_error_Some; congruence).
        eapply okst_frame; eauto.
        - intros fd Hfd. apply Hf; [now apply Qf|]. intros Z. now apply (i_fd _ _ _ _ _ _ I i j fd).
        - intros rem c q v old Hj'. destruct (i_priv _ _ _ _ _ _ I _ _ _ _ _ _ Lj Hj') as [P1 _].
          assert (Nx : call_object c <> o).
          { intros Z. rewrite Z in P1. destruct Os as [Os|Os]; [now apply N, (HO1 i j o)|eapply HOS; eauto]. }
          assert (Np : place (call_object c) <> place o).
          { intros Z. apply Nx. apply place_inj; auto.
            pose proof (fine_at j cs' Hj) as Fj. rewrite <- Q2, Hj' in Fj. apply Forall_app in Fj. destruct Fj as [_ Fj].
            apply Forall_inv in Fj. apply Fj. }
          split; [now apply E1|now apply Htq]. }
      intros fd Hfd. apply Qf in Hfd. lia.
  - assert (G : forall k fd, (k < length css)%nat -> held (st k) = Some fd -> fd < w_nextfd w).
    { intros k fd Lk Hk. destruct (nth_error css k) as [x|] eqn:Ek; [|apply nth_error_None in Ek; lia].
      destruct (i_st _ _ _ _ _ _ I k x Ek) as (_ & _ & _ & Qf). now apply Qf. }
    intros a b fd La Lb Nab Ha Hb.
    destruct (Nat.eq_dec i a) as [<-|Na]; [|destruct (Nat.eq_dec i b) as [<-|Nb]].
    + rewrite upd_st_same in Ha. rewrite upd_st_other in Hb by exact Nab.
      destruct Hh as [Z|[Z|[Z Z']]]; rewrite Z in Ha; [discriminate|eapply (i_fd _ _ _ _ _ _ I i b); eauto|].
      injection Ha as <-. apply G in Hb; [lia|exact Lb].
    + rewrite upd_st_same in Hb. rewrite upd_st_other in Ha by exact Na.
      destruct Hh as [Z|[Z|[Z Z']]]; rewrite Z in Hb; [discriminate|eapply (i_fd _ _ _ _ _ _ I a i); eauto|].
      injection Hb as <-. apply G in Ha; [lia|exact La].
    + rewrite upd_st_other in Ha, Hb by auto. eapply (i_fd _ _ _ _ _ _ I a b); eauto.
Qed.

Lemma inv_weaken m w ps log s st : inv (Datatypes.S m) w ps log s st -> inv m w ps log s st.
Proof.
  intros I. constructor; try apply I.
  intros i cs Hi. destruct (i_st _ _ _ _ _ _ I i cs Hi) as (Q1 & Q2 & Q3 & Q4).
  split; [exact Q1|]. split; [exact Q2|]. split; [|exact Q4].
  eapply okst_frame; eauto. intros o ino _ _. exists []. now rewrite app_nil_r.
Qed.
Lemma kept_keep w s st o i p : kept w s st -> O o -> plain_object o ->
  (forall rem c data fd, st i <> PWrite rem c data fd) -> (forall rem c q v old, st i <> PPriv rem c q v old) ->
  kept_at w s (upd_st st i p) o.
Proof.
  intros K Oo Po N1 N2. destruct (K o Oo Po) as [_ [Q|[(Q1 & Q2 & j & rem & c & data & fd & Q3 & Q4 & Q5)|(j & rem & c & q & v & old & Q1 & Q2 & Q3)]]]; [now left| |].
  - right. left. split; [exact Q1|]. split; [exact Q2|]. exists j, rem, c, data, fd. split; [exact Q3|]. split; [|exact Q5].
    rewrite upd_st_other; [exact Q4|]. intros <-. now apply N1 in Q4.
  - right. right. exists j, rem, c, q, v, old. split; [exact Q1|]. split; [|exact Q3].
    rewrite upd_st_other; [exact Q2|]. intros <-. now apply N2 in Q2.
Qed.
Lemma upd_nth_id {A} (x : A) l n : nth_error l n = Some x -> upd_nth n x l = l.
Proof. revert n. induction l as [|y l IH]; intros [|n] H; cbn in *; try discriminate; [congruence|f_equal; auto]. Qed.

Definition steps (m : nat) (ps : list (prog (list (outcome answer)))) (i : nat) (r : world * prog (list (outcome answer))) : Prop :=
  exists log s st, inv m (fst r) (upd_nth i (snd r) ps) log s st.

(** What a client about to call something on the shared object [o] finds. *)
Lemma found m w ps log s st o : inv m w ps log s st -> O o -> plain_object o -> Shared o ->
  has_dir w (place o) /\
  ((exists d, look w (place o) = Some (EFile d) /\ d = old_or_empty (s o) /\ (s o = None -> creatable o /\ creating st o)) \/
   look w (place o) = None /\ s o = None).
Proof.
  intros I Oo Po So. destruct (i_kept _ _ _ _ _ _ I o Oo Po) as [D Q]. split; [exact D|].
  destruct Q as [Q|[(Q1 & Q2 & Q3)|(j & rem & c & q & v & old & Q1 & Q2 & Q3)]].
  - destruct (s o) as [d|]; cbn [option_map] in Q; [left|now right]. exists d. split; [exact Q|]. split; [reflexivity|discriminate].
  - left. exists []. split; [exact Q2|]. rewrite Q1. split; [reflexivity|]. intros _. split; [|exact Q3].
    destruct Q3 as (j & rem & c & data & fd & Lj & Sj & <- & Q3).
    destruct (nth_error css j) as [cs|] eqn:Ej; [|apply nth_error_None in Ej; lia].
    destruct (i_st _ _ _ _ _ _ I j cs Ej) as (_ & Pj & _). rewrite Sj in Pj. cbn [pending] in Pj.
    assert (Fc : fine c).
    { pose proof (fine_at j cs Ej) as Fj. rewrite <- Pj in Fj. apply Forall_app in Fj. destruct Fj as [_ Fj].
      apply Forall_inv in Fj. eapply ok_shared; eauto. }
    apply creates_creatable; [exact Fc|exact Q3|].
    destruct (s0 (call_object c)) eqn:Z; [|reflexivity]. exfalso. apply (i_more _ _ _ _ _ _ I (call_object c)); congruence.
  - exfalso. destruct (i_priv _ _ _ _ _ _ I _ _ _ _ _ _ Q1 Q2) as [P _]. rewrite Q3 in P. eapply HOS; eauto.
Qed.
Lemma found_some m w ps log s st o : inv m w ps log s st -> O o -> plain_object o -> Shared o ->
  exists d, look w (place o) = option_map EFile d.
Proof.
  intros I Oo Po So. destruct (found _ _ _ _ _ _ o I Oo Po So) as [_ [(d & Lo & _)|[Lo _]]]; [now exists (Some d)|now exists None].
Qed.

Lemma answers_snoc i log c r : map ev_answer (of_client i (log ++ [Event i c r])) = map ev_answer (of_client i log) ++ [r].
Proof. now rewrite of_client_app, of_client_same, map_app. Qed.

Definition is_priv (p : pst) : bool := match p with PPriv _ _ _ _ _ => true | _ => false end.
(** the same for a step on a shared object *)
Lemma inv_shared m w ps log s st i cs o w1 p1 ext s1 :
  Shared o -> is_priv p1 = false -> is_priv (st i) = false ->
  inv (Datatypes.S m) w ps log s st -> nth_error css i = Some cs ->
  O o -> plain_object o ->
  sane w1 -> same_else (place o) w w1 ->
  (ext = [] /\ s1 = s \/
   exists c r, ext = [Event i c r] /\ call_object c = o /\ call_meets cd c (s o) (s1 o) r /\
     (forall x, x <> o -> s1 x = s x) /\ (s o <> None -> s1 o <> None) /\
     (L o -> N.divide (record_size o) (lenN (old_or_empty (s1 o))))) ->
  kept_at w1 s1 (upd_st st i p1) o ->
  (forall rem c data fd, st i = PWrite rem c data fd -> creates c = true -> ext <> []) ->
  (forall rem c data fd, st i = PWrite rem c data fd -> creates c = true -> call_object c = o) ->
  pending (st i) = map ev_call ext ++ pending p1 ->
  okst m w1 p1 ->
  (held p1 = None \/ held p1 = held (st i) \/ held p1 = Some (w_nextfd w) /\ w_nextfd w < w_nextfd w1) ->
  w_nextfd w <= w_nextfd w1 ->
  (forall fd, fd < w_nextfd w -> held (st i) <> Some fd -> w_fds w1 fd = w_fds w fd) ->
  (forall x ino, w_tree w (place x) = Some (NFile ino) -> w_tree w1 (place x) = Some (NFile ino)) ->
  (forall x ino, L x -> w_tree w (place x) = Some (NFile ino) -> exists z, w_data w1 ino = w_data w ino ++ z) ->
  (forall q, q <> place o -> w_tree w1 q = w_tree w q) ->
  inv m w1 (upd_nth i (prog_of p1 (map ev_answer (of_client i (log ++ ext)))) ps) (log ++ ext) s1 (upd_st st i p1).
Proof.
  intros So Np Ni I Hi Oo Po S1 SE X K W1 W2 Pe Ok1 Hh Hn Hf Ht Hd Htq.
  apply (inv_update m w ps log s st i cs o w1 p1 ext s1); auto.
  - destruct X as [X|(c & r & X1 & X2 & X3 & X4 & X5 & X6)]; [now left|right]. exists c, r. auto 8.
  - eapply found_some; eauto.
  - intros ? ? ? ? ? ->. discriminate Np.
  - intros ? ? ? ? ? Z. rewrite Z in Ni. discriminate Ni.
Qed.

(** the call fails at once because there is no file *)
Lemma fails_at_once m w ps log s st i cs c rem r :
  inv (Datatypes.S m) w ps log s st -> nth_error css i = Some cs -> st i = PNext (c :: rem) -> fine c ->
  look w (place (call_object c)) = None -> s (call_object c) = None -> call_meets cd c None None r ->
  steps m ps i (w, next rem (map ev_answer (of_client i log)) r).
Proof.
  intros I Hi Hs (Hc & Oc & [_ Shc] & _) Lo So M. assert (Zp : is_priv (st i) = false) by (now rewrite Hs).
  exists (log ++ [Event i c r]), s, (upd_st st i (PNext rem)). cbn [fst snd].
  pose proof (inv_shared m w ps log s st i cs (call_object c) w (PNext rem) [Event i c r] s) as U.
  cbn [prog_of] in U. rewrite answers_snoc, rev_app_distr in U. apply U; clear U; auto; try (intros ? _; reflexivity).
  - apply Hc.
  - apply I.
  - apply same_else_refl.
  - right. exists c, r. split; [reflexivity|]. split; [reflexivity|]. rewrite So. split; [exact M|].
    split; [auto|]. split; [auto|]. intros Lx. pose proof (i_al _ _ _ _ _ _ I _ Lx) as Q. now rewrite So in Q.
  - left. now rewrite So.
  - discriminate.
  - intros ? ? ? ? Z. congruence.
  - now rewrite Hs.
  - exact Logic.I.
  - lia.
  - intros x ino _ _. exists []. now rewrite app_nil_r.
Qed.

(** opening an existing file *)
Definition opened (w : world) (ino : N) (fl : oflags) : world :=
  bump_fd (set_fd w (w_nextfd w) (Some (OFile (Some ino) 0 (o_append fl) (o_rd fl) (o_wr fl)))).
Lemma after_open m w ps log s st i cs c rem p1 ino fl :
  inv (Datatypes.S m) w ps log s st -> nth_error css i = Some cs -> st i = PNext (c :: rem) -> fine c ->
  w_tree w (place (call_object c)) = Some (NFile ino) -> pending p1 = c :: rem ->
  held p1 = Some (w_nextfd w) -> is_priv p1 = false -> okst m (opened w ino fl) p1 ->
  steps m ps i (opened w ino fl, prog_of p1 (map ev_answer (of_client i log))).
Proof.
  intros I Hi Hs (Hc & Oc & [_ Shc] & _) T Pe Hh Np Ok1. assert (Zp : is_priv (st i) = false) by (now rewrite Hs).
  exists (log ++ []), s, (upd_st st i p1). cbn [fst snd].
  pose proof (inv_shared m w ps log s st i cs (call_object c) (opened w ino fl) p1 [] s) as U.
  rewrite app_nil_r in U |- *. apply U; clear U; auto; try (intros ? _; reflexivity).
  - apply Hc.
  - apply sane_new_fd; [apply I|]. cbn. intros j [= <-]. eapply sane_ino; [apply I|exact T].
  - split; [reflexivity|]. intros q _. reflexivity.
  - change (kept_at w s (upd_st st i p1) (call_object c)). apply kept_keep; auto; [apply I|apply Hc| |]; intros; congruence.
  - intros ? ? ? ? Z. congruence.
  - intros ? ? ? ? Z. congruence.
  - rewrite Hs, Pe. reflexivity.
  - right. right. split; [exact Hh|]. cbn. lia.
  - cbn. lia.
  - intros fd Hfd _. cbn. destruct N.eq_dec; [lia|reflexivity].
  - intros x j _ _. exists []. now rewrite app_nil_r.
Qed.

(** opening for writing *)
Lemma start_write m w ps log s st i cs c rem fl p data :
  inv (Datatypes.S m) w ps log s st -> nth_error css i = Some cs -> st i = PNext (c :: rem) -> fine c ->
  object_path wd (call_object c) = Ok p ->
  call_prog cd wd c fuel = answer_with (fun _ : unit => Done) (open_write fl p data) ->
  o_creat fl = creates c -> o_rd fl = false -> o_wr fl = true -> o_trunc fl = false -> o_excl fl = false ->
  (forall d, call_meets cd c (Some d) (Some (write_at (if o_append fl then lenN d else 0) data d)) (Ok Done)) ->
  (creates c = true -> call_meets cd c None (Some data) (Ok Done)) ->
  (creates c = false -> call_meets cd c None None no_file /\ ~ creatable (call_object c)) ->
  (L (call_object c) -> o_append fl = true /\ N.divide (record_size (call_object c)) (lenN data)) ->
  steps m ps i (step1 (prog_of (st i) (map ev_answer (of_client i log))) w).
Proof.
  intros I Hi Hs Hf E Sh Fc Frd Fwr Ftr Fex M1 M2 M3 Dv. set (A := map ev_answer (of_client i log)).
  pose proof Hf as (Hc & Oc & [_ Shc] & _). assert (Zp : is_priv (st i) = false) by (now rewrite Hs).
  destruct (place_path (call_object c) w Oc (proj1 Hc) (i_cwd _ _ _ _ _ _ I)) as (p' & E' & N).
  rewrite E in E'. injection E' as <-.
  rewrite Hs. cbn [prog_of client_from]. rewrite Sh.
  change (bind (answer_with (fun _ : unit => Done) (open_write fl p data)) (fun r => client_from cd wd fuel rem (r :: rev A)))
    with (Call (Open p fl) (fun r => bind (answer_with (fun _ : unit => Done)
      match r with
      | RErr e => Ret (Err (ESys e))
      | ROk fd => Call (Write fd data) (close_then fd)
      end) (next rem A))).
  assert (Wr : forall w1 ino fd, w_tree w1 (place (call_object c)) = Some (NFile ino) ->
    w_fds w1 fd = Some (OFile (Some ino) 0 (o_append fl) (o_rd fl) (o_wr fl)) ->
    okst m w1 (PWrite rem c data fd)).
  { intros w1 ino fd T F. exists ino, 0, (o_append fl). split; [exact T|].
    split; [now rewrite F, Frd, Fwr|]. split; [exact M1|].
    split; [intros Q; split; [now apply M2|now right]|].
    split; [destruct (creates c); [now left|right; right; now apply M3]|]. split; [exact Dv|exact Shc]. }
  destruct (found _ _ _ _ _ _ (call_object c) I Oc (proj1 Hc) Shc) as [D [(d & Lo & Ed & _)|[Lo So]]].
  - destruct (open_existing w p fl _ d N Lo) as (ino & T & Da & X).
    { rewrite Fex. apply andb_false_r. }
    cbn [step1]. rewrite X, Ftr.
    apply (after_open m w ps log s st i cs c rem (PWrite rem c data (w_nextfd w)) ino fl I Hi Hs Hf T eq_refl eq_refl eq_refl).
    apply (Wr _ ino); [exact T|]. cbn. destruct N.eq_dec; [reflexivity|congruence].
  - destruct (creates c) eqn:Cr.
    + pose proof Fc as Cf. cbn [step1]. rewrite (open_create w p fl _ N Lo Cf D).
      set (wc := bump_ino _). set (w1 := bump_fd _).
      destruct (look_none _ _ Lo) as [Tn Nn].
      assert (Sc : sane wc) by (apply sane_create; auto; apply I).
      assert (T1 : w_tree w1 (place (call_object c)) = Some (NFile (w_nexti w))).
      { cbn. destruct rp_eq_dec; congruence. }
      exists (log ++ []), s, (upd_st st i (PWrite rem c data (w_nextfd w))). cbn [fst snd].
      pose proof (inv_shared m w ps log s st i cs (call_object c) w1 (PWrite rem c data (w_nextfd w)) [] s) as U.
      rewrite app_nil_r in U |- *. apply U; clear U; auto; try (intros ? _; reflexivity).
      * apply Hc.
      * unfold w1. change (w_nextfd w) with (w_nextfd wc). apply sane_new_fd; [exact Sc|]. cbn. intros j [= <-]. lia.
      * split; [reflexivity|]. intros q Hq. unfold w1. rewrite look_bump_fd, look_set_fd. apply look_create_other; [apply I|exact Hq].
      * right. left. split; [exact So|]. split.
        { unfold look. rewrite T1. destruct (place (call_object c)); [contradiction|]. cbn. now destruct N.eq_dec. }
        exists i, rem, c, data, (w_nextfd w). split; [apply nth_error_Some; congruence|].
        rewrite upd_st_same. auto.
      * intros ? ? ? ? Z. congruence.
      * intros ? ? ? ? Z. congruence.
      * now rewrite Hs.
      * apply (Wr _ (w_nexti w)); [exact T1|]. cbn. destruct N.eq_dec; [reflexivity|congruence].
      * right. right. split; [reflexivity|]. cbn. lia.
      * cbn. lia.
      * intros fd Hfd _. cbn. destruct N.eq_dec; [lia|reflexivity].
      * intros x ino Tx. cbn. destruct rp_eq_dec; [congruence|exact Tx].
      * intros x ino _ Tx. exists []. rewrite app_nil_r. cbn. destruct N.eq_dec; [|reflexivity].
        apply (sane_ino w (i_sane _ _ _ _ _ _ I)) in Tx. lia.
      * intros q Hq. cbn. destruct rp_eq_dec; [contradiction|reflexivity].
    + pose proof Fc as Cf. cbn [step1]. rewrite (open_missing w p fl _ N Lo (or_introl Cf)).
      rewrite (missing_enoent w _ (i_sane _ _ _ _ _ _ I) D).
      destruct (M3 eq_refl) as [M3' _].
      exact (fails_at_once m w ps log s st i cs c rem no_file I Hi Hs Hf Lo So M3').
Qed.

Lemma start_update m w ps log s st i cs rem b k f :
  inv (Datatypes.S m) w ps log s st -> nth_error css i = Some cs -> st i = PNext (UpdateRecord b k f :: rem) ->
  fine (UpdateRecord b k f) ->
  steps m ps i (step1 (prog_of (st i) (map ev_answer (of_client i log))) w).
Proof.
  intros I Hi Hs Hf. set (A := map ev_answer (of_client i log)).
  pose proof Hf as (Hc & Oc & [_ Shc] & _ & _ & Hn). assert (Zp : is_priv (st i) = false) by (now rewrite Hs).
  destruct (place_path (Index b) w Oc (proj1 Hc) (i_cwd _ _ _ _ _ _ I)) as (p & E & N).
  rewrite Hs. cbn [prog_of client_from call_prog]. unfold UpdateArticleRecord. cbn [object_path] in E. rewrite E.
  change (bind _ _) with (Call (Open p O_WRONLY) (fun r => bind (answer_with (fun _ : unit => Done)
      match r with
      | RErr e => Ret (Err (ESys e))
      | ROk fd => Call (SeekSet fd (i64 (i64 (Z.of_N k) * 128))) (fun r =>
           match r with
           | RErr e => Call (Close fd) (fun _ => Ret (Err (ESys e)))
           | ROk _ => Call (Write fd (M_File.MarshalToByte cd f)) (close_then fd)
           end)
      end) (next rem A))).
  destruct (found _ _ _ _ _ _ (Index b) I Oc (proj1 Hc) Shc) as [D [(d & Lo & Ed & _)|[Lo So]]].
  - destruct (open_existing w p O_WRONLY _ d N Lo eq_refl) as (ino & T & Da & X).
    cbn [step1]. rewrite X. cbn [O_WRONLY o_trunc].
    apply (after_open m w ps log s st i cs _ rem (PSeek rem b k f (w_nextfd w)) ino O_WRONLY I Hi Hs Hf T eq_refl eq_refl eq_refl).
    exists ino, 0. split; [exact T|]. split; [cbn; destruct N.eq_dec; [reflexivity|congruence]|exact Shc].
  - exfalso. apply (i_more _ _ _ _ _ _ I (Index b)); [exact Shc|now apply Hn|exact So].
Qed.

Lemma start_list m w ps log s st i cs c rem p X size (dec : bytes -> outcome X) closes (K : list X -> answer)
    (ctx : list (outcome answer) -> prog (outcome (list X)) -> prog (list (outcome answer))) rm :
  inv (Datatypes.S m) w ps log s st -> nth_error css i = Some cs -> st i = PNext (c :: rem) -> fine c ->
  object_path wd (call_object c) = Ok p -> (m < fuel)%nat ->
  (forall A, client_from cd wd fuel (c :: rem) (rev A) = ctx A (open_records size dec false closes fuel p)) ->
  0 < size -> size = record_size (call_object c) -> L (call_object c) ->
  (forall x, lenN x = size -> exists a, dec x = Ok a) ->
  (forall l l', Forall (fun x => lenN x = size) l -> Forall2 (fun x a => dec x = Ok a) l l' ->
     call_meets cd c (Some (concat l)) (Some (concat l)) (Ok (K l'))) ->
  (creatable (call_object c) -> needs_file c = false -> call_meets cd c None None (Ok (K []))) ->
  (forall A R (k : sys R) h, ctx A (Call k h) = Call k (fun r => ctx A (h r))) ->
  (forall A l, ctx A (Ret (Ok l)) = next rem A (Ok (K l))) ->
  (forall A, ctx A (Ret (Err (ESys ENOENT))) = next rem A rm) ->
  (needs_file c = false -> call_meets cd c None None rm) ->
  steps m ps i (step1 (prog_of (st i) (map ev_answer (of_client i log))) w).
Proof.
  intros I Hi Hs Hf E Fu Sh Pos Sz Lc Dt M1 M2 C1 C2 C3 M3. set (A := map ev_answer (of_client i log)).
  pose proof Hf as (Hc & Oc & [_ Shc] & _ & _ & Hn). assert (Zp : is_priv (st i) = false) by (now rewrite Hs).
  destruct (place_path (call_object c) w Oc (proj1 Hc) (i_cwd _ _ _ _ _ _ I)) as (p' & E' & N).
  rewrite E in E'. injection E' as <-.
  rewrite Hs. cbn [prog_of]. rewrite Sh. unfold open_records. rewrite C1.
  destruct (found _ _ _ _ _ _ (call_object c) I Oc (proj1 Hc) Shc) as [D [(d & Lo & Ed & _)|[Lo So]]].
  - destruct (open_existing w p O_RDONLY _ d N Lo eq_refl) as (ino & T & Da & Ex).
    cbn [step1]. rewrite Ex. cbn [O_RDONLY o_trunc].
    apply (after_open m w ps log s st i cs c rem (PRead rem c X size dec closes K ctx fuel [] (w_nextfd w)) ino O_RDONLY I Hi Hs Hf T eq_refl eq_refl eq_refl).
    exists ino, [], d. split; [exact T|]. split.
    { cbn. destruct N.eq_dec; [|congruence]. now rewrite N.mul_0_r. }
    split; [exact Da|]. split; [constructor|]. split; [constructor|]. repeat (split; [assumption|]). assumption.
  - cbn [step1]. rewrite (open_missing w p O_RDONLY _ N Lo (or_introl eq_refl)).
    rewrite (missing_enoent w _ (i_sane _ _ _ _ _ _ I) D), C3.
    apply (fails_at_once m w ps log s st i cs c rem rm I Hi Hs Hf Lo So).
    apply M3. destruct (needs_file c) eqn:Q; [|reflexivity]. exfalso.
    apply (i_more _ _ _ _ _ _ I (call_object c)); [exact Shc|now apply Hn|exact So].
Qed.

Lemma start_all m w ps log s st i cs c rem p :
  inv (Datatypes.S m) w ps log s st -> nth_error css i = Some cs -> st i = PNext (c :: rem) -> fine c ->
  object_path wd (call_object c) = Ok p ->
  call_prog cd wd c fuel = answer_with Bytes (open_read_all p) ->
  ~ creatable (call_object c) ->
  (forall d, call_meets cd c (Some d) (Some d) (Ok (Bytes d))) -> call_meets cd c None None no_file ->
  steps m ps i (step1 (prog_of (st i) (map ev_answer (of_client i log))) w).
Proof.
  intros I Hi Hs Hf E Sh Cr M1 M2. set (A := map ev_answer (of_client i log)).
  pose proof Hf as (Hc & Oc & [_ Shc] & _). assert (Zp : is_priv (st i) = false) by (now rewrite Hs).
  destruct (place_path (call_object c) w Oc (proj1 Hc) (i_cwd _ _ _ _ _ _ I)) as (p' & E' & N).
  rewrite E in E'. injection E' as <-.
  rewrite Hs. cbn [prog_of client_from]. rewrite Sh.
  change (bind _ _) with (Call (Open p O_RDONLY) (fun r => bind (answer_with Bytes
      match r with
      | RErr e => Ret (Err (ESys e))
      | ROk fd => Call (ReadAll fd) (fun r => Call (Close fd) (fun _ =>
        match r with RErr e => Ret (Err (ESys e)) | ROk d => Ret (Ok d) end))
      end) (next rem A))).
  destruct (found _ _ _ _ _ _ (call_object c) I Oc (proj1 Hc) Shc) as [D [(d & Lo & Ed & _)|[Lo So]]].
  - destruct (open_existing w p O_RDONLY _ d N Lo eq_refl) as (ino & T & Da & X).
    cbn [step1]. rewrite X. cbn [O_RDONLY o_trunc].
    apply (after_open m w ps log s st i cs _ rem (PAll rem c (w_nextfd w)) ino O_RDONLY I Hi Hs Hf T eq_refl eq_refl eq_refl).
    exists ino. split; [exact T|]. split; [cbn; destruct N.eq_dec; [reflexivity|congruence]|]. auto.
  - cbn [step1]. rewrite (open_missing w p O_RDONLY _ N Lo (or_introl eq_refl)).
    rewrite (missing_enoent w _ (i_sane _ _ _ _ _ _ I) D).
    exact (fails_at_once m w ps log s st i cs c rem no_file I Hi Hs Hf Lo So M2).
Qed.

Lemma fine_pending m w ps log s st i cs c rem : inv m w ps log s st -> nth_error css i = Some cs ->
  pending (st i) = c :: rem -> ok_call i c.
Proof.
  intros I Hi E. destruct (i_st _ _ _ _ _ _ I i cs Hi) as (_ & Q & _). apply fine_at in Hi. rewrite <- Q, E in Hi.
  apply Forall_app in Hi. destruct Hi as [_ Hi]. now inversion Hi.
Qed.

Lemma do_close m w ps log s st i cs rem o fd :
  inv (Datatypes.S m) w ps log s st -> nth_error css i = Some cs -> st i = PClose rem o fd ->
  steps m ps i (step1 (prog_of (st i) (map ev_answer (of_client i log))) w).
Proof.
  intros I Hi Hs. destruct (i_st _ _ _ _ _ _ I i cs Hi) as (_ & _ & Q & _). rewrite Hs in Q. destruct Q as (Oo & Po & So). assert (Zp : is_priv (st i) = false) by (now rewrite Hs).
  rewrite Hs. cbn [prog_of step1 exec].
  exists (log ++ []), s, (upd_st st i (PNext rem)). cbn [fst snd].
  pose proof (inv_shared m w ps log s st i cs o (set_fd w fd None) (PNext rem) [] s) as U.
  rewrite app_nil_r in U |- *. apply U; clear U; auto; try (intros ? _; reflexivity).
  - apply sane_close, I.
  - split; [reflexivity|]. intros q _. reflexivity.
  - change (kept_at w s (upd_st st i (PNext rem)) o). apply kept_keep; auto; [apply I| |]; intros; congruence.
  - intros ? ? ? ? Z. congruence.
  - intros ? ? ? ? Z. congruence.
  - now rewrite Hs.
  - exact Logic.I.
  - cbn. lia.
  - intros f Hf Nf. cbn. destruct N.eq_dec; [|reflexivity]. exfalso. apply Nf. now rewrite Hs, e.
  - intros x ino _ _. exists []. now rewrite app_nil_r.
Qed.

Lemma do_seek m w ps log s st i cs rem b k f fd :
  inv (Datatypes.S m) w ps log s st -> nth_error css i = Some cs -> st i = PSeek rem b k f fd ->
  steps m ps i (step1 (prog_of (st i) (map ev_answer (of_client i log))) w).
Proof.
  intros I Hi Hs. destruct (i_st _ _ _ _ _ _ I i cs Hi) as (_ & _ & Q & Qf). rewrite Hs in Q, Qf.
  destruct Q as (ino & pos & T & F & Shc). specialize (Qf fd eq_refl).
  assert (Hf : fine (UpdateRecord b k f)) by (eapply ok_shared; [eapply fine_pending; eauto; now rewrite Hs|exact Shc]).
  pose proof Hf as (Hc & Oc & _ & NL & _). destruct Hc as [Pc Kk]. assert (Zp : is_priv (st i) = false) by (now rewrite Hs).
  rewrite Hs. cbn [prog_of].
  change (bind _ _) with (Call (SeekSet fd (i64 (i64 (Z.of_N k) * 128))) (fun r =>
      bind (answer_with (fun _ : unit => Done)
      match r with
           | RErr e => Call (Close fd) (fun _ => Ret (Err (ESys e)))
           | ROk _ => Call (Write fd (M_File.MarshalToByte cd f)) (close_then fd)
           end) (next rem (map ev_answer (of_client i log))))).
  rewrite update_offset by exact Kk. cbn [step1 exec]. unfold sys_seek_set. rewrite F.
  assert ((Z.of_N (k * 128) <? 0)%Z = false) as -> by lia. rewrite N2Z.id.
  cbn [of_ino of_append of_rd of_wr].
  set (w1 := set_fd w fd _).
  exists (log ++ []), s, (upd_st st i (PWrite rem (UpdateRecord b k f) (M_File.MarshalToByte cd f) fd)). cbn [fst snd].
  pose proof (inv_shared m w ps log s st i cs (Index b) w1 (PWrite rem (UpdateRecord b k f) (M_File.MarshalToByte cd f) fd) [] s) as U.
  rewrite app_nil_r in U |- *. apply U; clear U; auto; try (intros ? _; reflexivity).
  - apply sane_set_fd; [apply I|exact Qf|]. intros q j [= <-] [= <-]. eapply sane_ino; [apply I|exact T].
  - split; [reflexivity|]. intros q _. reflexivity.
  - match goal with |- kept_at _ _ (upd_st _ _ ?p) _ => change (kept_at w s (upd_st st i p) (Index b)) end.
    apply kept_keep; auto; [apply I| |]; intros; congruence.
  - intros ? ? ? ? Z. congruence.
  - intros ? ? ? ? Z. congruence.
  - now rewrite Hs.
  - exists ino, (k * 128), false. split; [exact T|]. split; [cbn; destruct N.eq_dec; [reflexivity|congruence]|].
    split.
    { intros d. exists (MarshalToByte cd f), (write_at (k * 128) (MarshalToByte cd f) d). split; [apply file_encode|]. split; [|auto].
      apply write_patched. intros Z. pose proof (marshal_length cd f) as X. rewrite Z in X. discriminate. }
    split; [discriminate|]. split; [now right; left|]. split; [intros Lx; contradiction|exact Shc].
  - right. left. now rewrite Hs.
  - cbn. lia.
  - intros g Hg Ng. cbn. destruct N.eq_dec; [|reflexivity]. exfalso. apply Ng. now rewrite Hs, e.
  - intros x j _ _. exists []. now rewrite app_nil_r.
Qed.

Lemma do_write m w ps log s st i cs rem c data fd :
  inv (Datatypes.S m) w ps log s st -> nth_error css i = Some cs -> st i = PWrite rem c data fd ->
  steps m ps i (step1 (prog_of (st i) (map ev_answer (of_client i log))) w).
Proof.
  intros I Hi Hs. destruct (i_st _ _ _ _ _ _ I i cs Hi) as (_ & _ & Q & Qf). rewrite Hs in Q, Qf.
  destruct Q as (ino & pos & app & T & F & M1 & M2 & Cr & Al & Shc0). specialize (Qf fd eq_refl).
  assert (Hf : fine c) by (eapply ok_shared; [eapply fine_pending; eauto; now rewrite Hs|exact Shc0]).
  pose proof Hf as (Hc & Oc & [_ Shc] & _ & _ & Hn). assert (Zp : is_priv (st i) = false) by (now rewrite Hs).
  destruct (found _ _ _ _ _ _ (call_object c) I Oc (proj1 Hc) Shc) as [D [(d & Lo & Ed & Hcr)|[Lo So]]].
  2:{ destruct (look_none _ _ Lo) as [Z _]. congruence. }
  destruct (look_file _ _ _ Lo) as (ino' & T' & Da & Nn). rewrite T in T'. injection T' as <-.
  rewrite Hs. cbn [prog_of].
  change (bind _ _) with (Call (Write fd data) (fun r =>
      bind (answer_with (fun _ : unit => Done) (close_then fd r)) (next rem (map ev_answer (of_client i log))))).
  cbn [step1]. rewrite (exec_write w fd _ ino data F eq_refl eq_refl). cbn [of_append of_pos of_rd of_wr]. rewrite Da.
  set (new := write_at _ data d). set (w1 := set_fd _ fd _).
  set (o := call_object c) in *. set (s1 := st_set s o (Some new)).
  assert (S1o : s1 o = Some new). { unfold s1, st_set. destruct object_eq_dec; congruence. }
  assert (Mm : call_meets cd c (s o) (Some new) (Ok Done)).
  { destruct (s o) as [d'|] eqn:So.
    - cbn [old_or_empty] in Ed. subst d'. apply M1.
    - destruct (Hcr eq_refl) as [Z1 Z2]. cbn [old_or_empty] in Ed.
      destruct Cr as [Z|[Z|Z]]; [|exfalso; apply (i_more _ _ _ _ _ _ I o); auto; now apply Hn|contradiction].
      destruct (M2 Z) as [M2' Zq]. unfold new. rewrite Ed.
      assert (write_at (if app then lenN [] else pos) data [] = data) as ->; [|exact M2'].
      destruct Zq as [-> | ->]; [now rewrite write_at_end|]. destruct app; now rewrite write_at_end || exact (write_at_end data []). }
  exists (log ++ [Event i c (Ok Done)]), s1, (upd_st st i (PClose rem o fd)). cbn [fst snd].
  pose proof (inv_shared m w ps log s st i cs o w1 (PClose rem o fd) [Event i c (Ok Done)] s1) as U.
  cbn [prog_of] in U. rewrite answers_snoc, rev_app_distr in U. apply U; clear U; auto; try (intros ? _; reflexivity).
  - apply Hc.
  - apply sane_set_fd; [apply sane_set_data, I|exact Qf|]. intros q j [= <-] [= <-]. change (ino < w_nexti w). eapply sane_ino; [apply I|exact T].
  - split; [reflexivity|]. intros q Hq. unfold w1. rewrite look_set_fd. apply look_set_data_other with (rp := place o); auto. apply I.
  - right. exists c, (Ok Done). split; [reflexivity|]. split; [reflexivity|]. rewrite S1o. split; [exact Mm|].
    split; [intros x Nx; unfold s1, st_set; destruct object_eq_dec; [contradiction|reflexivity]|]. split; [discriminate|].
    intros Lx. destruct (Al Lx) as [-> Dv]. cbn [old_or_empty]. unfold new. rewrite write_at_end.
    unfold lenN. rewrite app_length, Nat2N.inj_add. apply N.divide_add_r; [|exact Dv].
    rewrite Ed. apply (i_al _ _ _ _ _ _ I o Lx).
  - left. rewrite S1o. unfold w1. rewrite look_set_fd. now apply look_set_data.
  - discriminate.
  - intros r' c' d' f' Z _. rewrite Hs in Z. injection Z as _ <- _ _. reflexivity.
  - now rewrite Hs.
  - split; [exact Oc|]. split; [apply Hc|exact Shc].
  - right. left. now rewrite Hs.
  - cbn. lia.
  - intros g Hg Ng. cbn. destruct N.eq_dec; [|reflexivity]. exfalso. apply Ng. now rewrite Hs, e.
  - intros x j Lx Tx. cbn. destruct N.eq_dec as [->|]; [|exists []; now rewrite app_nil_r].
    assert (x = o) as ->. { apply place_inj; [now apply HL|apply Hc|]. eapply sane_inj; [apply I|exact Tx|exact T]. }
    destruct (Al Lx) as [-> _]. exists data. unfold new. now rewrite write_at_end, Da.
Qed.

Lemma do_all m w ps log s st i cs rem c fd :
  inv (Datatypes.S m) w ps log s st -> nth_error css i = Some cs -> st i = PAll rem c fd ->
  steps m ps i (step1 (prog_of (st i) (map ev_answer (of_client i log))) w).
Proof.
  intros I Hi Hs. destruct (i_st _ _ _ _ _ _ I i cs Hi) as (_ & _ & Q & Qf). rewrite Hs in Q, Qf.
  destruct Q as (ino & T & F & Cr & M1 & Shc0). specialize (Qf fd eq_refl).
  assert (Hf : fine c) by (eapply ok_shared; [eapply fine_pending; eauto; now rewrite Hs|exact Shc0]).
  pose proof Hf as (Hc & Oc & [_ Shc] & _ & _ & Hn). assert (Zp : is_priv (st i) = false) by (now rewrite Hs).
  destruct (found _ _ _ _ _ _ (call_object c) I Oc (proj1 Hc) Shc) as [D [(d & Lo & Ed & Hcr)|[Lo So]]].
  2:{ destruct (look_none _ _ Lo) as [Z _]. congruence. }
  destruct (look_file _ _ _ Lo) as (ino' & T' & Da & Nn). rewrite T in T'. injection T' as <-.
  assert (So : s (call_object c) = Some d).
  { destruct (s (call_object c)); [now subst d|]. destruct (Hcr eq_refl) as [Z _]. contradiction. }
  rewrite Hs. cbn [prog_of].
  change (bind _ _) with (Call (ReadAll fd) (fun r =>
      bind (answer_with Bytes (Call (Close fd) (fun _ => match r with RErr e => Ret (Err (ESys e)) | ROk d => Ret (Ok d) end)))
        (next rem (map ev_answer (of_client i log))))).
  cbn [step1 exec]. unfold sys_read_all. rewrite F. cbn [of_ino of_rd of_pos of_append of_wr N.to_nat skipn]. rewrite Da.
  set (w1 := set_fd w fd _).
  exists (log ++ [Event i c (Ok (Bytes d))]), s, (upd_st st i (PClose rem (call_object c) fd)). cbn [fst snd].
  pose proof (inv_shared m w ps log s st i cs (call_object c) w1 (PClose rem (call_object c) fd) [Event i c (Ok (Bytes d))] s) as U.
  cbn [prog_of] in U. rewrite answers_snoc, rev_app_distr in U. apply U; clear U; auto; try (intros ? _; reflexivity).
  - apply Hc.
  - apply sane_set_fd; [apply I|exact Qf|]. intros q j [= <-] [= <-]. eapply sane_ino; [apply I|exact T].
  - split; [reflexivity|]. intros q _. reflexivity.
  - right. exists c, (Ok (Bytes d)). split; [reflexivity|]. split; [reflexivity|]. rewrite So. split; [apply M1|].
    split; [auto|]. split; [auto|]. intros Lx. pose proof (i_al _ _ _ _ _ _ I _ Lx) as Z. now rewrite So in Z.
  - left. rewrite So. exact Lo.
  - discriminate.
  - intros ? ? ? ? Z. congruence.
  - now rewrite Hs.
  - split; [exact Oc|]. split; [apply Hc|exact Shc].
  - right. left. now rewrite Hs.
  - cbn. lia.
  - intros g Hg Ng. cbn. destruct N.eq_dec; [|reflexivity]. exfalso. apply Ng. now rewrite Hs, e.
  - intros x j _ _. exists []. now rewrite app_nil_r.
Qed.

Lemma lenN_concat_all size (xs : list bytes) : Forall (fun x => lenN x = size) xs -> lenN (concat xs) = size * N.of_nat (length xs).
Proof.
  induction 1 as [|x xs Hx H IH]; [now rewrite N.mul_0_r|]. cbn [concat length]. unfold lenN in *.
  rewrite app_length. lia.
Qed.

Lemma read_loop_unfold {X} size (dec : bytes -> outcome X) closes n fd acc :
  exists h, read_loop size dec false closes (Datatypes.S n) fd acc = Call (Read fd size) h /\
    h (ROk []) = close_if closes fd (Ret (Ok (rev acc))) /\
    forall x a, lenN x = size -> 0 < size -> dec x = Ok a -> h (ROk x) = read_loop size dec false closes n fd (a :: acc).
Proof.
  eexists. split; [reflexivity|]. split; [reflexivity|]. intros x a Lx P E.
  destruct x as [|b x]; [unfold lenN in Lx; cbn in Lx; lia|]. cbv beta iota zeta. rewrite fill_exact by exact Lx. now rewrite E.
Qed.

Lemma do_read m w ps log s st i cs rem c X size dec closes K ctx n acc fd :
  inv (Datatypes.S m) w ps log s st -> nth_error css i = Some cs ->
  st i = PRead rem c X size dec closes K ctx n acc fd ->
  steps m ps i (step1 (prog_of (st i) (map ev_answer (of_client i log))) w).
Proof.
  intros I Hi Hs. destruct (i_st _ _ _ _ _ _ I i cs Hi) as (_ & _ & Q & Qf). rewrite Hs in Q, Qf.
  pose proof Q as (ino & xs & y & T & F & Dt & Fx & G & Hm & Pos & Sz & Lc & Dd & M1 & M2 & C1 & C2). specialize (Qf fd eq_refl).
  assert (Hf : fine c) by (eapply ok_shared; [eapply fine_pending; eauto; now rewrite Hs|now apply HLS]).
  pose proof Hf as (Hc & Oc & [_ Shc] & _ & _ & Hn). assert (Zp : is_priv (st i) = false) by (now rewrite Hs).
  destruct (found _ _ _ _ _ _ (call_object c) I Oc (proj1 Hc) Shc) as [D [(d & Lo & Ed & Hcr)|[Lo So]]].
  2:{ destruct (look_none _ _ Lo) as [Z _]. congruence. }
  destruct (look_file _ _ _ Lo) as (ino' & T' & Da & Nn). rewrite T in T'. injection T' as <-.
  pose proof (i_al _ _ _ _ _ _ I _ Lc) as Dv. rewrite <- Ed, <- Da, Dt, <- Sz in Dv.
  pose proof (lenN_concat_all size xs Fx) as Lx.
  assert (Dy : N.divide size (lenN y)).
  { apply N.divide_add_cancel_r with (m := lenN (concat xs)); [exists (N.of_nat (length xs)); rewrite Lx; lia|].
    unfold lenN in *. rewrite app_length, Nat2N.inj_add in Dv. exact Dv. }
  rewrite Hs. cbn [prog_of]. destruct n as [|n]; [lia|].
  destruct (read_loop_unfold size dec closes n fd acc) as (h & Eh & H0 & H1). rewrite Eh, C1. cbn [step1 exec].
  unfold sys_read. rewrite F. cbn [of_ino of_rd of_pos of_append of_wr].
  assert (Sb : sub (size * N.of_nat (length xs)) size (w_data w ino) = sub 0 size y).
  { rewrite Dt, sub_app_r by lia. f_equal. lia. }
  rewrite Sb. set (A := map ev_answer (of_client i log)).
  assert (Ke : forall p1, kept_at w s (upd_st st i p1) (call_object c)).
  { intros p1. apply kept_keep; [apply I|exact Oc|apply Hc| |]; intros; congruence. }
  destruct y as [|b0 y0].
  - (* end of file *)
    assert (sub 0 size [] = []) as -> by (unfold sub; cbn; apply firstn_nil).
    rewrite app_nil_r in Dt. rewrite H0.
    assert (Mm : call_meets cd c (s (call_object c)) (s (call_object c)) (Ok (K (rev acc)))).
    { destruct (s (call_object c)) as [d'|] eqn:So.
      - cbn [old_or_empty] in Ed. rewrite <- Ed, <- Da, Dt. now apply M1.
      - destruct (Hcr eq_refl) as [Z1 Z2]. cbn [old_or_empty] in Ed.
        assert (xs = []) as ->.
        { destruct xs as [|x xs]; [reflexivity|]. exfalso. inversion Fx as [|? ? Hx _]. subst d. rewrite Dt in Da. cbn in Da.
          destruct x; [unfold lenN in Hx; cbn in Hx; lia|discriminate]. }
        assert (rev acc = []) as -> by (inversion G; reflexivity). apply M2; [exact Z1|].
        destruct (needs_file c) eqn:Nf; [|reflexivity]. exfalso.
        apply (i_more _ _ _ _ _ _ I (call_object c)); [exact Shc|now apply Hn|exact So]. }
    set (w1 := set_fd w fd _). set (r := Ok (K (rev acc))) in *.
    set (p1 := if closes then PClose rem (call_object c) fd else PNext rem).
    assert (Pq : ctx A (close_if closes fd (Ret (Ok (rev acc)))) = prog_of p1 (map ev_answer (of_client i (log ++ [Event i c r])))).
    { rewrite answers_snoc. unfold p1, close_if. destruct closes; cbn [prog_of]; rewrite ?C1, C2, rev_app_distr; reflexivity. }
    rewrite Pq.
    exists (log ++ [Event i c r]), s, (upd_st st i p1). cbn [fst snd].
    apply (inv_shared m w ps log s st i cs (call_object c) w1 p1 [Event i c r] s); auto; try (intros ? _; reflexivity).
    + unfold p1. now destruct closes.
    + apply sane_set_fd; [apply I|exact Qf|]. intros q j [= <-] [= <-]. eapply sane_ino; [apply I|exact T].
    + split; [reflexivity|]. intros q _. reflexivity.
    + right. exists c, r. split; [reflexivity|]. split; [reflexivity|]. split; [exact Mm|].
      split; [auto|]. split; [auto|]. intros Lo'. now apply (i_al _ _ _ _ _ _ I).
    + exact (Ke p1).
    + discriminate.
    + intros ? ? ? ? Z. congruence.
    + rewrite Hs. unfold p1. now destruct closes.
    + unfold p1. destruct closes; [|exact Logic.I]. split; [exact Oc|]. split; [apply Hc|exact Shc].
    + unfold p1. destruct closes; [right; left; now rewrite Hs|now left].
    + cbn. lia.
    + intros g Hg Ng. cbn. destruct N.eq_dec; [|reflexivity]. exfalso. apply Ng. now rewrite Hs, e.
    + intros x j _ _. exists []. now rewrite app_nil_r.
  - (* one more record *)
    set (y := b0 :: y0) in *. set (x := sub 0 size y).
    assert (Ly : size <= lenN y). { destruct Dy as [q Dy]. assert (q <> 0) by (intros ->; unfold lenN, y in Dy; cbn in Dy; lia). nia. }
    assert (Lxx : lenN x = size). { unfold x, sub, lenN in *. rewrite firstn_length, skipn_length. lia. }
    destruct (Dd x Lxx) as [a Ea].
    rewrite (H1 x a Lxx Pos Ea).
    set (w1 := set_fd w fd _).
    set (p1 := PRead rem c X size dec closes K ctx n (a :: acc) fd).
    change (ctx A (read_loop size dec false closes n fd (a :: acc))) with (prog_of p1 A).
    exists (log ++ []), s, (upd_st st i p1). cbn [fst snd].
    pose proof (inv_shared m w ps log s st i cs (call_object c) w1 p1 [] s) as U.
    rewrite app_nil_r in U |- *. apply U; clear U; auto; try (intros ? _; reflexivity).
    + apply sane_set_fd; [apply I|exact Qf|]. intros q j [= <-] [= <-]. eapply sane_ino; [apply I|exact T].
    + split; [reflexivity|]. intros q _. reflexivity.
    + exact (Ke p1).
    + intros ? ? ? ? Z. congruence.
    + intros ? ? ? ? Z. congruence.
    + now rewrite Hs.
    + exists ino, (xs ++ [x]), (skipn (N.to_nat size) y). split; [exact T|]. split.
      { cbn. destruct N.eq_dec; [|congruence]. rewrite app_length, Lxx. cbn [length]. do 2 f_equal. lia. }
      split.
      { cbn [w_data w1 set_fd]. rewrite Dt, concat_app. cbn [concat]. rewrite app_nil_r, <- app_assoc. f_equal.
        unfold x, sub. cbn [N.to_nat skipn]. now rewrite firstn_skipn. }
      split; [apply Forall_app; auto|]. split.
      { cbn [rev]. apply Forall2_app; [exact G|]. constructor; [exact Ea|constructor]. }
      split; [lia|]. repeat (split; [assumption|]). assumption.
    + right. left. now rewrite Hs.
    + cbn. lia.
    + intros g Hg Ng. cbn. destruct N.eq_dec; [|reflexivity]. exfalso. apply Ng. now rewrite Hs, e.
    + intros x' j _ _. exists []. now rewrite app_nil_r.
Qed.


(** a step on an object that nobody else uses *)
Lemma step_priv m w ps log s st i cs c rem R (k : sys R) (h : R -> prog (outcome answer)) v p :
  inv (Datatypes.S m) w ps log s st -> nth_error css i = Some cs -> Own i (call_object c) -> call_ok c -> O (call_object c) ->
  (st i = PNext (c :: rem) \/ exists q0, st i = PPriv rem c q0 v (s (call_object c))) ->
  held (st i) = v_held v -> view_ok w (place (call_object c)) v ->
  object_path wd (call_object c) = Ok p ->
  wp p (Datatypes.S m) (Call k h) (fun _ v r => call_meets cd c (s (call_object c)) (v_data v) r) v ->
  steps m ps i (step1 (bind (Call k h) (next rem (map ev_answer (of_client i log)))) w).
Proof.
  intros I Hi Ow Hc Oc Hs Hh V E W. set (o := call_object c) in *. set (A := map ev_answer (of_client i log)).
  destruct (place_path o w Oc (proj1 Hc) (i_cwd _ _ _ _ _ _ I)) as (p' & E' & N). rewrite E in E'. injection E' as <-.
  destruct (i_kept _ _ _ _ _ _ I o Oc (proj1 Hc)) as [D _].
  destruct (i_st _ _ _ _ _ _ I i cs Hi) as (_ & _ & _ & Qf). rewrite Hh in Qf.
  destruct (wp_step p (place o) m k h _ v w (i_sane _ _ _ _ _ _ I) N D V Qf W)
    as (v' & S1 & ((C1 & E1) & Nx & Fd & Tq) & V' & W' & Hv).
  cbn [bind step1]. destruct (exec k w) as [w1 x]. cbn [fst snd] in *.
  assert (Nw : forall rem c data fd, st i <> PWrite rem c data fd).
  { destruct Hs as [Hs|[q0 Hs]]; rewrite Hs; discriminate. }
  assert (Pn : pending (st i) = c :: rem).
  { destruct Hs as [Hs|[q0 Hs]]; rewrite Hs; reflexivity. }
  assert (NSh : forall x0 ino, Shared x0 -> w_tree w (place x0) = Some (NFile ino) -> w_tree w1 (place x0) = Some (NFile ino)).
  { intros x0 Sx ino T. rewrite Tq; [exact T|]. intros Z. apply place_inj in Z; [|now apply (proj1 HSP)|apply Hc].
    subst x0. eapply HOS; eauto. }
  assert (NL : forall x0 ino, L x0 -> w_tree w (place x0) = Some (NFile ino) -> exists z, w_data w1 ino = w_data w ino ++ z).
  { intros x0 ino Lx T. exists []. rewrite app_nil_r.
    assert (Np : place x0 <> place o).
    { intros Z. apply place_inj in Z; [|now apply HL|apply Hc]. subst x0. eapply HOS; [exact Ow|now apply HLS]. }
    specialize (E1 _ Np). unfold look in E1. rewrite (Tq _ Np), T in E1.
    destruct (place x0) eqn:Ep; [|now injection E1].
    exfalso. unfold place in Ep. apply app_eq_nil in Ep. destruct Ep as [_ Ep]. destruct x0; discriminate Ep. }
  destruct (h x) as [a|R' k' h'] eqn:Ex; cbn [wp] in W'.
  - (* the last step of the call *)
    set (s1 := st_set s o (v_data v')).
    assert (S1o : s1 o = v_data v'). { unfold s1, st_set. destruct object_eq_dec; congruence. }
    exists (log ++ [Event i c a]), s1, (upd_st st i (PNext rem)). cbn [fst snd bind].
    pose proof (inv_update m w ps log s st i cs o w1 (PNext rem) [Event i c a] s1) as U.
    cbn [prog_of] in U. rewrite answers_snoc, rev_app_distr in U. apply U; clear U; auto.
    + apply Hc.
    + split; assumption.
    + right. exists c, a. split; [reflexivity|]. split; [reflexivity|]. rewrite S1o. split; [exact W'|].
      split; [intros y Ny; unfold s1, st_set; destruct object_eq_dec; [contradiction|reflexivity]|].
      split; [intros So; exfalso; eapply HOS; eauto|]. intros Lo. exfalso. eapply HOS; [exact Ow|now apply HLS].
    + left. rewrite S1o. apply V'.
    + exists (v_data v). apply V.
    + discriminate.
    + intros ? ? ? ? ? Z. destruct Hs as [Hs|[q0 Hs]]; rewrite Hs in Z; [discriminate|]. now injection Z as _ <- _ _ _.
    + discriminate.
    + intros ? ? ? ? Z. now apply Nw in Z.
    + exact Logic.I.
    + intros fd Hfd. rewrite Hh. now apply Fd.
  - (* not the last one *)
    set (p1 := PPriv rem c (Call k' h') v' (s o)).
    change (bind (Call k' h') (next rem A)) with (prog_of p1 A).
    exists (log ++ []), s, (upd_st st i p1). cbn [fst snd].
    pose proof (inv_update m w ps log s st i cs o w1 p1 [] s) as U.
    rewrite app_nil_r in U |- *. apply U; clear U; auto.
    + apply Hc.
    + split; assumption.
    + right. right. exists i, rem, c, (Call k' h'), v', (s o). split; [apply nth_error_Some; congruence|]. split; [apply upd_st_same|reflexivity].
    + exists (v_data v). apply V.
    + intros ? ? ? ? ? [= <- <- <- <- <-]. auto.
    + intros ? ? ? ? ? Z. destruct Hs as [Hs|[q0 Hs]]; rewrite Hs in Z; [discriminate|]. now injection Z as _ <- _ _ _.
    + intros ? ? ? ? Z. now apply Nw in Z.
    + intros ? ? ? ? Z. now apply Nw in Z.
    + split; [exact V'|]. split; [eexists _, _, _; reflexivity|]. exists p. split; [exact E|exact W'].
    + rewrite Hh. exact Hv.
    + intros fd Hfd. rewrite Hh. now apply Fd.
Qed.

Lemma do_priv m w ps log s st i cs rem c q v old :
  inv (Datatypes.S m) w ps log s st -> nth_error css i = Some cs -> st i = PPriv rem c q v old ->
  steps m ps i (step1 (prog_of (st i) (map ev_answer (of_client i log))) w).
Proof.
  intros I Hi Hs. assert (Li : (i < length css)%nat) by (apply nth_error_Some; congruence).
  destruct (i_priv _ _ _ _ _ _ I _ _ _ _ _ _ Li Hs) as [Ow So].
  assert (Hf : ok_call i c) by (eapply fine_pending; eauto; now rewrite Hs). destruct Hf as (Hc & Oc & _).
  destruct (i_st _ _ _ _ _ _ I i cs Hi) as (_ & _ & Q & _). rewrite Hs in Q.
  destruct Q as (V & (R & k & h & ->) & p & E & W). subst old.
  rewrite Hs. cbn [prog_of]. eapply step_priv; eauto; now rewrite Hs.
Qed.

Lemma do_next m w ps log s st i cs c rem :
  inv (Datatypes.S m) w ps log s st -> nth_error css i = Some cs -> st i = PNext (c :: rem) -> (m < fuel)%nat ->
  steps m ps i (step1 (prog_of (st i) (map ev_answer (of_client i log))) w).
Proof.
  intros I Hi Hs Hm.
  assert (Hk : ok_call i c) by (eapply fine_pending; eauto; now rewrite Hs).
  destruct Hk as (Hc & Oc & [Ow|Hf]).
  { destruct (place_path (call_object c) w Oc (proj1 Hc) (i_cwd _ _ _ _ _ _ I)) as (p & E & _).
    pose proof (call_wp cd wd c fuel p (s (call_object c)) (Datatypes.S m) Hc E Hm) as W.
    destruct (call_starts cd wd c fuel p Hc E) as (R & k & h & Ec). rewrite Ec in W.
    rewrite Hs. cbn [prog_of client_from]. rewrite Ec.
    apply (step_priv m w ps log s st i cs c rem R k h (View (s (call_object c)) None) p); auto; [now rewrite Hs|].
    destruct (i_kept _ _ _ _ _ _ I _ Oc (proj1 Hc)) as [_ [Q|[(Q1 & Q2 & j & rem' & c' & data & fd & Q3 & Q4 & Q5 & Q6)|(j & rem' & c' & q & v & old & Q1 & Q2 & Q3)]]].
    - split; [exact Q|exact Logic.I].
    - exfalso. destruct (nth_error css j) as [cs'|] eqn:Ej; [|apply nth_error_None in Ej; lia].
      destruct (i_st _ _ _ _ _ _ I j cs' Ej) as (_ & _ & Q & _). rewrite Q4 in Q.
      destruct Q as (? & ? & ? & _ & _ & _ & _ & _ & _ & So). rewrite Q5 in So. eapply HOS; eauto.
    - exfalso. destruct (i_priv _ _ _ _ _ _ I _ _ _ _ _ _ Q1 Q2) as [Oj _]. rewrite Q3 in Oj.
      rewrite (HO1 _ _ _ Oj Ow) in Q2. congruence. }
  clear Hc Oc. pose proof Hf as (Hc & Oc & [Ka Shc] & Up & Li & Hn).
  destruct (place_path (call_object c) w Oc (proj1 Hc) (i_cwd _ _ _ _ _ _ I)) as (p & E & _).
  destruct c; cbn [atomic_kind lists_records] in Ka; try discriminate; cbn [call_object object_path] in E.
  - apply (start_write m w ps log s st i cs _ rem O_APPEND_CREATE_WRONLY p (M_File.MarshalToByte cd f) I Hi Hs Hf E); auto.
    + cbn [call_prog]. unfold AddArticleRecordFileRecord. now rewrite E.
    + intros d. cbn [o_append O_APPEND_CREATE_WRONLY]. rewrite write_at_end. exists (MarshalToByte cd f). split; [apply file_encode|auto].
    + intros _. exists (MarshalToByte cd f). split; [apply file_encode|auto].
    + discriminate.
    + intros _. split; [reflexivity|]. cbn [call_object record_size]. exists 1. rewrite (marshal_length cd f). reflexivity.
  - now apply (start_update m w ps log s st i cs rem b i0 f).
  - apply (start_list m w ps log s st i cs (ListRecords b) rem p FileHeader 128 (NewFileHeaderWithByte cd) true Files
      (fun A q => bind (bind (bind q (fun o => match o with
         | Err e => if says_no_such_file p e then Ret (Ok []) else Ret (Err e) | _ => Ret o end))
         (fun o => match o with Ok a => Ret (Ok (Files a)) | Err e => Ret (Err e) | Panic => Ret Panic | Diverge => Ret Diverge end))
         (next rem A)) (Ok (Files [])) I Hi Hs Hf E Hm); auto; try reflexivity.
    + intros A. cbn [client_from call_prog]. unfold ReadBoardArticleRecordsFile. rewrite E. reflexivity.
    + apply header_decodes.
    + intros l l' F G. split; [reflexivity|]. exists l, l'. split; [now apply (slots_concat 128); [lia|]|]. split; [|reflexivity].
      eapply decoded_all; [|exact F|exact G]. intros x Lx. apply file_decode. unfold lenN. lia.
    + intros _ _. split; [reflexivity|]. exists [], []. split; [apply (slots_concat 128 []); [lia|constructor]|]. split; [constructor|reflexivity].
    + intros _. split; [reflexivity|]. exists [], []. split; [apply (slots_concat 128 []); [lia|constructor]|]. split; [constructor|reflexivity].
  - apply (start_list m w ps log s st i cs (ListTreasures b path) rem p FileHeader 128 (NewFileHeaderWithByte cd) true Files
      (fun A q => bind (bind q
         (fun o => match o with Ok a => Ret (Ok (Files a)) | Err e => Ret (Err e) | Panic => Ret Panic | Diverge => Ret Diverge end))
         (next rem A)) no_file I Hi Hs Hf E Hm); auto; try reflexivity.
    + intros A. cbn [client_from call_prog]. unfold ReadBoardTreasureRecordsFile. rewrite E. reflexivity.
    + apply header_decodes.
    + intros l l' F G. split; [reflexivity|]. exists l, l'. split; [now apply (slots_concat 128); [lia|]|]. split; [|reflexivity].
      eapply decoded_all; [|exact F|exact G]. intros x Lx. apply file_decode. unfold lenN. lia.
    + intros Z; destruct Z.
    + split; reflexivity.
  - apply (start_write m w ps log s st i cs _ rem O_WRONLY_CREATE p c I Hi Hs Hf E); auto.
    + cbn [call_prog]. unfold DB_WriteBoardArticleFile. now rewrite E.
    + intros d. cbn [o_append O_WRONLY_CREATE]. rewrite write_at_0. now apply write_article_meets.
    + intros _. pose proof (write_article_meets cd b f c None) as Q. cbn [old_or_empty] in Q. now rewrite skipn_nil, app_nil_r in Q.
    + discriminate.
    + intros Lx. apply HL2 in Lx. discriminate.
  - apply (start_write m w ps log s st i cs _ rem O_APPEND_WRONLY p c I Hi Hs Hf E); auto.
    + cbn [call_prog]. unfold DB_AppendBoardArticleFile. now rewrite E.
    + intros d. cbn [o_append O_APPEND_WRONLY]. rewrite write_at_end. split; reflexivity.
    + discriminate.
    + intros _. split; [split; reflexivity|exact Up].
    + intros Lx. apply HL2 in Lx. discriminate.
  - apply (start_all m w ps log s st i cs _ rem p I Hi Hs Hf E); auto; try (split; reflexivity).
    cbn [call_prog]. unfold DB_ReadBoardArticleFile. now rewrite E.
  - apply (start_all m w ps log s st i cs _ rem p I Hi Hs Hf E); auto; try (split; reflexivity).
    cbn [call_prog]. unfold ReadBoardTreasureFile. now rewrite E.
  - apply (start_write m w ps log s st i cs _ rem O_APPEND_CREATE_WRONLY p (BoardHeader_MarshalBinary cd h) I Hi Hs Hf E); auto.
    + cbn [call_prog]. unfold AddBoardRecord. now rewrite E.
    + intros d. cbn [o_append O_APPEND_CREATE_WRONLY]. rewrite write_at_end. exists (BoardHeader_MarshalBinary cd h). split; [apply board_encode|auto].
    + intros _. exists (BoardHeader_MarshalBinary cd h). split; [apply board_encode|auto].
    + discriminate.
    + intros _. split; [reflexivity|]. cbn [call_object record_size]. exists 1. rewrite (board_length cd h). reflexivity.
  - apply (start_list m w ps log s st i cs ListBoards rem p BoardHeader 256 (UnmarshalBoardHeader cd) false BoardList
      (fun A q => bind (bind q
         (fun o => match o with Ok a => Ret (Ok (BoardList a)) | Err e => Ret (Err e) | Panic => Ret Panic | Diverge => Ret Diverge end))
         (next rem A)) no_file I Hi Hs Hf E Hm); auto; try reflexivity.
    + intros A. cbn [client_from call_prog]. unfold ReadBoardRecords. rewrite E. reflexivity.
    + intros b Lb. destruct (board_decode cd b) as (x & E' & _); [lia|eauto].
    + intros l l' F G. split; [reflexivity|]. exists l, l'. split; [now apply (slots_concat 256); [lia|]|]. split; [|reflexivity].
      eapply decoded_all; [|exact F|exact G]. intros x Lx. apply board_decode. unfold lenN. lia.
    + discriminate.
    + split; reflexivity.
  - apply (start_list m w ps log s st i cs ListUsers rem p Userec 512 (UnmarshalUserec cd) false UserList
      (fun A q => bind (bind q
         (fun o => match o with Ok a => Ret (Ok (UserList a)) | Err e => Ret (Err e) | Panic => Ret Panic | Diverge => Ret Diverge end))
         (next rem A)) no_file I Hi Hs Hf E Hm); auto; try reflexivity.
    + intros A. cbn [client_from call_prog]. unfold ReadUserRecords. rewrite E. reflexivity.
    + intros b Lb. destruct (userec_decode cd b) as (x & E' & _); [lia|eauto].
    + intros l l' F G. split; [reflexivity|]. exists l, l'. split; [now apply (slots_concat 512); [lia|]|]. split; [|reflexivity].
      eapply decoded_all; [|exact F|exact G]. intros x Lx. apply userec_decode. unfold lenN. lia.
    + intros Z; destruct Z.
    + split; reflexivity.
Qed.

Lemma step_inv m w ps log s st i p :
  inv (Datatypes.S m) w ps log s st -> (m < fuel)%nat -> nth_error ps i = Some p -> steps m ps i (step1 p w).
Proof.
  intros I Hm Hp.
  destruct (nth_error css i) as [cs|] eqn:Hi.
  2:{ apply nth_error_None in Hi. rewrite <- (i_len _ _ _ _ _ _ I) in Hi. apply nth_error_None in Hi. congruence. }
  destruct (i_st _ _ _ _ _ _ I i cs Hi) as (Q & _ & _ & _). rewrite Hp in Q. injection Q as ->.
  destruct (st i) as [[|c rem]|rem b k f fd|rem c data fd|rem c X size dec closes K ctx n acc fd|rem c fd|rem o fd|rem c q v old] eqn:Hs; rewrite <- Hs.
  - rewrite Hs. cbn [prog_of client_from step1]. exists log, s, st. cbn [fst snd].
    rewrite upd_nth_id by (rewrite Hp; now cbn). now apply inv_weaken.
  - eapply do_next; eauto.
  - eapply do_seek; eauto.
  - eapply do_write; eauto.
  - eapply do_read; eauto.
  - eapply do_all; eauto.
  - eapply do_close; eauto.
  - eapply do_priv; eauto.
Qed.

Lemma pool_inv sched w ps log s st m :
  inv (length sched + m) w ps log s st -> (length sched + m <= fuel)%nat ->
  exists log' s' st', inv m (fst (run_pool sched w ps)) (snd (run_pool sched w ps)) log' s' st'.
Proof.
  revert w ps log s st. induction sched as [|i sched IH]; intros w ps log s st I Hm; cbn [run_pool length Nat.add] in *.
  - eauto.
  - destruct (nth_error ps i) as [p|] eqn:Hp.
    + destruct (step_inv _ _ _ _ _ _ _ _ I Hm Hp) as (log1 & s1 & st1 & I1).
      destruct (step1 p w) as [w1 p1]. cbn [fst snd] in I1. eapply IH; [exact I1|lia].
    + eapply IH; [eapply inv_weaken; exact I|lia].
Qed.

Lemma inv_init m : log0 = [] -> aligned s0 -> inv m w0 (map (client cd wd fuel) css) [] s0 (fun i => PNext (nth i css [])).
Proof.
  intros L0 Al. constructor; auto.
  - constructor.
  - discriminate.
  - intros o Oo Po. destruct (ST0 o Oo Po) as (p & rp & E & N & D & Lo).
    pose proof (object_names wd o p w0 rp Po Nwd E N) as ->. split; [exact D|now left].
  - apply map_length.
  - intros e [].
  - rewrite L0. now exists [].
  - intros i cs Hi. rewrite nth_error_map, Hi. cbn [option_map]. rewrite (nth_error_nth _ _ _ Hi).
    split; [reflexivity|]. split; [reflexivity|]. split; [exact Logic.I|]. discriminate.
  - discriminate.
Qed.

Lemma inv_any m w ps log s st :
  inv m w ps log s st ->
  (forall o, O o -> plain_object o -> exists p rp, object_path wd o = Ok p /\ names w p rp /\ has_dir w rp /\
     (look w rp = option_map EFile (s o) \/ (s o = None /\ look w rp = Some (EFile []) /\ creating st o) \/
      exists j cs c rest, nth_error css j = Some cs /\ Own j o /\ st j <> PNext [] /\ call_object c = o /\
        map ev_call (of_client j log) ++ c :: rest = cs)) /\
  (forall i cs, nth_error css i = Some cs ->
     exists rest, map ev_call (of_client i log) ++ rest = cs /\
       forall rs, nth_error ps i = Some (Ret rs) -> st i = PNext [] /\ rest = [] /\ rs = map ev_answer (of_client i log)).
Proof.
  intros I. split.
  - intros o Oo Po. destruct (i_kept _ _ _ _ _ _ I o Oo Po) as [D Q].
    destruct (place_path o w Oo Po (i_cwd _ _ _ _ _ _ I)) as (p & E & N). exists p, (place o).
    split; [exact E|]. split; [exact N|]. split; [exact D|]. destruct Q as [Q|[Q|Q]]; auto.
    right. right. destruct Q as (j & rem & c & q & v & old & Q1 & Q2 & Q3).
    destruct (nth_error css j) as [cs|] eqn:Ej; [|apply nth_error_None in Ej; lia].
    destruct (i_priv _ _ _ _ _ _ I _ _ _ _ _ _ Q1 Q2) as [Ow _]. rewrite Q3 in Ow.
    destruct (i_st _ _ _ _ _ _ I j cs Ej) as (_ & Q4 & _). rewrite Q2 in Q4.
    exists j, cs, c, rem. rewrite Q2. split; [exact Ej|]. split; [exact Ow|]. split; [discriminate|]. auto.
  - intros i cs Hi. destruct (i_st _ _ _ _ _ _ I i cs Hi) as (Q1 & Q2 & Q3 & _). exists (pending (st i)). split; [exact Q2|].
    intros rs E. rewrite Q1 in E.
    assert (Hs : st i = PNext []).
    { destruct (st i) as [[|c rem]|rem b k f fd|rem c data fd|rem c X size dec closes K ctx n acc fd|rem c fd|rem o fd|rem c q v old] eqn:Hs; try discriminate E; auto.
      - exfalso.
        assert (Hf : ok_call i c) by (eapply (fine_pending _ _ _ _ _ _ i cs c rem); eauto; now rewrite Hs).
        destruct Hf as (Hc & Oc & _).
        destruct (place_path (call_object c) w0 Oc (proj1 Hc) eq_refl) as (p & E' & _).
        destruct (call_starts cd wd c fuel p Hc E') as (R & k & h & Ec).
        cbn [prog_of client_from] in E. rewrite Ec in E. discriminate E.
      - exfalso. destruct Q3 as (ino & xs & y & _ & _ & _ & _ & _ & Hm & _ & _ & _ & _ & _ & _ & C1 & _).
        cbn [prog_of] in E. destruct n as [|n]; [lia|]. cbn [read_loop] in E. rewrite C1 in E. discriminate E.
      - exfalso. destruct Q3 as (_ & (R & k & h & ->) & _). discriminate E. }
    rewrite Hs in *. cbn [pending prog_of client_from] in E |- *. rewrite rev_involutive in E. injection E as <-. auto.
Qed.
End Pool.

Lemma inv_rebase cd wd w O s L New Own Shared fuel css m w' ps log s' st :
  inv cd wd w O s L New Own Shared fuel css [] m w' ps log s' st -> inv cd wd w O s L New Own Shared fuel css log m w' ps log s' st.
Proof. intros I. constructor; try apply I. exists []. now rewrite app_nil_r. Qed.

(** ** Who uses which file *)
Lemma uses_in o cs : uses o cs = true <-> exists c, In c cs /\ call_object c = o.
Proof.
  unfold uses. rewrite existsb_exists. split; intros (c & I1 & I2); exists c; (split; [exact I1|]); destruct object_eq_dec; congruence.
Qed.
Lemma filter_one {A} (P : A -> bool) l i j x y : length (filter P l) = 1%nat -> nth_error l i = Some x -> nth_error l j = Some y ->
  P x = true -> P y = true -> i = j.
Proof.
  assert (G : forall l i x, nth_error l i = Some x -> P x = true -> (1 <= length (filter P l))%nat).
  { clear. induction l as [|a l IH]; intros [|i] x H Px; try discriminate H; cbn [filter].
    - injection H as ->. rewrite Px. cbn. lia.
    - apply IH in H; [|exact Px]. destruct (P a); cbn; lia. }
  revert i j. induction l as [|a l IH]; intros [|i] [|j] L Hi Hj Px Py; try discriminate Hi; try discriminate Hj; auto; cbn [filter] in L; cbn [nth_error] in Hi, Hj.
  - injection Hi as ->. rewrite Px in L. cbn [length] in L. pose proof (G _ _ _ Hj Py). lia.
  - injection Hj as ->. rewrite Py in L. cbn [length] in L. pose proof (G _ _ _ Hi Px). lia.
  - f_equal. apply IH; auto. destruct (P a); [|exact L]. cbn [length] in L. pose proof (G _ _ _ Hi Px). lia.
Qed.
Lemma filter_two {A} (P : A -> bool) l : (2 <= length (filter P l))%nat ->
  exists i j x y, i <> j /\ nth_error l i = Some x /\ nth_error l j = Some y /\ P x = true /\ P y = true.
Proof.
  induction l as [|a l IH]; cbn [filter length]; [lia|]. destruct (P a) eqn:Pa; cbn [length]; intros H.
  - destruct (filter P l) as [|b r] eqn:E; [cbn in H; lia|].
    assert (Q : In b (filter P l)) by (rewrite E; now left). apply filter_In in Q. destruct Q as [Q Pb].
    apply In_nth_error in Q. destruct Q as [j Q]. exists 0%nat, (Datatypes.S j), a, b. auto.
  - destruct (IH H) as (i & j & x & y & N & Q). exists (Datatypes.S i), (Datatypes.S j), x, y. split; [lia|exact Q].
Qed.
Lemma users_pos css i cs c : nth_error css i = Some cs -> In c cs -> (1 <= users css (call_object c))%nat.
Proof.
  intros Hi Hc. unfold users. assert (Q : In cs (filter (uses (call_object c)) css)).
  { apply filter_In. split; [now apply nth_error_In in Hi|]. apply uses_in. eauto. }
  destruct (filter _ _); [contradiction|cbn; lia].
Qed.
Lemma separate_clients O s css :
  Forall call_ok (concat css) -> Forall (fun c => O (call_object c)) (concat css) ->
  (forall i j ci cj c c', nth_error css i = Some ci -> nth_error css j = Some cj -> In c ci -> In c' cj ->
     call_object c = call_object c' -> i = j) -> clients_ok O s css.
Proof.
  intros F1 F2 H. constructor; auto.
  assert (E : shared_calls css = []).
  { unfold shared_calls. generalize (concat css) as l. induction l as [|c l IH]; [reflexivity|]. cbn [filter].
    destruct (Nat.leb_spec 2 (users css (call_object c))) as [U|U]; [|exact IH]. exfalso.
    apply filter_two in U. destruct U as (i & j & x & y & N & I1 & I2 & P1 & P2).
    apply uses_in in P1, P2. destruct P1 as (c1 & J1 & E1), P2 as (c2 & J2 & E2). apply N. eapply H; eauto. congruence. }
  rewrite E. constructor; auto; intros; contradiction.
Qed.
(** conditions on all calls imply those on the shared ones *)
Lemma pool_ok_sub O s cs cs' : (forall c, In c cs' -> In c cs) -> pool_ok O s cs -> pool_ok O s cs'.
Proof.
  intros H [P1 P2 P3 P4 P5 P6 P7]. rewrite Forall_forall in *. constructor; rewrite ?Forall_forall; auto.
  - intros b i f Hi. destruct (P4 b i f (H _ Hi)) as [Q1 Q2]. auto.
  - intros b n t Hi. destruct (P5 b n t (H _ Hi)) as [Q|Q]; auto.
Qed.
Lemma pool_ok_clients O s css : pool_ok O s (concat css) -> clients_ok O s css.
Proof.
  intros P. constructor; [apply P|apply P|]. eapply pool_ok_sub; [|exact P]. intros c Hc. now apply filter_In in Hc.
Qed.

Lemma run_pool_app {A} s1 s2 w (ps : list (prog A)) : 
  run_pool (s1 ++ s2) w ps = run_pool s2 (fst (run_pool s1 w ps)) (snd (run_pool s1 w ps)).
Proof.
  revert w ps. induction s1 as [|i s1 IH]; intros w ps; [reflexivity|]. cbn [app run_pool].
  destruct (nth_error ps i) as [p|]; [|apply IH]. destruct (step1 p w) as [w1 p1]. apply IH.
Qed.

(** At every moment of every schedule the pool is explained by a history, and the
    history only grows. *)
Lemma pool_linearizes_any cd wd O s w css fuel sched1 sched2 w1 ps1 w2 ps2 :
  ~ In x00 wd -> sane w -> stored w wd O s -> clients_ok O s css -> (length (sched1 ++ sched2) <= fuel)%nat ->
  run_pool sched1 w (map (client cd wd fuel) css) = (w1, ps1) -> run_pool sched2 w1 ps1 = (w2, ps2) ->
  exists log1 s1 log2 s2,
    explained cd wd O s css w log1 s1 w1 ps1 /\ explained cd wd O s css w (log1 ++ log2) s2 w2 ps2.
Proof.
  intros Nw Sw ST [C1 C2 [P1 P2 P3 P4 P7 P5 P6]] Fu R1 R2. set (sc := shared_calls css) in *.
  pose (L := fun o => exists c, In c sc /\ lists_records c = true /\ call_object c = o).
  pose (New := fun o => exists b n t, o = Article b n /\ In (WriteArticle b n t) sc /\ s o = None).
  pose (Shared := fun o => (2 <= users css o)%nat).
  pose (Own := fun i o => users css o = 1%nat /\ exists cs, nth_error css i = Some cs /\ uses o cs = true).
  assert (HOS : forall i o, Own i o -> ~ Shared o) by (intros i o [U _] Z; unfold Shared in Z; lia).
  assert (HO1 : forall i j o, Own i o -> Own j o -> i = j).
  { intros i j o [U (cs & A1 & A2)] [_ (cs' & B1 & B2)]. unfold users in U. eapply filter_one; eauto. }
  assert (HSh : forall c, In c sc <-> In c (concat css) /\ Shared (call_object c)).
  { intros c. unfold sc, shared_calls. rewrite filter_In, Nat.leb_le. reflexivity. }
  assert (HLS : forall o, L o -> Shared o).
  { intros o (c & I1 & _ & <-). now apply HSh in I1. }
  assert (HSP : shared_plain Shared).
  { split; [|exact Logic.I]. intros o So. unfold Shared, users in So. destruct (filter (uses o) css) as [|cs l] eqn:E; [cbn in So; lia|].
    assert (Q : In cs (filter (uses o) css)) by (rewrite E; now left). apply filter_In in Q. destruct Q as [Q1 Q2].
    apply uses_in in Q2. destruct Q2 as (c & Q2 & <-). rewrite Forall_forall in C1. apply C1. apply in_concat. eauto. }
  assert (Fine : forall i cs, nth_error css i = Some cs -> Forall (ok_call O s L New Own Shared i) cs).
  { rewrite Forall_forall in *. intros i cs Hi. rewrite Forall_forall. intros c Hc.
    assert (Ic : In c (concat css)) by (apply in_concat; exists cs; split; [now apply nth_error_In in Hi|exact Hc]).
    split; [now apply C1|]. split; [now apply C2|].
    pose proof (users_pos css i cs c Hi Hc) as Up.
    destruct (Nat.eq_dec (users css (call_object c)) 1) as [U|U].
    { left. split; [exact U|]. exists cs. split; [exact Hi|]. apply uses_in. eauto. }
    assert (Shc : Shared (call_object c)) by (unfold Shared; lia).
    assert (Is : In c sc) by (apply HSh; auto). right.
    split; [now apply P1|]. split; [now apply P2|]. split; [split; [now apply P3|exact Shc]|]. split.
    - destruct c as [|b k f| | |b f t|b f t|b f| | | | | | |]; auto.
      + intros (c & I1 & I2 & I3). destruct (P4 _ _ _ Is) as [Q _]. apply Q.
        destruct c; try discriminate. cbn in I3. injection I3 as <-. exact I1.
      + destruct (s (Article b f)) eqn:Z; [now left|]. right. exists b, f, t. auto.
      + intros (b' & f' & t' & [= <- <-] & I1 & I2). destruct (P7 _ _ _ I1) as [Q|Q]; [contradiction|].
        specialize (Q _ Is eq_refl). discriminate Q.
      + intros (b' & f' & t' & [= <- <-] & I1 & I2). destruct (P7 _ _ _ I1) as [Q|Q]; [contradiction|].
        specialize (Q _ Is eq_refl). discriminate Q.
    - split; [intros Hl; exists c; auto|]. destruct c; try discriminate; intros _; cbn.
      + now destruct (P4 _ _ _ Is).
      + auto. }
  assert (HL : forall o, L o -> plain_object o).
  { intros o (c & I1 & _ & <-). rewrite Forall_forall in P1. now apply P1. }
  assert (HL2 : forall o, L o -> listable o = true).
  { intros o (c & _ & I2 & <-). destruct c; try discriminate; reflexivity. }
  assert (Al : aligned L s).
  { intros o (c & I1 & I2 & <-). now apply P6. }
  assert (G : forall l0 m w' ps' log s' st, inv cd wd w O s L New Own Shared fuel css l0 m w' ps' log s' st -> explained cd wd O s css w log s' w' ps').
  { intros l0 m w' ps' log s' st I.
    destruct (inv_any cd wd w O s L New Own Shared HOS HO1 HLS fuel css l0 Nw ST Fine HL HL2 m w' ps' log s' st I) as [A B].
    split; [apply I|]. split; [apply I|]. split; [apply I|]. split.
    { intros o Oo Po. destruct (A o Oo Po) as (p & rp & A1 & A2 & A3 & A4). exists p, rp.
      split; [exact A1|]. split; [exact A2|]. split; [exact A3|].
      destruct A4 as [A4|[(A4 & A5 & _)|(j & cs & c & rest & J1 & [J2 _] & _ & J3 & J4)]]; auto.
      right. right. split; [exact J2|]. exists j, cs, c, rest. auto. }
    split; [apply I|]. split.
    { intros i cs Hi. destruct (B i cs Hi) as (rest & B1 & B2). exists rest. split; [exact B1|]. intros rs Hr. now apply B2. }
    split; [apply I|]. split.
    { intros q Hq. eapply i_out; [exact I|]. intros o Oo Po E.
      destruct (ST o Oo Po) as (p & rp & P & N & _). apply (Hq o p Oo Po P). rewrite E.
      pose proof (object_names wd o p w rp Po Nw P N) as R. unfold place. now rewrite <- R. }
    intros Fin.
    assert (Idle : forall j cs, nth_error css j = Some cs -> st j = PNext []).
    { intros j cs Ej. assert (Hj : (j < length css)%nat) by (apply nth_error_Some; congruence).
      destruct (nth_error ps' j) as [pj|] eqn:Epj; [|apply nth_error_None in Epj; rewrite (i_len _ _ _ _ _ _ _ _ _ _ _ _ _ _ _ _ _ _ I) in Epj; lia].
      destruct (Fin _ (nth_error_In _ _ Epj)) as [rs ->].
      destruct (B j cs Ej) as (rest & _ & B2). now apply (B2 rs). }
    intros o Oo Po. destruct (A o Oo Po) as (p & rp & A1 & A2 & A3 & A4). exists p, rp.
    split; [exact A1|]. split; [exact A2|]. split; [exact A3|].
    destruct A4 as [A4|[(_ & _ & j & rem & c & data & fd & Hj & Hs & _)|(j & cs & c & rest & J1 & _ & J2 & _)]]; auto; exfalso.
    - destruct (nth_error css j) as [cs|] eqn:Ej; [|apply nth_error_None in Ej; lia]. rewrite (Idle j cs Ej) in Hs. discriminate Hs.
    - apply J2. eapply Idle; eauto. }
  rewrite app_length in Fu.
  destruct (pool_inv cd wd w O s L New Own Shared HOS HO1 HLS fuel css [] Nw ST Fine HL HSP HL2 sched1 w _ [] s _ (length sched2)
    (inv_init cd wd w O s L New Own Shared fuel css [] Nw Sw ST _ eq_refl Al) Fu) as (log & s' & st & I).
  rewrite R1 in I. cbn [fst snd] in I.
  pose proof (inv_rebase _ _ _ _ _ _ _ _ _ _ _ _ _ _ _ _ _ I) as I'.
  destruct (pool_inv cd wd w O s L New Own Shared HOS HO1 HLS fuel css log Nw ST Fine HL HSP HL2 sched2 w1 ps1 log s' st 0%nat) as (log2 & s2 & st2 & I2).
  { rewrite Nat.add_0_r. exact I'. }
  { lia. }
  rewrite R2 in I2. cbn [fst snd] in I2.
  destruct (i_pre _ _ _ _ _ _ _ _ _ _ _ _ _ _ _ _ _ _ I2) as [more ->].
  exists log, s', more, s2. split; eapply G; eassumption.
Qed.

Lemma pool_linearizes cd wd O s w css fuel sched w' ps' :
  ~ In x00 wd -> sane w -> stored w wd O s -> clients_ok O s css -> (length sched <= fuel)%nat ->
  run_pool sched w (map (client cd wd fuel) css) = (w', ps') -> (forall p, In p ps' -> exists rs, p = Ret rs) ->
  exists log s',
    history_meets cd (map ev_call log) s s' (map ev_answer log) /\ stored w' wd O s' /\ sane w' /\
    (forall e, In e log -> (ev_client e < length css)%nat) /\
    (forall i cs, nth_error css i = Some cs ->
       map ev_call (of_client i log) = cs /\ nth_error ps' i = Some (Ret (map ev_answer (of_client i log)))) /\
    w_cwd w' = w_cwd w /\
    (forall q, (forall o, O o -> plain_object o -> q <> home_dir (w_cwd w) wd ++ object_comps o) -> look w' q = look w q).
Proof.
  intros Nw Sw ST P Fu R Fin.
  destruct (pool_linearizes_any cd wd O s w css fuel sched [] w' ps' w' ps' Nw Sw ST P) as (log & s' & _ & _ & X & _); auto.
  { now rewrite app_nil_r. }
  destruct X as (H & S' & C & _ & Ow & Cl & Le & Out & Sto).
  exists log, s'. split; [exact H|]. split; [now apply Sto|]. split; [exact S'|]. split; [exact Ow|]. split; [|split; [exact C|]].
  2:{ intros q Hq. apply Out. intros o p Oo Po E Nq. apply (Hq o Oo Po). eapply object_names; eauto. }
  intros i cs Hi. destruct (Cl i cs Hi) as (rest & E & Q).
  destruct (nth_error ps' i) as [p|] eqn:Ep.
  - destruct (Fin _ (nth_error_In _ _ Ep)) as [rs ->]. destruct (Q rs eq_refl) as [-> ->].
    rewrite app_nil_r in E. auto.
  - exfalso. apply nth_error_None in Ep. assert (i < length css)%nat by (apply nth_error_Some; congruence). lia.
Qed.
