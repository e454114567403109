(** * Property theorems about names: C25, C45, C27 *)
From Verif Require Import M_Base M_Sys M_Path M_Registry S_World S_Path P_Base P_Sys P_Path.
Open Scope N_scope.

(** ** C25: different objects, different files, all below the home *)
Theorem C25_different_files : forall cwd wd o o' p p',
  ~ In x00 wd -> plain_object o -> plain_object o' ->
  object_path wd o = Ok p -> object_path wd o' = Ok p' ->
  resolve cwd p = resolve cwd p' -> o = o'.
Proof.
  intros cwd wd o o' p p' N H H' P P' E.
  destruct (object_resolves cwd wd o H N) as (q & Q & _ & R).
  destruct (object_resolves cwd wd o' H' N) as (q' & Q' & _ & R').
  rewrite P in Q. rewrite P' in Q'. injection Q as <-. injection Q' as <-.
  rewrite R, R' in E. apply app_inv_head in E. now apply object_comps_inj.
Qed.
Print Assumptions C25_different_files.

Theorem C25_below_home : forall cwd wd o,
  ~ In x00 wd -> plain_object o ->
  exists p below, object_path wd o = Ok p /\ proper p /\ below <> [] /\
    resolve cwd p = home_dir cwd wd ++ below.
Proof.
  intros cwd wd o N H. destruct (object_resolves cwd wd o H N) as (p & P & Q & R).
  exists p, (object_comps o). repeat split; auto; try apply Q. destruct o; discriminate.
Qed.
Print Assumptions C25_below_home.

Lemma sysop_ident : ident (str "SYSOP").
Proof.
  split; [|discriminate]. repeat split; try discriminate; vm_compute; intros Q;
  repeat destruct Q as [Q|Q]; discriminate || contradiction.
Qed.
Lemma article_component : component (str "M.1.A.001").
Proof. cstr. Qed.
Example C25_nonvacuous :
  plain_object (Article (str "SYSOP") (str "M.1.A.001")) /\ plain_object (Index (str "SYSOP")) /\
  object_path (str "/home/bbs") (Article (str "SYSOP") (str "M.1.A.001"))
    = Ok (str "/home/bbs/boards/S/SYSOP/M.1.A.001").
Proof.
  split; [|split; [exact sysop_ident|vm_compute; reflexivity]].
  split; [exact sysop_ident|]. split; [exact article_component|]. split; discriminate.
Qed.

(** Without the restriction on names the statement is false: article names may
    leave the board directory and the home. *)
Theorem C25_leaves_home_refuted : exists wd f p,
  object_path wd (Article (str "SYSOP") f) = Ok p /\
  resolve [] p = [str "etc"; str "passwd"] /\ home_dir [] wd = [str "home"; str "bbs"].
Proof.
  exists (str "/home/bbs"), (str "../../../../../etc/passwd"). eexists.
  split; [reflexivity|]. split; vm_compute; reflexivity.
Qed.
Print Assumptions C25_leaves_home_refuted.

(** Empty board and user names panic, for every kind of object. *)
Theorem C25_empty_name_panics : forall wd o,
  match o with
  | Passwds | Boards => False
  | Favourites u | Draft u _ | Mail u _ | Logins u => u = []
  | Index b | BoardName b | Article b _ | TreasureIndex b _ | Treasure b _ _ => b = []
  end -> object_path wd o = Panic.
Proof. intros wd o H. destruct o; try contradiction; subst; reflexivity. Qed.
Print Assumptions C25_empty_name_panics.
Theorem C25_nonempty_name_no_panic : forall wd o, object_path wd o = Panic ->
  match o with
  | Passwds | Boards => False
  | Favourites u | Draft u _ | Mail u _ | Logins u => u = []
  | Index b | BoardName b | Article b _ | TreasureIndex b _ | Treasure b _ _ => b = []
  end.
Proof.
  intros wd o H. destruct o; try discriminate H;
  match goal with |- ?u = [] => destruct u; [reflexivity|discriminate H] end.
Qed.
Print Assumptions C25_nonempty_name_no_panic.

(** ** C45: data source names *)
Theorem C45_plain_path : forall dsn, (forall t, dsn <> str "file://" ++ t) -> Connector_Open dsn = dsn.
Proof.
  intros dsn H. unfold Connector_Open. destruct (has_prefix (str "file://") dsn) eqn:E; [|reflexivity].
  exfalso. assert (G : forall p s, has_prefix p s = true -> exists t, s = p ++ t).
  { clear. induction p as [|a p IH]; intros s Q; [exists s; reflexivity|].
    destruct s as [|b s]; [discriminate|]. cbn in Q. apply andb_prop in Q. destruct Q as [Q1 Q2].
    apply byte_eqb_eq in Q1. subst. destruct (IH _ Q2) as (t & ->). exists t. reflexivity. }
  destruct (G _ _ E) as (t & ->). now apply (H t).
Qed.
Print Assumptions C45_plain_path.
Lemma before_spec sep p q : ~ In sep p -> before sep (p ++ sep :: q) = p /\ before sep p = p.
Proof.
  intros N. induction p as [|b p IH]; cbn; [now rewrite byte_eqb_refl|].
  destruct (Byte.eqb b sep) eqn:E; [apply byte_eqb_eq in E; subst; exfalso; apply N; now left|].
  destruct IH as [-> ->]; auto. intros Q. apply N. now right.
Qed.
Theorem C45_file_url : forall p q, ~ In x3f p ->
  Connector_Open (str "file://" ++ p) = p /\ Connector_Open (str "file://" ++ p ++ str "?" ++ q) = p.
Proof.
  intros p q N. unfold Connector_Open.
  destruct (before_spec x3f p q N) as [H1 H2].
  split; [exact H2|exact H1].
Qed.
Print Assumptions C45_file_url.
Example C45_nonvacuous :
  Connector_Open (str "file:///home/bbs?UTMP=1993") = str "/home/bbs" /\
  Connector_Open (str "/home/bbs") = str "/home/bbs".
Proof. split; reflexivity. Qed.

(** ** C27: two databases of one driver *)

(** Open a list of data source names in turn, all with registered drivers. *)
Fixpoint open_all (r : registry) (l : list (bytes * bytes)) : registry * list nat :=
  match l with
  | [] => (r, [])
  | (name, dsn) :: l' =>
      match DB_Open r name dsn with
      | (r', Ok c) => let '(r'', cs) := open_all r' l' in (r'', c :: cs)
      | (r', _) => open_all r' l'
      end
  end.

(** The full statement: each database keeps the home it was opened with. *)
Definition C27_statement : Prop :=
  forall r name1 dsn1 name2 dsn2 r1 db1 r2 db2,
  DB_Open r name1 dsn1 = (r1, Ok db1) -> DB_Open r1 name2 dsn2 = (r2, Ok db2) ->
  db_home r2 db1 = Connector_Open dsn1.
Theorem C27_shared_connector_refuted : ~ C27_statement.
Proof.
  intros H.
  specialize (H initial_registry (str "pttbbs") (str "/a") (str "pttbbs") (str "/b") _ _ _ _ eq_refl eq_refl).
  vm_compute in H. discriminate.
Qed.
Print Assumptions C27_shared_connector_refuted.

(** What does hold: after any history, a database reads the home of the last
    successful Open whose driver has the same connector; failed Opens change
    nothing. *)
Theorem C27_last_open_wins_partial : forall r l name dsn l' c,
  reg_drivers r name = Some c ->
  (forall n d, In (n, d) l' -> reg_drivers r n <> Some c) ->
  db_home (fst (open_all r (l ++ (name, dsn) :: l'))) c = Connector_Open dsn.
Proof.
  intros r l name dsn l' c D O. revert r D O.
  assert (K : forall r n d, reg_drivers (fst (DB_Open r n d)) = reg_drivers r).
  { intros r n d. unfold DB_Open. destruct (reg_drivers r n); reflexivity. }
  assert (Step : forall r n d l0, fst (open_all r ((n, d) :: l0)) = fst (open_all (fst (DB_Open r n d)) l0)).
  { intros r n d l0. cbn. destruct (DB_Open r n d) as [r' [a|e| |]]; cbn; try reflexivity.
    destruct (open_all r' l0); reflexivity. }
  assert (T : forall l0 r, (forall n d, In (n, d) l0 -> reg_drivers r n <> Some c) ->
     db_home (fst (open_all r l0)) c = db_home r c).
  { induction l0 as [|[n d] l0 IH]; intros r O; [reflexivity|].
    rewrite Step, IH.
    - unfold DB_Open. destruct (reg_drivers r n) as [c'|] eqn:E; [|reflexivity]. cbn.
      destruct (Nat.eqb_spec c c') as [->|]; [|reflexivity]. exfalso. apply (O n d); [now left|exact E].
    - intros n' d' I. rewrite K. eapply O. right. exact I. }
  induction l as [|[n d] l IH]; intros r D O; cbn [app]; rewrite Step.
  - rewrite T; [|intros n d I; rewrite K; eapply O; exact I].
    unfold DB_Open. rewrite D. cbn. now rewrite Nat.eqb_refl.
  - apply IH; rewrite K; assumption.
Qed.
Print Assumptions C27_last_open_wins_partial.
Theorem C27_unknown_driver : forall r name dsn,
  reg_drivers r name = None -> DB_Open r name dsn = (r, Err ENotFound).
Proof. intros r name dsn H. unfold DB_Open. now rewrite H. Qed.
Print Assumptions C27_unknown_driver.
Example C27_nonvacuous : reg_drivers initial_registry (str "pttbbs") = Some 0%nat /\
  db_home (fst (open_all initial_registry [(str "pttbbs", str "/a"); (str "pttbbs", str "/b")])) 0 = str "/b".
Proof. split; reflexivity. Qed.
