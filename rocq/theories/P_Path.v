(** * Paths: resolution of the computed names *)
From Coq Require Import Lia ZifyBool ZifyNat ZifyN.
From Verif Require Import M_Base M_Sys M_Path S_World S_Path P_Base P_Sys.
Open Scope N_scope.

Definition comps (p : bytes) : list bytes := path_split p [].

Lemma path_split_cur p cur : ~ In x2f p -> path_split p cur = [rev cur ++ p].
Proof.
  revert cur. induction p as [|b p IH]; intros cur N; cbn; [now rewrite app_nil_r|].
  destruct (Byte.eqb b x2f) eqn:E.
  - apply byte_eqb_eq in E. subst. exfalso. apply N. now left.
  - rewrite IH by (intros Q; apply N; now right). cbn. now rewrite <- app_assoc.
Qed.
Lemma comps_single c : ~ In x2f c -> comps c = [c].
Proof. intros N. unfold comps. now rewrite path_split_cur. Qed.

Lemma path_split_app a b cur : path_split (a ++ x2f :: b) cur = path_split a cur ++ path_split b [].
Proof.
  revert cur. induction a as [|c a IH]; intros cur; cbn; [reflexivity|].
  destruct (Byte.eqb c x2f); cbn; now rewrite IH.
Qed.
Lemma comps_app a b : comps (a ++ x2f :: b) = comps a ++ comps b.
Proof. apply path_split_app. Qed.

Lemma path_step_component acc c : component c -> path_step acc c = c :: acc.
Proof.
  intros (H1 & H2 & H3 & _). unfold path_step.
  destruct (beqb_spec c []); [contradiction|].
  destruct (beqb_spec c dot); [contradiction|].
  destruct (beqb_spec c dotdot); [contradiction|reflexivity].
Qed.
Lemma fold_components l acc : Forall component l -> fold_left path_step l acc = rev l ++ acc.
Proof.
  intros F. revert acc. induction F as [|c l Hc Hl IH]; intros acc; cbn; [reflexivity|].
  rewrite path_step_component by exact Hc. rewrite IH. now rewrite <- app_assoc.
Qed.

Lemma is_abs_app a b : is_abs ((a ++ [x2f]) ++ b) = is_abs (a ++ [x2f]).
Proof. destruct a; reflexivity. Qed.

(** everything below the home directory *)
Lemma resolve_below cwd wd rest :
  Forall component (comps rest) ->
  resolve cwd (wd ++ x2f :: rest) = home_dir cwd wd ++ comps rest.
Proof.
  intros F. unfold home_dir, resolve. change (str "/") with [x2f].
  replace (is_abs (wd ++ x2f :: rest)) with (is_abs (wd ++ [x2f])) by (destruct wd; reflexivity).
  generalize (if is_abs (wd ++ [x2f]) then [] else rev cwd) as acc. intros acc.
  fold (comps (wd ++ x2f :: rest)). rewrite comps_app, fold_left_app, fold_components by exact F.
  fold (comps (wd ++ [x2f])). rewrite comps_app, fold_left_app. cbn [comps path_split rev fold_left path_step beqb].
  change (comps []) with [@nil byte]. cbn [fold_left]. unfold path_step at 2. cbn [beqb list_eq_dec list_rec list_rect].
  rewrite rev_app_distr, rev_involutive. reflexivity.
Qed.

Lemma component_comps c : component c -> comps c = [c].
Proof. intros (_ & _ & _ & H & _). now apply comps_single. Qed.
Lemma ident_component c : ident c -> component c.
Proof. now intros [H _]. Qed.

Lemma fmt_c_component b c : ident (b :: c) -> component (fmt_c b).
Proof.
  intros [(H1 & H2 & H3 & H4 & H5) H6]. unfold fmt_c.
  assert (Nb : b <> x2f) by (intros ->; apply H4; now left).
  assert (Nz : b <> x00) by (intros ->; apply H5; now left).
  assert (Nd : b <> x2e) by (intros ->; now apply (H6 c)).
  destruct (b2n b <? 128) eqn:E.
  - unfold component. cbn. repeat split; try discriminate.
    + intros [= ->]. contradiction.
    + intros [Q|[]]. congruence.
    + intros [Q|[]]. congruence.
  - pose proof (b2n_lt b).
    assert (X : b2n (n2b (192 + b2n b / 64)) >= 192).
    { rewrite b2n_n2b, N.mod_small; [lia|]. assert (b2n b / 64 < 4) by (apply N.div_lt_upper_bound; lia). lia. }
    assert (Y : b2n (n2b (128 + b2n b mod 64)) >= 128).
    { rewrite b2n_n2b, N.mod_small; [lia|]. pose proof (N.mod_lt (b2n b) 64). lia. }
    set (p := n2b (192 + _)) in *. set (q := n2b (128 + _)) in *.
    unfold component. repeat split; try discriminate.
    + intros [= P Q]. rewrite P in X. revert X. vm_compute. congruence.
    + intros [Q|[Q|[]]]; [rewrite Q in X; revert X|rewrite Q in Y; revert Y]; vm_compute; congruence.
    + intros [Q|[Q|[]]]; [rewrite Q in X; revert X|rewrite Q in Y; revert Y]; vm_compute; congruence.
Qed.

Lemma not_in_app {A} (x : A) a b : ~ In x a -> ~ In x b -> ~ In x (a ++ b).
Proof. intros H1 H2 Q. apply in_app_or in Q. tauto. Qed.

(** components of each object below the home *)
Definition id_dirs (b : bytes) : list bytes := match b with c :: _ => [fmt_c c; b] | [] => [] end.
Definition object_comps (o : object) : list bytes :=
  match o with
  | Passwds => [str ".PASSWDS"]
  | Boards => [str ".BRD"]
  | Favourites u => str "home" :: id_dirs u ++ [str ".fav"]
  | Draft u d => str "home" :: id_dirs u ++ [str "buf." ++ d]
  | Mail u f => str "home" :: id_dirs u ++ [f]
  | Logins u => str "home" :: id_dirs u ++ [str "logins.recent"]
  | Index b => str "boards" :: id_dirs b ++ [str ".DIR"]
  | BoardName b => str "boards" :: id_dirs b ++ [str ".Name"]
  | Article b f => str "boards" :: id_dirs b ++ [f]
  | TreasureIndex b p => str "man" :: str "boards" :: id_dirs b ++ p ++ [str ".DIR"]
  | Treasure b p f => str "man" :: str "boards" :: id_dirs b ++ p ++ [f]
  end.

Ltac lit_component := unfold component; vm_compute; repeat split;
  try discriminate; intros Q; repeat destruct Q as [Q|Q]; try discriminate; try contradiction.

Lemma comps_cons c rest : component c -> comps (c ++ x2f :: rest) = c :: comps rest.
Proof. intros H. now rewrite comps_app, component_comps. Qed.

Lemma comps_id_dirs b rest : ident b ->
  comps (match b with c :: _ => fmt_c c | [] => [] end ++ x2f :: b ++ x2f :: rest) = id_dirs b ++ comps rest.
Proof.
  intros I. pose proof (ident_component _ I) as C. destruct b as [|c b]; [now destruct C|].
  rewrite comps_cons by (now apply fmt_c_component with (c := b)).
  rewrite comps_cons by exact C. reflexivity.
Qed.

Lemma comps_sub_path l rest : Forall component l -> comps (sub_path l ++ rest) = l ++ comps rest.
Proof.
  induction 1 as [|c l Hc Hl IH]; [reflexivity|]. cbn [sub_path flat_map].
  rewrite <- !app_assoc. change (slash ++ ?x) with (x2f :: x). rewrite comps_cons by exact Hc.
  cbn [app]. f_equal. exact IH.
Qed.

Lemma id_dirs_components b : ident b -> Forall component (id_dirs b).
Proof.
  intros I. pose proof (ident_component _ I) as C. destruct b as [|c b]; [now destruct C|].
  constructor; [now apply fmt_c_component with (c := b)|]. constructor; [exact C|constructor].
Qed.

Definition object_rest (o : object) : bytes :=
  let dirs b := match b with c :: _ => fmt_c c | [] => [] end ++ x2f :: b in
  match o with
  | Passwds => str ".PASSWDS"
  | Boards => str ".BRD"
  | Favourites u => str "home" ++ x2f :: dirs u ++ x2f :: str ".fav"
  | Draft u d => str "home" ++ x2f :: dirs u ++ x2f :: str "buf." ++ d
  | Mail u f => str "home" ++ x2f :: dirs u ++ x2f :: f
  | Logins u => str "home" ++ x2f :: dirs u ++ x2f :: str "logins.recent"
  | Index b => str "boards" ++ x2f :: dirs b ++ x2f :: str ".DIR"
  | BoardName b => str "boards" ++ x2f :: dirs b ++ x2f :: str ".Name"
  | Article b f => str "boards" ++ x2f :: dirs b ++ x2f :: f
  | TreasureIndex b p => str "man" ++ x2f :: str "boards" ++ x2f :: dirs b ++ x2f :: sub_path p ++ str ".DIR"
  | Treasure b p f => str "man" ++ x2f :: str "boards" ++ x2f :: dirs b ++ x2f :: sub_path p ++ f
  end.

Lemma ident_nonempty b : ident b -> b <> [].
Proof. now intros [[H _] _]. Qed.

Lemma object_path_rest wd o : plain_object o -> object_path wd o = Ok (wd ++ x2f :: object_rest o).
Proof.
  intros H.
  destruct o; cbn [plain_object] in H; try reflexivity;
  repeat match goal with H : _ /\ _ |- _ => destruct H end;
  match goal with
  | I : ident ?b |- _ =>
     pose proof (ident_nonempty _ I); destruct b as [|c b']; [contradiction|];
     cbn [object_path object_rest];
     unfold GetUserFavoritePath, GetUserDraftPath, GetUserMailPath, GetLoginRecentPath,
       GetBoardArticlesDirectoryPath, GetBoardNameFilePath, GetBoardArticleFilePath,
       GetBoardTreasuresDirectoryPath, GetBoardTreasureFilePath, user_dir, board_dir, man_dir;
     cbn [first_byte obind]; f_equal; rewrite <- ?app_assoc; reflexivity
  end.
Qed.

Lemma component_str s : forallb (fun b => negb (Byte.eqb b x2f) && negb (Byte.eqb b x00)) (str s) = true ->
  beqb (str s) [] || beqb (str s) dot || beqb (str s) dotdot = false -> component (str s).
Proof.
  intros H N. rewrite forallb_forall in H. apply orb_false_iff in N. destruct N as [N N3].
  apply orb_false_iff in N. destruct N as [N1 N2]. apply beqb_neq in N1, N2, N3.
  repeat split; auto; intros I; apply H in I; cbn in I; discriminate.
Qed.
Ltac cstr := apply component_str; vm_compute; reflexivity.

Lemma draft_component d : ~ In x2f d -> ~ In x00 d -> component (str "buf." ++ d).
Proof.
  intros H1 H2. repeat split; try discriminate; apply not_in_app; auto;
  vm_compute; intros Q; repeat destruct Q as [Q|Q]; discriminate || contradiction.
Qed.

Lemma object_rest_comps o : plain_object o -> comps (object_rest o) = object_comps o.
Proof.
  intros H.
  destruct o; cbn [plain_object] in H; cbn [object_rest object_comps];
  repeat match goal with H : _ /\ _ |- _ => destruct H end;
  try (apply component_comps; cstr);
  rewrite ?app_comm_cons; rewrite <- ?app_assoc; cbn [app];
  repeat (rewrite comps_cons by cstr);
  rewrite comps_id_dirs by assumption; f_equal; f_equal; rewrite ?comps_sub_path by assumption; try f_equal; f_equal;
  apply component_comps; try cstr; try assumption; try (now apply draft_component).
Qed.

Lemma object_comps_components o : plain_object o -> Forall component (object_comps o).
Proof.
  intros H.
  destruct o; cbn [plain_object] in H; cbn [object_comps];
  repeat match goal with H : _ /\ _ |- _ => destruct H end;
  repeat match goal with
  | |- Forall component (_ ++ _) => apply Forall_app; split
  | |- Forall component (id_dirs _) => now apply id_dirs_components
  | |- Forall component [] => constructor
  | |- Forall component (str _ :: _) => constructor; [cstr|]
  | |- Forall component ((str "buf." ++ _) :: _) => constructor; [now apply draft_component|]
  | |- Forall component (_ :: _) => constructor; [assumption|]
  | |- _ => assumption
  end.
Qed.

Lemma object_resolves cwd wd o : plain_object o -> ~ In x00 wd ->
  exists p, object_path wd o = Ok p /\ proper p /\ resolve cwd p = home_dir cwd wd ++ object_comps o.
Proof.
  intros H Nw. eexists. split; [now apply object_path_rest|]. 
  pose proof (object_comps_components o H) as F.
  rewrite <- (object_rest_comps o H) in F |- *.
  split; [|now apply resolve_below].
  split; [destruct wd; discriminate|].
  apply not_in_app; [exact Nw|]. intros [Q|Q]; [discriminate|].
  (* a NUL would be in some component *)
  assert (G : forall p cur, In x00 p -> exists c, In c (path_split p cur) /\ In x00 c).
  { clear. induction p as [|b p IH]; intros cur [].
    - subst b. cbn. assert (M : forall p cur, In x00 cur -> exists c, In c (path_split p cur) /\ In x00 c).
      { clear. induction p as [|b p IH]; intros cur I; cbn.
        - exists (rev cur). split; [now left|]. now apply in_rev in I.
        - destruct (Byte.eqb b x2f).
          + exists (rev cur). split; [now left|]. now apply in_rev in I.
          + apply IH. now right. }
      apply M. now left.
    - cbn. destruct (Byte.eqb b x2f).
      + destruct (IH [] H) as (c & I & Z). exists c. split; [now right|exact Z].
      + now apply IH. }
  destruct (G _ [] Q) as (c & I & Z). rewrite Forall_forall in F. apply F in I. now apply I.
Qed.

Lemma snoc_inj {A} (a b : list A) x y : a ++ [x] = b ++ [y] -> a = b /\ x = y.
Proof. apply app_inj_tail. Qed.

Lemma id_dirs_inj b c r r' : ident b -> ident c -> id_dirs b ++ r = id_dirs c ++ r' -> b = c /\ r = r'.
Proof.
  intros I J E. pose proof (ident_nonempty _ I). pose proof (ident_nonempty _ J).
  destruct b as [|x b]; [contradiction|]. destruct c as [|y c]; [contradiction|].
  unfold id_dirs in E. cbn [app] in E. injection E as _ -> -> ->. auto.
Qed.

Lemma object_comps_inj o o' : plain_object o -> plain_object o' -> object_comps o = object_comps o' -> o = o'.
Proof.
  intros H H' E.
  destruct o, o'; cbn [plain_object] in H, H'; cbn [object_comps] in E; try reflexivity; try discriminate E;
  repeat match goal with H : _ /\ _ |- _ => destruct H end;
  repeat match goal with E : str _ :: _ = str _ :: _ |- _ => apply (f_equal (@tl bytes)) in E; cbn [tl] in E end;
  match goal with
  | E : id_dirs _ ++ _ = id_dirs _ ++ _ |- _ => apply id_dirs_inj in E; [|assumption|assumption]; destruct E as [-> E]
  end;
  try reflexivity;
  try (apply snoc_inj in E; destruct E as [? E]; subst; try congruence);
  try (apply (f_equal (hd [])) in E; cbn [hd] in E).
  all: try (match goal with E : str "buf." ++ _ = str "buf." ++ _ |- _ => apply app_inv_head in E; congruence end).
  all: try (exfalso; match goal with
     | F : forall d, ?f <> _ |- _ => first [apply (F _ E) | apply (F _ (eq_sym E))]
     | _ => first [congruence | discriminate E | (symmetry in E; discriminate E)] end).
  all: try congruence.
Qed.
