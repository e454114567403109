(** * path.Clean walks the elements of a path *)
From Coq Require Import Lia ZifyBool ZifyNat ZifyN.
From Verif Require Import M_Base M_Text M_Web M_Mux S_Text S_Mux P_Base P_Text.
Open Scope N_scope.

Definition visit (es : list bytes) (p : bytes) : list bytes :=
  if beqb p [] || beqb p (str ".") then es else if beqb p (str "..") then removelast es else es ++ [p].

Lemma step_visit es p : ~ In "/"%byte p -> step es p (visit es p).
Proof.
  intros N. unfold visit. destruct (beqb p []) eqn:E0; [apply beqb_eq in E0; subst p; constructor|].
  destruct (beqb p (str ".")) eqn:E1; [apply beqb_eq in E1; subst p; constructor|]. cbn [orb].
  destruct (beqb p (str "..")) eqn:E2.
  - apply beqb_eq in E2. subst p. destruct es as [|e es] using rev_ind; [constructor|]. rewrite removelast_last. constructor.
  - constructor. apply beqb_neq in E0, E1, E2. now repeat split.
Qed.
Lemma visit_step es p es' : step es p es' -> es' = visit es p.
Proof.
  destruct 1 as [es|es|es e| |es e (A & B & C & D)]; try reflexivity.
  - unfold visit. cbn [beqb orb]. change (beqb (str "..") []) with false. change (beqb (str "..") (str ".")) with false. change (beqb (str "..") (str "..")) with true. cbn [orb]. now rewrite removelast_last.
  - unfold visit. rewrite !(proj2 (beqb_neq _ _)) by assumption. reflexivity.
Qed.
Lemma walk_visit ps : Forall (fun p => ~ In "/"%byte p) ps -> forall es, walk es ps (fold_left visit ps es).
Proof. induction 1 as [|p ps N F IH]; intros es; cbn [fold_left]; [constructor|]. econstructor; [now apply step_visit|apply IH]. Qed.
Lemma visit_walk es ps es' : walk es ps es' -> es' = fold_left visit ps es.
Proof. induction 1 as [es|es p es1 ps es2 S W IH]; [reflexivity|]. apply visit_step in S. subst es1. exact IH. Qed.
Definition place (p : bytes) : list bytes := fold_left visit (split_on "/" p) [].
Lemma leads p : leads_to p (place p).
Proof. exists (split_on "/" p). pose proof (split_cuts "/" p) as C. split; [exact C|]. apply walk_visit, C. Qed.
Lemma leads_place p es : leads_to p es -> es = place p.
Proof. intros (ps & C & W). apply cuts_split in C. subst ps. exact (visit_walk _ _ _ W). Qed.
Lemma fold_elements ps : Forall (fun p => ~ In "/"%byte p) ps -> forall es, Forall element es -> Forall element (fold_left visit ps es).
Proof.
  induction 1 as [|p ps N F IH]; intros es E; cbn [fold_left]; [exact E|]. apply IH. pose proof (step_visit es p N) as S.
  remember (visit es p) as es' eqn:V. clear V. destruct S; try exact E; [now apply Forall_app in E as [E _]|]. apply Forall_app. split; [exact E|now constructor].
Qed.
Lemma place_elements p : Forall element (place p).
Proof. apply fold_elements; [apply split_cuts|constructor]. Qed.

(** ** backtrack and copy_element *)
Lemma backtrack_app e out : ~ In "/"%byte e -> out <> [] -> backtrack (e ++ "/"%byte :: out) = out.
Proof.
  intros N O. induction e as [|c e IH].
  - cbn [app backtrack]. destruct out; [contradiction|]. reflexivity.
  - cbn [app backtrack]. destruct (e ++ "/"%byte :: out) eqn:E; [now destruct e|]. rewrite (proj2 (byte_eqb_neq c "/")) by (intros ->; apply N; now left).
    apply IH. intros H. apply N. now right.
Qed.
Lemma backtrack_root e : ~ In "/"%byte e -> backtrack (e ++ ["/"%byte]) = ["/"%byte].
Proof.
  intros N. induction e as [|c e IH]; [reflexivity|]. cbn [app backtrack]. destruct (e ++ ["/"%byte]) eqn:E; [now destruct e|].
  rewrite (proj2 (byte_eqb_neq c "/")) by (intros ->; apply N; now left). apply IH. intros H. apply N. now right.
Qed.
Lemma plain_snoc es e : plain (es ++ [e]) = plain es ++ (match es with [] => [] | _ => str "/" end) ++ e.
Proof.
  unfold plain. destruct es as [|a es]; [reflexivity|]. cbn [app]. f_equal. revert a. induction es as [|b es IH]; intros a; [reflexivity|].
  change (join "/" (a :: (b :: es) ++ [e])) with (a ++ "/"%byte :: join "/" ((b :: es) ++ [e])). change ((b :: es) ++ [e]) with (b :: es ++ [e]). rewrite (IH b).
  change (join "/" (a :: b :: es)) with (a ++ "/"%byte :: join "/" (b :: es)). now rewrite <- app_assoc.
Qed.
Lemma backtrack_plain es : Forall element es -> backtrack (rev (plain es)) = rev (plain (removelast es)).
Proof.
  intros F. destruct es as [|e es _] using rev_ind; [reflexivity|]. apply Forall_app in F as [F E]. apply Forall_cons_iff in E as [(_ & _ & _ & E) _].
  assert (E' : ~ In "/"%byte (rev e)) by (now rewrite <- in_rev). rewrite removelast_last, plain_snoc, !rev_app_distr. destruct es as [|a es].
  - cbn [rev app]. rewrite app_nil_r. now apply backtrack_root.
  - rewrite <- app_assoc. cbn [str rev app]. apply backtrack_app; [exact E'|]. intros H. apply (f_equal (@length _)) in H. rewrite rev_length in H. discriminate H.
Qed.
Lemma copy_element_ok p out : exists e rest, p = e ++ rest /\ ~ In "/"%byte e /\ copy_element p out = (rest, rev e ++ out) /\ (rest = [] \/ exists r, rest = "/"%byte :: r).
Proof.
  revert out. induction p as [|c p IH]; intros out; [exists [], []; repeat split; [easy|now left]|]. cbn [copy_element]. destruct (Byte.eqb c "/") eqn:E.
  - apply byte_eqb_eq in E. subst c. exists [], ("/"%byte :: p). repeat split; [easy|right; now exists p].
  - apply byte_eqb_neq in E. destruct (IH (c :: out)) as (e & rest & -> & N & C & R). exists (c :: e), rest. repeat split; [intros [H|H]; [congruence|now apply N]| |exact R].
    rewrite C. cbn [rev]. now rewrite <- app_assoc.
Qed.

(** ** the loop *)
Lemma visit_rest e rest es : ~ In "/"%byte e -> (rest = [] \/ exists r, rest = "/"%byte :: r) ->
  fold_left visit (split_on "/" (e ++ rest)) es = fold_left visit (split_on "/" rest) (visit es e).
Proof.
  intros N [->|[r ->]].
  - rewrite app_nil_r, split_no by exact N. reflexivity.
  - rewrite split_app by exact N. replace (split_on "/" ("/"%byte :: r)) with ([] :: split_on "/" r); [reflexivity|]. symmetry. exact (split_app "/" [] r (fun H => H)).
Qed.
Lemma loop_ok fuel : forall path es, (length path < fuel)%nat -> Forall element es ->
  clean_loop fuel path (rev (plain es)) = plain (fold_left visit (split_on "/" path) es).
Proof.
  induction fuel as [|fuel IH]; intros path es L F; [lia|].
  assert (DEF : forall e rest, path = e ++ rest -> e <> [] -> ~ In "/"%byte e -> (rest = [] \/ exists r, rest = "/"%byte :: r) -> e <> str "." -> e <> str ".." ->
    (let (p, o) := copy_element path (match rev (plain es) with [_] => rev (plain es) | _ => "/"%byte :: rev (plain es) end) in clean_loop fuel p o) = plain (fold_left visit (split_on "/" path) es)).
  { intros e rest -> N1 N R N2 N3. destruct (copy_element_ok (e ++ rest) (match rev (plain es) with [_] => rev (plain es) | _ => "/"%byte :: rev (plain es) end)) as (e' & rest' & E & N' & C & R'). rewrite C.
    assert (X : e' = e /\ rest' = rest).
    { clear - E N N' R R'. revert e' E N'. induction e as [|c e IHe]; intros e' E N'; destruct e' as [|c' e']; cbn [app] in E.
      - now subst.
      - destruct R as [->|[r ->]]; [discriminate E|]. injection E as <- _. contradiction N'. now left.
      - destruct R' as [->|[r ->]]; [discriminate E|]. injection E as -> _. contradiction N. now left.
      - injection E as -> E. destruct (IHe (fun H => N (or_intror H)) e' E (fun H => N' (or_intror H))) as [-> ->]. now split. }
    destruct X as [-> ->]. clear E N' R' C. rewrite visit_rest by assumption. assert (EL : element e) by (now repeat split).
    assert (V : visit es e = es ++ [e]) by (unfold visit; rewrite !(proj2 (beqb_neq _ _)) by assumption; reflexivity). rewrite V.
    rewrite <- IH; [| |apply Forall_app; split; [exact F|now constructor]].
    2: { rewrite app_length in L. destruct e; [contradiction|]. cbn [length] in L. lia. }
    f_equal. rewrite plain_snoc, !rev_app_distr, <- app_assoc. f_equal. destruct es as [|a es]; [reflexivity|].
    cbn [str rev app]. destruct (rev (plain (a :: es))) as [|x [|y l]] eqn:E; [reflexivity| |reflexivity]. exfalso.
    apply (f_equal (@length _)) in E. rewrite rev_length in E. cbn [plain length] in E. apply Forall_cons_iff in F as [(NE & _) _]. destruct a; [contradiction|]. destruct es; discriminate E. }
  destruct path as [|c rest]; [cbn [clean_loop split_on fold_left]; now rewrite rev_involutive|]. cbn [clean_loop]. cbn [length] in L.
  destruct (Byte.eqb c "/") eqn:E.
  { apply byte_eqb_eq in E. subst c. change ("/"%byte :: rest) with ([] ++ "/"%byte :: rest). rewrite split_app by easy. cbn [fold_left]. rewrite IH by (assumption || lia). reflexivity. }
  apply byte_eqb_neq in E.
  assert (DEF' : (forall r, rest <> "/"%byte :: r) -> (c = "."%byte -> rest <> [] /\ (forall r, rest <> "."%byte :: "/"%byte :: r) /\ rest <> ["."%byte]) ->
    (let (p, o) := copy_element (c :: rest) (match rev (plain es) with [_] => rev (plain es) | _ => "/"%byte :: rev (plain es) end) in clean_loop fuel p o) = plain (fold_left visit (split_on "/" (c :: rest)) es)).
  { intros H1 H2. destruct (copy_element_ok (c :: rest) []) as (e & rs & P & N & _ & R).
    apply (DEF e rs P); [| exact N|exact R| |].
    - intros ->. destruct R as [->|[r ->]]; [discriminate P|]. injection P as -> _. now apply E.
    - intros ->. cbn [str app] in P. injection P as -> ->. destruct (H2 eq_refl) as (A & _). destruct R as [->|[r ->]]; [now apply A|now apply (H1 r)].
    - intros ->. cbn [str app] in P. injection P as -> ->. destruct (H2 eq_refl) as (_ & A & B). destruct R as [->|[r ->]]; [now apply B|now apply (A r)]. }
  assert (DEF0 : c <> "."%byte -> (let (p, o) := copy_element (c :: rest) (match rev (plain es) with [_] => rev (plain es) | _ => "/"%byte :: rev (plain es) end) in clean_loop fuel p o) = plain (fold_left visit (split_on "/" (c :: rest)) es)).
  { intros ND. destruct (copy_element_ok (c :: rest) []) as (e & rs & P & N & _ & R). apply (DEF e rs P); [|exact N|exact R| |].
    - intros ->. destruct R as [->|[r ->]]; [discriminate P|]. injection P as -> _. now apply E.
    - intros ->. cbn [str app] in P. injection P as -> _. now apply ND.
    - intros ->. cbn [str app] in P. injection P as -> _. now apply ND. }
  destruct (Byte.eqb c ".") eqn:D; [|apply byte_eqb_neq in D; exact (DEF0 D)]. apply byte_eqb_eq in D. subst c.
  destruct rest as [|c1 rest1].
  { rewrite IH by (assumption || (cbn [length] in *; lia)). reflexivity. }
  destruct (Byte.eqb c1 "/") eqn:E1.
  { apply byte_eqb_eq in E1. subst c1. rewrite IH by (assumption || (cbn [length] in *; lia)).
    change ("."%byte :: "/"%byte :: rest1) with (str "." ++ "/"%byte :: rest1).
    rewrite (visit_rest (str ".") ("/"%byte :: rest1) es); [reflexivity|intros [H|[]]; discriminate H|right; now exists rest1]. }
  apply byte_eqb_neq in E1.
  destruct (Byte.eqb c1 ".") eqn:D1.
  2: { apply byte_eqb_neq in D1. apply DEF'; [intros r H; injection H as -> _; now apply E1|]. intros _. repeat split; [discriminate|intros r H; injection H as -> _; now apply D1|intros H; injection H as -> _; now apply D1]. }
  apply byte_eqb_eq in D1. subst c1.
  destruct rest1 as [|c2 rest2].
  { rewrite backtrack_plain by exact F. rewrite IH; [reflexivity|cbn [length] in *; lia|]. clear - F. destruct es as [|e es _] using rev_ind; [constructor|]. rewrite removelast_last. now apply Forall_app in F as [F _]. }
  destruct (Byte.eqb c2 "/") eqn:E2.
  { apply byte_eqb_eq in E2. subst c2. rewrite backtrack_plain by exact F. rewrite IH.
    - change ("."%byte :: "."%byte :: "/"%byte :: rest2) with (str ".." ++ "/"%byte :: rest2).
      rewrite (visit_rest (str "..") ("/"%byte :: rest2) es); [reflexivity| |right; now exists rest2]. intros [H|[H|[]]]; discriminate H.
    - cbn [length] in *. lia.
    - clear - F. destruct es as [|e es _] using rev_ind; [constructor|]. rewrite removelast_last. now apply Forall_app in F as [F _]. }
  apply byte_eqb_neq in E2. apply DEF'; [intros r H; discriminate H|]. intros _. repeat split; [discriminate|intros r H; injection H as -> _; now apply E2|intros H; discriminate H].
Qed.
Lemma place_root rest : place ("/"%byte :: rest) = place rest.
Proof. unfold place. change ("/"%byte :: rest) with ([] ++ "/"%byte :: rest). rewrite split_app by easy. reflexivity. Qed.
Lemma Clean_ok rest : Clean ("/"%byte :: rest) = plain (place rest).
Proof. unfold Clean. cbn [tl length]. apply (loop_ok (S (length rest)) rest []); [lia|constructor]. Qed.

Lemma last_slash p : Byte.eqb (last p x00) "/" = true <-> ends_in_slash p.
Proof.
  destruct p as [|c p _] using rev_ind; [split; [discriminate|intros [q H]; now destruct q]|]. rewrite last_last, byte_eqb_eq. split.
  - intros ->. now exists p.
  - intros [q H]. apply app_inj_tail in H as [_ H]. exact H.
Qed.
Lemma plain_root es : Forall element es -> plain es = str "/" -> es = [].
Proof. intros F H. destruct es as [|e es]; [reflexivity|]. apply Forall_cons_iff in F as [(N & _) _]. destruct e; [contradiction|]. destruct es; discriminate H. Qed.
Lemma directory_plain es : es <> [] -> directory es = plain es ++ str "/".
Proof. intros N. unfold directory. rewrite plain_snoc. destruct es; [contradiction|]. now rewrite app_nil_r. Qed.
Lemma cleanPath_ok p : cleanPath p = if Byte.eqb (last p x00) "/" && negb (beqb (plain (place p)) (str "/")) then directory (place p) else plain (place p).
Proof.
  unfold cleanPath. destruct p as [|c p']; [reflexivity|]. cbv zeta. set (p := c :: p').
  assert (X : exists rest, (if Byte.eqb c "/" then p else "/"%byte :: p) = "/"%byte :: rest /\ place rest = place p /\ Byte.eqb (last ("/"%byte :: rest) x00) "/" = Byte.eqb (last p x00) "/").
  { destruct (Byte.eqb c "/") eqn:E; [apply byte_eqb_eq in E; subst c; exists p'; split; [reflexivity|]; split; [symmetry; apply place_root|reflexivity]|].
    exists p. split; [reflexivity|]. split; [reflexivity|]. reflexivity. }
  destruct X as (rest & -> & E & L). rewrite Clean_ok, E, L. destruct (Byte.eqb (last p x00) "/") eqn:S; [|reflexivity]. destruct (beqb (plain (place p)) (str "/")) eqn:R; [reflexivity|]. cbn [andb negb].
  apply beqb_neq in R. assert (N : place p <> []) by (intros H; rewrite H in R; now apply R). rewrite directory_plain by exact N.
  destruct (length ("/"%byte :: rest) =? length (plain (place p)) + 1)%nat eqn:E1; [|reflexivity]. destruct (HasPrefix ("/"%byte :: rest) (plain (place p))) eqn:E2; [|reflexivity]. cbn [andb].
  apply has_prefix_spec in E2 as [q Q]. rewrite Q in *. apply Nat.eqb_eq in E1. rewrite app_length in E1. destruct q as [|x [|y q]]; cbn [length] in E1; try lia.
  f_equal. rewrite last_last in L. apply byte_eqb_eq in L. now subst x.
Qed.
