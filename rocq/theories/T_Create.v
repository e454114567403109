(** * Creating articles *)
From Coq Require Import Lia ZifyBool ZifyNat ZifyN Permutation.
From Verif Require Import M_Base M_Sys M_Path M_File M_Board M_FileOps M_DB.
From Verif Require Import S_World S_Path S_Store S_Create S_ExWorld S_Example.
From Verif Require Import P_Base P_Sys P_Path P_Pool P_Create T_BoardList T_Store.
Open Scope N_scope.

Lemma created_in_pool ps b n x : In (b, n, x) (pool_created ps) <->
  exists i rs, nth_error ps i = Some (Ret rs) /\ In (b, n, x) (created rs).
Proof.
  unfold pool_created. rewrite in_flat_map. split.
  - intros (p & Hp & H). apply In_nth_error in Hp. destruct Hp as [i Hi]. destruct p as [rs|]; [|contradiction]. eauto.
  - intros (i & rs & Hi & H). exists (Ret rs). split; [now apply nth_error_In in Hi|exact H].
Qed.
Lemma created_rev rs c : In c (created (rev rs)) <-> In c (created rs).
Proof. unfold created. rewrite !in_flat_map. split; intros (x & H & H'); exists x; split; auto; [now apply in_rev|now apply -> in_rev]. Qed.
Lemma created_app a b : created (a ++ b) = created a ++ created b.
Proof. apply flat_map_app. Qed.
Lemma NoDup_app_intro {A} (l m : list A) : NoDup l -> NoDup m -> (forall x, In x l -> ~ In x m) -> NoDup (l ++ m).
Proof.
  induction l as [|x l IH]; intros H1 H2 H; [exact H2|]. cbn. apply NoDup_cons_iff in H1. destruct H1 as [N1 N2]. constructor.
  - intros X. apply in_app_iff in X. destruct X as [X|X]; [auto|]. apply (H x); [now left|exact X].
  - apply IH; auto. intros y Hy. apply H. now right.
Qed.
Lemma NoDup_created_rev rs : NoDup (map fst (created (rev rs))) -> NoDup (map fst (created rs)).
Proof.
  intros H. eapply Permutation_NoDup; [|exact H]. apply Permutation_map. unfold created.
  apply Permutation_flat_map. symmetry. apply Permutation_rev.
Qed.

(** Any number of clients create articles on any boards, one call after the
    other; stop the system at any moment of any schedule.  Whatever the clock
    and the random generator said, the articles reported created are pairwise
    different, none of them existed at the start, every one now holds exactly
    the text it was created with, and everything that existed is unchanged. *)
Theorem C08_concurrent_creations : forall fuel wd w css sched w' ps,
  sane w -> ~ In x00 wd -> (forall cs c, In cs css -> In c cs -> ident (ccmd_board c)) ->
  run_pool sched w (map (creator fuel wd) css) = (w', ps) ->
  NoDup (map fst (pool_created ps)) /\
  (forall b n x, In (b, n, x) (pool_created ps) ->
     fresh_name n /\ look w (board_entry w wd b n) = None /\ look w' (board_entry w wd b n) = Some (EFile x)) /\
  (forall q, look w q <> None -> look w' q = look w q).
Proof.
  intros fuel wd w css sched w' ps Sw Nw Ib R.
  assert (Ic : Forall (Forall (fun c => ident (ccmd_board c))) css).
  { apply Forall_forall. intros cs Hcs. apply Forall_forall. eauto. }
  destruct (pool_ok_run wd w Nw (length css) sched w (map (creator fuel wd) css) _ (cinv_start wd w Nw fuel css Sw Ic)) as [st C].
  unfold result in C. rewrite R in C. cbn [fst snd] in C.
  assert (Cl : forall i rs, nth_error ps i = Some (Ret rs) -> fst (st i) = created (rev rs) /\ (i < length css)%nat).
  { intros i rs Hi. split; [apply (ci_ok _ _ _ _ _ _ C i _ Hi)|]. rewrite <- (ci_len _ _ _ _ _ _ C). apply nth_error_Some. intros Z. unfold result in Z. rewrite Hi in Z. discriminate. }
  split; [|split].
  - pose proof (ci_nodup _ _ _ _ _ _ C) as ND. pose proof (ci_dis _ _ _ _ _ _ C) as DJ.
    assert (G : forall l, (forall i rs, nth_error l i = Some (Ret rs) -> NoDup (map fst (created rs))) ->
      (forall i j rs rs' c d, i <> j -> nth_error l i = Some (Ret rs) -> nth_error l j = Some (Ret rs') ->
         In c (created rs) -> In d (created rs') -> fst c <> fst d) -> NoDup (map fst (pool_created l))).
    { induction l as [|p l IH]; intros A B; [constructor|]. unfold pool_created. cbn [flat_map]. fold (pool_created l).
      rewrite map_app. apply NoDup_app_intro.
      - destruct p as [rs|]; [|constructor]. now apply (A 0%nat).
      - apply IH; [intros i rs; apply (A (S i))|]. intros i j rs rs' c d N E1 E2. apply (B (S i) (S j)); auto.
      - intros k Hk Hk'. destruct p as [rs|]; [|contradiction]. apply in_map_iff in Hk, Hk'.
        destruct Hk as (c & Ec & Hc), Hk' as ([[b n] x] & Ed & Hd). apply created_in_pool in Hd. destruct Hd as (j & rs' & Hj & Hd).
        apply (B 0%nat (S j) rs rs' c (b, n, x)); auto. congruence. }
    apply G.
    + intros i rs Hi. destruct (Cl i rs Hi) as [E L]. apply NoDup_created_rev. rewrite <- E. now apply ND.
    + intros i j rs rs' c d N Hi Hj Hc Hd. destruct (Cl i rs Hi) as [E L], (Cl j rs' Hj) as [E' L'].
      apply (DJ i j); auto; [rewrite E|rewrite E']; now apply created_rev.
  - intros b n x H. apply created_in_pool in H. destruct H as (i & rs & Hi & H). destruct (Cl i rs Hi) as [E L].
    destruct (ci_in _ _ _ _ _ _ C i (b, n, x) L) as (P1 & P2 & P3); [rewrite E; now apply created_rev|].
    destruct P1 as [P1 P1']. cbn [fst snd] in *. rewrite (board_entry_place w wd b n x P1). auto.
  - intros q Hq. apply (ci_out _ _ _ _ _ _ C). intros i c Hi Hc E. destruct (ci_in _ _ _ _ _ _ C i c Hi Hc) as (_ & X & _). congruence.
Qed.
Print Assumptions C08_concurrent_creations.

(** When all of them have finished, nothing but the reported files is new. *)
Theorem C08_only_the_reported_files : forall fuel wd w css sched w' ps,
  sane w -> ~ In x00 wd -> (forall cs c, In cs css -> In c cs -> ident (ccmd_board c)) ->
  run_pool sched w (map (creator fuel wd) css) = (w', ps) ->
  Forall (fun p => finished p <> None) ps ->
  forall q, (forall b n x, In (b, n, x) (pool_created ps) -> q <> board_entry w wd b n) -> look w' q = look w q.
Proof.
  intros fuel wd w css sched w' ps Sw Nw Ib R Fin q Hq.
  assert (Ic : Forall (Forall (fun c => ident (ccmd_board c))) css).
  { apply Forall_forall. intros cs Hcs. apply Forall_forall. eauto. }
  destruct (pool_ok_run wd w Nw (length css) sched w (map (creator fuel wd) css) _ (cinv_start wd w Nw fuel css Sw Ic)) as [st C].
  unfold result in C. rewrite R in C. cbn [fst snd] in C. apply (ci_out _ _ _ _ _ _ C). intros i [[b n] x] Hi Hc.
  rewrite <- (ci_len _ _ _ _ _ _ C) in Hi. unfold result in *. destruct (nth_error ps i) as [p|] eqn:E; [|now apply nth_error_None in E; lia].
  pose proof (ci_ok _ _ _ _ _ _ C i p E) as K. rewrite Forall_forall in Fin.
  destruct p as [rs|]; [|apply nth_error_In, Fin in E; now cbn in E]. cbn in K. destruct K as [_ K].
  pose proof (ci_len _ _ _ _ _ _ C) as Ln. unfold result in Ln. rewrite Ln in Hi. destruct (ci_in _ _ _ _ _ _ C i _ Hi Hc) as ((P1 & _) & _). cbn [fst] in P1.
  rewrite <- (board_entry_place w wd b n x P1). apply (Hq b n x). apply created_in_pool. exists i, rs. split; [exact E|].
  apply created_rev. now rewrite <- K.
Qed.
Print Assumptions C08_only_the_reported_files.

(** One call: DB.CreateArticleRecord, or NewArticleRecordWithMap. *)
Lemma created_record fuel wd w c w' f : run (ccmd_prog fuel wd c) w = (w', Ok f) -> f = ccmd_record c (fh_filename f).
Proof.
  destruct c as [b owner date title|b owner date title]; cbn [ccmd_prog].
  - unfold CreateArticleRecord. rewrite run_pbind. destruct (run (CreateBoardArticleFilename fuel wd b) w) as [w1 [n|e| |]]; cbn; intros R; try discriminate.
    now injection R as _ <-.
  - cbn [NewArticleRecordWithMap]. cbn [run]. destruct (exec Now w) as [w0 t]. rewrite run_pbind.
    destruct (run (create_fixed_time fuel wd b t) w0) as [w1 [[n fd]|e| |]]; try (cbn; intros R; discriminate R).
    cbn [run]. destruct (exec (Write fd (article_head owner b title date)) w1) as [w2 [k|e]]; destruct (exec (Close fd) w2) as [w3 r]; cbn; intros R; [|discriminate R].
    now injection R as _ <-.
Qed.
Theorem C08_created_article_is_new : forall fuel wd w c w' r,
  sane w -> ~ In x00 wd -> ident (ccmd_board c) ->
  run (ccmd_prog fuel wd c) w = (w', r) ->
  match r with
  | Ok f => let q := board_entry w wd (ccmd_board c) (fh_filename f) in
      f = ccmd_record c (fh_filename f) /\
      fresh_name (fh_filename f) /\ look w q = None /\ look w' q = Some (EFile (ccmd_text c)) /\
      (forall q', q' <> q -> look w' q' = look w q')
  | _ => forall q', look w' q' = look w q'
  end.
Proof.
  intros fuel wd w c w' r Sw Nw Ib R.
  destruct (run_as_pool (creator fuel wd [c]) w) as [n Rn].
  assert (Rc : run (creator fuel wd [c]) w = (w', [(c, r)])).
  { unfold creator. cbn [creator_from]. rewrite run_bind, R. reflexivity. }
  rewrite Rc in Rn. cbn [fst snd] in Rn. change [creator fuel wd [c]] with (map (creator fuel wd) [[c]]) in Rn.
  assert (H : forall cs d, In cs [[c]] -> In d cs -> ident (ccmd_board d)) by (intros cs d [<-|[]] [<-|[]]; exact Ib).
  destruct (C08_concurrent_creations _ _ _ _ _ _ _ Sw Nw H Rn) as (_ & A & _).
  pose proof (C08_only_the_reported_files _ _ _ _ _ _ _ Sw Nw H Rn) as B.
  assert (Fin : Forall (fun p : prog result => finished p <> None) [Ret [(c, r)]]) by (constructor; [discriminate|constructor]).
  specialize (B Fin). unfold pool_created, created in A, B. cbn [flat_map fst snd] in A, B.
  destruct r as [f|e| |].
  - cbn [app] in A, B. destruct (A _ _ _ (or_introl eq_refl)) as (A1 & A2 & A3). cbv zeta. split; [exact (created_record fuel wd w c w' f R)|]. repeat (split; [assumption|]).
    intros q' Hq. apply B. intros b n' x [[= <- <- <-]|[]]. exact Hq.
  - intros q'. apply B. contradiction.
  - intros q'. apply B. contradiction.
  - intros q'. apply B. contradiction.
Qed.
Print Assumptions C08_created_article_is_new.

(** Three clients on two boards, the clock stopped and the random generator
    stuck on two values, and an article of that second already there. *)
Definition crowded : world :=
  let base := world_of
    (sample_tree ++ [(rp ["bbs"; "boards"; "t"; "test"; "M.1600000000.A.007"]%string, NFile 4)])
    (sample_data ++ [str "old"]) in
  World (w_cwd base) (w_tree base) (w_data base) (w_nexti base) (w_fds base) (w_nextfd base)
    (fun n => (1600000000 + Z.of_nat (n / 4))%Z) (fun n => if Nat.even n then 7 else 8) 0 0.
Lemma crowded_sane : sane crowded.
Proof.
  assert (S0 : sane (world_of (sample_tree ++ [(rp ["bbs"; "boards"; "t"; "test"; "M.1600000000.A.007"]%string, NFile 4)])
    (sample_data ++ [str "old"]))) by (apply saneb_sane; vm_compute; reflexivity).
  destruct S0. constructor; assumption.
Qed.
Definition crowd : list (list ccmd) :=
  [[NewEmpty (str "test") (str "pichu") (str " 1/01") (str "one"); NewHeaded (str "test") (str "pichu") (str " 1/01") (str "two")];
   [NewHeaded (str "test") (str "lex") (str " 1/01") (str "three")];
   [NewEmpty (str "SYSOP") (str "lex") (str " 1/01") (str "four"); NewEmpty (str "test") (str "lex") (str " 1/01") (str "five")]].
Definition crowd_sched : list nat := concat (repeat [0; 1; 2; 1; 0]%nat 24).
Definition show (ps : list (prog (list (ccmd * outcome FileHeader)))) : list (string * string) :=
  map (fun c => (string_of_list_byte (fst (fst c)), string_of_list_byte (snd (fst c)))) (pool_created ps).
Example C08_nonvacuous :
  let x := run_pool crowd_sched crowded (map (creator 20 sample_wd) crowd) in
  sane crowded /\ ~ In x00 sample_wd /\ (forall cs c, In cs crowd -> In c cs -> ident (ccmd_board c)) /\
  forallb (fun p => match finished p with Some _ => true | None => false end) (snd x) = true /\
  show (snd x) = [("test", "M.1600000000.A.008"); ("SYSOP", "M.1600000000.A.007"); ("test", "M.1600000001.A.007")]%string /\
  look crowded (rp ["bbs"; "boards"; "t"; "test"; "M.1600000000.A.007"]%string) = Some (EFile (str "old")).
Proof.
  cbv zeta. split; [exact crowded_sane|]. split; [no_nul|]. split.
  { intros cs c Hcs Hc. cbn in Hcs. repeat destruct Hcs as [<-|Hcs]; try contradiction; cbn in Hc;
      repeat destruct Hc as [<-|Hc]; try contradiction; cbn [ccmd_board]; first [exact test_ident|exact sysop_ident]. }
  vm_compute. auto.
Qed.

(** ** Termination *)

(** "Creating an article returns" is false: while the directory of the board
    does not exist every attempt fails, and every failure leads to another
    attempt.  However long one waits, neither call returns. *)
Theorem C09_missing_board_refuted : forall wd w c,
  sane w -> ~ In x00 wd -> ident (ccmd_board c) ->
  look w (board_dir w wd (ccmd_board c)) <> Some EDir ->
  forall fuel, snd (run (ccmd_prog fuel wd c) w) = Diverge.
Proof.
  intros wd w c Sw Nw Ib D fuel. destruct c as [b owner date title|b owner date title]; cbn [ccmd_prog ccmd_board] in *.
  - unfold CreateArticleRecord. rewrite run_pbind. destruct (filename_diverges wd b Ib Nw fuel w Sw D) as [w' ->]. reflexivity.
  - cbn [NewArticleRecordWithMap run]. change (exec Now w) with (bump_tick w, w_clock w (w_tick w)). cbv beta iota.
    rewrite run_pbind.
    destruct (dated_diverges wd b Ib Nw fuel (bump_tick w) (w_clock w (w_tick w)) (sane_tick _ Sw) (or_introl D)) as [w' ->]. reflexivity.
Qed.
Print Assumptions C09_missing_board_refuted.
Example C09_missing_board_nonvacuous :
  ident (str "nowhere") /\ look sample_world (board_dir sample_world sample_wd (str "nowhere")) <> Some EDir.
Proof. split; [solve_ident|]. vm_compute. discriminate. Qed.

(** With the date fixed by the call (NewArticleRecordWithMap) it does not
    return either once the 4096 names of that second are taken. *)
Theorem C09_full_second_refuted : forall wd w b owner date title,
  sane w -> ~ In x00 wd -> ident b ->
  (forall r, r < 4096 -> look w (board_entry w wd b
     (str "M." ++ fmt_d (w_clock w (w_tick w)) ++ str ".A." ++ fmt_3X r)) <> None) ->
  forall fuel, snd (run (NewArticleRecordWithMap fuel wd (Some owner) (Some date) (Some title) (Some b)) w) = Diverge.
Proof.
  intros wd w b owner date title Sw Nw Ib F fuel.
  cbn [NewArticleRecordWithMap run]. change (exec Now w) with (bump_tick w, w_clock w (w_tick w)). cbv beta iota.
  rewrite run_pbind.
  destruct (dated_diverges wd b Ib Nw fuel (bump_tick w) (w_clock w (w_tick w)) (sane_tick _ Sw)) as [w' ->]; [|reflexivity].
  right. intros n. apply F. apply N.mod_lt. discriminate.
Qed.
Print Assumptions C09_full_second_refuted.

Definition full_dir : rpath := rp ["bbs"; "boards"; "t"; "test"]%string.
Definition full_dirs : list (rpath * node) := dirs_of [["bbs"]; ["bbs"; "boards"]; ["bbs"; "boards"; "t"]; ["bbs"; "boards"; "t"; "test"]]%string.
Definition full_file (i : N) : rpath * node := (full_dir ++ [article_name 1600000000 i], NFile i).
Definition full_tree : list (rpath * node) := full_dirs ++ map (fun i => full_file (N.of_nat i)) (seq 0 (N.to_nat 4096)).
Definition full_world : world :=
  World [] (lookup full_tree) (fun _ => str "text") 4096 (fun _ => None) 3 (fun n => (1600000000 + Z.of_nat n)%Z) N.of_nat 0 0.
Lemma lookup_some l p : In p (map fst l) -> lookup l p <> None.
Proof. induction l as [|[q n] l IH]; cbn; [contradiction|]. intros H. destruct rp_eq_dec; [discriminate|]. destruct H as [->|H]; [contradiction|auto]. Qed.
Lemma full_in p n : lookup full_tree p = Some n ->
  In (p, n) full_dirs \/ exists i, i < 4096 /\ p = full_dir ++ [article_name 1600000000 i] /\ n = NFile i.
Proof.
  intros H. apply lookup_in, in_app_iff in H. destruct H as [H|H]; [now left|right]. apply in_map_iff in H.
  destruct H as (i & [= <- <-] & Hi). apply in_seq in Hi. exists (N.of_nat i). split; [lia|auto].
Qed.
Lemma full_dirs_dir p n : In (p, n) full_dirs -> n = NDir.
Proof. cbn. intros H. repeat destruct H as [H|H]; try contradiction; congruence. Qed.
Lemma full_dirs_found p : In (p, NDir) full_dirs -> lookup full_tree p = Some NDir.
Proof. cbn [full_dirs dirs_of map In]. intros H. repeat destruct H as [H|H]; try contradiction; injection H as <-; vm_compute; reflexivity. Qed.
Lemma full_sane : sane full_world.
Proof.
  constructor; cbn [full_world w_tree w_nexti w_nextfd w_fds]; try discriminate; auto.
  - intros p i H. apply full_in in H. destruct H as [H|(j & Hj & _ & [= ->])]; [apply full_dirs_dir in H; discriminate|exact Hj].
  - intros p q i H H'. apply full_in in H, H'.
    destruct H as [H|(j & _ & -> & [= ->])]; [apply full_dirs_dir in H; discriminate|].
    destruct H' as [H|(k & _ & -> & [= ->])]; [apply full_dirs_dir in H; discriminate|]. reflexivity.
  - intros p c H. destruct (lookup full_tree (p ++ [c])) as [n|] eqn:E; [|contradiction]. apply full_in in E. 
    destruct E as [E|(i & _ & E & _)].
    + pose proof (full_dirs_dir _ _ E). subst n.
      assert (G : p = removelast (p ++ [c])) by (symmetry; apply removelast_last).
      revert G. generalize (p ++ [c]) as q, E. clear. intros q E G.
      cbn [full_dirs dirs_of map In] in E. repeat destruct E as [E|E]; try contradiction; injection E as <-; cbn in G; subst p;
        [now left|right; apply full_dirs_found; cbn; auto..].
    + apply app_inj_tail in E. destruct E as [-> _]. right. apply full_dirs_found. cbn. auto 6.
Qed.
Example C09_full_second_nonvacuous :
  sane full_world /\ ident (str "test") /\
  (forall r, r < 4096 -> look full_world (board_entry full_world sample_wd (str "test")
     (str "M." ++ fmt_d (w_clock full_world (w_tick full_world)) ++ str ".A." ++ fmt_3X r)) <> None).
Proof.
  split; [exact full_sane|]. split; [exact test_ident|]. intros r Hr.
  assert (E : board_dir full_world sample_wd (str "test") = full_dir) by (vm_compute; reflexivity).
  unfold board_entry. rewrite E. change (w_clock full_world (w_tick full_world)) with 1600000000%Z.
  fold (article_name 1600000000 r).
  assert (L : lookup full_tree (full_dir ++ [article_name 1600000000 r]) <> None).
  { apply lookup_some. unfold full_tree. rewrite map_app, map_map. apply in_app_iff. right. apply in_map_iff.
    exists (N.to_nat r). rewrite N2Nat.id. split; [reflexivity|]. apply in_seq. lia. }
  unfold look. destruct (full_dir ++ _) eqn:Q; [now apply app_eq_nil in Q|]. clear Q. cbn [full_world w_tree].
  destruct (lookup full_tree (_ :: _)) as [[|]|]; try discriminate. now contradiction L.
Qed.

(** The call does return when the directory exists and one of the names to be
    tried is free. *)
Theorem C09_returns_when_a_name_is_free_partial : forall wd w b owner date title n,
  ~ In x00 wd -> ident b -> look w (board_dir w wd b) = Some EDir ->
  (look w (board_entry w wd b (candidate w n)) = None ->
     forall fuel, (n < fuel)%nat -> exists f, snd (run (CreateArticleRecord fuel wd b owner date title) w) = Ok f) /\
  (look w (board_entry w wd b (dated_candidate w n)) = None ->
     forall fuel, (n < fuel)%nat -> exists f,
       snd (run (NewArticleRecordWithMap fuel wd (Some owner) (Some date) (Some title) (Some b)) w) = Ok f).
Proof.
  intros wd w b owner date title n Nw Ib D. split; intros L fuel Hf.
  - unfold CreateArticleRecord. rewrite run_pbind. destruct (filename_returns wd b Ib Nw n w D L fuel Hf) as (w' & nm & ->). eexists. reflexivity.
  - cbn [NewArticleRecordWithMap run]. change (exec Now w) with (bump_tick w, w_clock w (w_tick w)). cbv beta iota.
    rewrite run_pbind.
    destruct (dated_returns wd b Ib Nw n (bump_tick w) (w_clock w (w_tick w)) D L fuel Hf) as (w' & nm & fd & E & Hw). rewrite E. cbv beta iota.
    cbn [run]. destruct (Hw (article_head owner b title date)) as (w2 & m & ->). eexists. reflexivity.
Qed.
Print Assumptions C09_returns_when_a_name_is_free_partial.

(** So DB.CreateArticleRecord returns on every board whose directory exists and
    has finitely many entries, if the clock goes on. *)
Theorem C09_returns_if_time_goes_on_partial : forall wd w b owner date title l,
  ~ In x00 wd -> ident b -> look w (board_dir w wd b) = Some EDir ->
  (forall n, look w (board_entry w wd b n) <> None -> In n l) -> clock_advances w ->
  exists n0, forall fuel, (n0 < fuel)%nat -> exists f, snd (run (CreateArticleRecord fuel wd b owner date title) w) = Ok f.
Proof.
  intros wd w b owner date title l Nw Ib D Fin A. destruct (free_candidate w l A) as [n Hn]. exists n.
  apply (C09_returns_when_a_name_is_free_partial wd w b owner date title n Nw Ib D).
  destruct (look w (board_entry w wd b (candidate w n))) eqn:L; [|reflexivity]. exfalso. apply Hn, Fin. congruence.
Qed.
Print Assumptions C09_returns_if_time_goes_on_partial.
Example C09_nonvacuous :
  look crowded (board_dir crowded sample_wd (str "test")) = Some EDir /\ clock_advances crowded /\
  (forall n, look crowded (board_entry crowded sample_wd (str "test") n) <> None -> In n [str "M.1600000000.A.007"]).
Proof.
  split; [vm_compute; reflexivity|]. split.
  - intros t. exists (4 * Z.to_nat t)%nat. cbn [crowded w_clock w_tick world_of]. cbn [Nat.add].
    rewrite Nat.mul_comm, Nat.div_mul by discriminate. lia.
  - intros n H.
    assert (E : board_dir crowded sample_wd (str "test") = full_dir) by (vm_compute; reflexivity).
    unfold board_entry in H. rewrite E in H. unfold look in H. destruct (full_dir ++ [n]) eqn:Q; [discriminate Q|]. rewrite <- Q in H.
    destruct (w_tree crowded (full_dir ++ [n])) as [m|] eqn:L; [|contradiction].
    change (w_tree crowded) with (lookup (sample_tree ++ [(rp ["bbs"; "boards"; "t"; "test"; "M.1600000000.A.007"]%string, NFile 4)])) in L.
    apply lookup_in in L. clear - L.
    assert (G : full_dir = removelast (full_dir ++ [n])) by (symmetry; apply removelast_last).
    assert (G' : n = last (full_dir ++ [n]) []) by (symmetry; apply last_last).
    rewrite G'. clear G'. revert L G. generalize (full_dir ++ [n]) as q. intros q L G.
    cbn [sample_tree dirs_of map app In] in L.
    repeat destruct L as [L|L]; try contradiction; injection L as <- <-; try (vm_compute in G; discriminate). vm_compute. now left.
Qed.
