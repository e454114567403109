(** * Theorems about clients working at the same time *)
From Coq Require Import Lia ZifyBool ZifyNat ZifyN.
From Verif Require Import M_Base M_Sys M_Path M_File M_Board M_FileOps M_DB.
From Verif Require Import S_World S_Path S_Layout S_File S_BoardList S_Store S_Pool S_Example S_ExWorld.
From Verif Require Import P_Base P_Sys P_FileOps P_BoardList P_Store P_Pool P_PoolList T_Records T_BoardList T_Store.
Open Scope N_scope.

(** ** C52: simultaneous clients see one order of their calls *)

(** When all clients are finished, the answers are those of one merged history
    performed one call at a time.  The clients make any calls on files that no other
    client uses; the calls on files that several clients use are restricted to those
    of [pool_ok]. *)
Theorem C52_clients_linearize : forall cd wd O s w css fuel sched w' ps',
  ~ In x00 wd -> sane w -> stored w wd O s -> clients_ok O s css -> (length sched <= fuel)%nat ->
  run_pool sched w (map (client cd wd fuel) css) = (w', ps') -> (forall p, In p ps' -> exists rs, p = Ret rs) ->
  exists log s',
    history_meets cd (map ev_call log) s s' (map ev_answer log) /\ stored w' wd O s' /\ sane w' /\
    (forall e, In e log -> (ev_client e < length css)%nat) /\
    (forall i cs, nth_error css i = Some cs ->
       map ev_call (of_client i log) = cs /\ nth_error ps' i = Some (Ret (map ev_answer (of_client i log)))).
Proof.
  intros cd wd O s w css fuel sched w' ps' Nw Sw ST P Fu R Fin.
  destruct (pool_linearizes cd wd O s w css fuel sched w' ps' Nw Sw ST P Fu R Fin) as (log & s' & H1 & H2 & H3 & H4 & H5 & _).
  exists log, s'. auto 6.
Qed.
Print Assumptions C52_clients_linearize.

(** At every moment of every schedule, with clients at any point of their work,
    the files are explained by a history of the calls made so far; and this history
    only grows (so a call that starts after another one has returned comes later). *)
Theorem C52_every_moment_explained : forall cd wd O s w css fuel sched1 sched2 w1 ps1 w2 ps2,
  ~ In x00 wd -> sane w -> stored w wd O s -> clients_ok O s css -> (length (sched1 ++ sched2) <= fuel)%nat ->
  run_pool sched1 w (map (client cd wd fuel) css) = (w1, ps1) -> run_pool sched2 w1 ps1 = (w2, ps2) ->
  exists log1 s1 log2 s2,
    explained cd wd O s css w log1 s1 w1 ps1 /\ explained cd wd O s css w (log1 ++ log2) s2 w2 ps2.
Proof. exact pool_linearizes_any. Qed.
Print Assumptions C52_every_moment_explained.

(** In particular clients that use different files can make any calls at all. *)
Theorem C52_separate_files : forall cd wd O s w css fuel sched w' ps',
  ~ In x00 wd -> sane w -> stored w wd O s ->
  Forall call_ok (concat css) -> Forall (fun c => O (call_object c)) (concat css) ->
  (forall i j ci cj c c', nth_error css i = Some ci -> nth_error css j = Some cj -> In c ci -> In c' cj ->
     call_object c = call_object c' -> i = j) ->
  (length sched <= fuel)%nat ->
  run_pool sched w (map (client cd wd fuel) css) = (w', ps') -> (forall p, In p ps' -> exists rs, p = Ret rs) ->
  exists log s',
    history_meets cd (map ev_call log) s s' (map ev_answer log) /\ stored w' wd O s' /\ sane w' /\
    (forall i cs, nth_error css i = Some cs ->
       map ev_call (of_client i log) = cs /\ nth_error ps' i = Some (Ret (map ev_answer (of_client i log)))).
Proof.
  intros cd wd O s w css fuel sched w' ps' Nw Sw ST F1 F2 D Fu R Fin.
  destruct (pool_linearizes cd wd O s w css fuel sched w' ps' Nw Sw ST (separate_clients O s css F1 F2 D) Fu R Fin)
    as (log & s' & H1 & H2 & H3 & _ & H5 & _).
  exists log, s'. auto.
Qed.
Print Assumptions C52_separate_files.
Example C52_separate_nonvacuous : forall i j ci cj c c',
  nth_error [[WriteDraft (str "pichu") (str "0") (str "abc"); ReadDraft (str "pichu") (str "0"); DeleteDraft (str "pichu") (str "0")];
             [WriteDraft (str "pichu") (str "1") (str "x"); ReadDraft (str "pichu") (str "1")]] i = Some ci ->
  nth_error [[WriteDraft (str "pichu") (str "0") (str "abc"); ReadDraft (str "pichu") (str "0"); DeleteDraft (str "pichu") (str "0")];
             [WriteDraft (str "pichu") (str "1") (str "x"); ReadDraft (str "pichu") (str "1")]] j = Some cj ->
  In c ci -> In c' cj -> call_object c = call_object c' -> i = j.
Proof.
  intros [|[|i]] [|[|j]] ci cj c c' Hi Hj; cbn [nth_error] in Hi, Hj; try reflexivity;
  try (destruct i; discriminate Hi); try (destruct j; discriminate Hj);
  injection Hi as <-; injection Hj as <-; cbn [In]; intros A B;
  repeat match goal with H : _ \/ _ |- _ => destruct H as [H|H] | H : False |- _ => destruct H end; subst;
  cbn [call_object]; intros Z; discriminate Z.
Qed.

(** Four clients on two boards, their articles and the drafts of a user, finished
    after the given schedule.  The drafts are rewritten, read and deleted; the index of
    board [test] is listed and updated while it does not even exist. *)
Definition c52_clients : list (list call) :=
  [[AddRecord (str "SYSOP") sample_file; ListRecords (str "SYSOP")];
   [ListRecords (str "SYSOP"); AppendArticle (str "SYSOP") (str "M.1.A.001") (str "x"); WriteDraft (str "pichu") (str "1") (str "d")];
   [UpdateRecord (str "test") 0 sample_file; AddRecord (str "test") sample_file; UpdateRecord (str "test") 0 sample_file;
    ListRecords (str "test"); ReadArticle (str "SYSOP") (str "M.1.A.001")];
   [WriteArticle (str "SYSOP") (str "M.1.A.001") (str "HE"); WriteArticle (str "test") (str "M.1.A.001") (str "new");
    WriteDraft (str "pichu") (str "0") (str "abc"); ReadDraft (str "pichu") (str "0"); DeleteDraft (str "pichu") (str "0");
    ReadArticle (str "test") (str "M.1.A.001")]].
Definition c52_sched : list nat := concat (repeat [1; 3; 0; 2] 30)%nat.
Definition is_ret {A} (p : prog A) : bool := match p with Ret _ => true | _ => false end.
Lemma all_ret {A} (ps : list (prog A)) : forallb is_ret ps = true -> forall p, In p ps -> exists r, p = Ret r.
Proof. rewrite forallb_forall. intros H p Hp. apply H in Hp. destruct p; [eauto|discriminate]. Qed.
Definition call_tag (c : call) : nat := match c with UpdateRecord _ _ _ => 1 | ListBoards => 2 | _ => 0 end.
Lemma never c l : forallb (fun x => negb (Nat.eqb (call_tag x) (call_tag c))) l = true -> ~ In c l.
Proof. rewrite forallb_forall. intros H Hi. apply H in Hi. now rewrite Nat.eqb_refl in Hi. Qed.
(** the calls on the files that several clients use *)
Definition c52_shared : list call :=
  [AddRecord (str "SYSOP") sample_file; ListRecords (str "SYSOP");
   ListRecords (str "SYSOP"); AppendArticle (str "SYSOP") (str "M.1.A.001") (str "x");
   ReadArticle (str "SYSOP") (str "M.1.A.001"); WriteArticle (str "SYSOP") (str "M.1.A.001") (str "HE")].
Lemma c52_shared_calls : shared_calls c52_clients = c52_shared.
Proof. vm_compute. reflexivity. Qed.
Lemma draft0_plain : plain_object (Draft (str "pichu") (str "0")).
Proof. split; [exact pichu_ident|split; no_nul]. Qed.
Lemma draft1_plain : plain_object (Draft (str "pichu") (str "1")).
Proof. split; [exact pichu_ident|split; no_nul]. Qed.
Lemma c52_clients_ok : clients_ok sample_objects sample_store c52_clients.
Proof.
  pose proof sysop_ident. pose proof test_ident. pose proof m1_component.
  assert (Fo : Forall call_ok (concat c52_clients)).
  { unfold c52_clients. cbn [concat app].
    repeat apply Forall_cons; try apply Forall_nil;
    (split; [cbn [call_object]; first [exact draft0_plain|exact draft1_plain|cbn [plain_object]]|first [exact Logic.I|reflexivity]]); auto;
    (split; [assumption|]; split; [assumption|split; discriminate]). }
  assert (Ob : Forall (fun c => sample_objects (call_object c)) (concat c52_clients)).
  { unfold c52_clients, sample_objects. cbn [concat app]. repeat apply Forall_cons; try apply Forall_nil; cbn [call_object In]; tauto. }
  assert (Sub : forall c, In c c52_shared -> In c (concat c52_clients)).
  { intros c Hc. rewrite <- c52_shared_calls in Hc. now apply filter_In in Hc. }
  constructor; [exact Fo|exact Ob|]. rewrite c52_shared_calls. rewrite Forall_forall in Fo, Ob.
  constructor; try (apply Forall_forall; auto; fail).
  - unfold c52_shared. repeat apply Forall_cons; try apply Forall_nil; reflexivity.
  - intros b i f Hi. exfalso. revert Hi. apply never. vm_compute. reflexivity.
  - assert (G : Forall (fun c => writes_article c = true -> sample_store (call_object c) <> None) c52_shared).
    { unfold c52_shared. repeat apply Forall_cons; try apply Forall_nil; cbn [writes_article]; discriminate. }
    rewrite Forall_forall in G. intros b n t Hi. left. exact (G _ Hi eq_refl).
  - intros Hi. exfalso. revert Hi. apply never. vm_compute. reflexivity.
  - intros c Hi Lc. assert (E : call_object c = Index (str "SYSOP")).
    { assert (G : Forall (fun c => lists_records c = true -> call_object c = Index (str "SYSOP")) c52_shared).
      { unfold c52_shared. repeat apply Forall_cons; try apply Forall_nil; cbn [lists_records call_object]; congruence. }
      rewrite Forall_forall in G. now apply G. }
    rewrite E. exists 2. vm_compute. reflexivity.
Qed.
Example C52_nonvacuous :
  ~ In x00 sample_wd /\ sane sample_world /\ stored sample_world sample_wd sample_objects sample_store /\
  clients_ok sample_objects sample_store c52_clients /\ (length c52_sched <= 120)%nat /\
  (forall p, In p (snd (run_pool c52_sched sample_world (map (client id_codec sample_wd 120) c52_clients))) -> exists rs, p = Ret rs).
Proof.
  split; [exact sample_wd_ok|]. split; [exact sample_sane|]. split; [exact sample_stored|]. split; [exact c52_clients_ok|].
  split; [vm_compute; lia|]. apply all_ret. vm_compute. reflexivity.
Qed.

(** The restriction that an index is not listed while records are replaced is
    needed: a listing can then combine records that were never there together. *)
Definition C52_with_updates_statement : Prop :=
  forall cd wd O s w css fuel sched w' ps',
  ~ In x00 wd -> sane w -> stored w wd O s ->
  Forall call_ok (concat css) -> Forall (fun c => O (call_object c)) (concat css) ->
  Forall (fun c => atomic_kind c = true) (concat css) ->
  (forall c, In c (concat css) -> s (call_object c) <> None) ->
  (forall c, In c (concat css) -> lists_records c = true ->
    N.divide (record_size (call_object c)) (N.of_nat (length (old_or_empty (s (call_object c)))))) ->
  (length sched <= fuel)%nat ->
  run_pool sched w (map (client cd wd fuel) css) = (w', ps') -> (forall p, In p ps' -> exists rs, p = Ret rs) ->
  exists log s',
    history_meets cd (map ev_call log) s s' (map ev_answer log) /\
    (forall e, In e log -> (ev_client e < length css)%nat) /\
    (forall i cs, nth_error css i = Some cs ->
       map ev_call (of_client i log) = cs /\ nth_error ps' i = Some (Ret (map ev_answer (of_client i log)))).

Definition other_file : FileHeader := MkFileHeader (str "M.2.A.002") 5%Z 1%Z (str "bob") (str "1/01") (str "other") 0%Z 0%Z 0 0 0 0 0.
Definition upd_clients : list (list call) :=
  [[ListRecords (str "SYSOP")]; [UpdateRecord (str "SYSOP") 0 other_file; UpdateRecord (str "SYSOP") 1 other_file]].
Definition upd_sched : list nat := [0; 0; 1; 1; 1; 1; 1; 1; 1; 1; 0; 0; 0; 0]%nat.
Definition owners (r : outcome answer) : option (list bytes) := match r with Ok (Files l) => Some (map fh_owner l) | _ => None end.
(** the owners listed by client 0 at a given place among the updates *)
Definition upd_run := run_pool upd_sched sample_world (map (client id_codec sample_wd 40) upd_clients).
Definition ret_of {A} (p : option (prog A)) : option A := match p with Some (Ret a) => Some a | _ => None end.
Fixpoint run_calls (cs : list call) (w : world) : world * list (outcome answer) :=
  match cs with
  | [] => (w, [])
  | c :: cs' => let '(w1, r) := run (call_prog id_codec sample_wd c 600) w in
                let '(w2, rs) := run_calls cs' w1 in (w2, r :: rs)
  end.
Lemma run_calls_cexec cs w : Forall (fun r => r <> Diverge) (snd (run_calls cs w)) -> 
  cexec id_codec sample_wd cs w (fst (run_calls cs w)) (snd (run_calls cs w)).
Proof.
  revert w. induction cs as [|c cs IH]; intros w F; [constructor|].
  cbn [run_calls] in *. destruct (run (call_prog id_codec sample_wd c 600) w) as [w1 r] eqn:E.
  specialize (IH w1). destruct (run_calls cs w1) as [w2 rs]. cbn [fst snd] in *. apply Forall_cons_iff in F.
  econstructor; [|apply IH; apply F]. split; [apply F|]. exists 600%nat. exact E.
Qed.

Definition u0 := UpdateRecord (str "SYSOP") 0 other_file.
Definition u1 := UpdateRecord (str "SYSOP") 1 other_file.
Definition ls := ListRecords (str "SYSOP").
Lemma sysop_calls cs : Forall (fun c => c = u0 \/ c = u1 \/ c = ls) cs ->
  Forall call_ok cs /\ Forall (fun c => sample_objects (call_object c)) cs /\
  Forall (fun c => index_call c = true /\ call_object c = Index (str "SYSOP")) cs.
Proof.
  intros F. split; [|split]; (eapply Forall_impl; [|exact F]); intros c Hc; cbn beta in Hc.
  - split; destruct Hc as [->|[->| ->]]; try exact sysop_ident; exact Logic.I || reflexivity.
  - destruct Hc as [->|[->| ->]]; unfold sample_objects; cbn; tauto.
  - destruct Hc as [->|[->| ->]]; split; reflexivity.
Qed.
(** the answers of a sequential history are those of running it *)
Lemma sequential_answers cs s' rs : Forall (fun c => c = u0 \/ c = u1 \/ c = ls) cs ->
  forallb (fun r => match r with Diverge => false | _ => true end) (snd (run_calls cs sample_world)) = true ->
  history_meets id_codec cs sample_store s' rs -> rs = snd (run_calls cs sample_world).
Proof.
  intros F D H. destruct (sysop_calls cs F) as (F1 & F2 & F3).
  assert (X : Forall (fun r => r <> Diverge) (snd (run_calls cs sample_world))).
  { apply Forall_forall. intros r Hr. rewrite forallb_forall in D. apply D in Hr. now destruct r. }
  destruct (calls_refine id_codec sample_wd sample_objects cs sample_store sample_world _ _ sample_wd_ok sample_sane sample_stored F1 F2
    (run_calls_cexec cs sample_world X)) as (s2 & H2 & _).
  eapply index_history_fun; eauto.
Qed.
Theorem C52_listing_during_updates_refuted : ~ C52_with_updates_statement.
Proof.
  intros St.
  assert (F : Forall (fun c => c = u0 \/ c = u1 \/ c = ls) (concat upd_clients)).
  { unfold upd_clients. cbn [concat app]. repeat apply Forall_cons; try apply Forall_nil; unfold u0, u1, ls; tauto. }
  destruct (sysop_calls _ F) as (F1 & F2 & _).
  assert (Ob : forall c, In c (concat upd_clients) -> call_object c = Index (str "SYSOP")).
  { intros c Hc. rewrite Forall_forall in F. destruct (F c Hc) as [->|[->| ->]]; reflexivity. }
  destruct (St id_codec sample_wd sample_objects sample_store sample_world upd_clients 40%nat upd_sched
    (fst upd_run) (snd upd_run) sample_wd_ok sample_sane sample_stored F1 F2) as (log & s' & H & Ow & Cl).
  - rewrite Forall_forall in *. intros c Hc. destruct (F c Hc) as [->|[->| ->]]; reflexivity.
  - intros c Hc. rewrite (Ob c Hc). vm_compute. discriminate.
  - intros c Hc _. rewrite (Ob c Hc). exists 2. vm_compute. reflexivity.
  - vm_compute. lia.
  - cbv delta [upd_run]. exact (surjective_pairing _).
  - apply all_ret. vm_compute. reflexivity.
  - destruct (Cl 0%nat [ls] eq_refl) as [A0 B0]. destruct (Cl 1%nat [u0; u1] eq_refl) as [A1 B1].
    assert (G : option_map (map owners) (ret_of (nth_error (snd upd_run) 0)) = Some [Some [str "pichu"; str "bob"]]).
    { vm_compute. reflexivity. }
    rewrite B0 in G. cbn [ret_of option_map] in G. injection G as G. clear B0 B1 Cl.
    (* the three possible orders *)
    assert (L : map (fun e => (ev_client e, ev_call e)) log = [(0%nat, ls); (1%nat, u0); (1%nat, u1)] \/
                map (fun e => (ev_client e, ev_call e)) log = [(1%nat, u0); (0%nat, ls); (1%nat, u1)] \/
                map (fun e => (ev_client e, ev_call e)) log = [(1%nat, u0); (1%nat, u1); (0%nat, ls)]).
    { clear G H. apply Forall_forall in Ow. change (length upd_clients) with 2%nat in Ow.
      destruct log as [|[a ca ra] [|[b cb rb] [|[c cc rc] [|[d cd rd] log]]]];
      repeat match goal with
      | X : Forall _ (_ :: _) |- _ =>
          let Z := fresh "Z" in apply Forall_cons_iff in X; destruct X as [Z X]; cbn [ev_client] in Z
      end;
      repeat match goal with
      | Z : (?i < 2)%nat |- _ => let Y := fresh in assert (Y : i = 0%nat \/ i = 1%nat) by lia; clear Z; destruct Y as [-> | ->]
      end;
      cbn [of_client filter ev_client Nat.eqb map ev_call] in A0, A1; try discriminate A0; try discriminate A1;
      cbn [map ev_client ev_call];
      try (injection A0 as ->); try (injection A1 as -> ->); auto. }
    assert (Ec : forall l : list (nat * call), map (fun e => (ev_client e, ev_call e)) log = l -> map ev_call log = map snd l).
    { intros l <-. now rewrite map_map. }
    assert (Ei : forall l : list (nat * call), map (fun e => (ev_client e, ev_call e)) log = l -> map ev_client log = map fst l).
    { intros l <-. now rewrite map_map. }
    assert (K : forall a b c : nat * call,
       Forall (fun c => c = u0 \/ c = u1 \/ c = ls) [snd a; snd b; snd c] ->
       forallb (fun r => match r with Diverge => false | _ => true end) (snd (run_calls [snd a; snd b; snd c] sample_world)) = true ->
       map (fun e => (ev_client e, ev_call e)) log = [a; b; c] ->
       map snd (filter (fun e => Nat.eqb (fst e) 0) (combine [fst a; fst b; fst c] (map owners (snd (run_calls [snd a; snd b; snd c] sample_world))))) =
         [Some [str "pichu"; str "bob"]]).
    { intros a b c Fl Dv E. pose proof (Ec _ E) as E1. pose proof (Ei _ E) as E2. cbn [map] in E1, E2. rewrite E1 in H.
      pose proof (sequential_answers _ s' _ Fl Dv H) as <-.
      rewrite <- G, <- E2. clear. unfold of_client. induction log as [|[i c r] log IH]; [reflexivity|].
      cbn [map combine filter fst ev_client ev_answer]. destruct (Nat.eqb i 0); cbn [map snd]; now rewrite IH. }
    destruct L as [L|[L|L]]; apply K in L; try (vm_compute in L; discriminate L);
    first [vm_compute; reflexivity | repeat apply Forall_cons; try apply Forall_nil; cbn [snd]; auto].
Qed.
Print Assumptions C52_listing_during_updates_refuted.

(** The other restrictions are needed too.  Without any condition on the kinds of
    calls, two clients that each make one call need not agree with any order. *)
Definition C52_any_calls_statement (allowed : call -> Prop) : Prop :=
  forall cd wd O s w c1 c2 fuel sched w' r1 r2,
  ~ In x00 wd -> sane w -> stored w wd O s -> call_ok c1 -> call_ok c2 -> O (call_object c1) -> O (call_object c2) ->
  allowed c1 -> allowed c2 -> (length sched <= fuel)%nat ->
  run_pool sched w (map (client cd wd fuel) [[c1]; [c2]]) = (w', [Ret [r1]; Ret [r2]]) ->
  exists s', history_meets cd [c1; c2] s s' [r1; r2] \/ history_meets cd [c2; c1] s s' [r2; r1].

(** A draft is emptied before it is written: a reader can get nothing, though
    there was a draft before and there is one after. *)
Definition draft_calls (c : call) : Prop := match c with WriteDraft _ _ _ | ReadDraft _ _ => True | _ => False end.
Lemma two_calls cd c1 c2 s s' r1 r2 : history_meets cd [c1; c2] s s' [r1; r2] ->
  call_object c1 = call_object c2 ->
  exists m, call_meets cd c1 (s (call_object c1)) m r1 /\ call_meets cd c2 m (s' (call_object c2)) r2.
Proof.
  intros H E. inversion H as [|? ? ? s1 ? ? ? M1 F1 H2]; subst. inversion H2 as [|? ? ? s2 ? ? ? M2 F2 H3]; subst.
  inversion H3; subst. exists (s1 (call_object c1)). split; [exact M1|]. now rewrite E in *.
Qed.
Definition draft_run := run_pool [0; 1; 1; 1; 1; 0; 0; 0; 0; 0]%nat sample_world
  (map (client id_codec sample_wd 20) [[WriteDraft (str "pichu") (str "0") (str "abc")]; [ReadDraft (str "pichu") (str "0")]]).
Theorem C52_draft_read_while_written_refuted : ~ C52_any_calls_statement draft_calls.
Proof.
  intros St.
  destruct (St id_codec sample_wd sample_objects sample_store sample_world (WriteDraft (str "pichu") (str "0") (str "abc"))
    (ReadDraft (str "pichu") (str "0")) 20%nat [0; 1; 1; 1; 1; 0; 0; 0; 0; 0]%nat (fst draft_run) (Ok Done) (Ok (Bytes []))
    sample_wd_ok sample_sane sample_stored) as (s' & [H|H]).
  1-2: split; [split; [exact pichu_ident|split; no_nul]|exact Logic.I].
  1-2: unfold sample_objects; cbn; tauto.
  1-2: exact Logic.I.
  - vm_compute. lia.
  - assert (E : snd draft_run = [Ret [Ok Done]; Ret [Ok (Bytes [])]]) by (vm_compute; reflexivity).
    rewrite <- E. cbv delta [draft_run]. exact (surjective_pairing _).
  - destruct (two_calls _ _ _ _ _ _ _ H eq_refl) as (m & [-> _] & [_ Z]). discriminate Z.
  - destruct (two_calls _ _ _ _ _ _ _ H eq_refl) as (m & [_ Z] & _). vm_compute in Z. discriminate Z.
Qed.
Print Assumptions C52_draft_read_while_written_refuted.

(** An article that does not exist yet is created before it is written: a reader
    can get an empty text, though no such article existed before and the one
    written is not empty. *)
Definition article_calls (c : call) : Prop := match c with WriteArticle _ _ _ | ReadArticle _ _ => True | _ => False end.
Definition new_article_run := run_pool [0; 1; 1; 1; 0; 0; 0]%nat sample_world
  (map (client id_codec sample_wd 20) [[WriteArticle (str "test") (str "M.1.A.001") (str "abc")]; [ReadArticle (str "test") (str "M.1.A.001")]]).
Theorem C52_new_article_read_while_written_refuted : ~ C52_any_calls_statement article_calls.
Proof.
  intros St.
  destruct (St id_codec sample_wd sample_objects sample_store sample_world (WriteArticle (str "test") (str "M.1.A.001") (str "abc"))
    (ReadArticle (str "test") (str "M.1.A.001")) 20%nat [0; 1; 1; 1; 0; 0; 0]%nat (fst new_article_run) (Ok Done) (Ok (Bytes []))
    sample_wd_ok sample_sane sample_stored) as (s' & [H|H]).
  1-2: split; [split; [exact test_ident|split; [exact m1_component|split; discriminate]]|exact Logic.I].
  1-2: unfold sample_objects; cbn; tauto.
  1-2: exact Logic.I.
  - vm_compute. lia.
  - assert (E : snd new_article_run = [Ret [Ok Done]; Ret [Ok (Bytes [])]]) by (vm_compute; reflexivity).
    rewrite <- E. cbv delta [new_article_run]. exact (surjective_pairing _).
  - destruct (two_calls _ _ _ _ _ _ _ H eq_refl) as (m & [(rest & -> & _) _] & [_ Z]). discriminate Z.
  - destruct (two_calls _ _ _ _ _ _ _ H eq_refl) as (m & [_ Z] & _). vm_compute in Z. discriminate Z.
Qed.
Print Assumptions C52_new_article_read_while_written_refuted.

(** ** C06, C48: adding to and listing one board *)

(** All clients finished: the board holds the old list followed by a merge of what
    the clients added; every listing returned is the old list followed by what was
    added before it in the merged order; nothing else in the file system changed. *)
Definition board_after (st : bstate) (b : bytes) (new : list FileHeader) : bstate :=
  match new with [] => st | _ :: _ => bs_set st b (bs_list st b ++ new) end.
Theorem C48_listings_and_additions : forall cd wd B st w b css fuel sched w' ps',
  ~ In x00 wd -> sane w -> holds cd w wd B st -> B b -> ident b ->
  Forall (Forall (fun c => match c with BAdd f => file_fits cd f | BList => True end)) css ->
  (length sched <= fuel)%nat ->
  run_pool sched w (map (fun cs => client cd wd fuel (map (to_call b) cs)) css) = (w', ps') ->
  (forall p, In p ps' -> exists rs, p = Ret rs) ->
  exists log, merge css log /\
    (forall i, (i < length css)%nat ->
       nth_error ps' i = Some (Ret (map snd (filter (fun e => Nat.eqb (fst e) i) (list_answers (bs_list st b) log))))) /\
    holds cd w' wd B (board_after st b (added (map snd log))) /\ sane w'.
Proof.
  intros cd wd B st w b css fuel sched w' ps' Nw Sw H Bb Ib F Fu R Fin.
  destruct (pool_on_list cd wd B st w b css fuel sched w' ps' Nw Sw H Bb Ib F Fu R Fin) as (log & H1 & H2 & H3 & H4 & _).
  exists log. auto.
Qed.
Print Assumptions C48_listings_and_additions.
(** In particular each listing is the records present at the start followed by a
    prefix of the records added in the end. *)
Theorem C48_listing_is_prefix : forall cd wd B st w b css fuel sched w' ps',
  ~ In x00 wd -> sane w -> holds cd w wd B st -> B b -> ident b ->
  Forall (Forall (fun c => match c with BAdd f => file_fits cd f | BList => True end)) css ->
  (length sched <= fuel)%nat ->
  run_pool sched w (map (fun cs => client cd wd fuel (map (to_call b) cs)) css) = (w', ps') ->
  (forall p, In p ps' -> exists rs, p = Ret rs) ->
  exists new, holds cd w' wd B (board_after st b new) /\
    forall i rs r, nth_error ps' i = Some (Ret rs) -> In r rs ->
      r = Ok Done \/ exists k, r = Ok (Files (bs_list st b ++ firstn k new)).
Proof.
  intros cd wd B st w b css fuel sched w' ps' Nw Sw H Bb Ib F Fu R Fin.
  destruct (pool_on_list cd wd B st w b css fuel sched w' ps' Nw Sw H Bb Ib F Fu R Fin) as (log & H1 & H2 & H3 & H4 & _).
  exists (added (map snd log)). split; [exact H3|]. intros i rs r E Hr.
  destruct (Nat.lt_ge_cases i (length css)) as [Hi|Hi].
  - rewrite (H2 i Hi) in E. injection E as <-. apply in_map_iff in Hr. destruct Hr as ([j r'] & <- & Hr).
    apply filter_In in Hr. destruct Hr as [Hr _]. eapply list_answers_prefix. exact Hr.
  - exfalso. assert (nth_error ps' i = None) as Z; [|congruence]. apply nth_error_None.
    replace (length ps') with (length css); [exact Hi|]. clear - R.
    assert (G : forall sched w (ps : list (prog (list (outcome answer)))) w' ps', run_pool sched w ps = (w', ps') -> length ps' = length ps).
    { clear. induction sched as [|i s IH]; intros w ps w' ps' R; cbn [run_pool] in R; [now injection R as _ <-|].
      destruct (nth_error ps i) as [p|]; [|eauto]. destruct (step1 p w) as [w1 p1]. apply IH in R. now rewrite upd_nth_length in R. }
    apply G in R. now rewrite map_length in R.
Qed.
Print Assumptions C48_listing_is_prefix.

Theorem C06_concurrent_additions_merge : forall cd wd B st w b fss fuel sched w' ps',
  ~ In x00 wd -> sane w -> holds cd w wd B st -> B b -> ident b -> Forall (Forall (file_fits cd)) fss ->
  (length sched <= fuel)%nat ->
  run_pool sched w (map (fun fs => client cd wd fuel (map (AddRecord b) fs)) fss) = (w', ps') ->
  (forall p, In p ps' -> exists rs, p = Ret rs) ->
  exists log, merge fss log /\
    holds cd w' wd B (board_after st b (map (fun e => file_image (snd e)) log)) /\ sane w' /\
    (forall i fs, nth_error fss i = Some fs -> nth_error ps' i = Some (Ret (map (fun _ => Ok Done) fs))).
Proof.
  intros cd wd B st w b fss fuel sched w' ps' Nw Sw H Bb Ib F Fu R Fin.
  assert (E : map (fun fs => client cd wd fuel (map (AddRecord b) fs)) fss =
              map (fun cs => client cd wd fuel (map (to_call b) cs)) (map (map BAdd) fss)).
  { rewrite map_map. apply map_ext. intros fs. now rewrite map_map. }
  rewrite E in R.
  destruct (pool_on_list cd wd B st w b (map (map BAdd) fss) fuel sched w' ps' Nw Sw H Bb Ib) as (log & H1 & H2 & H3 & H4 & _); auto.
  { rewrite Forall_map. eapply Forall_impl; [|exact F]. intros fs Ff. rewrite Forall_map. exact Ff. }
  assert (A : exists fl, log = map (fun e => (fst e, BAdd (snd e))) fl).
  { assert (X : Forall (fun e => exists f, snd e = BAdd f) log).
    { apply Forall_forall. intros e He.
      assert (I1 : In (snd e) (map snd (filter (fun x => Nat.eqb (fst x) (fst e)) log))).
      { apply in_map. apply filter_In. split; [exact He|apply Nat.eqb_refl]. }
      rewrite H1 in I1. destruct (nth_in_or_default (fst e) (map (map BAdd) fss) []) as [I2|I2]; [|rewrite I2 in I1; contradiction].
      apply in_map_iff in I2. destruct I2 as (fs & I2 & _). rewrite <- I2 in I1. apply in_map_iff in I1. destruct I1 as (f & I1 & _). eauto. }
    clear - X. induction X as [|[i c] log [f Hf] X [fl ->]]; [now exists []|]. exists ((i, f) :: fl). cbn in *. now rewrite Hf. }
  destruct A as [fl ->]. exists fl. split; [|split; [|split; [exact H4|]]].
  - intros i. specialize (H1 i). rewrite (filter_map_tag BAdd), map_map in H1. cbn [snd] in H1.
    rewrite <- (map_map snd BAdd) in H1. change (@nil bcall) with (map BAdd []) in H1. rewrite map_nth in H1.
    eapply map_inj; [|exact H1]. congruence.
  - replace (map (fun e => file_image (snd e)) fl) with (added (map snd (map (fun e => (fst e, BAdd (snd e))) fl))); [exact H3|].
    clear. induction fl as [|[i f] fl IH]; [reflexivity|]. cbn in *. now rewrite IH.
  - intros i fs Hi. rewrite H2 by (rewrite map_length; apply nth_error_Some; congruence). do 2 f_equal.
    specialize (H1 i). rewrite (filter_map_tag BAdd), map_map in H1. cbn [snd] in H1.
    rewrite <- (map_map snd BAdd) in H1. change (@nil bcall) with (map BAdd []) in H1. rewrite map_nth in H1.
    apply map_inj in H1; [|congruence]. rewrite (nth_error_nth _ _ _ Hi) in H1. subst fs. rewrite map_map.
    generalize (bs_list st b). clear. induction fl as [|[j f] fl IH]; intros l; [reflexivity|].
    cbn [map fst snd list_answers filter]. destruct (Nat.eqb j i); cbn [map]; now rewrite IH.
Qed.
Print Assumptions C06_concurrent_additions_merge.

Definition c06_lists : list (list FileHeader) := [[sample_file; other_file]; [other_file]].
Definition c06_sched : list nat := [0; 1; 0; 1; 0; 0; 1; 0; 0]%nat.
Definition c48_lists : list (list bcall) := [[BAdd sample_file; BList]; [BList; BAdd other_file]].
Definition c48_sched : list nat := [1; 0; 1; 0; 1; 0; 1; 1; 1; 0; 1; 0; 0; 0; 0; 0; 0; 1; 1; 1]%nat.
Example C06_nonvacuous :
  holds id_codec sample_world sample_wd sample_boards sample_state /\ Forall (Forall (file_fits id_codec)) c06_lists /\
  (forall p, In p (snd (run_pool c06_sched sample_world
     (map (fun fs => client id_codec sample_wd 20 (map (AddRecord (str "SYSOP")) fs)) c06_lists))) -> exists rs, p = Ret rs).
Proof.
  split; [exact sample_holds|]. split.
  - assert (F : file_fits id_codec sample_file) by exact C01_nonvacuous.
    assert (G : file_fits id_codec other_file).
    { unfold file_fits. fits. }
    unfold c06_lists. repeat apply Forall_cons; try apply Forall_nil; assumption.
  - apply all_ret. vm_compute. reflexivity.
Qed.
Example C48_nonvacuous :
  forall p, In p (snd (run_pool c48_sched sample_world
     (map (fun cs => client id_codec sample_wd 20 (map (to_call (str "SYSOP")) cs)) c48_lists))) -> exists rs, p = Ret rs.
Proof. apply all_ret. vm_compute. reflexivity. Qed.

(** ** C11: appending to and reading one article *)
Theorem C11_concurrent_appends : forall cd wd w b f rp d css fuel sched w' ps',
  ~ In x00 wd -> sane w -> plain_object (Article b f) -> holds_file w wd (Article b f) rp (Some d) ->
  (length sched <= fuel)%nat ->
  run_pool sched w (map (fun cs => client cd wd fuel (map (to_acall b f) cs)) css) = (w', ps') ->
  (forall p, In p ps' -> exists rs, p = Ret rs) ->
  exists log, merge css log /\
    (forall i, (i < length css)%nat ->
       nth_error ps' i = Some (Ret (map snd (filter (fun e => Nat.eqb (fst e) i) (text_answers d log))))) /\
    holds_file w' wd (Article b f) rp (Some (d ++ concat (appended (map snd log)))) /\
    sane w' /\ (forall q, q <> rp -> look w' q = look w q).
Proof. exact pool_on_text. Qed.
Print Assumptions C11_concurrent_appends.
Example C11_concurrent_nonvacuous :
  plain_object (Article (str "SYSOP") (str "M.1.A.001")) /\
  holds_file sample_world sample_wd (Article (str "SYSOP") (str "M.1.A.001"))
    (rp ["bbs"; "boards"; "S"; "SYSOP"; "M.1.A.001"]%string) (Some (str "hello")) /\
  (forall p, In p (snd (run_pool [0; 1; 1; 0; 1; 1; 1; 0; 0; 0; 0; 1; 0; 1]%nat sample_world
     (map (fun cs => client id_codec sample_wd 20 (map (to_acall (str "SYSOP") (str "M.1.A.001")) cs))
       [[AAppend (str "a"); ARead]; [AAppend (str "b"); AAppend (str "c")]]))) -> exists rs, p = Ret rs).
Proof.
  split; [split; [exact sysop_ident|split; [exact m1_component|split; discriminate]]|].
  split.
  - eexists. split; [reflexivity|]. split; [split; [split; [discriminate|no_nul]|vm_compute; reflexivity]|].
    split; vm_compute; reflexivity.
  - apply all_ret. vm_compute. reflexivity.
Qed.
