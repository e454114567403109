(** * Specification: several clients at once

    Each client performs a list of library calls one after the other; a schedule
    chooses which client performs the next system call. *)
From Verif Require Import M_Base M_Sys M_File M_Board M_FileOps M_DB S_World S_Path S_File S_Store.
Open Scope N_scope.

(** A client: the calls in order, collecting the answers. *)
Fixpoint client_from (cd : codec) (wd : bytes) (fuel : nat) (cs : list call) (got : list (outcome answer))
    : prog (list (outcome answer)) :=
  match cs with
  | [] => Ret (rev got)
  | c :: cs' => bind (call_prog cd wd c fuel) (fun r => client_from cd wd fuel cs' (r :: got))
  end.
Definition client (cd : codec) (wd : bytes) (fuel : nat) (cs : list call) : prog (list (outcome answer)) :=
  client_from cd wd fuel cs [].

(** One entry of a merged history: which client, which call, which answer. *)
Record event := Event { ev_client : nat; ev_call : call; ev_answer : outcome answer }.
Definition of_client (i : nat) (log : list event) : list event :=
  filter (fun e => Nat.eqb (ev_client e) i) log.

(** The calls for which simultaneous use is claimed to be atomic: adding and
    updating records, listing, writing, reading and appending to articles. *)
Definition lists_records (c : call) : bool :=
  match c with ListRecords _ | ListTreasures _ _ | ListBoards | ListUsers => true | _ => false end.
Definition atomic_kind (c : call) : bool :=
  match c with
  | AddRecord _ _ | UpdateRecord _ _ _ | WriteArticle _ _ _ | AppendArticle _ _ _ | ReadArticle _ _ | ReadTreasure _ _ _ | AddBoard _ => true
  | _ => lists_records c
  end.
Definition record_size (o : object) : N :=
  match o with Boards => 256 | Passwds => 512 | _ => 128 end.

(** Conditions on all the calls together: an index is not listed while records
    are updated in place; the files listed hold whole records; and the board list
    or an index that is updated exists beforehand (the first addition creates the
    file before writing into it).  For the same reason an article that is written
    exists beforehand, or is not read or appended to. *)
Definition writes_article (c : call) : bool := match c with WriteArticle _ _ _ => true | _ => false end.
Record pool_ok (O : object -> Prop) (s : store) (cs : list call) : Prop := {
  po_ok : Forall call_ok cs;
  po_obj : Forall (fun c => O (call_object c)) cs;
  po_kind : Forall (fun c => atomic_kind c = true) cs;
  po_upd : forall b i f, In (UpdateRecord b i f) cs -> ~ In (ListRecords b) cs /\ s (Index b) <> None;
  po_new : forall b n t, In (WriteArticle b n t) cs -> s (Article b n) <> None \/
    forall c, In c cs -> call_object c = Article b n -> writes_article c = true;
  po_brd : In ListBoards cs -> s Boards <> None;
  po_size : forall c, In c cs -> lists_records c = true ->
    N.divide (record_size (call_object c)) (N.of_nat (length (old_or_empty (s (call_object c))))) }.

(** A file that only one client uses needs none of these conditions: they concern
    the calls on files that several clients use. *)
Definition uses (o : object) (cs : list call) : bool :=
  existsb (fun c => if object_eq_dec (call_object c) o then true else false) cs.
Definition users (css : list (list call)) (o : object) : nat := length (filter (uses o) css).
Definition shared_calls (css : list (list call)) : list call :=
  filter (fun c => Nat.leb 2 (users css (call_object c))) (concat css).
Record clients_ok (O : object -> Prop) (s : store) (css : list (list call)) : Prop := {
  co_ok : Forall call_ok (concat css);
  co_obj : Forall (fun c => O (call_object c)) (concat css);
  co_shared : pool_ok O s (shared_calls css) }.

(** Client [i] is the only one that uses the file [o] and has a call on it to
    make, perhaps half made, after those of the history [log]. *)
Definition at_work (css : list (list call)) (log : list event) (o : object) : Prop :=
  users css o = 1%nat /\
  exists i cs c rest, nth_error css i = Some cs /\ map ev_call (of_client i log) ++ c :: rest = cs /\ call_object c = o.

(** The state [w'] of the file system and [ps'] of the clients is explained by the
    merged history [log]: the store [s'] after the history is what the files hold
    (a file that a client has just created may still be empty, and a file may be in
    between while its only user is in the middle of a call), each client has
    performed its part of the history, and a client that is finished has performed
    all its calls and got the answers of the history; nothing else changed. *)
Definition explained (cd : codec) (wd : bytes) (O : object -> Prop) (s : store) (css : list (list call)) (w : world)
    (log : list event) (s' : store) (w' : world) (ps' : list (prog (list (outcome answer)))) : Prop :=
  history_meets cd (map ev_call log) s s' (map ev_answer log) /\
  sane w' /\ w_cwd w' = w_cwd w /\
  (forall o, O o -> plain_object o -> exists p rp, object_path wd o = Ok p /\ names w' p rp /\ has_dir w' rp /\
     (look w' rp = option_map EFile (s' o) \/ s' o = None /\ look w' rp = Some (EFile []) \/ at_work css log o)) /\
  (forall e, In e log -> (ev_client e < length css)%nat) /\
  (forall i cs, nth_error css i = Some cs ->
     exists rest, map ev_call (of_client i log) ++ rest = cs /\
       forall rs, nth_error ps' i = Some (Ret rs) -> rest = [] /\ rs = map ev_answer (of_client i log)) /\
  length ps' = length css /\
  (forall q, (forall o p, O o -> plain_object o -> object_path wd o = Ok p -> ~ names w p q) -> look w' q = look w q) /\
  ((forall p, In p ps' -> exists rs, p = Ret rs) -> stored w' wd O s').

(** ** Adding to and listing one board *)
Inductive bcall := BAdd (f : FileHeader) | BList.
Definition to_call (b : bytes) (c : bcall) : call :=
  match c with BAdd f => AddRecord b f | BList => ListRecords b end.

(** [log] is a merge of the sequences [css]: every element once, tagged with the
    sequence it comes from, each sequence in its own order. *)
Definition merge {A} (css : list (list A)) (log : list (nat * A)) : Prop :=
  forall i, map snd (filter (fun e => Nat.eqb (fst e) i) log) = nth i css [].

(** The records added by a sequence of calls, and the answer of the [k]-th call of
    a sequence started on the list [l]. *)
Fixpoint added (cs : list bcall) : list FileHeader :=
  match cs with [] => [] | BAdd f :: cs' => file_image f :: added cs' | BList :: cs' => added cs' end.
Fixpoint list_answers (l : list FileHeader) (cs : list (nat * bcall)) : list (nat * outcome answer) :=
  match cs with
  | [] => []
  | (i, BAdd f) :: cs' => (i, Ok Done) :: list_answers (l ++ [file_image f]) cs'
  | (i, BList) :: cs' => (i, Ok (Files l)) :: list_answers l cs'
  end.

(** ** Appending to and reading one article *)
Inductive acall := AAppend (x : bytes) | ARead.
Definition to_acall (b f : bytes) (c : acall) : call :=
  match c with AAppend x => AppendArticle b f x | ARead => ReadArticle b f end.
Fixpoint appended (cs : list acall) : list bytes :=
  match cs with [] => [] | AAppend x :: cs' => x :: appended cs' | ARead :: cs' => appended cs' end.
Fixpoint text_answers (d : bytes) (cs : list (nat * acall)) : list (nat * outcome answer) :=
  match cs with
  | [] => []
  | (i, AAppend x) :: cs' => (i, Ok Done) :: text_answers (d ++ x) cs'
  | (i, ARead) :: cs' => (i, Ok (Bytes d)) :: text_answers d cs'
  end.
