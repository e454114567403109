(** * Specification: clients that post, list and read at the same time *)
From Verif Require Import M_Base M_Sys M_File M_FileOps M_DB M_BbsTool S_World S_Path S_File S_Store S_Create S_Post.
Open Scope N_scope.

(** A call of a client: post a message, list a board, show an article. *)
Inductive action := Posts (m : message) | Lists (b : bytes) | Shows (b n : bytes).
Inductive answer := Posted (o : outcome (list out)) | Listed (o : outcome (list FileHeader)) | Shown (o : outcome bytes).
Definition diary := list (action * answer).

(** The client does its calls one after the other. *)
Fixpoint visitor_from (cd : codec) (fuel : nat) (wd : bytes) (acts : list action) (got : diary) : prog diary :=
  match acts with
  | [] => Ret (rev got)
  | Posts m :: rest => bind (post_message cd fuel wd m) (fun r => visitor_from cd fuel wd rest ((Posts m, Posted r) :: got))
  | Lists b :: rest => bind (ReadBoardArticleRecordsFile cd fuel wd b) (fun r => visitor_from cd fuel wd rest ((Lists b, Listed r) :: got))
  | Shows b n :: rest => bind (DB_ReadBoardArticleFile wd b n) (fun r => visitor_from cd fuel wd rest ((Shows b n, Shown r) :: got))
  end.
Definition visitor (cd : codec) (fuel : nat) (wd : bytes) (acts : list action) : prog diary := visitor_from cd fuel wd acts [].

Fixpoint messages_of (acts : list action) : list message :=
  match acts with
  | [] => []
  | Posts m :: rest => m :: messages_of rest
  | _ :: rest => messages_of rest
  end.

(** What is asked of the files before. *)
Definition action_fine (w : world) (wd : bytes) (a : action) : Prop :=
  match a with
  | Posts m => ident (m_board m) /\ index_fine w wd (m_board m)
  | Lists b => ident b /\ index_fine w wd b /\ look w (board_dir w wd b) = Some EDir /\
      exists ss, text_at w (index_entry w wd b) = concat ss /\ Forall (fun s => length s = 128%nat) ss
  | Shows b n => plain_object (Article b n) /\ look w (board_entry w wd b n) <> Some EDir
  end.

(** The list [l] of a board is right after the posts [log]: the records that were in the index at
    first, then the posts to this board. *)
Definition right_list (cd : codec) (w : world) (wd b : bytes) (log : posts_log) (l : list FileHeader) : Prop :=
  exists old new vs, l = old ++ new /\
    (exists ss, text_at w (index_entry w wd b) = concat ss /\ Forall2 (fun s f => length s = 128%nat /\ file_decoded cd s f) ss old) /\
    Forall2 (file_encoded cd) (map (fun e => listed (fst e) (snd e)) (on_board b log)) vs /\
    Forall2 (file_decoded cd) vs new.

(** The diary of client [i] agrees with the common history [log] of all posts: [heard … rs k D]
    says that the last answer in [rs] was given when the first [k] posts of the log had been made,
    and that the client had posted [D] then. *)
Section Heard.
Variables (cd : codec) (wd : bytes) (w : world) (vs : list (list action)) (log : posts_log) (i : nat).
Inductive heard : diary -> nat -> list (message * bytes) -> Prop :=
| heard_nothing : heard [] 0 []
| heard_posted rs k D m n k' : heard rs k D ->
    (k <= k' <= length log)%nat -> by_client i (firstn k' log) = D ++ [(m, n)] ->
    heard (rs ++ [(Posts m, Posted (Ok [Out (str "new filename: " ++ n)]))]) k' (D ++ [(m, n)])
| heard_searching rs k D m : heard rs k D -> heard (rs ++ [(Posts m, Posted Diverge)]) k D
| heard_list rs k D b l k' : heard rs k D ->
    (k <= k' <= length log)%nat -> by_client i (firstn k' log) = D ->
    right_list cd w wd b (firstn k' log) l ->
    heard (rs ++ [(Lists b, Listed (Ok l))]) k' D
| heard_endless rs k D b : heard rs k D -> heard (rs ++ [(Lists b, Listed Diverge)]) k D
(* an article that was there at first *)
| heard_old_text rs k D b n d : heard rs k D ->
    look w (board_entry w wd b n) = Some (EFile d) ->
    heard (rs ++ [(Shows b n, Shown (Ok d))]) k D
(* an article that has been posted *)
| heard_text rs k D b n j m k' : heard rs k D ->
    look w (board_entry w wd b n) = None ->
    (k <= k' <= length log)%nat -> by_client i (firstn k' log) = D ->
    In (j, (m, n)) (firstn k' log) -> m_board m = b ->
    heard (rs ++ [(Shows b n, Shown (Ok (enc cd (m_text m))))]) k' D
(* an article of another client that has been created, but has no text yet; a text does not
   disappear after it has been shown *)
| heard_no_text rs k D b n : heard rs k D ->
    look w (board_entry w wd b n) = None -> fresh_name n ->
    (forall m, In (m, n) D -> m_board m <> b) ->
    (forall t, t <> [] -> ~ In (Shows b n, Shown (Ok t)) rs) ->
    (exists j acts m, j <> i /\ nth_error vs j = Some acts /\ In (Posts m) acts /\ m_board m = b) ->
    heard (rs ++ [(Shows b n, Shown (Ok []))]) k D
(* no such article *)
| heard_no_article rs k D b n e : heard rs k D ->
    look w (board_entry w wd b n) = None ->
    (forall j m, In (j, (m, n)) (firstn k log) -> m_board m <> b) ->
    (forall m, In (m, n) D -> m_board m <> b) ->
    heard (rs ++ [(Shows b n, Shown (Err e))]) k D.
End Heard.
