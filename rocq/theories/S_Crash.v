(** * Specification: what a crash leaves behind

    The process stops in the middle of a sequence of library calls; a write in
    progress may have transferred any prefix of its data. *)
From Verif Require Import M_Base M_Sys M_File M_Board M_FileOps M_DB S_World S_Path S_File S_Board S_Store S_Pool S_Create S_Post.
Open Scope N_scope.

(** [new] is [old] with its beginning overwritten by [v]. *)
Definition overwritten (v : bytes) (old : option bytes) (new : bytes) : Prop :=
  exists rest, new = v ++ rest /\
    ((rest = [] /\ (length (old_or_empty old) <= length v)%nat) \/
     exists a, old = Some (a ++ rest) /\ length a = length v).

(** Content of its object when call [c], started on the content [old], has been
    interrupted: unchanged, or the effect of a prefix of the data. *)
Definition torn (cd : codec) (c : call) (old now : option bytes) : Prop :=
  now = old \/
  match c with
  | AddRecord _ f => exists v n, file_encoded cd f v /\ now = Some (old_or_empty old ++ firstn n v)
  | AddBoard h => exists v n, board_encoded cd h v /\ now = Some (old_or_empty old ++ firstn n v)
  | UpdateRecord _ i f =>
      exists d v n d', old = Some d /\ file_encoded cd f v /\ (0 < n)%nat /\
        patched (i * 128) (firstn n v) d d' /\ now = Some d'
  | WriteArticle _ _ t => exists n d', overwritten (firstn n t) old d' /\ now = Some d'
  | AppendArticle _ _ t => exists d n, old = Some d /\ now = Some (d ++ firstn n t)
  | WriteDraft _ _ t => exists n, now = Some (firstn n t)
  | DeleteDraft _ _ => now = None
  | _ => False
  end.

(** The store after the calls [cs] have been interrupted: some of them are
    complete ([s1], with the answers [rs]), the next one may be torn, the rest
    have done nothing. *)
Definition interrupted (cd : codec) (cs : list call) (s s' : store) : Prop :=
  exists done rest s1 rs, cs = done ++ rest /\ history_meets cd done s s1 rs /\
    match rest with
    | [] => forall o, s' o = s1 o
    | c :: _ => torn cd c (s1 (call_object c)) (s' (call_object c)) /\
                forall o, o <> call_object c -> s' o = s1 o
    end.

(** Nothing but the files of the objects in [O] has changed. *)
Definition elsewhere (wd : bytes) (O : object -> Prop) (w w' : world) : Prop :=
  w_cwd w' = w_cwd w /\
  forall q, (forall o p, O o -> plain_object o -> object_path wd o = Ok p -> ~ names w p q) -> look w' q = look w q.

(** Several sessions one after the other, each of them stopped at any point
    (possibly after its last call). *)
Inductive sessions (cd : codec) (wd : bytes) (fuel : nat) : list (list call) -> world -> world -> Prop :=
| ses_nil w : sessions cd wd fuel [] w w
| ses_cons cs css w w1 w2 : crash (client cd wd fuel cs) w w1 -> sessions cd wd fuel css w1 w2 ->
    sessions cd wd fuel (cs :: css) w w2.
Inductive interrupted_all (cd : codec) : list (list call) -> store -> store -> Prop :=
| int_nil s s' : (forall o, s' o = s o) -> interrupted_all cd [] s s'
| int_cons cs css s s1 s2 : interrupted cd cs s s1 -> interrupted_all cd css s1 s2 ->
    interrupted_all cd (cs :: css) s s2.

(** A message whose posting was interrupted: nothing has happened; or an article
    with a new name exists, and
    - it is empty and the index is as before,
    - it is empty and a part of its record has been added to the index, or
    - its record is in the index and a part of the text has been written. *)
Definition half_posted (cd : codec) (wd : bytes) (w w' : world) (m : message) : Prop :=
  let idx := index_entry w wd (m_board m) in
  (forall q, look w' q = look w q) \/
  exists n, let art := board_entry w wd (m_board m) n in
    fresh_name n /\ look w art = None /\
    (forall q, q <> art -> q <> idx -> look w' q = look w q) /\
    (look w' art = Some (EFile []) /\ look w' idx = look w idx \/
     exists v k, file_encoded cd (listed m n) v /\
       (look w' art = Some (EFile []) /\ look w' idx = Some (EFile (text_at w idx ++ firstn k v)) \/
        look w' art = Some (EFile (firstn k (enc cd (m_text m)))) /\ look w' idx = Some (EFile (text_at w idx ++ v)))).
