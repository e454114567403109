(** * Specification: a BBS is a map from objects to file contents *)
From Verif Require Import M_Base M_Sys M_Path M_File M_Board M_Userec M_FileOps M_DB.
From Verif Require Import S_World S_Path S_Layout S_File S_Board S_Userec S_BoardList.
Open Scope N_scope.

(** Objects can be compared. *)
Definition object_eq_dec : forall a b : object, {a = b} + {a <> b}.
Proof. decide equality; try apply (list_eq_dec Byte.byte_eq_dec); apply (list_eq_dec (list_eq_dec Byte.byte_eq_dec)). Defined.

(** The content of every object, [None] when it does not exist. *)
Definition store := object -> option bytes.

(** The world [w] holds the contents [s] for the objects in [O]. *)
Definition stored (w : world) (wd : bytes) (O : object -> Prop) (s : store) : Prop :=
  forall o, O o -> plain_object o ->
  exists p rp, object_path wd o = Ok p /\ names w p rp /\ has_dir w rp /\
    look w rp = option_map EFile (s o).

(** ** The library calls *)
Inductive call :=
| AddRecord (b : bytes) (f : FileHeader)
| UpdateRecord (b : bytes) (i : N) (f : FileHeader)
| ListRecords (b : bytes)
| ListTreasures (b : bytes) (path : list bytes)
| WriteArticle (b f c : bytes)
| AppendArticle (b f c : bytes)
| ReadArticle (b f : bytes)
| ReadTreasure (b : bytes) (path : list bytes) (f : bytes)
| WriteDraft (u d c : bytes)
| DeleteDraft (u d : bytes)
| ReadDraft (u d : bytes)
| AddBoard (h : BoardHeader)
| ListBoards
| ListUsers.

Definition call_object (c : call) : object :=
  match c with
  | AddRecord b _ | UpdateRecord b _ _ | ListRecords b => Index b
  | ListTreasures b p => TreasureIndex b p
  | WriteArticle b f _ | AppendArticle b f _ | ReadArticle b f => Article b f
  | ReadTreasure b p f => Treasure b p f
  | WriteDraft u d _ | DeleteDraft u d | ReadDraft u d => Draft u d
  | AddBoard _ | ListBoards => Boards
  | ListUsers => Passwds
  end.

(** What the caller gets back. *)
Inductive answer :=
| Done | Bytes (d : bytes) | Files (l : list FileHeader) | BoardList (l : list BoardHeader) | UserList (l : list Userec).

Definition answer_with {A} (k : A -> answer) (p : prog (outcome A)) : prog (outcome answer) :=
  pbind p (fun a => Ret (Ok (k a))).

Definition call_prog (cd : codec) (wd : bytes) (c : call) (fuel : nat) : prog (outcome answer) :=
  match c with
  | AddRecord b f => answer_with (fun _ => Done) (AddArticleRecordFileRecord cd wd b f)
  | UpdateRecord b i f => answer_with (fun _ => Done) (UpdateArticleRecord cd wd b i f)
  | ListRecords b => answer_with Files (ReadBoardArticleRecordsFile cd fuel wd b)
  | ListTreasures b p => answer_with Files (ReadBoardTreasureRecordsFile cd fuel wd b p)
  | WriteArticle b f c => answer_with (fun _ => Done) (DB_WriteBoardArticleFile wd b f c)
  | AppendArticle b f c => answer_with (fun _ => Done) (DB_AppendBoardArticleFile wd b f c)
  | ReadArticle b f => answer_with Bytes (DB_ReadBoardArticleFile wd b f)
  | ReadTreasure b p f => answer_with Bytes (ReadBoardTreasureFile wd b p f)
  | WriteDraft u d c => answer_with (fun _ => Done) (DB_WriteUserDraft wd u d c)
  | DeleteDraft u d => answer_with (fun _ => Done) (DB_DeleteUserDraft wd u d)
  | ReadDraft u d => answer_with Bytes (GetUserDrafts wd u d)
  | AddBoard h => answer_with (fun _ => Done) (AddBoardRecord cd wd h)
  | ListBoards => answer_with BoardList (ReadBoardRecords cd fuel wd)
  | ListUsers => answer_with UserList (ReadUserRecords cd fuel wd)
  end.

(** ** What the calls mean *)

(** [d'] is [d] with the bytes [v] written at offset [off]; a gap is zero. *)
Definition patched (off : N) (v d d' : bytes) : Prop :=
  at_off d' off (N.of_nat (length v)) v /\
  N.of_nat (length d') = N.max (N.of_nat (length d)) (off + N.of_nat (length v)) /\
  forall k b, nth_error d' k = Some b ->
    N.of_nat k < off \/ off + N.of_nat (length v) <= N.of_nat k ->
    nth_error d k = Some b \/ (nth_error d k = None /\ b = x00).

Definition old_or_empty (o : option bytes) : bytes := match o with Some d => d | None => [] end.
Definition no_file : outcome answer := Err (ESys ENOENT).

(** Effect of a call on the content of its object, and its answer. *)
Definition call_meets (cd : codec) (c : call) (old new : option bytes) (r : outcome answer) : Prop :=
  match c with
  | AddRecord _ f =>
      exists v, file_encoded cd f v /\ new = Some (old_or_empty old ++ v) /\ r = Ok Done
  | UpdateRecord _ i f =>
      match old with
      | Some d => exists v d', file_encoded cd f v /\ patched (i * 128) v d d' /\ new = Some d' /\ r = Ok Done
      | None => new = None /\ r = no_file
      end
  | ListRecords _ =>
      new = old /\ exists ss l, slots 128 (old_or_empty old) ss /\ Forall2 (file_decoded cd) ss l /\ r = Ok (Files l)
  | ListTreasures _ _ =>
      new = old /\
      match old with
      | Some d => exists ss l, slots 128 d ss /\ Forall2 (file_decoded cd) ss l /\ r = Ok (Files l)
      | None => r = no_file
      end
  | WriteArticle _ _ c =>
      (exists rest, new = Some (c ++ rest) /\
         ((rest = [] /\ (length (old_or_empty old) <= length c)%nat) \/
          exists a, old = Some (a ++ rest) /\ length a = length c)) /\ r = Ok Done
  | AppendArticle _ _ c =>
      match old with
      | Some d => new = Some (d ++ c) /\ r = Ok Done
      | None => new = None /\ r = no_file
      end
  | ReadArticle _ _ | ReadTreasure _ _ _ =>
      new = old /\ r = match old with Some d => Ok (Bytes d) | None => no_file end
  | WriteDraft _ _ c => new = Some c /\ r = Ok Done
  | DeleteDraft _ _ => new = None /\ r = match old with Some _ => Ok Done | None => no_file end
  | ReadDraft _ _ => new = old /\ r = Ok (Bytes (old_or_empty old))
  | AddBoard h =>
      exists v, board_encoded cd h v /\ new = Some (old_or_empty old ++ v) /\ r = Ok Done
  | ListBoards =>
      new = old /\
      match old with
      | Some d => exists ss l, slots 256 d ss /\ Forall2 (board_decoded cd) ss l /\ r = Ok (BoardList l)
      | None => r = no_file
      end
  | ListUsers =>
      new = old /\
      match old with
      | Some d => exists ss l, slots 512 d ss /\ Forall2 (userec_decoded cd) ss l /\ r = Ok (UserList l)
      | None => r = no_file
      end
  end.

(** Names are plain and a record index is not so large that its offset
    overflows. *)
Definition call_ok (c : call) : Prop :=
  plain_object (call_object c) /\
  match c with UpdateRecord _ i _ => i < 2 ^ 56 | _ => True end.

(** A history of calls changes only the called objects, each according to its
    meaning. *)
Inductive history_meets (cd : codec) : list call -> store -> store -> list (outcome answer) -> Prop :=
| hm_nil s : history_meets cd [] s s []
| hm_cons c cs s s1 s2 r rs :
    call_meets cd c (s (call_object c)) (s1 (call_object c)) r ->
    (forall o, o <> call_object c -> s1 o = s o) ->
    history_meets cd cs s1 s2 rs ->
    history_meets cd (c :: cs) s s2 (r :: rs).

Inductive cexec (cd : codec) (wd : bytes) : list call -> world -> world -> list (outcome answer) -> Prop :=
| cexec_nil w : cexec cd wd [] w w []
| cexec_cons c cs w w1 w2 r rs :
    returns (call_prog cd wd c) w w1 r -> cexec cd wd cs w1 w2 rs ->
    cexec cd wd (c :: cs) w w2 (r :: rs).

(** ** Abbreviations for statements about one object *)

(** Object [o] lives at [rp] in an existing directory, with content [old]. *)
Definition holds_file (w : world) (wd : bytes) (o : object) (rp : rpath) (old : option bytes) : Prop :=
  exists p, object_path wd o = Ok p /\ names w p rp /\ has_dir w rp /\ look w rp = option_map EFile old.

(** The content of a draft after a history, from the calls alone. *)
Definition draft_after (u d : bytes) (cs : list call) (init : option bytes) : option bytes :=
  fold_left (fun cur c =>
    match c with
    | WriteDraft u' d' x => if beqb u u' && beqb d d' then Some x else cur
    | DeleteDraft u' d' => if beqb u u' && beqb d d' then None else cur
    | _ => cur
    end) cs init.

(** The board list after a history of additions, and the answers of the listings
    in between; [None] while the file does not exist. *)
Fixpoint board_answers (cs : list (option BoardHeader)) (bs : option (list BoardHeader)) : list (outcome answer) :=
  match cs with
  | [] => []
  | Some h :: cs' => Ok Done :: board_answers cs' (Some (match bs with Some l => l | None => [] end ++ [h]))
  | None :: cs' => match bs with Some l => Ok (BoardList l) | None => no_file end :: board_answers cs' bs
  end.
Definition board_call (o : option BoardHeader) : call := match o with Some h => AddBoard h | None => ListBoards end.
