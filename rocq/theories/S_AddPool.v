(** * Specification: adding and reading at the same time, on a disk that fails *)
From Verif Require Import M_Base M_Sys M_File M_Board M_Userec M_FileOps M_DB.
From Verif Require Import S_World S_Path S_Layout S_File S_Board S_Userec S_BoardList S_Store S_Fault S_Pool S_PostPool.
Open Scope N_scope.

(** What the clients have done to the files and seen of them, in one order.  Adding
    nothing makes the file if there is none. *)
Inductive trace := Added (o : object) (v : bytes) | Seen (o : object) (x : option bytes).
Definition after_one (o : object) (x : option bytes) (t : trace) : option bytes :=
  match t with
  | Added o' v => if object_eq_dec o' o then Some (old_or_empty x ++ v) else x
  | Seen _ _ => x
  end.
(** the file [o] after the history [h] *)
Definition after (s : store) (h : list (nat * trace)) (o : object) : option bytes := fold_left (after_one o) (map snd h) (s o).
(** What was seen of a file is the whole file as it was at that moment. *)
Definition seen_truly (s : store) (h : list (nat * trace)) : Prop :=
  forall h1 i o x h2, h = h1 ++ (i, Seen o x) :: h2 -> x = after s h1 o.

(** The calls: adding at the end of a file, and reading. *)
Definition adds (cd : codec) (c : call) (v : bytes) : Prop :=
  match c with
  | AddRecord _ f => file_encoded cd f v
  | AddBoard h => board_encoded cd h v
  | AppendArticle _ _ t => v = t
  | _ => False
  end.
Definition may_create (c : call) : bool := match c with AddRecord _ _ | AddBoard _ => true | _ => false end.
Definition reads_whole (c : call) : bool := match c with ReadArticle _ _ | ReadTreasure _ _ _ => true | _ => false end.
Definition adds_or_reads (c : call) : bool :=
  match c with AppendArticle _ _ _ => true | _ => may_create c || reads_whole c || lists_records c end.

(** Slots read one after the other from position [pos] of a file that others add to: a
    read at the end ends it, any other gives the next slot, the last one filled up with
    zero bytes; a read that fails gives a slot of zero bytes. *)
Inductive slots_read (o : object) (size : nat) : nat -> list trace -> list bytes -> Prop :=
| sr_end pos d : (length d <= pos)%nat -> slots_read o size pos [Seen o (Some d)] []
| sr_slot pos d v tr ss : (pos < length d)%nat -> v = firstn size (skipn pos d) -> slots_read o size (pos + length v) tr ss ->
    slots_read o size pos (Seen o (Some d) :: tr) ((v ++ repeat x00 (size - length v)) :: ss)
| sr_failed pos tr ss : slots_read o size pos tr ss -> slots_read o size pos tr (repeat x00 size :: ss).
Definition slot_size (c : call) : nat := match c with ListBoards => 256 | ListUsers => 512 | _ => 128 end.
Definition lists_as (cd : codec) (c : call) (ss : list bytes) (r : outcome answer) : Prop :=
  match c with
  | ListRecords _ | ListTreasures _ _ => exists l, Forall2 (file_decoded cd) ss l /\ r = Ok (Files l)
  | ListBoards => exists l, Forall2 (board_decoded cd) ss l /\ r = Ok (BoardList l)
  | ListUsers => exists l, Forall2 (userec_decoded cd) ss l /\ r = Ok (UserList l)
  | _ => False
  end.

Definition opening (c : call) : list trace := if may_create c then [Added (call_object c) []] else [].
Definition sees (o : object) (t : trace) : Prop := exists d, t = Seen o (Some d).

(** A call with its answer: *)
Inductive did (cd : codec) (wd : bytes) (c : call) : outcome answer -> list trace -> Prop :=
(** all was added *)
| did_added v : adds cd c v -> did cd wd c (Ok Done) (opening c ++ [Added (call_object c) v])
(** a part was added, and an error reported *)
| did_torn v k : adds cd c v -> did cd wd c io_error (opening c ++ [Added (call_object c) (firstn k v)])
(** nothing was done, and an error reported *)
| did_failed : did cd wd c io_error []
(** there is no such file *)
| did_missing : may_create c = false -> (forall b, c <> ListRecords b) -> did cd wd c no_file [Seen (call_object c) None]
| did_empty b : c = ListRecords b -> did cd wd c (Ok (Files [])) [Seen (Index b) None]
(** the file was read *)
| did_read d : reads_whole c = true -> did cd wd c (Ok (Bytes d)) [Seen (call_object c) (Some d)]
| did_listed tr ss r : lists_records c = true -> slots_read (call_object c) (slot_size c) 0 tr ss -> lists_as cd c ss r -> did cd wd c r tr
(** an error is taken for an empty board: the path says "no such file or directory" *)
| did_hidden b p : c = ListRecords b -> object_path wd (Index b) = Ok p -> occurs_in (str "no such file or directory") p -> did cd wd c (Ok (Files [])) []
(** it is still being listed *)
| did_unended tr : lists_records c = true -> Forall (sees (call_object c)) tr -> did cd wd c Diverge tr.
(** A call without an answer, stopped at any moment. *)
Definition begun (cd : codec) (wd : bytes) (c : call) (tr : list trace) : Prop :=
  (exists r, did cd wd c r tr) \/ tr = opening c \/ Forall (sees (call_object c)) tr.

(** The calls of one client, one after the other. *)
Inductive did_all (cd : codec) (wd : bytes) : list call -> list (outcome answer) -> list trace -> Prop :=
| did_none : did_all cd wd [] [] []
| did_next cs rs tr c r t : did_all cd wd cs rs tr -> did cd wd c r t -> did_all cd wd (cs ++ [c]) (rs ++ [r]) (tr ++ t).
Definition underway (cd : codec) (wd : bytes) (cs : list call) (tr : list trace) : Prop :=
  exists cs1 rs t1 rest t2, cs = cs1 ++ rest /\ did_all cd wd cs1 rs t1 /\ tr = t1 ++ t2 /\
    match rest with [] => t2 = [] | c :: _ => begun cd wd c t2 end.

(** The files, and each client's part. *)
Definition added_together (cd : codec) (wd : bytes) (O : object -> Prop) (s : store) (css : list (list call)) (w w' : world)
    (ps' : list (prog (list (outcome answer)))) (h : list (nat * trace)) : Prop :=
  stored w' wd O (after s h) /\ seen_truly s h /\ sane w' /\ w_cwd w' = w_cwd w /\
  (forall q, (forall o p, O o -> plain_object o -> object_path wd o = Ok p -> ~ names w p q) -> look w' q = look w q) /\
  length ps' = length css /\ (forall i t, In (i, t) h -> (i < length css)%nat) /\
  (forall i cs, nth_error css i = Some cs -> underway cd wd cs (own i h)) /\
  (forall i cs rs, nth_error css i = Some cs -> nth_error ps' i = Some (Ret rs) -> did_all cd wd cs rs (own i h)).

(** ** What follows for one file *)
(** The pieces added to [o], in order. *)
Fixpoint pieces (o : object) (h : list (nat * trace)) : list bytes :=
  match h with
  | [] => []
  | (_, Added o' v) :: h' => if object_eq_dec o' o then v :: pieces o h' else pieces o h'
  | (_, Seen _ _) :: h' => pieces o h'
  end.
(** The file held whole slots, and only whole slots were added. *)
Definition whole (size : nat) (s : store) (h : list (nat * trace)) (o : object) : Prop :=
  Nat.divide size (length (old_or_empty (s o))) /\ Forall (fun v => Nat.divide size (length v)) (pieces o h).
(** A listing of the file as it was at one moment, with a record of zero bytes for every failed read. *)
Definition listed_once (cd : codec) (c : call) (d : bytes) (r : outcome answer) : Prop :=
  match c with
  | ListRecords _ | ListTreasures _ _ => exists l, padded_list (file_decoded cd) 128 d l /\ r = Ok (Files l)
  | ListBoards => exists l, padded_list (board_decoded cd) 256 d l /\ r = Ok (BoardList l)
  | ListUsers => exists l, padded_list (userec_decoded cd) 512 d l /\ r = Ok (UserList l)
  | _ => False
  end.
