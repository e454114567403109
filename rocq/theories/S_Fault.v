(** * Specification: the calls on a disk that fails *)
From Verif Require Import M_Base M_Sys M_Path M_File M_Board M_Userec M_FileOps M_DB M_Fault.
From Verif Require Import S_World S_Path S_Layout S_File S_Board S_Userec S_BoardList S_Store S_Crash.
Open Scope N_scope.

Definition io_error : outcome answer := Err (ESys EIO).

(** [ss'] is [ss] with slots [z] put in at any places. *)
Inductive padded (z : bytes) : list bytes -> list bytes -> Prop :=
| padded_nil : padded z [] []
| padded_keep s ss ss' : padded z ss ss' -> padded z (s :: ss) (s :: ss')
| padded_add ss ss' : padded z ss ss' -> padded z ss (z :: ss').

(** A listing during which reads have failed: every slot of the file is listed, in
    order; for every failed read there is one more record, read from zero bytes. *)
Definition padded_list {A} (decoded : bytes -> A -> Prop) (size : nat) (d : bytes) (l : list A) : Prop :=
  exists ss ss', slots size d ss /\ padded (repeat x00 size) ss ss' /\ Forall2 decoded ss' l.

Definition occurs_in (t s : bytes) : Prop := exists a z, s = a ++ t ++ z.

(** Content and answer after a call that has met an error. *)
Definition call_fails (cd : codec) (wd : bytes) (c : call) (old new : option bytes) (r : outcome answer) : Prop :=
  match c with
  | AddRecord _ _ | UpdateRecord _ _ _ | WriteArticle _ _ _ | AppendArticle _ _ _ | WriteDraft _ _ _ | AddBoard _ =>
      torn cd c old new /\ r = io_error
  | DeleteDraft _ _ | ReadArticle _ _ | ReadTreasure _ _ _ => new = old /\ r = io_error
  | ReadDraft _ _ => new = old /\ (r = io_error \/ r = Ok (Bytes []))
  | ListRecords b =>
      new = old /\
      (r = io_error \/
       (exists p, object_path wd (Index b) = Ok p /\ occurs_in (str "no such file or directory") p /\ r = Ok (Files [])) \/
       exists d l, old = Some d /\ padded_list (file_decoded cd) 128 d l /\ r = Ok (Files l))
  | ListTreasures _ _ =>
      new = old /\ (r = io_error \/ exists d l, old = Some d /\ padded_list (file_decoded cd) 128 d l /\ r = Ok (Files l))
  | ListBoards =>
      new = old /\ (r = io_error \/ exists d l, old = Some d /\ padded_list (board_decoded cd) 256 d l /\ r = Ok (BoardList l))
  | ListUsers =>
      new = old /\ (r = io_error \/ exists d l, old = Some d /\ padded_list (userec_decoded cd) 512 d l /\ r = Ok (UserList l))
  end.

(** A history in which every call either does what it says or meets an error. *)
Inductive faulty_history (cd : codec) (wd : bytes) : list call -> store -> store -> list (outcome answer) -> Prop :=
| fh_nil s : faulty_history cd wd [] s s []
| fh_cons c cs s s1 s2 r rs :
    call_meets cd c (s (call_object c)) (s1 (call_object c)) r \/
    call_fails cd wd c (s (call_object c)) (s1 (call_object c)) r ->
    (forall o, o <> call_object c -> s1 o = s o) ->
    faulty_history cd wd cs s1 s2 rs ->
    faulty_history cd wd (c :: cs) s s2 (r :: rs).

(** One caller performs calls on such a disk; each of them comes to an end. *)
Inductive fexec (cd : codec) (wd : bytes) : list call -> world -> world -> list (outcome answer) -> Prop :=
| fexec_nil w : fexec cd wd [] w w []
| fexec_cons c cs w w1 w2 r rs fuel :
    frun (call_prog cd wd c fuel) w w1 r -> r <> Diverge -> fexec cd wd cs w1 w2 rs ->
    fexec cd wd (c :: cs) w w2 (r :: rs).
