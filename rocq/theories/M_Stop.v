(** * A process that is stopped while the disk fails

    Not code of /repo: the environment of M_Fault, and moreover the process is stopped
    at any point.  (A write that is interrupted has transferred any part of its data; it
    is a failing write after which the process does nothing.) *)
From Verif Require Import M_Base M_Sys M_Fault.
Open Scope N_scope.

(** The program can be stopped in the world [w']. *)
Fixpoint fstop {A} (p : prog A) (w w' : world) : Prop :=
  w' = w \/
  match p with
  | Ret _ => False
  | Call c k => exists w1 r, (exec c w = (w1, r) \/ fails c w w1 r) /\ fstop (k r) w1 w'
  end.

(** Several processes on such a disk, in any order; a process that does not move any
    more has been stopped. *)
Inductive fpool {A} : world -> list (prog A) -> world -> list (prog A) -> Prop :=
| fpool_end w ps : fpool w ps w ps
| fpool_step w ps i R (c : sys R) k w1 r w' ps' :
    nth_error ps i = Some (Call c k) -> (exec c w = (w1, r) \/ fails c w w1 r) ->
    fpool w1 (upd_nth i (k r) ps) w' ps' -> fpool w ps w' ps'.
