(** * A disk that fails

    This is not code of /repo; it is a second environment for the same programs: any
    system call may answer with an error (input/output error, no space left, too many
    open files, ...), written [EIO].  A failing call has done nothing, except that a
    failing write may have transferred any part of its data.  Closing a file reports no
    error, as in M_Sys: most callers do not look at it. *)
From Verif Require Import M_Base M_Sys.
Open Scope N_scope.

Definition fails {R} (c : sys R) (w w' : world) : R -> Prop :=
  match c in sys R return R -> Prop with
  | Open _ _ => fun r => w' = w /\ r = RErr EIO
  | Read _ _ => fun r => w' = w /\ r = RErr EIO
  | ReadAll _ => fun r => w' = w /\ r = RErr EIO
  | Write fd d => fun r => (exists n, w' = fst (sys_write fd (firstn n d) w)) /\ r = RErr EIO
  | SeekSet _ _ => fun r => w' = w /\ r = RErr EIO
  | SeekCur0 _ => fun r => w' = w /\ r = RErr EIO
  | Ftruncate _ _ => fun r => w' = w /\ r = RErr EIO
  | Stat _ => fun r => w' = w /\ r = RErr EIO
  | Unlink _ => fun r => w' = w /\ r = RErr EIO
  | Close _ => fun _ => False
  | Now => fun _ => False
  | Rand _ => fun _ => False
  end.

(** The program can end in the world [w'] with the answer [a], each of its system calls
    succeeding or failing. *)
Fixpoint frun {A} (p : prog A) (w w' : world) (a : A) : Prop :=
  match p with
  | Ret b => w' = w /\ a = b
  | Call c k => exists w1 r, (exec c w = (w1, r) \/ fails c w w1 r) /\ frun (k r) w1 w' a
  end.
