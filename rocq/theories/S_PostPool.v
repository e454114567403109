(** * Specification: posting at the same time, on a disk that fails *)
From Verif Require Import M_Base M_Sys M_File M_BbsTool S_World S_Path S_File S_Store S_Create S_BbsTool S_Post S_PostFault.
Open Scope N_scope.

(** Who has done what, in the order in which the indexes have got the pieces. *)
Definition deeds := list (nat * deed).
Definition own {X} (i : nat) (l : list (nat * X)) : list X := map snd (filter (fun x => Nat.eqb (fst x) i) l).

(** What a client was told goes with what it has done; for the rest no free name was
    found as long as it was looked for. *)
Inductive told_of : report -> list deed -> Prop :=
| told_nil : told_of [] []
| told_deed d rs ds : told_of rs ds -> told_of (told d :: rs) (d :: ds)
| told_searching m rs ds : told_of rs ds -> told_of ((m, Diverge) :: rs) ds.
