(** * cache/cache.go: NewCache, with the opening *)
From Verif Require Import M_Base M_Sys M_Shm M_Conn.
Open Scope N_scope.

(** cache/cache.go:16-36 NewCache: the operation it ends with, when process [p] calls
    it and the kernel chooses address [a]; None: an error without opening anything *)
Definition connect (p a : N) (s : bytes) : option op :=
  match NewCache s with
  | Ok (OpenMmap path) => Some (OOpenFile p a path)
  | Ok (OpenKey key) => Some (OOpenKey p a key)
  | _ => None
  end.
