(** * cache/cache.go: NewCache *)
From Verif Require Import M_Base M_Text.
Open Scope N_scope.

(** What gets opened: a memory-mapped file (cache/mmap.go:29 OpenMmap) or the
    System V segment with a key (cache/systemvshm.go:92 OpenKey).  The outcome of
    opening is the system's; it is not modelled. *)
Inductive backend := OpenMmap (path : bytes) | OpenKey (key : Z).

(** cache/cache.go:16-36 NewCache *)
Definition NewCache (s : bytes) : outcome backend :=
  match split_on ":" s with
  | [] => Panic
  | [p] => Ok (OpenMmap p)
  | scheme :: a :: _ =>
      if beqb scheme (str "shmkey") then
        match Atoi a with None => Err EBadFormat | Some k => Ok (OpenKey k) end
      else if beqb scheme (str "file") then Ok (OpenMmap a)
      else Err EBadFormat
  end.
