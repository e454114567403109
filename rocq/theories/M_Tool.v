(** * cmd/bbstool/main.go:101-126 parseArgsToMap *)
From Verif Require Import M_Base M_Text.
Open Scope N_scope.

(** a Go map from strings *)
Definition smap := list (bytes * bytes).
Fixpoint map_get (m : smap) (k : bytes) : option bytes :=
  match m with
  | [] => None
  | (k', v) :: m' => if beqb k k' then Some v else map_get m' k
  end.
(** [m[k] = v] *)
Definition map_set (m : smap) (k v : bytes) : smap := (k, v) :: m.

(** The loop from [index] on; [args] are the arguments from there. *)
Fixpoint parse_loop (args : list bytes) (m : smap) : smap :=
  match args with
  | [] => m
  | a :: rest =>
      if HasPrefix a (str "--") then
        match rest with
        | [] => m                                   (* "flag with no args" *)
        | v :: rest' => parse_loop rest' (map_set m (skipn 2 a) v)
        end
      else parse_loop rest m
  end.
Definition parseArgsToMap (flagArgs : list bytes) : smap := parse_loop (skipn 1 flagArgs) [].
