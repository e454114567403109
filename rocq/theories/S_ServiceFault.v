(** * Specification of the web service started on a disk that fails *)
From Verif Require Import M_Base.
Open Scope N_scope.

(** [l'] is [l] with blank entries put in at any places. *)
Inductive filled {A} (blank : A -> Prop) : list A -> list A -> Prop :=
| filled_nil : filled blank [] []
| filled_keep a l l' : filled blank l l' -> filled blank (a :: l) (a :: l')
| filled_blank a l l' : blank a -> filled blank l l' -> filled blank l (a :: l').

(** A table read on such a disk: none of the entries, or all of them and blank ones. *)
Definition table_read {A} (blank : A -> Prop) (l l' : list A) : Prop := l' = [] \/ filled blank l l'.
