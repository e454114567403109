(** * Specification of splitting and of decimal numbers *)
From Verif Require Import M_Base.
Open Scope N_scope.

(** the parts with the separator between them *)
Fixpoint join (c : byte) (ps : list bytes) : bytes :=
  match ps with
  | [] => []
  | [p] => p
  | p :: ps' => p ++ c :: join c ps'
  end.
(** [ps] is what one gets by cutting [s] at every [c]. *)
Definition cuts (c : byte) (s : bytes) (ps : list bytes) : Prop :=
  ps <> [] /\ s = join c ps /\ Forall (fun p => ~ In c p) ps.

(** A decimal numeral and its value. *)
Inductive numeral : bytes -> N -> Prop :=
| NumOne b k : b2n b = 48 + k -> k < 10 -> numeral [b] k
| NumMore s n b k : numeral s n -> b2n b = 48 + k -> k < 10 -> numeral (s ++ [b]) (10 * n + k).
