(** * Specification: command-line options *)
From Verif Require Import M_Base.

(** What a user types after the sub-command: options with values, and other
    words. *)
Inductive arg := Option_ (name value : bytes) | Word (w : bytes).
Definition words_of (a : arg) : list bytes :=
  match a with Option_ n v => [str "--" ++ n; v] | Word w => [w] end.
Definition plain (a : arg) : Prop :=
  match a with Option_ _ _ => True | Word w => forall r, w <> str "--" ++ r end.
(** the value of the last option with this name *)
Fixpoint last_value (l : list arg) (k : bytes) : option bytes :=
  match l with
  | [] => None
  | a :: l' =>
      match last_value l' k with
      | Some v => Some v
      | None => match a with Option_ n v => if list_eq_dec Byte.byte_eq_dec n k then Some v else None | Word _ => None end
      end
  end.
