(** * Specification: numbers written with digits *)
From Verif Require Import M_Base.
Open Scope N_scope.

(** The character of a digit. *)
Definition is_digit (base d : N) (c : byte) : Prop := d < base /\ nth_error (str "0123456789ABCDEF") (N.to_nat d) = Some c.
(** The digits [s] stand for [n]. *)
Inductive numeral (base : N) : bytes -> N -> Prop :=
| num_nil : numeral base [] 0
| num_snoc s n c d : numeral base s n -> is_digit base d c -> numeral base (s ++ [c]) (base * n + d).
(** A whole number in decimal: no zeros in front, and a minus sign if it is negative. *)
Definition decimal (t : Z) (s : bytes) : Prop :=
  exists u n, numeral 10 u n /\ (u = str "0" \/ exists c v, u = c :: v /\ c <> x30) /\
    (t = Z.of_N n /\ s = u \/ t = (- Z.of_N n)%Z /\ n <> 0 /\ s = str "-" ++ u).
(** Three hexadecimal digits. *)
Definition hex3 (r : N) (s : bytes) : Prop := numeral 16 s r /\ length s = 3%nat.
