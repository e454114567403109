(** * Specification: FNV-1a, 32 bits
    (http://www.isthe.com/chongo/tech/comp/fnv/): for each octet,
    hash := hash xor octet; hash := hash * 16777619 mod 2^32. *)
From Verif Require Import M_Base.
Open Scope N_scope.

Inductive fnv1a : N -> bytes -> N -> Prop :=
| Fnv0 h : fnv1a h [] h
| Fnv1 h b d h' : fnv1a ((N.lxor h (b2n b) * 16777619) mod 2 ^ 32) d h' -> fnv1a h (b :: d) h'.
