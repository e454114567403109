(** * Specification of trimming white space *)
From Verif Require Import M_Base.
Open Scope N_scope.

(** The UTF-8 encodings of the characters that Unicode calls white space. *)
Inductive white : bytes -> Prop :=
| WAscii n : 9 <= n <= 13 \/ n = 32 -> white [n2b n]
| WLatin n : n = 0x85 \/ n = 0xA0 -> white (map n2b [0xC2; n])
| WOgham : white (map n2b [0xE1; 0x9A; 0x80])
| WQuad n : 0x80 <= n <= 0x8A -> white (map n2b [0xE2; 0x80; n])
| WSeparator n : n = 0xA8 \/ n = 0xA9 \/ n = 0xAF -> white (map n2b [0xE2; 0x80; n])
| WMath : white (map n2b [0xE2; 0x81; 0x9F])
| WIdeographic : white (map n2b [0xE3; 0x80; 0x80]).
(** [t] is [s] without the white space at both ends. *)
Definition trimmed (s t : bytes) : Prop :=
  exists l r, s = concat l ++ t ++ concat r /\ Forall white l /\ Forall white r /\
    (forall w u, white w -> t <> w ++ u) /\ (forall w u, white w -> t <> u ++ w).
