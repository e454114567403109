(** * Specification of Big5 texts in fixed places *)
From Verif Require Import M_Base M_Big5 S_Layout S_Json S_Big5.
Open Scope N_scope.

(** The text that the array of [len] bytes at [off] holds in Big5. *)
Definition big5_at (tb : tables) (d : bytes) (off len : N) (t : list N) : Prop := exists s, f_cstr d off len s /\ big5_reads tb s t.
(** [s] is what is left of the text [t] in a place of [n] bytes: all of it if there is room,
    otherwise its beginning, with U+FFFD for a character that is cut in two. *)
Definition kept_in (n : N) (t : list N) (s : bytes) : Prop :=
  big5_size t <= n /\ in_utf8 t s \/
  n < big5_size t /\ exists a b, t = a ++ b /\
    (in_utf8 a s /\ big5_size a = n \/ in_utf8 (a ++ [0xFFFD]) s /\ big5_size a + 1 = n).
