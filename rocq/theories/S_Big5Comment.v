(** * Specification of comment lines in Big5 *)
From Verif Require Import M_Base M_Time M_Big5 S_Ansi S_Time S_Comment S_Big5.
Open Scope N_scope.

(** the characters of an ASCII text *)
Definition chars (s : bytes) : list N := map b2n s.
Definition ascii_blank (c : N) : Prop := 9 <= c <= 13 \/ c = 32.
(** [t] is [s] without the blanks, tabs and line ends at both ends. *)
Definition without_blanks (s t : list N) : Prop :=
  exists l r, s = l ++ t ++ r /\ Forall ascii_blank l /\ Forall ascii_blank r /\
    (forall c u, t = c :: u -> ~ ascii_blank c) /\ (forall c u, t = u ++ [c] -> ~ ascii_blank c).
(** What stands before the author: no colon, and at the end an ASCII character that is no
    letter or digit, or nothing at all. *)
Definition mark_text (m : list N) : Prop :=
  ~ In 58 m /\ forall a c, m = a ++ [c] -> c < 128 /\ ~ letter (n2b c) /\ ~ decimal (n2b c).
(** The line of a comment by [o] at the time [t] saying [tt]: a mark, the author, a colon, the
    text, the time, and something behind, in Big5, with colours put in anywhere. *)
Definition comment_in_big5 (tb : tables) (line o : bytes) (t : time) (tt : list N) : Prop :=
  exists l last mk txt st post,
    line = coloured l last /\ Forall (fun p => plain (fst p) /\ colour (snd p)) l /\ plain last /\
    in_big5 tb (mk ++ chars o ++ 58 :: txt ++ chars st ++ post) (concat (map fst l) ++ last) /\
    mark_text mk /\ author o /\ ~ In 58 txt /\ ~ In 10 txt /\ without_blanks txt tt /\
    stamp st /\ spells_short st t /\ ~ In 47 post.
