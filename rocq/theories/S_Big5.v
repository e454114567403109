(** * Specification of Big5 (WHATWG Encoding Standard, 13) *)
From Verif Require Import M_Base M_Big5 S_Json S_Layout.
Open Scope N_scope.

(** The number of a pair of bytes in the index. *)
Definition pointer (l r : byte) (p : N) : Prop :=
  0x81 <= b2n l <= 0xFE /\
  (0x40 <= b2n r <= 0x7E /\ p = (b2n l - 0x81) * 157 + (b2n r - 0x40) \/
   0xA1 <= b2n r <= 0xFE /\ p = (b2n l - 0x81) * 157 + (b2n r - 0x62)).
(** Four pairs stand for two characters. *)
Definition doubles : list (N * list N) := [(1133, [0xCA; 0x304]); (1135, [0xCA; 0x30C]); (1164, [0xEA; 0x304]); (1166, [0xEA; 0x30C])].
Definition indexed (tb : tables) (p c : N) : Prop := p < t_len tb /\ t_decode tb p = c /\ c <> 0.
Definition stands_for (tb : tables) (l r : byte) (cs : list N) : Prop :=
  exists p, pointer l r p /\ (p < t_len tb /\ In (p, cs) doubles \/ exists c, indexed tb p c /\ cs = [c]).

(** What is assumed of the two tables: the first has only characters beyond ASCII and leaves
    the four pairs free; the second gives for exactly the characters of the first a pair
    that the first has for it. *)
Definition good_tables (tb : tables) : Prop :=
  (forall p c, indexed tb p c -> 128 <= c /\ code_point c) /\
  (forall p cs c, In (p, cs) doubles -> ~ indexed tb p c) /\
  (forall c, t_encode tb c <> 0 -> exists l r p, pointer l r p /\ indexed tb p c /\ t_encode tb c = 256 * b2n l + b2n r) /\
  (forall p c, indexed tb p c -> t_encode tb c <> 0).

(** A character that can be written in Big5, and how it is written. *)
Definition has_code (tb : tables) (c : N) : Prop := c < 128 \/ exists p, indexed tb p c.
Definition code (tb : tables) (c : N) (s : bytes) : Prop :=
  c < 128 /\ s = [n2b c] \/
  128 <= c /\ exists l r, s = [l; r] /\ stands_for tb l r [c] /\ t_encode tb c = 256 * b2n l + b2n r.
(** [s] is the text [t] in Big5. *)
Definition in_big5 (tb : tables) (t : list N) (s : bytes) : Prop := exists ss, Forall2 (code tb) t ss /\ s = concat ss.

(** Any bytes read as Big5.  Bytes that stand for nothing count as U+FFFD: a pair if the
    second one could have belonged to it, one byte otherwise. *)
Definition lead (b : byte) : Prop := 0x81 <= b2n b <= 0xFE.
Inductive big5_reads (tb : tables) : bytes -> list N -> Prop :=
| B5End : big5_reads tb [] []
| B5Ascii b s t : b2n b < 128 -> big5_reads tb s t -> big5_reads tb (b :: s) (b2n b :: t)
| B5Pair l r s cs t : stands_for tb l r cs -> big5_reads tb s t -> big5_reads tb (l :: r :: s) (cs ++ t)
| B5Unknown l r s t : lead l -> 0x40 <= b2n r -> (forall cs, ~ stands_for tb l r cs) -> big5_reads tb s t -> big5_reads tb (l :: r :: s) (0xFFFD :: t)
| B5Alone b s t : 128 <= b2n b -> (lead b -> s = [] \/ exists r s', s = r :: s' /\ b2n r < 0x40) -> big5_reads tb s t -> big5_reads tb (b :: s) (0xFFFD :: t).

(** The room a text takes. *)
Definition big5_size (t : list N) : N := fold_right N.add 0 (map (fun c => if c <? 128 then 1 else 2) t).

(** [a] is what [t] has before its first character that cannot be written. *)
Definition writable_part (tb : tables) (t a : list N) : Prop :=
  Forall (has_code tb) a /\ (t = a \/ exists c b, t = a ++ c :: b /\ ~ has_code tb c).
