(** * Specification of the shared memory of pttbbs (struct SHM_t, reproduced in
    pttbbs/cache.go:150-178) *)
From Verif Require Import M_Base S_Crypt.
Open Scope Z_scope.

(** ** How a C compiler lays out a structure: every member starts at the first
    multiple of its alignment after the previous one. *)
Record member := Member { m_align : Z; m_size : Z }.
Definition round_up (a x : Z) : Z := (x + (a - 1)) / a * a.
Fixpoint offsets (at_ : Z) (ms : list member) : list Z :=
  match ms with
  | [] => []
  | m :: ms' => let o := round_up (m_align m) at_ in o :: offsets (o + m_size m) ms'
  end.
Definition char_array (n : Z) : member := Member 1 n.
(** [a] is the alignment of int (1 when the structure is packed) *)
Definition int_array (a n : Z) : member := Member a (4 * n).

(** struct SHM_t up to the table of online users *)
Definition SHM_t (a users idlen hashbits : Z) (cooldown : bool) : list member :=
  [ int_array a 1                          (* version *)
  ; int_array a 1                          (* size *)
  ; char_array (users * (idlen + 1))       (* userid *)
  ; char_array (idlen + 1)                 (* gap_1 *)
  ; int_array a users                      (* next_in_hash *)
  ; char_array 4                           (* gap_2 *)
  ; int_array a users                      (* money *)
  ; char_array 4 ]                         (* gap_3 *)
  ++ (if cooldown then [int_array a users] else []) ++
  [ char_array 4                           (* gap_4 *)
  ; int_array a (2 ^ hashbits)             (* hash_head *)
  ; char_array 4                           (* gap_5 *)
  ; int_array a 1                          (* number *)
  ; int_array a 1                          (* loaded *)
  ; Member a 3484 ].                       (* uinfo *)

(** ** The content of the memory: the tables written one after the other. *)
Record shm := Shm {
  sh_version : bytes; sh_size : bytes; sh_ids : list bytes; sh_gap1 : bytes; sh_pad : bytes;
  sh_next : list bytes; sh_gap2 : bytes; sh_money : list bytes; sh_rest : bytes }.
Definition image (s : shm) : bytes :=
  sh_version s ++ sh_size s ++ concat (sh_ids s) ++ sh_gap1 s ++ sh_pad s ++
  concat (sh_next s) ++ sh_gap2 s ++ concat (sh_money s) ++ sh_rest s.
Definition len (b : bytes) : Z := Z.of_nat (length b).
(** The tables have the right sizes for alignment [a]: [users] entries each, and
    the padding makes the table of integers start at the next multiple of [a]. *)
Definition well_formed (a users idlen : Z) (s : shm) : Prop :=
  len (sh_version s) = 4 /\ len (sh_size s) = 4 /\
  Z.of_nat (length (sh_ids s)) = users /\ Forall (fun b => len b = idlen + 1) (sh_ids s) /\
  len (sh_gap1 s) = idlen + 1 /\
  0 <= len (sh_pad s) < a /\ (8 + (users + 1) * (idlen + 1) + len (sh_pad s)) mod a = 0 /\
  Z.of_nat (length (sh_next s)) = users /\ Forall (fun b => len b = 4) (sh_next s) /\
  len (sh_gap2 s) = 4 /\
  Z.of_nat (length (sh_money s)) = users /\ Forall (fun b => len b = 4) (sh_money s).

(** the text of a C string buffer *)
Definition c_text (b : bytes) : bytes := until_nul b.
(** a little-endian two's complement integer of four bytes *)
Definition c_int (b : bytes) : Z :=
  match b with
  | [b0; b1; b2; b3] =>
      let n := Z.of_N (b2n b0) + 256 * (Z.of_N (b2n b1) + 256 * (Z.of_N (b2n b2) + 256 * Z.of_N (b2n b3))) in
      if n <? 2147483648 then n else n - 4294967296
  | _ => 0
  end.
