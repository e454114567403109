(** * Declarative vocabulary for fixed-offset records (specification only).

    These predicates say what bytes mean without using the slicing functions of
    the model. *)
From Verif Require Import M_Base.
Open Scope N_scope.

(** [v] is the run of [len] bytes of [d] starting at offset [off]. *)
Definition at_off (d : bytes) (off len : N) (v : bytes) : Prop :=
  exists a b, d = a ++ v ++ b /\ N.of_nat (length a) = off /\ N.of_nat (length v) = len.

(** Value of a little-endian unsigned number. *)
Fixpoint le_num (v : bytes) : N :=
  match v with [] => 0 | b :: v' => Byte.to_N b + 256 * le_num v' end.

(** ** What a reader sees *)

(** an unsigned little-endian number of [k] bytes at [off] *)
Definition f_num (d : bytes) (off k : N) (n : N) : Prop :=
  exists v, at_off d off k v /\ n = le_num v.
(** a two's-complement number *)
Definition f_int (d : bytes) (off k : N) (z : Z) : Prop :=
  exists n, f_num d off k n /\
    (z = Z.of_N n /\ 2 * n < 2 ^ (8 * k) \/
     (z = Z.of_N n - 2 ^ Z.of_N (8 * k))%Z /\ 2 ^ (8 * k) <= 2 * n).
(** an unsigned 32-bit Unix time *)
Definition f_time (d : bytes) (off : N) (t : Z) : Prop :=
  exists n, f_num d off 4 n /\ t = Z.of_N n.
(** a one-byte C truth value *)
Definition f_flag (d : bytes) (off : N) (b : bool) : Prop :=
  exists n, f_num d off 1 n /\ (b = true <-> n <> 0).
(** raw bytes *)
Definition f_raw (d : bytes) (off len : N) (v : bytes) : Prop := at_off d off len v.

(** [s] is [v] without the NULs at both ends. *)
Definition trimmed (v s : bytes) : Prop :=
  exists i j, v = repeat x00 i ++ s ++ repeat x00 j /\
    (forall s', s <> x00 :: s') /\ (forall s', s <> s' ++ [x00]).
(** [s] is the C string stored in the array [v]: everything before the first
    NUL, or the whole array if there is none. *)
Definition c_string (v s : bytes) : Prop :=
  ~ In x00 s /\ (v = s \/ exists t, v = s ++ x00 :: t).

Definition f_trim (d : bytes) (off len : N) (s : bytes) : Prop :=
  exists v, at_off d off len v /\ trimmed v s.
Definition f_cstr (d : bytes) (off len : N) (s : bytes) : Prop :=
  exists v, at_off d off len v /\ c_string v s.
(** Big5 texts, decoded by the codec *)
Definition f_trim_big5 (cd : codec) (d : bytes) (off len : N) (t : bytes) : Prop :=
  exists s, f_trim d off len s /\ t = dec cd s.
Definition f_cstr_big5 (cd : codec) (d : bytes) (off len : N) (t : bytes) : Prop :=
  exists s, f_cstr d off len s /\ t = dec cd s.

(** arrays of [cnt] numbers of [k] bytes *)
Definition f_nums (d : bytes) (off k cnt : N) (l : list N) : Prop :=
  N.of_nat (length l) = cnt /\
  forall i n, nth_error l i = Some n -> f_num d (off + k * N.of_nat i) k n.
Definition f_ints (d : bytes) (off k cnt : N) (l : list Z) : Prop :=
  N.of_nat (length l) = cnt /\
  forall i n, nth_error l i = Some n -> f_int d (off + k * N.of_nat i) k n.
Definition f_raws (d : bytes) (off k cnt : N) (l : list bytes) : Prop :=
  N.of_nat (length l) = cnt /\
  forall i v, nth_error l i = Some v -> at_off d (off + k * N.of_nat i) k v.

(** ** What a writer leaves *)

(** a slot of [len] bytes holding the text [s], cut or zero-filled *)
Definition e_text (d : bytes) (off len : N) (s : bytes) : Prop :=
  exists v, at_off d off len v /\
    ((exists j, v = s ++ repeat x00 j) \/ (exists t, s = v ++ t)).
(** a number, kept modulo the width of the slot *)
Definition e_num (d : bytes) (off k : N) (n : N) : Prop := f_num d off k (n mod 2 ^ (8 * k)).
Definition e_int (d : bytes) (off k : N) (z : Z) : Prop :=
  f_num d off k (Z.to_N (z mod 2 ^ Z.of_N (8 * k))).
Definition e_flag (d : bytes) (off : N) (b : bool) : Prop :=
  f_num d off 1 (if b then 1 else 0).
(** zero bytes *)
Definition e_zero (d : bytes) (off len : N) : Prop :=
  at_off d off len (repeat x00 (N.to_nat len)).

(** ** Values that fit their slot *)

Definition num_fits (k n : N) : Prop := n < 2 ^ (8 * k).
Definition int_fits (k : N) (z : Z) : Prop :=
  (- 2 ^ (8 * Z.of_N k - 1) <= z < 2 ^ (8 * Z.of_N k - 1))%Z.
Definition time_fits (t : Z) : Prop := (0 <= t < 2 ^ 32)%Z.
(** no NUL at either end *)
Definition text_fits (len : N) (s : bytes) : Prop :=
  N.of_nat (length s) <= len /\ (forall s', s <> x00 :: s') /\ (forall s', s <> s' ++ [x00]).
Definition cstr_fits (len : N) (s : bytes) : Prop :=
  N.of_nat (length s) <= len /\ ~ In x00 s.
(** Big5 texts that the codec round-trips *)
Definition big5_text_fits (cd : codec) (len : N) (t : bytes) : Prop :=
  dec cd (enc cd t) = t /\ text_fits len (enc cd t).
Definition big5_cstr_fits (cd : codec) (len : N) (t : bytes) : Prop :=
  dec cd (enc cd t) = t /\ cstr_fits len (enc cd t).
(** texts (such as ids) that the encoder leaves alone *)
Definition plain_cstr_fits (cd : codec) (len : N) (t : bytes) : Prop :=
  enc cd t = t /\ cstr_fits len t.
