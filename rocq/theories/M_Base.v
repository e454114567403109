(** * Base vocabulary of the model: bytes, Go integers, outcomes, byte slices.

    Everything in this file models Go language and standard-library features
    that the files of /repo use; each definition names the Go construct and an
    example of its use in /repo. *)
From Coq Require Export String Ascii.
From Coq Require Export Init.Byte Strings.Byte.
From Coq Require Export NArith ZArith Bool List.
Export ListNotations.
Open Scope list_scope.

(** Go [byte] / [uint8]; Go [string] and [[]byte] are byte sequences. *)
Notation byte := Byte.byte.
Notation bytes := (list byte).

(** Conversions [int(b)] and [byte(n)] (the latter keeps the low 8 bits).
    Used e.g. in pttbbs/file.go:207, pttbbs/file.go:236. *)
Definition b2n (b : byte) : N := Byte.to_N b.
Definition n2b (n : N) : byte :=
  match Byte.of_N (n mod 256)%N with Some b => b | None => x00 end.

(** A Go string literal (UTF-8 source bytes). *)
Definition str (s : string) : bytes := list_byte_of_string s.

(** [len(x)] as [N]. *)
Definition lenN {A} (l : list A) : N := N.of_nat (List.length l).

(** Byte-string equality, Go [==] on strings (e.g. bbs.go:562). *)
Definition beqb (a b : bytes) : bool :=
  if list_eq_dec Byte.byte_eq_dec a b then true else false.

(** ** Errors and outcomes *)

(** System-call errors (errno) that the modelled calls can return.  [EIO] stands for
    every error of a disk that fails (M_Fault): input/output error, no space left, too
    many open files. *)
Inductive errno := ENOENT | EEXIST | EISDIR | ENOTDIR | EINVAL | EBADF | EIO.

(** Error values returned by the modelled functions. *)
Inductive err :=
| ESys (e : errno)          (* *os.PathError and wrappers, cause kept *)
| EIndexOutOfBound          (* pttbbs/fav.go:44 ErrIndexOutOfBound *)
| EInvalidFavType           (* pttbbs/fav.go:45 ErrInvalidFavType *)
| ENotUserComment           (* user_comment_record.go:27 ErrNotUserComment *)
| EBadTime                  (* time.ParseError *)
| EBadFormat                (* fmt.Errorf(...) on malformed text *)
| ENotImplement             (* fmt.Errorf("not implement") *)
| ENotFound                 (* fmt.Errorf("... not found") *)
| EPassword                 (* fmt.Errorf("password incorrect") *)
| EArgs.                    (* fmt.Errorf("... must not be empty") *)

(** Outcome of a Go function: a value, an error, a run-time panic, or
    exhaustion of the fuel that stands for an unbounded loop. *)
Inductive outcome (A : Type) : Type :=
| Ok (a : A)
| Err (e : err)
| Panic
| Diverge.
Arguments Ok {A} a.
Arguments Err {A} e.
Arguments Panic {A}.
Arguments Diverge {A}.

(** [x, err := f(); if err != nil { return err }] *)
Definition obind {A B} (o : outcome A) (k : A -> outcome B) : outcome B :=
  match o with Ok a => k a | Err e => Err e | Panic => Panic | Diverge => Diverge end.
Definition omap {A B} (f : A -> B) (o : outcome A) : outcome B :=
  obind o (fun a => Ok (f a)).

(** ** Fixed-width integers *)

(** [uint32(z)], [uint16(z)], [uint8(z)] of any integer. *)
Definition u8 (z : Z) : N := Z.to_N (z mod 256).
Definition u16 (z : Z) : N := Z.to_N (z mod 65536).
Definition u32 (z : Z) : N := Z.to_N (z mod 4294967296).
(** [int8(n)], [int16(n)], [int32(n)], [int64(n)] : two's complement. *)
Definition sgn (half : Z) (z : Z) : Z :=
  let m := (z mod (2 * half))%Z in if (m <? half)%Z then m else (m - 2 * half)%Z.
Definition i8 (z : Z) : Z := sgn 128 z.
Definition i16 (z : Z) : Z := sgn 32768 z.
Definition i32 (z : Z) : Z := sgn 2147483648 z.
Definition i64 (z : Z) : Z := sgn 9223372036854775808 z.

(** ** Little-endian encoding, encoding/binary.LittleEndian *)

(** [PutUint16], [PutUint32], [PutUint64] produce these bytes. *)
Fixpoint le_enc (k : nat) (n : N) : bytes :=
  match k with
  | O => []
  | S k' => n2b n :: le_enc k' (n / 256)%N
  end.
(** [Uint16], [Uint32] of a byte sequence. *)
Fixpoint le_dec (l : bytes) : N :=
  match l with
  | [] => 0%N
  | b :: l' => (b2n b + 256 * le_dec l')%N
  end.

(** ** Slices with constant bounds *)

(** [make([]byte, n)] *)
Definition zeros (n : N) : bytes := repeat x00 (N.to_nat n).

(** [data[off:off+len]]; total: shorter when the data is too short.  Every use
    in the model is either guarded by an explicit length test (whose failure is
    [Panic]) or applied to a buffer of constant size. *)
Definition sub (off len : N) (data : bytes) : bytes :=
  firstn (N.to_nat len) (skipn (N.to_nat off) data).

(** [copy(buf[off:off+len], src)]: copies min(len, len(src)) bytes. *)
Definition put (off len : N) (src buf : bytes) : bytes :=
  let s := firstn (N.to_nat len) src in
  firstn (N.to_nat off) buf ++ s ++ skipn (N.to_nat off + List.length s) buf.

(** A sequence of [copy]s into a fresh zeroed buffer of size [n], in order. *)
Record wr := W { w_off : N; w_len : N; w_src : bytes }.
Definition put_all (n : N) (ws : list wr) : bytes :=
  fold_left (fun buf w => put (w_off w) (w_len w) (w_src w) buf) ws (zeros n).

(** [binary.LittleEndian.PutUint32(ret[off:off+4], v)] etc. as writes. *)
Definition w8 (off v : N) : wr := W off 1 (le_enc 1 v).
Definition w16 (off v : N) : wr := W off 2 (le_enc 2 v).
Definition w32 (off v : N) : wr := W off 4 (le_enc 4 v).
Definition wstr (off len : N) (s : bytes) : wr := W off len s.

(** [data[off]], [Uint16(data[off:off+2])], [Uint32(data[off:off+4])]. *)
Definition r8 (off : N) (data : bytes) : N := le_dec (sub off 1 data).
Definition r16 (off : N) (data : bytes) : N := le_dec (sub off 2 data).
Definition r32 (off : N) (data : bytes) : N := le_dec (sub off 4 data).

(** ** NUL handling *)

Fixpoint drop_nul (l : bytes) : bytes :=
  match l with
  | b :: l' => if Byte.eqb b x00 then drop_nul l' else l
  | [] => []
  end.
(** [bytes.Trim(l, "\x00")] (e.g. pttbbs/file.go:202): NULs at both ends only. *)
Definition trim_nul (l : bytes) : bytes := rev (drop_nul (rev (drop_nul l))).

(** The Big5-UAO codec of golang.org/x/text as used by big5.go:27-39
    ([Utf8ToBig5], [Big5ToUtf8]).  It is not part of /repo: every theorem
    quantifies over an arbitrary pair of functions. *)
Record codec := Codec { enc : bytes -> bytes; dec : bytes -> bytes }.
