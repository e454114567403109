(** * cstr.go and pttbbs/encoding.go *)
From Verif Require Import M_Base.

(** bytes.IndexByte, as used in cstr.go:43 and pttbbs/bad_logins.go. *)
Fixpoint index_byte (c : byte) (l : bytes) : option nat :=
  match l with
  | [] => None
  | b :: l' => if Byte.eqb b c then Some 0%nat else option_map S (index_byte c l')
  end.

(** cstr.go:42-49 CstrToBytes *)
Definition CstrToBytes (c : bytes) : bytes :=
  match index_byte x00 c with
  | None => c
  | Some n => firstn n c
  end.

(** cstr.go:27-30 CstrToString *)
Definition CstrToString (c : bytes) : bytes := CstrToBytes c.

(** pttbbs/encoding.go:16-18 newStringFormCString *)
Definition newStringFormCString (c : bytes) : bytes := CstrToString c.

(** pttbbs/encoding.go:20-22 newStringFormBig5UAOCString *)
Definition newStringFormBig5UAOCString (cd : codec) (c : bytes) : bytes :=
  dec cd (CstrToBytes c).

(** pttbbs/encoding.go:7-9 big5uaoToUTF8String, 11-13 utf8ToBig5UAOString *)
Definition big5uaoToUTF8String (cd : codec) (b : bytes) : bytes := dec cd b.
Definition utf8ToBig5UAOString (cd : codec) (s : bytes) : bytes := enc cd s.

(** bytes.Split(b, "\x00")[0], pttbbs/board.go:276-277: everything before the
    first NUL. *)
Fixpoint split_nul_head (l : bytes) : bytes :=
  match l with
  | [] => []
  | b :: l' => if Byte.eqb b x00 then [] else b :: split_nul_head l'
  end.
