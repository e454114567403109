(** * Big5: big5.go:27-37 over golang.org/x/text v0.3.8, encoding/traditionalchinese
    The two tables of the package are variables; what is done with them is written out. *)
From Verif Require Import M_Base M_Utf8.
Open Scope N_scope.

(** tables.go: [t_decode i] is decode[i] for i < len(decode); [t_encode r] is the entry for
    the rune r in the table encode0, encode1, ... that covers it, and 0 if none does *)
Record tables := Tables { t_len : N; t_decode : N -> N; t_encode : N -> N }.

(** unicode/utf8: EncodeRune (r >> 6 and the or with a mask are written with / and +) *)
Definition EncodeRune (r : N) : bytes :=
  map n2b
    (if r <=? 0x7F then [r]
     else if r <=? 0x7FF then [0xC0 + r / 64; 0x80 + r mod 64]
     else if (0x10FFFF <? r) || (0xD800 <=? r) && (r <=? 0xDFFF) then [0xEF; 0xBF; 0xBD]
     else if r <=? 0xFFFF then [0xE0 + r / 4096; 0x80 + r / 64 mod 64; 0x80 + r mod 64]
     else [0xF0 + r / 262144; 0x80 + r / 4096 mod 64; 0x80 + r / 64 mod 64; 0x80 + r mod 64]).

(** big5.go big5Decoder.Transform, one turn of the loop at the end of the input
    (atEOF = true): the runes written and the number of bytes read *)
Definition decode_pointer (tb : tables) (i : N) : list N :=
  if i <? t_len tb then
    if i =? 1133 then [0xCA; 0x304]
    else if i =? 1135 then [0xCA; 0x30C]
    else if i =? 1164 then [0xEA; 0x304]
    else if i =? 1166 then [0xEA; 0x30C]
    else if t_decode tb i =? 0 then [RuneError] else [t_decode tb i]
  else [RuneError].
Definition decode_step (tb : tables) (c0 : byte) (rest : bytes) : list N * nat :=
  if b2n c0 <? 0x80 then ([b2n c0], 1%nat)
  else if (0x81 <=? b2n c0) && (b2n c0 <? 0xFF) then
    match rest with
    | [] => ([RuneError], 1%nat)
    | c1 :: _ =>
        let row := (b2n c0 - 0x81) * 157 in
        if (0x40 <=? b2n c1) && (b2n c1 <? 0x7F) then (decode_pointer tb (row + (b2n c1 - 0x40)), 2%nat)
        else if (0xA1 <=? b2n c1) && (b2n c1 <? 0xFF) then (decode_pointer tb (row + (b2n c1 - 0x62)), 2%nat)
        else if b2n c1 <? 0x40 then ([RuneError], 1%nat)
        else ([RuneError], 2%nat)
    end
  else ([RuneError], 1%nat).
Fixpoint decode_loop (tb : tables) (fuel : nat) (src : bytes) : bytes :=
  match fuel, src with
  | S fuel', c0 :: rest =>
      let (rs, size) := decode_step tb c0 rest in
      concat (map EncodeRune rs) ++ decode_loop tb fuel' (skipn size src)
  | _, _ => []
  end.

(** big5.go big5Encoder.Transform: a rune without an entry ends it with
    internal.ErrASCIIReplacement, and what has been written so far is the result *)
Fixpoint encode_loop (tb : tables) (fuel : nat) (src : bytes) : bytes :=
  match fuel, src with
  | S fuel', b :: rest =>
      if b2n b <? 0x80 then b :: encode_loop tb fuel' rest
      else
        match decode_rune src with
        | Some (r, size) =>
            let e := t_encode tb r in
            if e =? 0 then []
            else n2b (e / 256) :: n2b e :: encode_loop tb fuel' (skipn size src)
        | None => []
        end
  | _, _ => []
  end.

(** big5.go:27-31 Utf8ToBig5 and big5.go:33-37 Big5ToUtf8.  transform.Bytes and
    transform.String call Transform until all is read or an error other than a short buffer
    comes back, and answer what was written until then; the error is thrown away here.
    Here the whole input is one run; M_Transform has the loops with their buffers, and
    C74_read_in_pieces and C74_written_in_pieces say that they come to the same. *)
Definition Utf8ToBig5 (tb : tables) (input : bytes) : bytes := encode_loop tb (length input) input.
Definition Big5ToUtf8 (tb : tables) (input : bytes) : bytes := decode_loop tb (length input) input.

(** The codec of the other files. *)
Definition big5 (tb : tables) : codec := Codec (Utf8ToBig5 tb) (Big5ToUtf8 tb).
