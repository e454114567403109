(** * big5.go:27-37, with the buffers of golang.org/x/text v0.3.8, transform/transform.go and
    encoding/traditionalchinese/big5.go *)
From Verif Require Import M_Base M_Utf8 M_Big5.
Open Scope N_scope.

(** the errors of Transform: none, transform.ErrShortDst, transform.ErrShortSrc,
    internal.ErrASCIIReplacement *)
Inductive terr := TNil | TShortDst | TShortSrc | TReplace.

(** big5Decoder.Transform(dst, src, atEOF) with len(dst) = [room]: the bytes written, the
    number of bytes read and the error.  utf8.RuneLen(r) is the length of what EncodeRune
    writes, which is so for every rune but the surrogates and those beyond U+10FFFF. *)
Fixpoint DecoderTransform (tb : tables) (fuel : nat) (room : nat) (src : bytes) (atEOF : bool) : bytes * nat * terr :=
  match fuel, src with
  | S fuel', c0 :: rest =>
      if (0x81 <=? b2n c0) && (b2n c0 <? 0xFF) && negb atEOF && (length rest =? 0)%nat then ([], 0%nat, TShortSrc)
      else
        let (rs, size) := decode_step tb c0 rest in
        let out := concat (map EncodeRune rs) in
        if (room <? length out)%nat then ([], 0%nat, TShortDst)
        else
          let '(o, n, e) := DecoderTransform tb fuel' (room - length out) (skipn size src) atEOF in
          (out ++ o, (size + n)%nat, e)
  | _, _ => ([], 0%nat, TNil)
  end.

(** big5Encoder.Transform(dst, src, true) *)
Fixpoint EncoderTransform (tb : tables) (fuel : nat) (room : nat) (src : bytes) : bytes * nat * terr :=
  match fuel, src with
  | S fuel', b :: rest =>
      if b2n b <? 0x80 then
        if (room =? 0)%nat then ([], 0%nat, TShortDst)
        else
          let '(o, n, e) := EncoderTransform tb fuel' (room - 1) rest in (b :: o, S n, e)
      else
        match decode_rune src with
        | Some (r, size) =>
            let e := t_encode tb r in
            if e =? 0 then ([], 0%nat, TReplace)
            else if (room <? 2)%nat then ([], 0%nat, TShortDst)
            else
              let '(o, n, er) := EncoderTransform tb fuel' (room - 2) (skipn size src) in
              (n2b (e / 256) :: n2b e :: o, (size + n)%nat, er)
        | None => ([], 0%nat, TNil)     (* the empty string *)
        end
  | _, _ => ([], 0%nat, TNil)
  end.

(** transform.go grow: the new length of a buffer *)
Definition grow (m : nat) : nat :=
  if (m <=? 32)%nat then 64%nat else if (m <=? 256)%nat then (m * 2)%nat else (m + Nat.div2 m)%nat.

(** transform.go Bytes and doAppend: [done] is dst[:pDst], [cap] is len(dst), [src] is
    src[pSrc:] *)
Fixpoint doAppend (tb : tables) (fuel : nat) (done : bytes) (cap : nat) (src : bytes) : outcome bytes :=
  match fuel with
  | O => Diverge
  | S fuel' =>
      let '(o, n, e) := EncoderTransform tb (length src) (cap - length done) src in
      match e with
      | TShortDst => doAppend tb fuel' (done ++ o) (if (length o =? 0)%nat then grow cap else cap) (skipn n src)
      | _ => Ok (done ++ o)
      end
  end.
Definition transform_Bytes (tb : tables) (fuel : nat) (b : bytes) : outcome bytes := doAppend tb fuel [] (length b) b.

Definition initialBufSize : nat := 128.
(** transform.go String, the second loop: [done] is dst[:pDst], [cap] is len(dst), [scap] is
    len(src), [rest] is s[pSrc:] *)
Fixpoint string_rest (tb : tables) (fuel : nat) (done : bytes) (cap scap : nat) (rest : bytes) : outcome bytes :=
  match fuel with
  | O => Diverge
  | S fuel' =>
      let chunk := firstn scap rest in
      let atEOF := (length chunk =? length rest)%nat in
      let '(o, n, e) := DecoderTransform tb (length chunk) (cap - length done) chunk atEOF in
      match e with
      | TShortDst => string_rest tb fuel' (done ++ o) (if (length o =? 0)%nat then grow cap else cap) scap (skipn n rest)
      | TShortSrc =>
          if atEOF then Ok (done ++ o)
          else string_rest tb fuel' (done ++ o) cap (if (n =? 0)%nat then grow scap else scap) (skipn n rest)
      | TReplace => Ok (done ++ o)
      | TNil => if (length (skipn n rest) =? 0)%nat then Ok (done ++ o) else string_rest tb fuel' (done ++ o) cap scap (skipn n rest)
      end
  end.
(** transform.go String, after the first loop: [prefix] bytes are the same as in [s],
    [o] is dst[:nDst], [n] is nSrc, [pdst] and [psrc] count from the beginning *)
Definition string_break (tb : tables) (fuel : nat) (s : bytes) (prefix pdst psrc : nat) (o : bytes) (n : nat) (e : terr) : outcome bytes :=
  let cap := if negb (prefix =? 0)%nat && (initialBufSize <? pdst)%nat then (length s + length o - n)%nat else initialBufSize in
  if (cap <? pdst)%nat then Panic           (* newDst[pPrefix:pDst] *)
  else
    let done := if (prefix =? 0)%nat then firstn pdst o else firstn prefix s ++ firstn (pdst - prefix) o in
    match e with
    | TNil => if (psrc =? length s)%nat then Ok done else string_rest tb fuel done cap initialBufSize (skipn psrc s)
    | TReplace => Ok done
    | _ => string_rest tb fuel done cap initialBufSize (skipn psrc s)
    end.
(** transform.go String, the first loop: the first [prefix] bytes have come out as they
    were *)
Fixpoint string_same (tb : tables) (fuel : nat) (s : bytes) (prefix : nat) : outcome bytes :=
  match fuel with
  | O => Diverge
  | S fuel' =>
      let rest := skipn prefix s in
      let chunk := firstn initialBufSize rest in
      let '(o, n, e) := DecoderTransform tb (length chunk) initialBufSize chunk (prefix + length chunk =? length s)%nat in
      let pdst := (prefix + length o)%nat in
      let psrc := (prefix + n)%nat in
      if negb (beqb o (firstn n chunk)) then string_break tb fuel' s prefix pdst psrc o n e
      else
        match e with
        | TShortDst => string_break tb fuel' s psrc pdst psrc o n e
        | TShortSrc => if (n =? 0)%nat then string_break tb fuel' s psrc pdst psrc o n e else string_same tb fuel' s psrc
        | TReplace => Ok (firstn psrc s)
        | TNil => if (psrc =? length s)%nat then Ok (firstn psrc s) else string_same tb fuel' s psrc
        end
  end.
Definition transform_String (tb : tables) (fuel : nat) (s : bytes) : outcome bytes :=
  match s with [] => Ok [] | _ => string_same tb fuel s 0 end.
