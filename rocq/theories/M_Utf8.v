(** * Go's UTF-8 strings (packages unicode/utf8 and strings) *)
From Verif Require Import M_Base.
Open Scope N_scope.

(** utf8.DecodeRuneInString: the first rune and its width; an invalid sequence is
    the rune U+FFFD of width 1. *)
Definition RuneError : N := 0xFFFD.
Definition between (lo hi : N) (b : byte) : bool := (lo <=? b2n b) && (b2n b <=? hi).
Definition low6 (b : byte) : N := b2n b - 128.
Definition decode_rune (s : bytes) : option (N * nat) :=
  match s with
  | [] => None
  | b0 :: t =>
      let c := b2n b0 in
      if c <? 128 then Some (c, 1%nat)
      else if (c <? 0xC2) || (0xF4 <? c) then Some (RuneError, 1%nat)
      else if c <? 0xE0 then
        match t with
        | b1 :: _ => if between 128 191 b1 then Some (64 * (c - 0xC0) + low6 b1, 2%nat) else Some (RuneError, 1%nat)
        | [] => Some (RuneError, 1%nat)
        end
      else if c <? 0xF0 then
        match t with
        | b1 :: b2 :: _ =>
            if between (if c =? 0xE0 then 0xA0 else 128) (if c =? 0xED then 0x9F else 191) b1 && between 128 191 b2
            then Some (4096 * (c - 0xE0) + 64 * low6 b1 + low6 b2, 3%nat) else Some (RuneError, 1%nat)
        | _ => Some (RuneError, 1%nat)
        end
      else
        match t with
        | b1 :: b2 :: b3 :: _ =>
            if between (if c =? 0xF0 then 0x90 else 128) (if c =? 0xF4 then 0x8F else 191) b1 && between 128 191 b2 && between 128 191 b3
            then Some (262144 * (c - 0xF0) + 4096 * low6 b1 + 64 * low6 b2 + low6 b3, 4%nat) else Some (RuneError, 1%nat)
        | _ => Some (RuneError, 1%nat)
        end
  end.

(** utf8.RuneCountInString; every step consumes at least one byte *)
Fixpoint count_runes (fuel : nat) (s : bytes) : N :=
  match fuel with
  | O => 0
  | S fuel' => match decode_rune s with None => 0 | Some (_, w) => 1 + count_runes fuel' (skipn w s) end
  end.
Definition RuneCount (s : bytes) : N := count_runes (length s) s.

(** The encodings of the runes for which unicode.IsSpace holds. *)
Definition spaces : list bytes :=
  map (fun n => [n2b n]) [9; 10; 11; 12; 13; 32] ++
  map (map n2b)
    [[0xC2; 0x85]; [0xC2; 0xA0]; [0xE1; 0x9A; 0x80];
     [0xE2; 0x80; 0x80]; [0xE2; 0x80; 0x81]; [0xE2; 0x80; 0x82]; [0xE2; 0x80; 0x83]; [0xE2; 0x80; 0x84]; [0xE2; 0x80; 0x85];
     [0xE2; 0x80; 0x86]; [0xE2; 0x80; 0x87]; [0xE2; 0x80; 0x88]; [0xE2; 0x80; 0x89]; [0xE2; 0x80; 0x8A];
     [0xE2; 0x80; 0xA8]; [0xE2; 0x80; 0xA9]; [0xE2; 0x80; 0xAF]; [0xE2; 0x81; 0x9F]; [0xE3; 0x80; 0x80]].
Fixpoint is_prefix (p s : bytes) : bool :=
  match p, s with
  | [], _ => true
  | a :: p', b :: s' => Byte.eqb a b && is_prefix p' s'
  | _ :: _, [] => false
  end.
(** Strip leading (and, on the reversal, trailing) occurrences of words of [ws].
    A string starts (ends) with a space rune exactly if it starts (ends) with one of
    these encodings, because none is a continuation of another rune's encoding. *)
Fixpoint strip (ws : list bytes) (fuel : nat) (s : bytes) : bytes :=
  match fuel with
  | O => s
  | S fuel' =>
      match find (fun w => is_prefix w s) ws with
      | Some w => strip ws fuel' (skipn (length w) s)
      | None => s
      end
  end.
(** strings.TrimSpace *)
Definition trim_left_space (s : bytes) : bytes := strip spaces (length s) s.
Definition trim_right_space (s : bytes) : bytes := rev (strip (map (@rev byte) spaces) (length s) (rev s)).
Definition TrimSpace (s : bytes) : bytes := trim_right_space (trim_left_space s).

(** strings.TrimLeft for a cutset of ASCII characters *)
Fixpoint TrimLeft (s cutset : bytes) : bytes :=
  match s with
  | b :: s' => if existsb (Byte.eqb b) cutset then TrimLeft s' cutset else s
  | [] => []
  end.
