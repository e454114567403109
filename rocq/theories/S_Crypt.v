(** * Specification: the traditional DES-based crypt(3)
    Written from FIPS 46-3 and the manual page: blocks are lists of bits, bit 1
    first; tables number bits from 1.  Nothing here looks at the code. *)
From Verif Require Import M_Base.

(** Keep, of the list, the items with the given numbers. *)
Definition pick {A} (d : A) (t : list nat) (l : list A) : list A := map (fun i => nth (i - 1) l d) t.
Definition xors (a b : list bool) : list bool := map (fun p => xorb (fst p) (snd p)) (combine a b).

(** initial and final permutation *)
Definition IP : list nat := [
  58; 50; 42; 34; 26; 18; 10; 2; 60; 52; 44; 36; 28; 20; 12; 4; 62; 54; 46; 38; 30; 22; 14; 6; 64; 56; 48; 40; 32; 24; 16; 8;
  57; 49; 41; 33; 25; 17;  9; 1; 59; 51; 43; 35; 27; 19; 11; 3; 61; 53; 45; 37; 29; 21; 13; 5; 63; 55; 47; 39; 31; 23; 15; 7 ]%nat.
Definition FP : list nat := [
  40; 8; 48; 16; 56; 24; 64; 32; 39; 7; 47; 15; 55; 23; 63; 31; 38; 6; 46; 14; 54; 22; 62; 30; 37; 5; 45; 13; 53; 21; 61; 29;
  36; 4; 44; 12; 52; 20; 60; 28; 35; 3; 43; 11; 51; 19; 59; 27; 34; 2; 42; 10; 50; 18; 58; 26; 33; 1; 41;  9; 49; 17; 57; 25 ]%nat.
(** expansion *)
Definition E_table : list nat := [
  32; 1; 2; 3; 4; 5; 4; 5; 6; 7; 8; 9; 8; 9; 10; 11; 12; 13; 12; 13; 14; 15; 16; 17;
  16; 17; 18; 19; 20; 21; 20; 21; 22; 23; 24; 25; 24; 25; 26; 27; 28; 29; 28; 29; 30; 31; 32; 1 ]%nat.
(** permutation of the round function *)
Definition P_table : list nat := [
  16; 7; 20; 21; 29; 12; 28; 17; 1; 15; 23; 26; 5; 18; 31; 10; 2; 8; 24; 14; 32; 27; 3; 9; 19; 13; 30; 6; 22; 11; 4; 25 ]%nat.
(** permuted choices of the key *)
Definition PC1 : list nat := [
  57; 49; 41; 33; 25; 17; 9; 1; 58; 50; 42; 34; 26; 18; 10; 2; 59; 51; 43; 35; 27; 19; 11; 3; 60; 52; 44; 36;
  63; 55; 47; 39; 31; 23; 15; 7; 62; 54; 46; 38; 30; 22; 14; 6; 61; 53; 45; 37; 29; 21; 13; 5; 28; 20; 12; 4 ]%nat.
Definition PC2 : list nat := [
  14; 17; 11; 24; 1; 5; 3; 28; 15; 6; 21; 10; 23; 19; 12; 4; 26; 8; 16; 7; 27; 20; 13; 2;
  41; 52; 31; 37; 47; 55; 30; 40; 51; 45; 33; 48; 44; 49; 39; 56; 34; 53; 46; 42; 50; 36; 29; 32 ]%nat.
Definition key_shifts : list nat := [1; 1; 2; 2; 2; 2; 2; 2; 1; 2; 2; 2; 2; 2; 2; 1]%nat.

(** the eight substitution boxes, four rows of sixteen each *)
Definition S_boxes : list (list N) := ([
  [14; 4; 13; 1; 2; 15; 11; 8; 3; 10; 6; 12; 5; 9; 0; 7;
   0; 15; 7; 4; 14; 2; 13; 1; 10; 6; 12; 11; 9; 5; 3; 8;
   4; 1; 14; 8; 13; 6; 2; 11; 15; 12; 9; 7; 3; 10; 5; 0;
   15; 12; 8; 2; 4; 9; 1; 7; 5; 11; 3; 14; 10; 0; 6; 13];
  [15; 1; 8; 14; 6; 11; 3; 4; 9; 7; 2; 13; 12; 0; 5; 10;
   3; 13; 4; 7; 15; 2; 8; 14; 12; 0; 1; 10; 6; 9; 11; 5;
   0; 14; 7; 11; 10; 4; 13; 1; 5; 8; 12; 6; 9; 3; 2; 15;
   13; 8; 10; 1; 3; 15; 4; 2; 11; 6; 7; 12; 0; 5; 14; 9];
  [10; 0; 9; 14; 6; 3; 15; 5; 1; 13; 12; 7; 11; 4; 2; 8;
   13; 7; 0; 9; 3; 4; 6; 10; 2; 8; 5; 14; 12; 11; 15; 1;
   13; 6; 4; 9; 8; 15; 3; 0; 11; 1; 2; 12; 5; 10; 14; 7;
   1; 10; 13; 0; 6; 9; 8; 7; 4; 15; 14; 3; 11; 5; 2; 12];
  [7; 13; 14; 3; 0; 6; 9; 10; 1; 2; 8; 5; 11; 12; 4; 15;
   13; 8; 11; 5; 6; 15; 0; 3; 4; 7; 2; 12; 1; 10; 14; 9;
   10; 6; 9; 0; 12; 11; 7; 13; 15; 1; 3; 14; 5; 2; 8; 4;
   3; 15; 0; 6; 10; 1; 13; 8; 9; 4; 5; 11; 12; 7; 2; 14];
  [2; 12; 4; 1; 7; 10; 11; 6; 8; 5; 3; 15; 13; 0; 14; 9;
   14; 11; 2; 12; 4; 7; 13; 1; 5; 0; 15; 10; 3; 9; 8; 6;
   4; 2; 1; 11; 10; 13; 7; 8; 15; 9; 12; 5; 6; 3; 0; 14;
   11; 8; 12; 7; 1; 14; 2; 13; 6; 15; 0; 9; 10; 4; 5; 3];
  [12; 1; 10; 15; 9; 2; 6; 8; 0; 13; 3; 4; 14; 7; 5; 11;
   10; 15; 4; 2; 7; 12; 9; 5; 6; 1; 13; 14; 0; 11; 3; 8;
   9; 14; 15; 5; 2; 8; 12; 3; 7; 0; 4; 10; 1; 13; 11; 6;
   4; 3; 2; 12; 9; 5; 15; 10; 11; 14; 1; 7; 6; 0; 8; 13];
  [4; 11; 2; 14; 15; 0; 8; 13; 3; 12; 9; 7; 5; 10; 6; 1;
   13; 0; 11; 7; 4; 9; 1; 10; 14; 3; 5; 12; 2; 15; 8; 6;
   1; 4; 11; 13; 12; 3; 7; 14; 10; 15; 6; 8; 0; 5; 9; 2;
   6; 11; 13; 8; 1; 4; 10; 7; 9; 5; 0; 15; 14; 2; 3; 12];
  [13; 2; 8; 4; 6; 15; 11; 1; 10; 9; 3; 14; 5; 0; 12; 7;
   1; 15; 13; 8; 10; 3; 7; 4; 12; 5; 6; 11; 0; 14; 9; 2;
   7; 11; 4; 1; 9; 12; 14; 2; 0; 6; 10; 13; 15; 3; 5; 8;
   2; 1; 14; 7; 4; 10; 8; 13; 15; 12; 9; 0; 3; 5; 6; 11] ])%N.

(** a list of bits, most significant first, as a number *)
Definition bits_val (l : list bool) : N := fold_left (fun n b => 2 * n + N.b2n b)%N l 0%N.
(** the [n] low bits of a number, most significant first *)
Fixpoint val_bits (n : nat) (v : N) : list bool :=
  match n with O => [] | S n' => N.testbit v (N.of_nat n') :: val_bits n' v end.

(** groups of six bits *)
Fixpoint six_groups (l : list bool) : list (list bool) :=
  match l with
  | a :: b :: c :: d :: e :: f :: r => [a; b; c; d; e; f] :: six_groups r
  | _ => []
  end.
(** One box: the outer bits choose the row, the inner ones the column. *)
Definition S_box (box : list N) (g : list bool) : list bool :=
  match g with
  | [a; b; c; d; e; f] => val_bits 4 (nth (N.to_nat (16 * bits_val [a; f] + bits_val [b; c; d; e])) box 0%N)
  | _ => []
  end.
(** Expansion with salt: bit [q] of the salt exchanges outputs [q] and [q+24]. *)
Definition salted (salt : nat -> bool) (e : list bool) : list bool :=
  map (fun q => nth (if salt (q mod 24)%nat then (q + 24) mod 48 else q) e false) (seq 0 48).
(** the round function *)
Definition des_f (salt : nat -> bool) (k r : list bool) : list bool :=
  pick false P_table (concat (map (fun p => S_box (fst p) (snd p))
    (combine S_boxes (six_groups (xors (salted salt (pick false E_table r)) k))))).
(** the rounds, one for each round key *)
Fixpoint des_rounds (salt : nat -> bool) (ks : list (list bool)) (l r : list bool) : list bool * list bool :=
  match ks with
  | [] => (l, r)
  | k :: ks' => des_rounds salt ks' r (xors l (des_f salt k r))
  end.
Definition des (salt : nat -> bool) (ks : list (list bool)) (block : list bool) : list bool :=
  let b := pick false IP block in
  let '(l, r) := des_rounds salt ks (firstn 32 b) (skipn 32 b) in
  pick false FP (r ++ l).

(** The round keys. *)
Definition rotate {A} (n : nat) (l : list A) : list A := skipn n l ++ firstn n l.
Fixpoint round_keys_from {A} (d : A) (shifts : list nat) (C D : list A) : list (list A) :=
  match shifts with
  | [] => []
  | n :: rest => let C := rotate n C in let D := rotate n D in pick d PC2 (C ++ D) :: round_keys_from d rest C D
  end.
Definition round_keys {A} (d : A) (key : list A) : list (list A) :=
  let k := pick d PC1 key in round_keys_from d key_shifts (firstn 28 k) (skipn 28 k).

(** The key: seven bits of each of the first eight characters, up to a NUL, and a
    parity bit that is not used; padded with zeros. *)
Fixpoint until_nul (s : bytes) : bytes :=
  match s with [] => [] | b :: s' => if Byte.eqb b x00 then [] else b :: until_nul s' end.
Definition password_key (password : bytes) : list bool :=
  firstn 64 (concat (map (fun b => val_bits 7 (b2n b) ++ [false]) (firstn 8 (until_nul password))) ++ repeat false 64).

(** 25 times DES of the zero block. *)
Fixpoint times {A} (n : nat) (f : A -> A) (x : A) : A := match n with O => x | S n' => f (times n' f x) end.
Definition crypt_block (password : bytes) (salt : nat -> bool) : list bool :=
  times 25 (des salt (round_keys false (password_key password))) (repeat false 64).

(** the alphabet *)
Definition alphabet : bytes := str "./0123456789ABCDEFGHIJKLMNOPQRSTUVWXYZabcdefghijklmnopqrstuvwxyz".
Definition letter (v : N) : byte := nth (N.to_nat v) alphabet x00.
(** The 12-bit salt of two characters with values [v] and [w]. *)
Definition salt_bits (v w : N) (q : nat) : bool :=
  if (q <? 6)%nat then N.testbit v (N.of_nat q) else if (q <? 12)%nat then N.testbit w (N.of_nat (q - 6)) else false.
(** crypt(3): the salt and eleven letters for the 64 bits and two zero bits *)
Definition crypt3 (password : bytes) (v w : N) : bytes :=
  [letter v; letter w] ++ map (fun g => letter (bits_val g)) (six_groups (crypt_block password (salt_bits v w) ++ [false; false])).
