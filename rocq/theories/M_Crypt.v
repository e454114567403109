(** * crypt/: bbscrypt.go, crypt.go, utils.go
    uint32 values are [N] below 2^32; [<<] on uint32 drops the bits above 31.
    Table indices are masked by the code to the size of the table, so a lookup is
    [nth] with an unused default. *)
From Verif Require Import M_Base M_CryptTables.
Open Scope N_scope.

Definition ones32 : N := 0xffffffff.
(** [x << n] and [x >> n] on uint32 *)
Definition shl (x n : N) : N := N.land (N.shiftl x n) ones32.
Definition shr (x n : N) : N := N.shiftr x n.
Definition at_ (t : list N) (i : N) : N := nth (N.to_nat i) t 0.
Definition row (t : list (list N)) (k : nat) : list N := nth k t [].

(** crypt/utils.go:3-5 c2l *)
Definition c2l (a b c d : N) : N := N.lor (N.lor (N.lor a (shl b 8)) (shl c 16)) (shl d 24).
(** crypt/utils.go:7-13 l2c *)
Definition l2c (l : N) : list N :=
  [N.land l 0xff; N.land (shr l 8) 0xff; N.land (shr l 16) 0xff; N.land (shr l 24) 0xff].
(** crypt/utils.go:15-22 permOp *)
Definition permOp (a b n m : N) : N * N :=
  let t := N.land (N.lxor (shr a n) b) m in
  (N.lxor a (shl t n), N.lxor b t).
(** crypt/utils.go:24-28 hPermOp, with [16 - n] = [k] *)
Definition hPermOp (a k m : N) : N :=
  let t := N.land (N.lxor (shl a k) a) m in
  N.lxor (N.lxor a t) (shr t k).

(** crypt/crypt.go:104-133: the permuted choice before the loop of desSetKey;
    answers [(c, d)] *)
Definition setKey_start (c d : N) : N * N :=
  let '(d, c) := permOp d c 4 0x0f0f0f0f in
  let c := hPermOp c 18 0xcccc0000 in
  let d := hPermOp d 18 0xcccc0000 in
  let '(d, c) := permOp d c 1 0x55555555 in
  let '(c, d) := permOp c d 8 0x00ff00ff in
  let '(d, c) := permOp d c 1 0x55555555 in
  let d := N.lor (N.lor (N.lor (shl (N.land d 0x000000ff) 16) (N.land d 0x0000ff00))
                        (shr (N.land d 0x00ff0000) 16)) (shr (N.land c 0xf0000000) 4) in
  let c := N.land c 0x0fffffff in
  (c, d).
(** crypt/crypt.go:139-154: one turn of the loop, the rotations *)
Definition setKey_rotate (two : bool) (c : N) : N :=
  N.land (if two then N.lor (shr c 2) (shl c 26) else N.lor (shr c 1) (shl c 27)) 0x0fffffff.
(** crypt/crypt.go:157-165 *)
Definition setKey_s (c : N) : N :=
  N.lor (N.lor (N.lor
    (at_ (row skb 0) (N.land c 0x3f))
    (at_ (row skb 1) (N.lor (N.land (shr c 6) 0x03) (N.land (shr c 7) 0x3c))))
    (at_ (row skb 2) (N.lor (N.land (shr c 13) 0x0f) (N.land (shr c 14) 0x30))))
    (at_ (row skb 3) (N.lor (N.lor (N.land (shr c 20) 0x01) (N.land (shr c 21) 0x06)) (N.land (shr c 22) 0x38))).
Definition setKey_t (d : N) : N :=
  N.lor (N.lor (N.lor
    (at_ (row skb 4) (N.land d 0x3f))
    (at_ (row skb 5) (N.lor (N.land (shr d 7) 0x03) (N.land (shr d 8) 0x3c))))
    (at_ (row skb 6) (N.land (shr d 15) 0x3f)))
    (at_ (row skb 7) (N.lor (N.land (shr d 21) 0x0f) (N.land (shr d 22) 0x30))).
(** crypt/crypt.go:169-173: the two words of the schedule *)
Definition setKey_words (s t : N) : list N :=
  let k0 := N.land (N.lor (shl t 16) (N.land s 0x0000ffff)) ones32 in
  let s := N.lor (shr s 16) (N.land t 0xffff0000) in
  let s := N.lor (shl s 4) (shr s 28) in
  [k0; N.land s ones32].
(** crypt/crypt.go:138-176: the loop *)
Fixpoint setKey_loop (shifts : list bool) (c d : N) : list N :=
  match shifts with
  | [] => []
  | two :: rest =>
      let c := setKey_rotate two c in
      let d := setKey_rotate two d in
      setKey_words (setKey_s c) (setKey_t d) ++ setKey_loop rest c d
  end.
(** crypt/crypt.go:104-177 desSetKey: 8 key bytes to 32 words *)
Definition desSetKey (key : list N) : list N :=
  let k i := nth i key 0 in
  let c := c2l (k 0%nat) (k 1%nat) (k 2%nat) (k 3%nat) in
  let d := c2l (k 4%nat) (k 5%nat) (k 6%nat) (k 7%nat) in
  let '(c, d) := setKey_start c d in
  setKey_loop shifts2 c d.

(** crypt/crypt.go:179-207 dEncrypt; the parameters t and u are overwritten
    before they are read and are left out. *)
Definition dEncrypt (L R : N) (S : nat) (E0 E1 : N) (s : list N) : N :=
  let t := N.lxor R (shr R 16) in
  let u := N.land t E0 in
  let t := N.land t E1 in
  let u := N.lxor (N.lxor (N.lxor u (shl u 16)) R) (nth S s 0) in
  let t := N.lxor (N.lxor (N.lxor t (shl t 16)) R) (nth (S + 1) s 0) in
  let t := N.lor (shr t 4) (shl t 28) in
  N.lxor L
   (N.lor (N.lor (N.lor (N.lor (N.lor (N.lor (N.lor
     (at_ (row spTrans 1) (N.land t 0x3f))
     (at_ (row spTrans 3) (N.land (shr t 8) 0x3f)))
     (at_ (row spTrans 5) (N.land (shr t 16) 0x3f)))
     (at_ (row spTrans 7) (N.land (shr t 24) 0x3f)))
     (at_ (row spTrans 0) (N.land u 0x3f)))
     (at_ (row spTrans 2) (N.land (shr u 8) 0x3f)))
     (at_ (row spTrans 4) (N.land (shr u 16) 0x3f)))
     (at_ (row spTrans 6) (N.land (shr u 24) 0x3f))).

(** crypt/crypt.go:222-229: for i := 0; i < 32; i += 4 *)
Definition body_rounds (s : list N) (E0 E1 : N) (lr : N * N) : N * N :=
  fold_left (fun lr i =>
    let '(l, r) := lr in
    let l := dEncrypt l r i E0 E1 s in
    let r := dEncrypt r l (i + 2) E0 E1 s in
    (l, r)) [0; 4; 8; 12; 16; 20; 24; 28]%nat lr.
(** crypt/crypt.go:221-234: 25 times, with the swap *)
Fixpoint body_times (n : nat) (s : list N) (E0 E1 : N) (lr : N * N) : N * N :=
  match n with
  | O => lr
  | S n' => let '(l, r) := body_rounds s E0 E1 lr in body_times n' s E0 E1 (r, l)
  end.
(** crypt/crypt.go:237-257: after the loops *)
Definition body_end (l r : N) : N * N :=
  let t := r in
  let r := N.lor (shr l 1) (shl l 31) in
  let l := N.lor (shr t 1) (shl t 31) in
  let l := N.land l ones32 in
  let r := N.land r ones32 in
  let '(r, l) := permOp r l 1 0x55555555 in
  let '(l, r) := permOp l r 8 0x00ff00ff in
  let '(r, l) := permOp r l 2 0x33333333 in
  let '(l, r) := permOp l r 16 0x0000ffff in
  let '(r, l) := permOp r l 4 0x0f0f0f0f in
  (l, r).
(** crypt/crypt.go:209-261 body *)
Definition body (s : list N) (Eswap0 Eswap1 : N) : N * N :=
  let '(l, r) := body_times 25 s Eswap0 Eswap1 (0, 0) in
  body_end l r.

(** crypt/crypt.go:16-18 and 41-48: the key block, from the bytes up to 8 or the first NUL *)
Fixpoint key_bytes (buf : bytes) : list N :=
  match buf with
  | [] => []
  | c :: rest => if b2n c =? 0 then [] else N.land (N.shiftl (b2n c) 1) 0xff :: key_bytes rest
  end.
Definition pad8 (l : list N) : list N := firstn 8 (l ++ [0; 0; 0; 0; 0; 0; 0; 0]).

(** crypt/crypt.go:70-89: the loops over i and j.  [y] and [u] are the position;
    one character takes six bits. *)
Fixpoint six (n : nat) (bb : list N) (y : nat) (u c : N) : nat * N * N :=
  match n with
  | O => (y, u, c)
  | S n' =>
      let c := N.shiftl c 1 in
      let c := if N.land (nth y bb 0) u =? 0 then c else N.lor c 1 in
      let u := N.shiftr u 1 in
      if u =? 0 then six n' bb (S y) 0x80 c else six n' bb y u c
  end.
Fixpoint chars (n : nat) (bb : list N) (y : nat) (u : N) : list N :=
  match n with
  | O => []
  | S n' => let '(y, u, c) := six 6 bb y u 0 in at_ cov2char c :: chars n' bb y u
  end.

(** crypt/crypt.go:21-24 and 31-34: x := 'A'; if salt[i] != 0 { x = salt[i] }; None is
    the panic of an index out of range *)
Definition salt_char (salt : bytes) (i : nat) : option N :=
  match nth_error salt i with
  | None => None
  | Some c => Some (if b2n c =? 0 then 0x41 else b2n c)
  end.
(** conSalt[x] for a uint8 [x]: the table has 128 entries *)
Definition con_salt (x : N) : option N := nth_error conSalt (N.to_nat x).

(** crypt/crypt.go:15-91 cFcrypt and crypt/bbscrypt.go:19-23 Fcrypt *)
Definition Fcrypt (key salt : bytes) : outcome bytes :=
  let buf := firstn 8 key in
  match salt_char salt 0 with None => Panic | Some x0 =>
  match con_salt x0 with None => Panic | Some Eswap0 =>
  match salt_char salt 1 with None => Panic | Some x1 =>
  match con_salt x1 with None => Panic | Some e1 =>
  let Eswap1 := shl e1 4 in
  let ks := desSetKey (pad8 (key_bytes buf)) in
  let '(o0, o1) := body ks Eswap0 Eswap1 in
  let bb := l2c o0 ++ l2c o1 ++ [0] in
  Ok (map n2b ([x0; x1] ++ chars 11 bb 0 0x80 ++ [0]))
  end end end end.
