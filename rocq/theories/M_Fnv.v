(** * pttbbs/internal/fnv/fnv.go, with the parts of hash/fnv it uses *)
From Verif Require Import M_Base.
Open Scope N_scope.

(** hash/fnv: type sum32a uint32; New32a starts from offset32. *)
Definition fnv_offset32 : N := 2166136261.
Definition fnv_prime32 : N := 16777619.
Definition New32a : N := fnv_offset32.
(** hash/fnv (sum32a).Write: [hash ^= b; hash *= prime32] in uint32. *)
Definition fnv_step (h : N) (b : byte) : N := (N.lxor h (b2n b) * fnv_prime32) mod 4294967296.
Definition fnv_Write (h : N) (d : bytes) : N := fold_left fnv_step d h.
Definition fnv_Sum32 (h : N) : N := h.
(** hash/fnv appendUint32, readUint32: big endian. *)
Definition be32 (n : N) : bytes := [n2b (n / 16777216); n2b (n / 65536); n2b (n / 256); n2b n].
Definition be_dec (d : bytes) : N := fold_left (fun n b => 256 * n + b2n b) d 0.
(** hash/fnv (sum32a).MarshalBinary and UnmarshalBinary; magic32a = "fnv\x02". *)
Definition magic32a : bytes := str "fnv" ++ [x02].
Definition fnv_MarshalBinary (h : N) : bytes := magic32a ++ be32 h.
Definition fnv_UnmarshalBinary (b : bytes) : option N :=
  if (lenN b <? 4) || negb (beqb (firstn 4 b) magic32a) then None
  else if negb (lenN b =? 8) then None
  else Some (be_dec (skipn 4 b)).
(** [b[i] = v] *)
Definition set_byte (i : nat) (v : byte) (b : bytes) : bytes := firstn i b ++ v :: skipn (S i) b.
(** pttbbs/internal/fnv/fnv.go:13-24 New32aWith (the error of UnmarshalBinary is
    ignored there: the hash stays at its start value). *)
Definition New32aWith (offset : N) : N :=
  let h := New32a in
  let b := fnv_MarshalBinary h in
  let b := set_byte 4 (n2b (N.land (N.shiftr offset 24) 255)) b in
  let b := set_byte 5 (n2b (N.land (N.shiftr offset 16) 255)) b in
  let b := set_byte 6 (n2b (N.land (N.shiftr offset 8) 255)) b in
  let b := set_byte 7 (n2b (N.land offset 255)) b in
  match fnv_UnmarshalBinary b with Some h => h | None => h end.
(** pttbbs/internal/fnv/fnv.go:9 *)
Definition PttFnv32Init : N := 33554467.
