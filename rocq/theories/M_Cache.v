(** * pttbbs/cache.go: lookups in the shared memory.
    Simplified: Go's int is taken as unbounded (positions are far below 2^63). *)
From Verif Require Import M_Base M_Text M_Conn M_UserInfo.
Open Scope Z_scope.

(** pttbbs/cache.go:78-85 MemoryMappingSetting *)
Record MemoryMappingSetting := Setting {
  AlignmentBytes : Z;
  MaxUsers : Z;
  IDLen : Z;
  UseCoolDown : bool;
  HashBits : Z }.

(** pttbbs/cache.go:11-66 cachePos, the members that are given a value *)
Record cachePos := CachePos {
  posOfVersion : Z;
  posOfSize : Z;
  posOfUserID : Z;
  posOfNextInHash : Z;
  posOfMoney : Z;
  posOfCooldownTime : Z;
  posOfHashHead : Z;
  posOfUserNumber : Z;
  posOfUserLoaded : Z;
  posOfUserInfo : Z }.

(** pttbbs/cache.go:102-132 caculatePos.  Go's % is the truncated remainder and
    panics for divisor 0; a negative shift count panics; a member not assigned is 0. *)
Definition caculatePos (c : MemoryMappingSetting) : outcome cachePos :=
  let version := 0 in
  let size := version + 4 in
  let userid := size + 4 in
  let next := (IDLen c + 1) + userid + MaxUsers c * (IDLen c + 1) in
  if AlignmentBytes c =? 0 then Panic else
  let next := if Z.rem next (AlignmentBytes c) =? 0 then next
              else next + (AlignmentBytes c - Z.rem next (AlignmentBytes c)) in
  let money := 4 + next + MaxUsers c * 4 in
  let cooldown := if UseCoolDown c then 4 + money + MaxUsers c * 4 else 0 in
  let hash := if UseCoolDown c then 4 + cooldown + MaxUsers c * 4 else 4 + 4 + money + MaxUsers c * 4 in
  if HashBits c <? 0 then Panic else
  let number := 4 + hash + 2 ^ HashBits c * 4 in
  let loaded := number + 4 in
  Ok (CachePos version size userid next money cooldown hash number loaded (loaded + 4)).

(** pttbbs/cache.go:88-93 Cache: the settings, the positions and the mapped bytes;
    the member lenOfUserInfo of cacheLen is never assigned *)
Record Cache := MkCache { c_set : MemoryMappingSetting; c_pos : cachePos; c_bytes : bytes }.
Definition lenOfUserInfo : Z := 0.

(** pttbbs/cache.go:293-306 NewCache; [open] is the system's answer to opening the
    backend (cache/cache.go:16-36, see M_Conn). *)
Definition NewCache (open : backend -> outcome bytes) (cs : bytes) (settings : MemoryMappingSetting) : outcome Cache :=
  match M_Conn.NewCache cs with
  | Ok b =>
      match open b with
      | Ok region =>
          match caculatePos settings with
          | Ok pos => Ok (MkCache settings pos region)
          | Err e => Err e | Panic => Panic | Diverge => Diverge
          end
      | Err e => Err e | Panic => Panic | Diverge => Diverge
      end
  | Err e => Err e | Panic => Panic | Diverge => Diverge
  end.

(** [b[lo:hi]] on a slice whose capacity is its length *)
Definition slice (b : bytes) (lo hi : Z) : outcome bytes :=
  if (lo <? 0) || (hi <? lo) || (Z.of_N (lenN b) <? hi) then Panic
  else Ok (sub (Z.to_N lo) (Z.to_N (hi - lo)) b).

(** pttbbs/cache.go:310-313 Version *)
Definition Version (c : Cache) : outcome N :=
  match slice (c_bytes c) (posOfVersion (c_pos c)) (posOfVersion (c_pos c) + 4) with
  | Ok d => Ok (r32 0 d)
  | _ => Panic
  end.
(** pttbbs/cache.go:317-321 UserID; bytes.Split(…, "\x00")[0] *)
Definition UserID (c : Cache) (uid : Z) : outcome bytes :=
  let s := posOfUserID (c_pos c) + (IDLen (c_set c) + 1) * uid in
  match slice (c_bytes c) s (s + IDLen (c_set c) + 1) with
  | Ok d => match split_on x00 d with p :: _ => Ok p | [] => Panic end
  | _ => Panic
  end.
(** pttbbs/cache.go:324-328 Money *)
Definition Money (c : Cache) (uid : Z) : outcome Z :=
  let s := posOfMoney (c_pos c) + 4 * uid in
  match slice (c_bytes c) s (s + 4) with
  | Ok d => Ok (i32 (Z.of_N (r32 0 d)))
  | _ => Panic
  end.
(** pttbbs/cache.go:330-333 UserInfo.  The slice passed on has length zero;
    UnmarshalUserInfo indexes it (userinfo.go:184), which panics whatever its
    capacity. *)
Definition UserInfo (cd : codec) (c : Cache) (uid : Z) : outcome UserInfoCache :=
  let p := posOfUserInfo (c_pos c) in
  match slice (c_bytes c) (p + lenOfUserInfo * uid) (p + lenOfUserInfo * (uid + 1)) with
  | Ok d => UnmarshalUserInfo cd d
  | _ => Panic
  end.
