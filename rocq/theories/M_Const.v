(** * pttbbs/const.go: lengths used by the record layouts *)
From Verif Require Import M_Base.
Open Scope N_scope.

(** pttbbs/const.go:24-61 *)
Definition IDLength : N := 12.
Definition IPV4Length : N := 15.
Definition PasswordLength : N := 14.
Definition RegistrationLength : N := 38.
Definition RealNameSize : N := 20.
Definition NicknameSize : N := 24.
Definition EmailSize : N := 50.
Definition AddressSize : N := 50.
Definition CareerSize : N := 40.
Definition TitleLength : N := 64.
Definition FileNameLength : N := 28.
Definition MachineNameLength : N := 27.
Definition MaxFriend : N := 256.
Definition MaxReject : N := 32.
Definition MaxMsgs : N := 10.
Definition ChatIDLength : N := 11.
(** pttbbs/const.go:91 *)
Definition FileVote : N := 0x40.
(** pttbbs/board.go:118 *)
Definition BoardTitleLength : N := 48.
