(** * pttbbs/passwd.go:151-168: the password of a user record *)
From Verif Require Import M_Base M_Userec M_Crypt.
Open Scope N_scope.

(** strings.Trim(s, "\x00") *)
Fixpoint trim_left_nul (s : bytes) : bytes :=
  match s with b :: s' => if Byte.eqb b x00 then trim_left_nul s' else s | [] => [] end.
Definition trim_nul (s : bytes) : bytes := rev (trim_left_nul (rev (trim_left_nul s))).

(** pttbbs/passwd.go:150-152 HashedPassword *)
Definition HashedPassword (u : Userec) : bytes := u_password u.
(** pttbbs/passwd.go:156-168 VerifyPassword; the slice expression [:2] panics on a
    shorter string *)
Definition VerifyPassword (u : Userec) (password : bytes) : outcome unit :=
  match u_password u with
  | a :: b :: _ =>
      match Fcrypt password [a; b] with
      | Ok res => if beqb (trim_nul res) (u_password u) then Ok tt else Err EPassword
      | Err e => Err e
      | Panic => Panic
      | Diverge => Diverge
      end
  | _ => Panic
  end.
