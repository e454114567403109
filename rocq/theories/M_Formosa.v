(** * formosabbs/file.go: the FormosaBBS article index record *)
From Verif Require Import M_Base.
Open Scope N_scope.

(** formosabbs/file.go:15-21 *)
Definition FStrLength : N := 80.
Definition FPosOfFilename : N := 0.
Definition FPosOfOwner : N := FStrLength.
Definition FPosOfPostno : N := FStrLength - 8.
Definition FPosOfModified : N := FPosOfOwner + FStrLength - 8.
Definition FPosOfTitle : N := FPosOfOwner + FStrLength.

(** formosabbs/file.go:24-40 FileHeader; the members that no function sets
    (Recommend, Date, Money, AnnoUID, ReferRef, ReferFlag, Filemode) are
    omitted: they keep their zero value. *)
Record FormosaHeader := MkFormosa {
  ff_filename : bytes;
  ff_modified : Z;
  ff_owner : bytes;
  ff_title : bytes;
  ff_postno : Z }.

(** formosabbs/file.go:73-105 NewFomosaBBSFileHeaderWithByte; the last byte read
    is FPosOfTitle+66. *)
Definition NewFormosaHeaderWithByte (cd : codec) (d : bytes) : outcome FormosaHeader :=
  if lenN d <? FPosOfTitle + 67 then Panic else
  Ok {|
    ff_filename := trim_nul (sub FPosOfFilename 44 d);
    ff_modified := Z.of_N (r32 FPosOfModified d);
    ff_owner := trim_nul (sub FPosOfOwner 72 d);
    ff_title := dec cd (trim_nul (sub FPosOfTitle 67 d));
    ff_postno := i32 (Z.of_N (r32 FPosOfPostno d)) |}.
