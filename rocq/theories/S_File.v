(** * Specification of the article index record: the C fileheader_t
    (pttstruct.h), 128 bytes, every field at its literal offset. *)
From Verif Require Import M_Base M_File S_Layout.
Open Scope N_scope.

(** Bit 6 of the mode byte marks a vote post. *)
Definition vote_bit (mode : N) : Prop := N.testbit mode 6 = true.

(** [f] is what a reader of the C structure [d] sees. *)
Definition file_decoded (cd : codec) (d : bytes) (f : FileHeader) : Prop :=
  f_trim d 0 28 (fh_filename f) /\
  f_time d 28 (fh_modified f) /\
  f_int d 33 1 (fh_recommend f) /\
  f_trim d 34 14 (fh_owner f) /\
  f_trim d 48 6 (fh_date f) /\
  f_trim_big5 cd d 54 65 (fh_title f) /\
  f_time d 120 (fh_money f) /\
  f_time d 120 (fh_annouid f) /\
  f_num d 124 1 (fh_filemode f) /\
  (vote_bit (fh_filemode f) ->
     f_num d 120 1 (fh_vposts f) /\ f_num d 121 1 (fh_vlogins f) /\
     f_num d 122 1 (fh_vregtime f) /\ f_num d 123 1 (fh_vbadpost f)) /\
  (~ vote_bit (fh_filemode f) ->
     fh_vposts f = 0 /\ fh_vlogins f = 0 /\ fh_vregtime f = 0 /\ fh_vbadpost f = 0).

(** [d] is the C structure holding [f], the bytes from 119 on being zero. *)
Definition file_encoded (cd : codec) (f : FileHeader) (d : bytes) : Prop :=
  N.of_nat (length d) = 128 /\
  e_text d 0 28 (fh_filename f) /\
  e_int d 28 4 (fh_modified f) /\
  e_zero d 32 1 /\
  e_int d 33 1 (fh_recommend f) /\
  e_text d 34 14 (fh_owner f) /\
  e_text d 48 6 (fh_date f) /\
  e_text d 54 65 (enc cd (fh_title f)) /\
  e_zero d 119 9.

(** The six fields an author controls are representable. *)
Definition file_fits (cd : codec) (f : FileHeader) : Prop :=
  text_fits 28 (fh_filename f) /\
  time_fits (fh_modified f) /\
  int_fits 1 (fh_recommend f) /\
  text_fits 14 (fh_owner f) /\
  text_fits 6 (fh_date f) /\
  big5_text_fits cd 65 (fh_title f).

(** What a write followed by a read leaves of a record: the money, announcement,
    vote and mode fields are zero. *)
Definition file_image (f : FileHeader) : FileHeader :=
  MkFileHeader (fh_filename f) (fh_modified f) (fh_recommend f) (fh_owner f) (fh_date f) (fh_title f)
    0%Z 0%Z 0 0 0 0 0.
