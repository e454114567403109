(** * Specification of the FormosaBBS article record (248 bytes). *)
From Verif Require Import M_Base M_Formosa S_Layout.
Open Scope N_scope.

Definition formosa_decoded (cd : codec) (d : bytes) (f : FormosaHeader) : Prop :=
  f_trim d 0 44 (ff_filename f) /\
  f_int d 72 4 (ff_postno f) /\
  f_trim d 80 72 (ff_owner f) /\
  f_time d 152 (ff_modified f) /\
  f_trim_big5 cd d 160 67 (ff_title f).
