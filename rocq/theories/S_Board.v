(** * Specification of the board header: the C boardheader_t (pttstruct.h),
    256 bytes, every field at its literal offset. *)
From Verif Require Import M_Base M_Board S_Layout.
Open Scope N_scope.

(** [b] is what a reader of the C structure [d] sees. *)
Definition board_decoded (cd : codec) (d : bytes) (b : BoardHeader) : Prop :=
  f_cstr_big5 cd d 0 13 (bh_name b) /\
  f_cstr_big5 cd d 13 49 (bh_title b) /\
  f_trim d 62 39 (bh_bm b) /\
  f_num d 104 4 (bh_brdattr b) /\
  f_num d 109 1 (bh_votelimitposts b) /\
  f_num d 110 1 (bh_votelimitlogins b) /\
  f_trim d 108 1 (bh_chesscountry b) /\
  f_time d 112 (bh_bupdate b) /\
  f_num d 116 1 (bh_postlimitposts b) /\
  f_num d 117 1 (bh_postlimitlogins b) /\
  f_num d 119 1 (bh_bvote b) /\
  f_time d 120 (bh_vtime b) /\
  f_num d 124 4 (bh_level b) /\
  f_time d 128 (bh_permreload b) /\
  f_int d 132 4 (bh_gid b) /\
  f_ints d 136 4 2 (bh_next b) /\
  f_ints d 144 4 2 (bh_firstchild b) /\
  f_int d 152 4 (bh_parent b) /\
  f_int d 156 4 (bh_childcount b) /\
  f_int d 160 4 (bh_nuser b) /\
  f_int d 164 4 (bh_postexpire b) /\
  f_time d 168 (bh_endgamble b) /\
  f_trim_big5 cd d 172 33 (bh_posttype b) /\
  f_trim_big5 cd d 205 1 (bh_posttypef b) /\
  f_num d 206 1 (bh_fastrecommendpause b) /\
  f_num d 207 1 (bh_votelimitbadpost b) /\
  f_num d 208 1 (bh_postlimitbadpost b) /\
  f_time d 212 (bh_srexpire b).

(** [d] is the C structure holding [b]. *)
Definition board_encoded (cd : codec) (b : BoardHeader) (d : bytes) : Prop :=
  N.of_nat (length d) = 256 /\
  e_text d 0 13 (enc cd (bh_name b)) /\
  e_text d 13 49 (enc cd (bh_title b)) /\
  e_text d 62 39 (bh_bm b) /\
  e_num d 104 4 (bh_brdattr b) /\
  e_num d 109 1 (bh_votelimitposts b) /\
  e_num d 110 1 (bh_votelimitlogins b) /\
  e_text d 108 1 (bh_chesscountry b) /\
  e_int d 112 4 (bh_bupdate b) /\
  e_num d 116 1 (bh_postlimitposts b) /\
  e_num d 117 1 (bh_postlimitlogins b) /\
  e_num d 119 1 (bh_bvote b) /\
  e_int d 120 4 (bh_vtime b) /\
  e_num d 124 4 (bh_level b) /\
  e_int d 128 4 (bh_permreload b) /\
  e_int d 132 4 (bh_gid b) /\
  (forall x y, bh_next b = [x; y] -> e_int d 136 4 x /\ e_int d 140 4 y) /\
  (length (bh_next b) <> 2%nat -> e_zero d 136 8) /\
  (forall x y, bh_firstchild b = [x; y] -> e_int d 144 4 x /\ e_int d 148 4 y) /\
  (length (bh_firstchild b) <> 2%nat -> e_zero d 144 8) /\
  e_int d 152 4 (bh_parent b) /\
  e_int d 156 4 (bh_childcount b) /\
  e_int d 160 4 (bh_nuser b) /\
  e_int d 164 4 (bh_postexpire b) /\
  e_int d 168 4 (bh_endgamble b) /\
  e_text d 172 33 (enc cd (bh_posttype b)) /\
  e_text d 205 1 (enc cd (bh_posttypef b)) /\
  e_num d 206 1 (bh_fastrecommendpause b) /\
  e_num d 207 1 (bh_votelimitbadpost b) /\
  e_num d 208 1 (bh_postlimitbadpost b) /\
  e_int d 212 4 (bh_srexpire b).

(** Every field is representable. *)
Definition board_fits (cd : codec) (b : BoardHeader) : Prop :=
  big5_cstr_fits cd 13 (bh_name b) /\
  big5_cstr_fits cd 49 (bh_title b) /\
  text_fits 39 (bh_bm b) /\
  num_fits 4 (bh_brdattr b) /\
  num_fits 1 (bh_votelimitposts b) /\
  num_fits 1 (bh_votelimitlogins b) /\
  text_fits 1 (bh_chesscountry b) /\
  time_fits (bh_bupdate b) /\
  num_fits 1 (bh_postlimitposts b) /\
  num_fits 1 (bh_postlimitlogins b) /\
  num_fits 1 (bh_bvote b) /\
  time_fits (bh_vtime b) /\
  num_fits 4 (bh_level b) /\
  time_fits (bh_permreload b) /\
  int_fits 4 (bh_gid b) /\
  (length (bh_next b) = 2%nat /\ Forall (int_fits 4) (bh_next b)) /\
  (length (bh_firstchild b) = 2%nat /\ Forall (int_fits 4) (bh_firstchild b)) /\
  int_fits 4 (bh_parent b) /\
  int_fits 4 (bh_childcount b) /\
  int_fits 4 (bh_nuser b) /\
  int_fits 4 (bh_postexpire b) /\
  time_fits (bh_endgamble b) /\
  big5_text_fits cd 33 (bh_posttype b) /\
  big5_text_fits cd 1 (bh_posttypef b) /\
  num_fits 1 (bh_fastrecommendpause b) /\
  num_fits 1 (bh_votelimitbadpost b) /\
  num_fits 1 (bh_postlimitbadpost b) /\
  time_fits (bh_srexpire b).
