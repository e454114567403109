(** * pttbbs/file.go: the article index record (FileHeader) *)
From Verif Require Import M_Base M_Cstr M_Const.
Open Scope N_scope.

(** pttbbs/file.go:40-50 *)
Definition PosOfFileHeaderFilename : N := 0.
Definition PosOfFileHeaderModified : N := PosOfFileHeaderFilename + FileNameLength.
Definition PosOfFileHeaderRecommend : N := 1 + PosOfFileHeaderModified + 4.
Definition PosOfFileHeaderOwner : N := PosOfFileHeaderRecommend + 1.
Definition PosOfFileHeaderDate : N := PosOfFileHeaderOwner + IDLength + 2.
Definition PosOfFileHeaderTitle : N := PosOfFileHeaderDate + 6.
Definition PosOfFileHeaderUnionMulti : N := 1 + PosOfFileHeaderTitle + TitleLength + 1.
Definition PosOfFileHeaderFilemode : N := PosOfFileHeaderUnionMulti + 4.

(** pttbbs/file.go:53-76 VoteLimits and FileHeader.  [modified] is kept as Unix
    seconds.  [ReferRef] and [ReferFlag] (lines 72-73) are never read or written
    by any function and are omitted. *)
Record FileHeader := MkFileHeader {
  fh_filename : bytes;
  fh_modified : Z;
  fh_recommend : Z;
  fh_owner : bytes;
  fh_date : bytes;
  fh_title : bytes;
  fh_money : Z;
  fh_annouid : Z;
  fh_vposts : N;
  fh_vlogins : N;
  fh_vregtime : N;
  fh_vbadpost : N;
  fh_filemode : N }.

(** pttbbs/file.go:246-248 IsVotePost *)
Definition IsVotePost (mode : N) : bool := negb (N.land mode FileVote =? 0).

(** pttbbs/file.go:199-228 NewFileHeaderWithByte.  Slicing a shorter input
    panics; the last byte read is PosOfFileHeaderFilemode. *)
Definition NewFileHeaderWithByte (cd : codec) (d : bytes) : outcome FileHeader :=
  if lenN d <? PosOfFileHeaderFilemode + 1 then Panic else
  let mode := r8 PosOfFileHeaderFilemode d in
  let vote k := if IsVotePost mode then r8 (PosOfFileHeaderUnionMulti + k) d else 0 in
  Ok {|
    fh_filename := trim_nul (sub PosOfFileHeaderFilename FileNameLength d);
    fh_modified := Z.of_N (r32 PosOfFileHeaderModified d);
    fh_recommend := i8 (Z.of_N (r8 PosOfFileHeaderRecommend d));
    fh_owner := trim_nul (sub PosOfFileHeaderOwner (IDLength + 2) d);
    fh_date := trim_nul (sub PosOfFileHeaderDate 6 d);
    fh_title := big5uaoToUTF8String cd (trim_nul (sub PosOfFileHeaderTitle (TitleLength + 1) d));
    fh_money := Z.of_N (r32 PosOfFileHeaderUnionMulti d);
    fh_annouid := Z.of_N (r32 PosOfFileHeaderUnionMulti d);
    fh_vposts := vote 0;
    fh_vlogins := vote 1;
    fh_vregtime := vote 2;
    fh_vbadpost := vote 3;
    fh_filemode := mode |}.

(** pttbbs/file.go:230-244 MarshalToByte: the writes in source order.  Nothing
    is written at or after PosOfFileHeaderUnionMulti. *)
Definition fileheader_writes (cd : codec) (f : FileHeader) : list wr := [
    wstr PosOfFileHeaderFilename FileNameLength (fh_filename f);
    w32 PosOfFileHeaderModified (u32 (fh_modified f));
    w8 PosOfFileHeaderRecommend (u8 (fh_recommend f));
    wstr PosOfFileHeaderOwner (IDLength + 2) (fh_owner f);
    wstr PosOfFileHeaderDate 6 (fh_date f);
    wstr PosOfFileHeaderTitle (TitleLength + 1) (utf8ToBig5UAOString cd (fh_title f)) ].
Definition MarshalToByte (cd : codec) (f : FileHeader) : bytes :=
  put_all 128 (fileheader_writes cd f).

(** pttbbs/file.go:98-100 NewFileHeader: the zero value; the zero time.Time has
    Unix time -62135596800. *)
Definition zero_time_unix : Z := (-62135596800)%Z.
Definition NewFileHeader : FileHeader :=
  MkFileHeader [] zero_time_unix 0%Z [] [] [] 0%Z 0%Z 0 0 0 0 0.

(** pttbbs/file.go:78-94 accessors that change a record. *)
Definition fh_set_filename (f : FileHeader) (v : bytes) : FileHeader :=
  MkFileHeader v (fh_modified f) (fh_recommend f) (fh_owner f) (fh_date f) (fh_title f)
    (fh_money f) (fh_annouid f) (fh_vposts f) (fh_vlogins f) (fh_vregtime f) (fh_vbadpost f) (fh_filemode f).
Definition fh_set_modified (f : FileHeader) (v : Z) : FileHeader :=
  MkFileHeader (fh_filename f) v (fh_recommend f) (fh_owner f) (fh_date f) (fh_title f)
    (fh_money f) (fh_annouid f) (fh_vposts f) (fh_vlogins f) (fh_vregtime f) (fh_vbadpost f) (fh_filemode f).
(** line 85: int8 addition wraps. *)
Definition fh_add_recommend (f : FileHeader) (u : Z) : FileHeader :=
  MkFileHeader (fh_filename f) (fh_modified f) (i8 (fh_recommend f + u)) (fh_owner f) (fh_date f) (fh_title f)
    (fh_money f) (fh_annouid f) (fh_vposts f) (fh_vlogins f) (fh_vregtime f) (fh_vbadpost f) (fh_filemode f).
Definition fh_set_owner (f : FileHeader) (v : bytes) : FileHeader :=
  MkFileHeader (fh_filename f) (fh_modified f) (fh_recommend f) v (fh_date f) (fh_title f)
    (fh_money f) (fh_annouid f) (fh_vposts f) (fh_vlogins f) (fh_vregtime f) (fh_vbadpost f) (fh_filemode f).
Definition fh_set_date (f : FileHeader) (v : bytes) : FileHeader :=
  MkFileHeader (fh_filename f) (fh_modified f) (fh_recommend f) (fh_owner f) v (fh_title f)
    (fh_money f) (fh_annouid f) (fh_vposts f) (fh_vlogins f) (fh_vregtime f) (fh_vbadpost f) (fh_filemode f).
Definition fh_set_title (f : FileHeader) (v : bytes) : FileHeader :=
  MkFileHeader (fh_filename f) (fh_modified f) (fh_recommend f) (fh_owner f) (fh_date f) v
    (fh_money f) (fh_annouid f) (fh_vposts f) (fh_vlogins f) (fh_vregtime f) (fh_vbadpost f) (fh_filemode f).
