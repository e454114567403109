(** * Specification: which bit is which flag
    (include/uflags.h and include/pttstruct.h of pttbbs) *)
From Verif Require Import M_Base M_Board M_Userec M_Flags.
Open Scope N_scope.

(** user flag, bit number *)
Definition user_bits : list ((uFlags -> bool) * N) :=
  [ (uf_favNohilight, 0); (uf_favAddnew, 1); (uf_dbanner, 6); (uf_dbannerUsong, 7);
    (uf_dbcsAware, 9); (uf_dbcsNointresc, 10); (uf_dbcsDropRepeat, 11);
    (uf_noModmark, 12); (uf_coloredModmark, 13); (uf_defBackup, 16); (uf_newAngelPager, 17);
    (uf_rejOuttamail, 18); (uf_secureLogin, 19); (uf_menuLightbar, 24); (uf_cursorASCII, 25) ].

(** board query, bit number (BRD_NOCOUNT ... BRD_BM_MASK_CONTENT) *)
Definition board_bits : list ((BoardHeader -> bool) * N) :=
  [ (IsNoCount, 1); (IsGroupBoard, 3); (IsClass, 3); (IsHide, 4); (IsPostMask, 5); (IsAnonymous, 6); (IsDefaultAnonymous, 7);
    (IsNoCredit, 8); (IsVoteBoard, 9); (IsWarnEL, 10); (IsTop, 11); (IsNoRecommend, 12); (IsAngelAnonymous, 13); (IsBMCount, 14);
    (IsIsSymbolic, 15); (IsNoBoo, 16); (IsRestrictedPost, 18); (IsGuestPost, 19); (IsCooldown, 20); (IsCPLog, 21);
    (IsNoFastRecommend, 22); (IsIPLogRecommend, 23); (IsOver18, 24); (IsNoReply, 25); (IsAlignedComment, 26);
    (IsNoSelfDeletePost, 27); (IsBMMaskContent, 28) ].
