(** * pttbbs/board.go: the board header *)
From Verif Require Import M_Base M_Cstr M_Const.
Open Scope N_scope.

(** pttbbs/board.go:122-150 *)
Definition PosOfBoardName : N := 0.
Definition PosOfBoardTitle : N := PosOfBoardName + IDLength + 1.
Definition PosOfBM : N := PosOfBoardTitle + BoardTitleLength + 1.
Definition PosOfBrdAttr : N := 3 + PosOfBM + IDLength * 3 + 3.
Definition PosOfChessCountry : N := PosOfBrdAttr + 4.
Definition PosOfVoteLimitPosts : N := PosOfChessCountry + 1.
Definition PosOfVoteLimitLogins : N := PosOfVoteLimitPosts + 1.
Definition PosOfBUpdate : N := 1 + PosOfVoteLimitLogins + 1.
Definition PosOfPostLimitPosts : N := PosOfBUpdate + 4.
Definition PosOfPostLimitLogins : N := PosOfPostLimitPosts + 1.
Definition PosOfBVote : N := 1 + PosOfPostLimitLogins + 1.
Definition PosOfVTime : N := PosOfBVote + 1.
Definition PosOfLevel : N := PosOfVTime + 4.
Definition PosOfPermReload : N := PosOfLevel + 4.
Definition PosOfGid : N := PosOfPermReload + 4.
Definition PosOfNext : N := PosOfGid + 4.
Definition PosOfFirstChild : N := PosOfNext + 4 * 2.
Definition PosOfParent : N := PosOfFirstChild + 4 * 2.
Definition PosOfChildCount : N := PosOfParent + 4.
Definition PosOfNuser : N := PosOfChildCount + 4.
Definition PosOfPostExpire : N := PosOfNuser + 4.
Definition PosOfEndGamble : N := PosOfPostExpire + 4.
Definition PosOfPostType : N := PosOfEndGamble + 4.
Definition PosOfPostTypeF : N := PosOfPostType + 33.
Definition PosOfFastRecommendPause : N := PosOfPostTypeF + 1.
Definition PosOfVoteLimitBadPost : N := PosOfFastRecommendPause + 1.
Definition PosOfPostLimitBadPost : N := PosOfVoteLimitBadPost + 1.
Definition PosOfSRExpire : N := 3 + PosOfPostLimitBadPost + 1.
(** pttbbs/board.go:164 *)
Definition BoardHeaderRecordLength : N := 256.

(** pttbbs/board.go:36-67 BoardHeader *)
Record BoardHeader := MkBoardHeader {
  bh_name : bytes;
  bh_title : bytes;
  bh_bm : bytes;
  bh_brdattr : N;
  bh_votelimitposts : N;
  bh_votelimitlogins : N;
  bh_chesscountry : bytes;
  bh_bupdate : Z;
  bh_postlimitposts : N;
  bh_postlimitlogins : N;
  bh_bvote : N;
  bh_vtime : Z;
  bh_level : N;
  bh_permreload : Z;
  bh_gid : Z;
  bh_next : list Z;
  bh_firstchild : list Z;
  bh_parent : Z;
  bh_childcount : Z;
  bh_nuser : Z;
  bh_postexpire : Z;
  bh_endgamble : Z;
  bh_posttype : bytes;
  bh_posttypef : bytes;
  bh_fastrecommendpause : N;
  bh_votelimitbadpost : N;
  bh_postlimitbadpost : N;
  bh_srexpire : Z }.

(** pttbbs/board.go:273-315 UnmarshalBoardHeader.  Slicing a shorter input
    panics; the last byte read is PosOfSRExpire+3. *)
Definition UnmarshalBoardHeader (cd : codec) (d : bytes) : outcome BoardHeader :=
  if lenN d <? PosOfSRExpire + 4 then Panic else
  Ok {|
    bh_name := big5uaoToUTF8String cd (split_nul_head (sub PosOfBoardName (IDLength + 1) d));
    bh_title := big5uaoToUTF8String cd (split_nul_head (sub PosOfBoardTitle (BoardTitleLength + 1) d));
    bh_bm := trim_nul (sub PosOfBM (IDLength * 3 + 3) d);
    bh_brdattr := r32 PosOfBrdAttr d;
    bh_votelimitposts := r8 PosOfVoteLimitPosts d;
    bh_votelimitlogins := r8 PosOfVoteLimitLogins d;
    bh_chesscountry := trim_nul (sub PosOfChessCountry 1 d);
    bh_bupdate := Z.of_N (r32 PosOfBUpdate d);
    bh_postlimitposts := r8 PosOfPostLimitPosts d;
    bh_postlimitlogins := r8 PosOfPostLimitLogins d;
    bh_bvote := r8 PosOfBVote d;
    bh_vtime := Z.of_N (r32 PosOfVTime d);
    bh_level := r32 PosOfLevel d;
    bh_permreload := Z.of_N (r32 PosOfPermReload d);
    bh_gid := i32 (Z.of_N (r32 PosOfGid d));
    bh_next := [i32 (Z.of_N (r32 PosOfNext d)); i32 (Z.of_N (r32 (PosOfNext + 4) d))];
    bh_firstchild := [i32 (Z.of_N (r32 PosOfFirstChild d)); i32 (Z.of_N (r32 (PosOfFirstChild + 4) d))];
    bh_parent := i32 (Z.of_N (r32 PosOfParent d));
    bh_childcount := i32 (Z.of_N (r32 PosOfChildCount d));
    bh_nuser := i32 (Z.of_N (r32 PosOfNuser d));
    bh_postexpire := i32 (Z.of_N (r32 PosOfPostExpire d));
    bh_endgamble := Z.of_N (r32 PosOfEndGamble d);
    bh_posttype := big5uaoToUTF8String cd (trim_nul (sub PosOfPostType 33 d));
    bh_posttypef := big5uaoToUTF8String cd (trim_nul (sub PosOfPostTypeF 1 d));
    bh_fastrecommendpause := r8 PosOfFastRecommendPause d;
    bh_votelimitbadpost := r8 PosOfVoteLimitBadPost d;
    bh_postlimitbadpost := r8 PosOfPostLimitBadPost d;
    bh_srexpire := Z.of_N (r32 PosOfSRExpire d) |}.

(** pttbbs/board.go:317-362 MarshalBinary: the writes in source order;
    [Next] and [FirstChild] are written only when they have two elements. *)
Definition board_writes (cd : codec) (b : BoardHeader) : list wr :=
  [wstr PosOfBoardName (IDLength + 1) (utf8ToBig5UAOString cd (bh_name b))] ++
  [wstr PosOfBoardTitle (BoardTitleLength + 1) (utf8ToBig5UAOString cd (bh_title b))] ++
  [wstr PosOfBM (IDLength * 3 + 3) (bh_bm b)] ++
  [w32 PosOfBrdAttr (bh_brdattr b)] ++
  [w8 PosOfVoteLimitPosts (bh_votelimitposts b)] ++
  [w8 PosOfVoteLimitLogins (bh_votelimitlogins b)] ++
  [wstr PosOfChessCountry 1 (bh_chesscountry b)] ++
  [w32 PosOfBUpdate (u32 (bh_bupdate b))] ++
  [w8 PosOfPostLimitPosts (bh_postlimitposts b)] ++
  [w8 PosOfPostLimitLogins (bh_postlimitlogins b)] ++
  [w8 PosOfBVote (bh_bvote b)] ++
  [w32 PosOfVTime (u32 (bh_vtime b))] ++
  [w32 PosOfLevel (bh_level b)] ++
  [w32 PosOfPermReload (u32 (bh_permreload b))] ++
  [w32 PosOfGid (u32 (bh_gid b))] ++
  (match bh_next b with [a; b] => [w32 PosOfNext (u32 a); w32 (PosOfNext + 4) (u32 b)] | _ => [] end) ++
  (match bh_firstchild b with [a; b] => [w32 PosOfFirstChild (u32 a); w32 (PosOfFirstChild + 4) (u32 b)] | _ => [] end) ++
  [w32 PosOfParent (u32 (bh_parent b))] ++
  [w32 PosOfChildCount (u32 (bh_childcount b))] ++
  [w32 PosOfNuser (u32 (bh_nuser b))] ++
  [w32 PosOfPostExpire (u32 (bh_postexpire b))] ++
  [w32 PosOfEndGamble (u32 (bh_endgamble b))] ++
  [wstr PosOfPostType 33 (utf8ToBig5UAOString cd (bh_posttype b))] ++
  [wstr PosOfPostTypeF 1 (utf8ToBig5UAOString cd (bh_posttypef b))] ++
  [w8 PosOfFastRecommendPause (bh_fastrecommendpause b)] ++
  [w8 PosOfVoteLimitBadPost (bh_votelimitbadpost b)] ++
  [w8 PosOfPostLimitBadPost (bh_postlimitbadpost b)] ++
  [w32 PosOfSRExpire (u32 (bh_srexpire b))].

Definition BoardHeader_MarshalBinary (cd : codec) (b : BoardHeader) : bytes :=
  put_all BoardHeaderRecordLength (board_writes cd b).

(** pttbbs/board.go:167-169 NewBoardHeader: the zero value.  The zero
    [time.Time] has Unix time -62135596800. *)
Definition zero_time : Z := (-62135596800)%Z.
Definition NewBoardHeader : BoardHeader := {|
    bh_name := [];
    bh_title := [];
    bh_bm := [];
    bh_brdattr := 0;
    bh_votelimitposts := 0;
    bh_votelimitlogins := 0;
    bh_chesscountry := [];
    bh_bupdate := zero_time;
    bh_postlimitposts := 0;
    bh_postlimitlogins := 0;
    bh_bvote := 0;
    bh_vtime := zero_time;
    bh_level := 0;
    bh_permreload := zero_time;
    bh_gid := 0%Z;
    bh_next := [];
    bh_firstchild := [];
    bh_parent := 0%Z;
    bh_childcount := 0%Z;
    bh_nuser := 0%Z;
    bh_postexpire := 0%Z;
    bh_endgamble := zero_time;
    bh_posttype := [];
    bh_posttypef := [];
    bh_fastrecommendpause := 0;
    bh_votelimitbadpost := 0;
    bh_postlimitbadpost := 0;
    bh_srexpire := zero_time |}.

(** pttbbs/board.go:69-73 *)
Definition BoardID (b : BoardHeader) : bytes := bh_name b.
Definition BoardHeader_SetBoardID (b : BoardHeader) (v : bytes) : BoardHeader := {|
    bh_name := v;
    bh_title := bh_title b;
    bh_bm := bh_bm b;
    bh_brdattr := bh_brdattr b;
    bh_votelimitposts := bh_votelimitposts b;
    bh_votelimitlogins := bh_votelimitlogins b;
    bh_chesscountry := bh_chesscountry b;
    bh_bupdate := bh_bupdate b;
    bh_postlimitposts := bh_postlimitposts b;
    bh_postlimitlogins := bh_postlimitlogins b;
    bh_bvote := bh_bvote b;
    bh_vtime := bh_vtime b;
    bh_level := bh_level b;
    bh_permreload := bh_permreload b;
    bh_gid := bh_gid b;
    bh_next := bh_next b;
    bh_firstchild := bh_firstchild b;
    bh_parent := bh_parent b;
    bh_childcount := bh_childcount b;
    bh_nuser := bh_nuser b;
    bh_postexpire := bh_postexpire b;
    bh_endgamble := bh_endgamble b;
    bh_posttype := bh_posttype b;
    bh_posttypef := bh_posttypef b;
    bh_fastrecommendpause := bh_fastrecommendpause b;
    bh_votelimitbadpost := bh_votelimitbadpost b;
    bh_postlimitbadpost := bh_postlimitbadpost b;
    bh_srexpire := bh_srexpire b |}.
Definition BoardHeader_SetTitle (b : BoardHeader) (v : bytes) : BoardHeader := {|
    bh_name := bh_name b;
    bh_title := v;
    bh_bm := bh_bm b;
    bh_brdattr := bh_brdattr b;
    bh_votelimitposts := bh_votelimitposts b;
    bh_votelimitlogins := bh_votelimitlogins b;
    bh_chesscountry := bh_chesscountry b;
    bh_bupdate := bh_bupdate b;
    bh_postlimitposts := bh_postlimitposts b;
    bh_postlimitlogins := bh_postlimitlogins b;
    bh_bvote := bh_bvote b;
    bh_vtime := bh_vtime b;
    bh_level := bh_level b;
    bh_permreload := bh_permreload b;
    bh_gid := bh_gid b;
    bh_next := bh_next b;
    bh_firstchild := bh_firstchild b;
    bh_parent := bh_parent b;
    bh_childcount := bh_childcount b;
    bh_nuser := bh_nuser b;
    bh_postexpire := bh_postexpire b;
    bh_endgamble := bh_endgamble b;
    bh_posttype := bh_posttype b;
    bh_posttypef := bh_posttypef b;
    bh_fastrecommendpause := bh_fastrecommendpause b;
    bh_votelimitbadpost := bh_votelimitbadpost b;
    bh_postlimitbadpost := bh_postlimitbadpost b;
    bh_srexpire := bh_srexpire b |}.
