#!/usr/bin/env python3
"""Writes the M_/S_ files of the fixed-layout records from tables typed in from
the Go sources (model side) and from the C structures (specification side).
The generated files are committed; this script only saves typing."""
import os
OUT=os.path.join(os.path.dirname(__file__),"..","rocq","theories")

CONSTS='''(** pttbbs/const.go:24-61 *)
Definition IDLength : N := 12.
Definition IPV4Length : N := 15.
Definition PasswordLength : N := 14.
Definition RegistrationLength : N := 38.
Definition RealNameSize : N := 20.
Definition NicknameSize : N := 24.
Definition EmailSize : N := 50.
Definition AddressSize : N := 50.
Definition CareerSize : N := 40.
Definition TitleLength : N := 64.
Definition FileNameLength : N := 28.
Definition MachineNameLength : N := 27.
Definition MaxFriend : N := 256.
Definition MaxReject : N := 32.
Definition MaxMsgs : N := 10.
Definition ChatIDLength : N := 11.
(** pttbbs/const.go:91 *)
Definition FileVote : N := 0x40.
(** pttbbs/board.go:118 *)
Definition BoardTitleLength : N := 48.
'''
open(os.path.join(OUT,"M_Const.v"),"w").write(
'''(** * pttbbs/const.go: lengths used by the record layouts *)
From Verif Require Import M_Base.
Open Scope N_scope.

'''+CONSTS)

# type -> coq type
TY={'u8':'N','u16':'N','u32':'N','i8':'Z','i16':'Z','i32':'Z','time':'Z','bool':'bool',
    'trim':'bytes','trim5':'bytes','cstr':'bytes','cstre':'bytes','cstr5':'bytes','split5':'bytes','raw':'bytes'}
def rd(k,off,ln):
    return {'u8':f'r8 {off} d','u16':f'r16 {off} d','u32':f'r32 {off} d',
     'i8':f'i8 (Z.of_N (r8 {off} d))','i16':f'i16 (Z.of_N (r16 {off} d))','i32':f'i32 (Z.of_N (r32 {off} d))',
     'time':f'Z.of_N (r32 {off} d)','bool':f'negb (r8 {off} d =? 0)',
     'trim':f'trim_nul (sub {off} {ln} d)','trim5':f'big5uaoToUTF8String cd (trim_nul (sub {off} {ln} d))',
     'cstr':f'newStringFormCString (sub {off} {ln} d)','cstre':f'newStringFormCString (sub {off} {ln} d)',
     'cstr5':f'newStringFormBig5UAOCString cd (sub {off} {ln} d)',
     'split5':f'big5uaoToUTF8String cd (split_nul_head (sub {off} {ln} d))'}[k]
def wrt(k,off,ln,v):
    return {'u8':f'w8 {off} ({v})','u16':f'w16 {off} ({v})','u32':f'w32 {off} ({v})',
     'i8':f'w8 {off} (u8 ({v}))','i16':f'w16 {off} (u16 ({v}))','i32':f'w32 {off} (u32 ({v}))','time':f'w32 {off} (u32 ({v}))',
     'bool':f'w8 {off} (if {v} then 1 else 0)','trim':f'wstr {off} {ln} ({v})',
     'trim5':f'wstr {off} {ln} (utf8ToBig5UAOString cd ({v}))','cstre':f'wstr {off} {ln} (utf8ToBig5UAOString cd ({v}))',
     'cstr5':f'wstr {off} {ln} (utf8ToBig5UAOString cd ({v}))','split5':f'wstr {off} {ln} (utf8ToBig5UAOString cd ({v}))'}[k]
SZ={'u8':1,'u16':2,'u32':4,'i8':1,'i16':2,'i32':4,'time':4,'bool':1}
def sdec(k,off,ln,v):
    n=SZ.get(k)
    return {'u8':f'f_num d {off} 1 ({v})','u16':f'f_num d {off} 2 ({v})','u32':f'f_num d {off} 4 ({v})',
     'i8':f'f_int d {off} 1 ({v})','i16':f'f_int d {off} 2 ({v})','i32':f'f_int d {off} 4 ({v})',
     'time':f'f_time d {off} ({v})','bool':f'f_flag d {off} ({v})','trim':f'f_trim d {off} {ln} ({v})',
     'trim5':f'f_trim_big5 cd d {off} {ln} ({v})','cstr':f'f_cstr d {off} {ln} ({v})','cstre':f'f_cstr d {off} {ln} ({v})',
     'cstr5':f'f_cstr_big5 cd d {off} {ln} ({v})','split5':f'f_cstr_big5 cd d {off} {ln} ({v})'}[k]
def senc(k,off,ln,v):
    return {'u8':f'e_num d {off} 1 ({v})','u16':f'e_num d {off} 2 ({v})','u32':f'e_num d {off} 4 ({v})',
     'i8':f'e_int d {off} 1 ({v})','i16':f'e_int d {off} 2 ({v})','i32':f'e_int d {off} 4 ({v})',
     'time':f'e_int d {off} 4 ({v})','bool':f'e_flag d {off} ({v})','trim':f'e_text d {off} {ln} ({v})',
     'trim5':f'e_text d {off} {ln} (enc cd ({v}))','cstre':f'e_text d {off} {ln} (enc cd ({v}))',
     'cstr5':f'e_text d {off} {ln} (enc cd ({v}))','split5':f'e_text d {off} {ln} (enc cd ({v}))'}[k]
def sfit(k,ln,v):
    return {'u8':f'num_fits 1 ({v})','u16':f'num_fits 2 ({v})','u32':f'num_fits 4 ({v})',
     'i8':f'int_fits 1 ({v})','i16':f'int_fits 2 ({v})','i32':f'int_fits 4 ({v})',
     'time':f'time_fits ({v})','bool':None,'trim':f'text_fits {ln} ({v})',
     'trim5':f'big5_text_fits cd {ln} ({v})','cstr':f'cstr_fits {ln} ({v})','cstre':f'plain_cstr_fits cd {ln} ({v})',
     'cstr5':f'big5_cstr_fits cd {ln} ({v})','split5':f'big5_cstr_fits cd {ln} ({v})'}[k]

# ---------------------------------------------------------------- Userec
def consts(lines):
    return "\n".join(f"Definition {a} : N := {b}." for a,b in lines)

U_POS=[("PosOfPasswdVersion","0"),("PosOfPasswdUserID","PosOfPasswdVersion + 4"),
("PosOfPasswdRealName","PosOfPasswdUserID + IDLength + 1"),("PosOfPasswdNickname","PosOfPasswdRealName + RealNameSize"),
("PosOfPasswdPassword","PosOfPasswdNickname + NicknameSize"),("PosOfPasswdUserFlag","1 + PosOfPasswdPassword + PasswordLength"),
("PosOfPasswdUserLevel","4 + PosOfPasswdUserFlag + 4"),("PosOfPasswdNumLoginDays","PosOfPasswdUserLevel + 4"),
("PosOfPasswdNumPosts","PosOfPasswdNumLoginDays + 4"),("PosOfPasswdFirstLogin","PosOfPasswdNumPosts + 4"),
("PosOfPasswdLastLogin","PosOfPasswdFirstLogin + 4"),("PosOfPasswdLastHost","PosOfPasswdLastLogin + 4"),
("PosOfPasswdMoney","PosOfPasswdLastHost + IPV4Length + 1"),("PosOfPasswdEmail","4 + PosOfPasswdMoney + 4"),
("PosOfPasswdAddress","PosOfPasswdEmail + EmailSize"),("PosOfPasswdJustify","PosOfPasswdAddress + AddressSize"),
("PosOfPasswdOver18","3 + PosOfPasswdJustify + RegistrationLength + 1"),("PosOfPasswdPagerUIType","PosOfPasswdOver18 + 1"),
("PosOfPasswdPager","PosOfPasswdPagerUIType + 1"),("PosOfPasswdInvisible","PosOfPasswdPager + 1"),
("PosOfPasswdExMailBox","2 + PosOfPasswdInvisible + 1"),("PosOfPasswdCareer","4 + PosOfPasswdExMailBox + 4"),
("PosOfPasswdRole","20 + 4 + 44 + PosOfPasswdCareer + CareerSize"),("PosOfPasswdLastSeen","PosOfPasswdRole + 4"),
("PosOfPasswdTimeSetAngel","PosOfPasswdLastSeen + 4"),("PosOfPasswdTimePlayAngel","PosOfPasswdTimeSetAngel + 4"),
("PosOfPasswdLastSong","PosOfPasswdTimePlayAngel + 4"),("PosOfPasswdLoginView","PosOfPasswdLastSong + 4"),
("PosOfPasswdLawCounter","1 + 1 + PosOfPasswdLoginView + 4"),("PosOfPasswdFiveWin","PosOfPasswdLawCounter + 2"),
("PosOfPasswdFiveLose","PosOfPasswdFiveWin + 2"),("PosOfPasswdFiveTie","PosOfPasswdFiveLose + 2"),
("PosOfPasswdChcWin","PosOfPasswdFiveTie + 2"),("PosOfPasswdChcLose","PosOfPasswdChcWin + 2"),
("PosOfPasswdChcTie","PosOfPasswdChcLose + 2"),("PosOfPasswdConn6Win","PosOfPasswdChcTie + 2"),
("PosOfPasswdConn6Lose","PosOfPasswdConn6Win + 2"),("PosOfPasswdConn6Tie","PosOfPasswdConn6Lose + 2"),
("PosOfPasswdGoWin","2 + PosOfPasswdConn6Tie + 2"),("PosOfPasswdGoLose","PosOfPasswdGoWin + 2"),
("PosOfPasswdGoTie","PosOfPasswdGoLose + 2"),("PosOfPasswdDarkWin","PosOfPasswdGoTie + 2"),
("PosOfPasswdDarkLose","PosOfPasswdDarkWin + 2"),("PosOfPasswdUaVersion","PosOfPasswdDarkLose + 2"),
("PosOfPasswdSignature","PosOfPasswdUaVersion + 1"),("PosOfPasswdBadPost","1 + PosOfPasswdSignature + 1"),
("PosOfPasswdDarkTie","PosOfPasswdBadPost + 1"),("PosOfPasswdMyAngel","PosOfPasswdDarkTie + 2"),
("PosOfPasswdChessEloRating","1 + PosOfPasswdMyAngel + IDLength + 1"),("PosOfPasswdWithMe","PosOfPasswdChessEloRating + 2"),
("PosOfPasswdTimeRemoveBadPost","PosOfPasswdWithMe + 4"),("PosOfPasswdTimeViolateLaw","PosOfPasswdTimeRemoveBadPost + 4")]

# (coq accessor, kind, pos const, read len, write len, C offset, C length)
# accessor for game scores: (gs_win (u_five u))
G='game'
U=[("u_version","u32","PosOfPasswdVersion",None,None,0,4),
("u_userid","cstre","PosOfPasswdUserID","(IDLength + 1)","(IDLength + 1)",4,13),
("u_realname","cstr5","PosOfPasswdRealName","RealNameSize","RealNameSize",17,20),
("u_nickname","cstr5","PosOfPasswdNickname","NicknameSize","NicknameSize",37,24),
("u_password","cstre","PosOfPasswdPassword","PasswordLength","PasswordLength",61,14),
("u_userflag","u32","PosOfPasswdUserFlag",None,None,76,4),
("u_userlevel","u32","PosOfPasswdUserLevel",None,None,84,4),
("u_numlogindays","u32","PosOfPasswdNumLoginDays",None,None,88,4),
("u_numposts","u32","PosOfPasswdNumPosts",None,None,92,4),
("u_firstlogin","time","PosOfPasswdFirstLogin",None,None,96,4),
("u_lastlogin","time","PosOfPasswdLastLogin",None,None,100,4),
("u_lasthost","cstre","PosOfPasswdLastHost","(IPV4Length + 1)","(IPV4Length + 1)",104,16),
("u_money","i32","PosOfPasswdMoney",None,None,120,4),
("u_email","cstr5","PosOfPasswdEmail","EmailSize","EmailSize",128,50),
("u_address","cstr5","PosOfPasswdAddress","AddressSize","AddressSize",178,50),
("u_justify","cstr5","PosOfPasswdJustify","(RegistrationLength + 1)","RegistrationLength",228,39),
("u_over18","bool","PosOfPasswdOver18",None,None,270,1),
("u_pageruitype","u8","PosOfPasswdPagerUIType",None,None,271,1),
("u_pager","u8","PosOfPasswdPager",None,None,272,1),
("u_invisible","bool","PosOfPasswdInvisible",None,None,273,1),
("u_exmailbox","u32","PosOfPasswdExMailBox",None,None,276,4),
("u_career","cstr5","PosOfPasswdCareer","CareerSize","CareerSize",284,40),
("u_role","u32","PosOfPasswdRole",None,'NOWRITE',392,4),
("u_lastseen","time","PosOfPasswdLastSeen",None,None,396,4),
("u_timesetangel","time","PosOfPasswdTimeSetAngel",None,None,400,4),
("u_timeplayangel","time","PosOfPasswdTimePlayAngel",None,None,404,4),
("u_lastsong","time","PosOfPasswdLastSong",None,None,408,4),
("u_loginview","u32","PosOfPasswdLoginView",None,None,412,4),
("u_violatelaw","u16","PosOfPasswdLawCounter",None,None,418,2),
("u_five_win","u16","PosOfPasswdFiveWin",None,None,420,2),
("u_five_lose","u16","PosOfPasswdFiveLose",None,None,422,2),
("u_five_tie","u16","PosOfPasswdFiveTie",None,None,424,2),
("u_chc_win","u16","PosOfPasswdChcWin",None,None,426,2),
("u_chc_lose","u16","PosOfPasswdChcLose",None,None,428,2),
("u_chc_tie","u16","PosOfPasswdChcTie",None,None,430,2),
("u_conn6_win","u16","PosOfPasswdConn6Win",None,None,432,2),
("u_conn6_lose","u16","PosOfPasswdConn6Lose",None,None,434,2),
("u_conn6_tie","u16","PosOfPasswdConn6Tie",None,None,436,2),
("u_go_win","u16","PosOfPasswdGoWin",None,None,440,2),
("u_go_lose","u16","PosOfPasswdGoLose",None,None,442,2),
("u_go_tie","u16","PosOfPasswdGoTie",None,None,444,2),
("u_dark_win","u16","PosOfPasswdDarkWin",None,None,446,2),
("u_dark_lose","u16","PosOfPasswdDarkLose",None,None,448,2),
("u_uaversion","u8","PosOfPasswdUaVersion",None,None,450,1),
("u_signature","u8","PosOfPasswdSignature",None,None,451,1),
("u_badpost","u8","PosOfPasswdBadPost",None,None,453,1),
("u_dark_tie","u16","PosOfPasswdDarkTie",None,None,454,2),
("u_myangel","cstre","PosOfPasswdMyAngel","(IDLength + 1 + 1)","(IDLength + 1 + 1)",456,14),
("u_chesselo","u16","PosOfPasswdChessEloRating",None,None,470,2),
("u_withme","u32","PosOfPasswdWithMe",None,None,472,4),
("u_timeremovebadpost","time","PosOfPasswdTimeRemoveBadPost",None,None,476,4),
("u_timeviolatelaw","time","PosOfPasswdTimeViolateLaw",None,None,480,4)]

def record(name,mk,fields):
    return f"Record {name} := {mk} {{\n"+";\n".join(f"  {f[0]} : {TY[f[1]]}" for f in fields)+" }.\n"

m=f'''(** * pttbbs/passwd.go: the user record *)
From Verif Require Import M_Base M_Cstr M_Const.
Open Scope N_scope.

(** pttbbs/passwd.go:29-87 *)
{consts(U_POS)}

(** pttbbs/passwd.go:97-148 Userec; the [GameScore] members (lines 91-95) are
    flattened into three fields each. *)
{record("Userec","MkUserec",U)}
(** pttbbs/passwd.go:233-303 UnmarshalUserec.  Slicing a shorter input panics;
    the last byte read is PosOfPasswdTimeViolateLaw+3. *)
Definition UnmarshalUserec (cd : codec) (d : bytes) : outcome Userec :=
  if lenN d <? PosOfPasswdTimeViolateLaw + 4 then Panic else
  Ok {{|
'''+";\n".join(f"    {f[0]} := {rd(f[1],f[2],f[3])}" for f in U)+f''' |}}.

(** pttbbs/passwd.go:305-385 MarshalBinary: the writes in source order.  The
    [Role] field is not written (there is no line for it in the source). *)
Definition userec_writes (cd : codec) (u : Userec) : list wr := [
'''+";\n".join(f"    {wrt(f[1],f[2],f[4],f[0]+' u')}" for f in U if f[4]!='NOWRITE')+''' ].

Definition Userec_MarshalBinary (cd : codec) (u : Userec) : bytes :=
  put_all 512 (userec_writes cd u).
'''
open(os.path.join(OUT,"M_Userec.v"),"w").write(m)

s=f'''(** * Specification of the user record: the C userec_t (pttstruct.h), 512
    bytes, every field at its literal offset. *)
From Verif Require Import M_Base M_Userec S_Layout.
Open Scope N_scope.

(** [u] is what a reader of the C structure [d] sees. *)
Definition userec_decoded (cd : codec) (d : bytes) (u : Userec) : Prop :=
'''+" /\\\n".join("  "+sdec(f[1],f[5],f[6],f[0]+" u") for f in U)+f'''.

(** [d] is the C structure holding [u]; the role slot is left zero and the
    registration note is cut to 38 bytes. *)
Definition userec_encoded (cd : codec) (u : Userec) (d : bytes) : Prop :=
  N.of_nat (length d) = 512 /\\
'''+" /\\\n".join("  "+(senc(f[1],f[5],(38 if f[0]=='u_justify' else f[6]),f[0]+" u") if f[4]!='NOWRITE' else f"e_zero d {f[5]} {f[6]}") for f in U)+f'''.

(** Every field is representable. *)
Definition userec_fits (cd : codec) (u : Userec) : Prop :=
'''+" /\\\n".join("  "+sfit(f[1],(38 if f[0]=='u_justify' else f[6]),f[0]+" u") for f in U if sfit(f[1],f[6],'x'))+'''.

(** The record with its role erased. *)
Definition without_role (u : Userec) : Userec := {|
'''+";\n".join(f"    {f[0]} := {'0' if f[0]=='u_role' else f[0]+' u'}" for f in U)+''' |}.
'''
open(os.path.join(OUT,"S_Userec.v"),"w").write(s)

# ---------------------------------------------------------------- BoardHeader
B_POS=[("PosOfBoardName","0"),("PosOfBoardTitle","PosOfBoardName + IDLength + 1"),("PosOfBM","PosOfBoardTitle + BoardTitleLength + 1"),
("PosOfBrdAttr","3 + PosOfBM + IDLength * 3 + 3"),("PosOfChessCountry","PosOfBrdAttr + 4"),("PosOfVoteLimitPosts","PosOfChessCountry + 1"),
("PosOfVoteLimitLogins","PosOfVoteLimitPosts + 1"),("PosOfBUpdate","1 + PosOfVoteLimitLogins + 1"),("PosOfPostLimitPosts","PosOfBUpdate + 4"),
("PosOfPostLimitLogins","PosOfPostLimitPosts + 1"),("PosOfBVote","1 + PosOfPostLimitLogins + 1"),("PosOfVTime","PosOfBVote + 1"),
("PosOfLevel","PosOfVTime + 4"),("PosOfPermReload","PosOfLevel + 4"),("PosOfGid","PosOfPermReload + 4"),("PosOfNext","PosOfGid + 4"),
("PosOfFirstChild","PosOfNext + 4 * 2"),("PosOfParent","PosOfFirstChild + 4 * 2"),("PosOfChildCount","PosOfParent + 4"),
("PosOfNuser","PosOfChildCount + 4"),("PosOfPostExpire","PosOfNuser + 4"),("PosOfEndGamble","PosOfPostExpire + 4"),
("PosOfPostType","PosOfEndGamble + 4"),("PosOfPostTypeF","PosOfPostType + 33"),("PosOfFastRecommendPause","PosOfPostTypeF + 1"),
("PosOfVoteLimitBadPost","PosOfFastRecommendPause + 1"),("PosOfPostLimitBadPost","PosOfVoteLimitBadPost + 1"),("PosOfSRExpire","3 + PosOfPostLimitBadPost + 1")]
B=[("bh_name","split5","PosOfBoardName","(IDLength + 1)","(IDLength + 1)",0,13),
("bh_title","split5","PosOfBoardTitle","(BoardTitleLength + 1)","(BoardTitleLength + 1)",13,49),
("bh_bm","trim","PosOfBM","(IDLength * 3 + 3)","(IDLength * 3 + 3)",62,39),
("bh_brdattr","u32","PosOfBrdAttr",None,None,104,4),
("bh_votelimitposts","u8","PosOfVoteLimitPosts",None,None,109,1),
("bh_votelimitlogins","u8","PosOfVoteLimitLogins",None,None,110,1),
("bh_chesscountry","trim","PosOfChessCountry","1","1",108,1),
("bh_bupdate","time","PosOfBUpdate",None,None,112,4),
("bh_postlimitposts","u8","PosOfPostLimitPosts",None,None,116,1),
("bh_postlimitlogins","u8","PosOfPostLimitLogins",None,None,117,1),
("bh_bvote","u8","PosOfBVote",None,None,119,1),
("bh_vtime","time","PosOfVTime",None,None,120,4),
("bh_level","u32","PosOfLevel",None,None,124,4),
("bh_permreload","time","PosOfPermReload",None,None,128,4),
("bh_gid","i32","PosOfGid",None,None,132,4),
("bh_next","I2","PosOfNext",None,None,136,4),
("bh_firstchild","I2","PosOfFirstChild",None,None,144,4),
("bh_parent","i32","PosOfParent",None,None,152,4),
("bh_childcount","i32","PosOfChildCount",None,None,156,4),
("bh_nuser","i32","PosOfNuser",None,None,160,4),
("bh_postexpire","i32","PosOfPostExpire",None,None,164,4),
("bh_endgamble","time","PosOfEndGamble",None,None,168,4),
("bh_posttype","trim5","PosOfPostType","33","33",172,33),
("bh_posttypef","trim5","PosOfPostTypeF","1","1",205,1),
("bh_fastrecommendpause","u8","PosOfFastRecommendPause",None,None,206,1),
("bh_votelimitbadpost","u8","PosOfVoteLimitBadPost",None,None,207,1),
("bh_postlimitbadpost","u8","PosOfPostLimitBadPost",None,None,208,1),
("bh_srexpire","time","PosOfSRExpire",None,None,212,4)]
TY['I2']='list Z'
def rdx(f):
    if f[1]=='I2':
        return f"[i32 (Z.of_N (r32 {f[2]} d)); i32 (Z.of_N (r32 ({f[2]} + 4) d))]"
    return rd(f[1],f[2],f[3])
def wrx(f,v):
    if f[1]=='I2':
        return f"(match {v} with [a; b] => [w32 {f[2]} (u32 a); w32 ({f[2]} + 4) (u32 b)] | _ => [] end)"
    return "["+wrt(f[1],f[2],f[4],v)+"]"
def sdx(f,v):
    if f[1]=='I2': return f"f_ints d {f[5]} 4 2 ({v})"
    return sdec(f[1],f[5],f[6],v)
def sfx(f,v):
    if f[1]=='I2': return f"(length ({v}) = 2%nat /\\ Forall (int_fits 4) ({v}))"
    return sfit(f[1],f[6],v)
def sex(f,v):
    if f[1]=='I2': return f"(forall x y, {v} = [x; y] -> e_int d {f[5]} 4 x /\\ e_int d {f[5]+4} 4 y) /\\\n  (length ({v}) <> 2%nat -> e_zero d {f[5]} 8)"
    return senc(f[1],f[5],f[6],v)
m=f'''(** * pttbbs/board.go: the board header *)
From Verif Require Import M_Base M_Cstr M_Const.
Open Scope N_scope.

(** pttbbs/board.go:122-150 *)
{consts(B_POS)}
(** pttbbs/board.go:164 *)
Definition BoardHeaderRecordLength : N := 256.

(** pttbbs/board.go:36-67 BoardHeader *)
{record("BoardHeader","MkBoardHeader",B)}
(** pttbbs/board.go:273-315 UnmarshalBoardHeader.  Slicing a shorter input
    panics; the last byte read is PosOfSRExpire+3. *)
Definition UnmarshalBoardHeader (cd : codec) (d : bytes) : outcome BoardHeader :=
  if lenN d <? PosOfSRExpire + 4 then Panic else
  Ok {{|
'''+";\n".join(f"    {f[0]} := {rdx(f)}" for f in B)+''' |}.

(** pttbbs/board.go:317-362 MarshalBinary: the writes in source order;
    [Next] and [FirstChild] are written only when they have two elements. *)
Definition board_writes (cd : codec) (b : BoardHeader) : list wr :=
'''+" ++\n".join(f"  {wrx(f,f[0]+' b')}" for f in B)+'''.

Definition BoardHeader_MarshalBinary (cd : codec) (b : BoardHeader) : bytes :=
  put_all BoardHeaderRecordLength (board_writes cd b).

(** pttbbs/board.go:167-169 NewBoardHeader: the zero value.  The zero
    [time.Time] has Unix time -62135596800. *)
Definition zero_time : Z := (-62135596800)%Z.
Definition NewBoardHeader : BoardHeader := {|
'''+";\n".join(f"    {f[0]} := "+{'N':'0','Z':'0%Z','bytes':'[]','list Z':'[]'}[TY[f[1]]].replace('0%Z','zero_time' if f[1]=='time' else '0%Z') for f in B)+''' |}.

(** pttbbs/board.go:69-73 *)
Definition BoardID (b : BoardHeader) : bytes := bh_name b.
'''
def setter(name,fields,rec,target,v):
    return f"Definition {name} (b : {rec}) (v : bytes) : {rec} := {{|\n"+";\n".join(f"    {f[0]} := {'v' if f[0]==target else f[0]+' b'}" for f in fields)+" |}.\n"
m+=setter("BoardHeader_SetBoardID",B,"BoardHeader","bh_name","v")
m+=setter("BoardHeader_SetTitle",B,"BoardHeader","bh_title","v")
open(os.path.join(OUT,"M_Board.v"),"w").write(m)
s=f'''(** * Specification of the board header: the C boardheader_t (pttstruct.h),
    256 bytes, every field at its literal offset. *)
From Verif Require Import M_Base M_Board S_Layout.
Open Scope N_scope.

(** [b] is what a reader of the C structure [d] sees. *)
Definition board_decoded (cd : codec) (d : bytes) (b : BoardHeader) : Prop :=
'''+" /\\\n".join("  "+sdx(f,f[0]+" b") for f in B)+'''.

(** [d] is the C structure holding [b]. *)
Definition board_encoded (cd : codec) (b : BoardHeader) (d : bytes) : Prop :=
  N.of_nat (length d) = 256 /\\
'''+" /\\\n".join("  "+sex(f,f[0]+" b") for f in B)+'''.

(** Every field is representable. *)
Definition board_fits (cd : codec) (b : BoardHeader) : Prop :=
'''+" /\\\n".join("  "+sfx(f,f[0]+" b") for f in B)+'''.
'''
open(os.path.join(OUT,"S_Board.v"),"w").write(s)

# ---------------------------------------------------------------- UserInfo
I_POS=[("PosOfUserInfoUID","0"),("PosOfUserInfoPID","PosOfUserInfoUID + 4"),("PosOfUserInfoSockAddr","PosOfUserInfoPID + 4"),
("PosOfUserInfoUserLevel","PosOfUserInfoSockAddr + 4"),("PosOfUserInfoUserID","PosOfUserInfoUserLevel + 4"),
("PosOfUserInfoNickname","PosOfUserInfoUserID + IDLength + 1"),("PosOfUserInfoFrom","PosOfUserInfoNickname + NicknameSize"),
("PosOfUserInfoFromIP","PosOfUserInfoFrom + MachineNameLength"),("PosOfUserInfoDarkWin","PosOfUserInfoFromIP + 4"),
("PosOfUserInfoDarkLose","PosOfUserInfoDarkWin + 2"),("PosOfUserInfoAngelPause","PosOfUserInfoDarkLose + 2 + 1"),
("PosOfUserInfoDarkTie","PosOfUserInfoAngelPause + 1"),("PosOfUserInfoFriendTotal","PosOfUserInfoDarkTie + 2"),
("PosOfUserInfoNumFriends","PosOfUserInfoFriendTotal + 4"),("PosOfUserInfoMyFriend","PosOfUserInfoNumFriends + 2 + 2"),
("PosOfUserInfoFriendOnline","PosOfUserInfoMyFriend + MaxFriend * 4 + 4"),("PosOfUserInfoReject","PosOfUserInfoFriendOnline + MaxFriend * 4 + 4"),
("PosOfUserInfoMsgCount","PosOfUserInfoReject + MaxReject * 4 + 4"),("PosOfUserInfoMsgs","PosOfUserInfoMsgCount + 1 + 3"),
("PosOfUserInfoBirth","PosOfUserInfoMsgs + MaxMsgs * 100 + 100"),("PosOfUserInfoActive","PosOfUserInfoBirth + 1"),
("PosOfUserInfoInvisible","PosOfUserInfoActive + 1"),("PosOfUserInfoMode","PosOfUserInfoInvisible + 1"),
("PosOfUserInfoPager","PosOfUserInfoMode + 1"),("PosOfUserInfoConn6Win","PosOfUserInfoPager + 1 + 1"),
("PosOfUserInfoLastAct","PosOfUserInfoConn6Win + 2"),("PosOfUserInfoAlerts","PosOfUserInfoLastAct + 4"),
("PosOfUserInfoConn6Lose","PosOfUserInfoAlerts + 1 + 1"),("PosOfUserInfoSig","PosOfUserInfoConn6Lose + 2 + 1"),
("PosOfUserInfoConn6Tie","PosOfUserInfoSig + 1"),("PosOfUserInfoDestUID","PosOfUserInfoConn6Tie + 2"),
("PosOfUserInfoDestUIP","PosOfUserInfoDestUID + 4"),("PosOfUserInfoSockActive","PosOfUserInfoDestUIP + 4"),
("PosOfUserInfoInChat","PosOfUserInfoSockActive + 1"),("PosOfUserInfoChatID","PosOfUserInfoInChat + 1"),
("PosOfUserInfoLockMode","PosOfUserInfoChatID + ChatIDLength"),("PosOfUserInfoTurn","PosOfUserInfoLockMode + 1"),
("PosOfUserInfoMateID","PosOfUserInfoTurn + 1"),("PosOfUserInfoColor","PosOfUserInfoMateID + IDLength + 1"),
("PosOfUserInfoFiveWin","PosOfUserInfoColor + 1"),("PosOfUserInfoFiveLose","PosOfUserInfoFiveWin + 2"),
("PosOfUserInfoFiveTie","PosOfUserInfoFiveLose + 2"),("PosOfUserInfoChcWin","PosOfUserInfoFiveTie + 2"),
("PosOfUserInfoChcLose","PosOfUserInfoChcWin + 2"),("PosOfUserInfoChcTie","PosOfUserInfoFiveLose + 2"),
("PosOfUserInfoChessEloRating","PosOfUserInfoChcTie + 2"),("PosOfUserInfoGoWin","PosOfUserInfoChessEloRating + 2"),
("PosOfUserInfoGoLose","PosOfUserInfoGoWin + 2"),("PosOfUserInfoGoTie","PosOfUserInfoGoLose + 2"),
("PosOfUserInfoWithMe","PosOfUserInfoGoTie + 2"),("PosOfUserInfoBrcID","PosOfUserInfoWithMe + 4"),("PosOfUserInfoWBTime","PosOfUserInfoBrcID + 4")]
# accessor, kind, pos, rlen, wlen, offset in the code (literal), len
I=[("ui_uid","i32","PosOfUserInfoUID",0,0,0,4),("ui_pid","i32","PosOfUserInfoPID",0,0,4,4),("ui_sockaddr","i32","PosOfUserInfoSockAddr",0,0,8,4),
("ui_userlevel","u32","PosOfUserInfoUserLevel",0,0,12,4),
("ui_userid","cstre","PosOfUserInfoUserID","(IDLength + 1)","(IDLength + 1)",16,13),
("ui_nickname","cstr5","PosOfUserInfoNickname","NicknameSize","NicknameSize",29,24),
("ui_from","cstre","PosOfUserInfoFrom","MachineNameLength","MachineNameLength",53,27),
("ui_fromip","u32","PosOfUserInfoFromIP",0,0,80,4),("ui_dark_win","u16","PosOfUserInfoDarkWin",0,0,84,2),
("ui_dark_lose","u16","PosOfUserInfoDarkLose",0,0,86,2),("ui_angelpause","u8","PosOfUserInfoAngelPause",0,0,89,1),
("ui_dark_tie","u16","PosOfUserInfoDarkTie",0,0,90,2),("ui_friendtotal","i32","PosOfUserInfoFriendTotal",0,0,92,4),
("ui_numfriends","i16","PosOfUserInfoNumFriends",0,0,96,2),
("ui_myfriend","AI","PosOfUserInfoMyFriend","MaxFriend",0,100,256),
("ui_friendonline","AU","PosOfUserInfoFriendOnline","MaxFriend",0,1128,256),
("ui_reject","AI","PosOfUserInfoReject","MaxReject",0,2156,32),
("ui_msgcount","u8","PosOfUserInfoMsgCount",0,0,2288,1),
("ui_msgs","AM","PosOfUserInfoMsgs","MaxMsgs",0,2292,10),
("ui_birth","bool","PosOfUserInfoBirth",0,0,3392,1),("ui_active","bool","PosOfUserInfoActive",0,0,3393,1),
("ui_invisible","bool","PosOfUserInfoInvisible",0,0,3394,1),("ui_mode","u8","PosOfUserInfoMode",0,0,3395,1),
("ui_pager","bool","PosOfUserInfoPager",0,0,3396,1),("ui_conn6_win","u16","PosOfUserInfoConn6Win",0,0,3398,2),
("ui_lastact","time","PosOfUserInfoLastAct",0,0,3400,4),("ui_alerts","u8","PosOfUserInfoAlerts",0,0,3404,1),
("ui_conn6_lose","u16","PosOfUserInfoConn6Lose",0,0,3406,2),("ui_signature","u8","PosOfUserInfoSig",0,0,3409,1),
("ui_conn6_tie","u16","PosOfUserInfoConn6Tie",0,0,3410,2),("ui_destuid","i32","PosOfUserInfoDestUID",0,0,3412,4),
("ui_destuip","i32","PosOfUserInfoDestUIP",0,0,3416,4),("ui_sockactive","u8","PosOfUserInfoSockActive",0,0,3420,1),
("ui_inchat","u8","PosOfUserInfoInChat",0,0,3421,1),("ui_chatid","cstre","PosOfUserInfoChatID","ChatIDLength","ChatIDLength",3422,11),
("ui_lockmode","u8","PosOfUserInfoLockMode",0,0,3433,1),("ui_turn","bool","PosOfUserInfoTurn",0,0,3434,1),
("ui_mateid","cstr5","PosOfUserInfoMateID","(IDLength + 1)","(IDLength + 1)",3435,13),("ui_color","u8","PosOfUserInfoColor",0,0,3448,1),
("ui_five_win","u16","PosOfUserInfoFiveWin",0,0,3449,2),("ui_five_lose","u16","PosOfUserInfoFiveLose",0,0,3451,2),
("ui_five_tie","u16","PosOfUserInfoFiveTie",0,0,3453,2),("ui_chc_win","u16","PosOfUserInfoChcWin",0,0,3455,2),
("ui_chc_lose","u16","PosOfUserInfoChcLose",0,0,3457,2),("ui_chc_tie","u16","PosOfUserInfoChcTie",0,0,3453,2),
("ui_chesselo","u16","PosOfUserInfoChessEloRating",0,0,3455,2),("ui_go_win","u16","PosOfUserInfoGoWin",0,0,3457,2),
("ui_go_lose","u16","PosOfUserInfoGoLose",0,0,3459,2),("ui_go_tie","u16","PosOfUserInfoGoTie",0,0,3461,2),
("ui_withme","u32","PosOfUserInfoWithMe",0,0,3463,4),("ui_brcid","u32","PosOfUserInfoBrcID",0,0,3467,4),
("ui_wbtime","time","PosOfUserInfoWBTime",0,0,3471,4)]
TY['AI']='list Z';TY['AU']='list N';TY['AM']='list bytes'
def rdi(f):
    if f[1]=='AI': return f"map (fun n => i32 (Z.of_N n)) (r_arr32 {f[2]} (N.to_nat {f[3]}) d)"
    if f[1]=='AU': return f"r_arr32 {f[2]} (N.to_nat {f[3]}) d"
    if f[1]=='AM': return f"r_arr100 {f[2]} (N.to_nat {f[3]}) d"
    return rd(f[1],f[2],f[3])
def wri(f,v):
    if f[1]=='AI': return f"w_arr32 {f[2]} (map u32 ({v}))"
    if f[1]=='AU': return f"w_arr32 {f[2]} ({v})"
    if f[1]=='AM': return f"w_arr100 {f[2]} ({v})"
    return "["+wrt(f[1],f[2],f[4],v)+"]"
def sdi(f,v):
    if f[1]=='AI': return f"f_ints d {f[5]} 4 {f[6]} ({v})"
    if f[1]=='AU': return f"f_nums d {f[5]} 4 {f[6]} ({v})"
    if f[1]=='AM': return f"f_raws d {f[5]} 100 {f[6]} ({v})"
    return sdec(f[1],f[5],f[6],v)
def sfi(f,v):
    if f[1]=='AI': return f"(N.of_nat (length ({v})) = {f[6]} /\\ Forall (int_fits 4) ({v}))"
    if f[1]=='AU': return f"(N.of_nat (length ({v})) = {f[6]} /\\ Forall (num_fits 4) ({v}))"
    if f[1]=='AM': return f"(N.of_nat (length ({v})) = {f[6]} /\\ Forall (fun m => N.of_nat (length m) = 100) ({v}))"
    return sfit(f[1],f[6],v)
m=f'''(** * pttbbs/userinfo.go: the online-user cache entry *)
From Verif Require Import M_Base M_Cstr M_Const.
Open Scope N_scope.

(** pttbbs/userinfo.go:11-76 *)
{consts(I_POS)}

(** pttbbs/userinfo.go:79-137 UserInfoCache; [GameScore] members flattened.
    The Go arrays [MyFriend], [FriendOnline], [Reject], [Msgs] are lists of the
    array's length. *)
{record("UserInfoCache","MkUserInfo",I)}
(** The loops of pttbbs/userinfo.go:188-198 and 202-205: [cnt] cells of 4
    (resp. 100) bytes from [off] on. *)
Fixpoint r_arr32 (off : N) (cnt : nat) (d : bytes) : list N :=
  match cnt with O => [] | S c => r32 off d :: r_arr32 (off + 4) c d end.
Fixpoint r_arr100 (off : N) (cnt : nat) (d : bytes) : list bytes :=
  match cnt with O => [] | S c => sub off 100 d :: r_arr100 (off + 100) c d end.
(** The loops of pttbbs/userinfo.go:279-289 and 293-296. *)
Fixpoint w_arr32 (off : N) (l : list N) : list wr :=
  match l with [] => [] | x :: l' => w32 off x :: w_arr32 (off + 4) l' end.
Fixpoint w_arr100 (off : N) (l : list bytes) : list wr :=
  match l with [] => [] | x :: l' => wstr off 100 x :: w_arr100 (off + 100) l' end.

(** pttbbs/userinfo.go:168-253 UnmarshalUserInfo, for a slice whose capacity is
    its length: a shorter input panics. *)
Definition UnmarshalUserInfo (cd : codec) (d : bytes) : outcome UserInfoCache :=
  if lenN d <? PosOfUserInfoWBTime + 4 then Panic else
  Ok {{|
'''+";\n".join(f"    {f[0]} := {rdi(f)}" for f in I)+''' |}.

(** pttbbs/userinfo.go:255-370 MarshalBinary: the writes in source order. *)
Definition userinfo_writes (cd : codec) (u : UserInfoCache) : list wr :=
'''+" ++\n".join(f"  {wri(f,f[0]+' u')}" for f in I)+'''.

Definition UserInfo_MarshalBinary (cd : codec) (u : UserInfoCache) : bytes :=
  put_all 3484 (userinfo_writes cd u).
'''
open(os.path.join(OUT,"M_UserInfo.v"),"w").write(m)
s='''(** * Specification of the online-user entry: byte ranges by literal offset. *)
From Verif Require Import M_Base M_UserInfo S_Layout.
Open Scope N_scope.

(** [u] is what the code reads from the structure [d].  Note that three pairs
    of counters share their bytes (3453, 3455, 3457). *)
Definition userinfo_decoded (cd : codec) (d : bytes) (u : UserInfoCache) : Prop :=
'''+" /\\\n".join("  "+sdi(f,f[0]+" u") for f in I)+'''.

(** Every field is representable. *)
Definition userinfo_fits (cd : codec) (u : UserInfoCache) : Prop :=
'''+" /\\\n".join("  "+sfi(f,f[0]+" u") for f in I if sfi(f,'x'))+'''.

(** What is left of an entry after encoding and decoding: the gomoku ties become
    the Chinese-chess ties, the Chinese-chess wins become the chess rating and
    the Chinese-chess losses become the go wins. *)
Definition userinfo_image (u : UserInfoCache) : UserInfoCache := {|
'''+";\n".join(f"    {f[0]} := "+{'ui_five_tie':'ui_chc_tie u','ui_chc_win':'ui_chesselo u','ui_chc_lose':'ui_go_win u'}.get(f[0],f[0]+' u') for f in I)+''' |}.
'''
open(os.path.join(OUT,"S_UserInfo.v"),"w").write(s)

# ---------------------------------------------------------------- extensionality
FH=["fh_filename","fh_modified","fh_recommend","fh_owner","fh_date","fh_title","fh_money","fh_annouid","fh_vposts","fh_vlogins","fh_vregtime","fh_vbadpost","fh_filemode"]
def ext(rec,names):
    return (f"Lemma {rec}_ext (a b : {rec}) :\n"+"".join(f"  {n} a = {n} b ->\n" for n in names)+
     "  a = b.\nProof. destruct a, b; cbn; intros; subst; reflexivity. Qed.\n"+
     f"Ltac {rec}_proj := cbn [{' '.join(names)}].\n\n")
open(os.path.join(OUT,"P_Ext.v"),"w").write(
"(** * Records are equal when their fields are. *)\nFrom Verif Require Import M_Base M_File M_Board M_Userec M_UserInfo.\n\n"
+ext("FileHeader",FH)+ext("BoardHeader",[f[0] for f in B])+ext("Userec",[f[0] for f in U])+ext("UserInfoCache",[f[0] for f in I]))

# ---------------------------------------------------------------- UserInfo: write list with arrays merged and dead writes dropped
def wmerge(f,v):
    if f[1]=='AI': return f"W {f[2]} (4 * {f[3]}) (cells32 (map u32 ({v})))"
    if f[1]=='AU': return f"W {f[2]} (4 * {f[3]}) (cells32 ({v}))"
    if f[1]=='AM': return f"W {f[2]} (100 * {f[3]}) (concat ({v}))"
    return wrt(f[1],f[2],f[4],v)
DEAD={'ui_five_tie','ui_chc_win','ui_chc_lose'}
p='''(** * The writes of the online-user entry with each array merged into one
    write and with the three overwritten counters left out. *)
From Verif Require Import M_Base M_Cstr M_Const M_UserInfo P_UserInfo.
Open Scope N_scope.

Definition userinfo_merged (cd : codec) (u : UserInfoCache) : list wr := [
'''+";\n".join("  "+wmerge(f,f[0]+' u') for f in I)+''' ].

Definition userinfo_live (cd : codec) (u : UserInfoCache) : list wr := [
'''+";\n".join("  "+wmerge(f,f[0]+' u') for f in I if f[0] not in DEAD)+''' ].
'''
open(os.path.join(OUT,"P_UserInfoW.v"),"w").write(p)
