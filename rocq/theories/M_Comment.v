(** * ansi.go and user_comment_record.go *)
From Verif Require Import M_Base M_Text M_Utf8 M_Regex M_Time M_Path M_Login.
Open Scope N_scope.

Definition range (a b : byte) : N * N := (b2n a, b2n b).
Definition single (b : byte) : N * N := (b2n b, b2n b).
Definition singles (s : bytes) : list (N * N) := map single s.
Definition lower_r := range "a" "z".
Definition upper_r := range "A" "Z".
Definition digit_r := range "0" "9".

(** ansi.go:7, the constant [ansi]: *)
(** [[\u001B\u009B]] *)
Definition c_intro : re := Cls [(0x1B, 0x1B); (0x9B, 0x9B)].
(** [[[\]()#;?]] *)
Definition c_punct : re := Cls (singles (str "[]()#;?")).
(** [[a-zA-Z\d]] *)
Definition c_alnum : re := Cls [lower_r; upper_r; digit_r].
(** [\d] *)
Definition c_digit : re := Cls [digit_r].
(** [[\dA-PRZcf-ntqry=><~]] *)
Definition c_final : re := Cls ([digit_r; range "A" "P"; single "R"; single "Z"; single "c"; range "f" "n"] ++ singles (str "tqry=><~")).
(** the first alternative, up to a bell: (?:[a-zA-Z\d]* (?:;[a-zA-Z\d]* )* )?\u0007
    (without the blanks) *)
Definition ansi_bell : re :=
  Seq (Opt (Seq (Star c_alnum) (Star (Seq (chr ";") (Star c_alnum))))) (Cls [(7, 7)]).
(** the second alternative: (?:\d{1,4}(?:;\d{0,4})* )?[\dA-PRZcf-ntqry=><~]
    (without the blank) *)
Definition ansi_final : re :=
  Seq (Opt (Seq (from1to c_digit 4) (Star (Seq (chr ";") (upto c_digit 4))))) c_final.
Definition ansi : re := Seq c_intro (Seq (Star c_punct) (Alt ansi_bell ansi_final)).
(** ansi.go:11-13 *)
Definition FilterStringANSI (src : bytes) : bytes := ReplaceAllWithNothing ansi src.

(** user_comment_record.go:17-19 userCommentPattern *)
(** [[a-zA-Z][a-zA-Z0-9]+] *)
Definition c_id : re := Seq (Cls [lower_r; upper_r]) (Plus c_alnum).
(** [\s] *)
Definition c_space : re := Cls [(9, 10); (12, 13); (32, 32)].
(** [[0-9][0-9]\/[0-9][0-9]\s[0-9][0-9]:[0-9][0-9]] *)
Definition c_stamp : re :=
  Seq c_digit (Seq c_digit (Seq (chr "/") (Seq c_digit (Seq c_digit (Seq c_space
  (Seq c_digit (Seq c_digit (Seq (chr ":") (Seq c_digit c_digit))))))))).
Definition userCommentPattern : re :=
  Seq (Cap 1 c_id) (Seq (chr ":") (Seq (Star Dot) (Cap 2 c_stamp))).

(** strings.Split(s, sep)[0] for a non-empty [sep] *)
Fixpoint before (sep s : bytes) : bytes :=
  if has_prefix sep s then [] else match s with [] => [] | b :: s' => b :: before sep s' end.
(** user_comment_record.go:127-137, the loop over the pieces from key 1 on *)
Fixpoint later_pieces (ps : list bytes) : bytes :=
  match ps with [] => [] | p :: ps' => TrimSpace p ++ str ":" ++ later_pieces ps' end.
Definition comment_text (pieces : list bytes) : bytes :=
  match tl pieces with
  | [] => []
  | p :: ps => TrimSpace p ++ later_pieces ps
  end.
(** user_comment_record.go:87-140 parseUserComment *)
Definition parseUserComment (data : bytes) : outcome (bytes * time * bytes) :=
  match FindStringSubmatch userCommentPattern data with
  | None => Err ENotUserComment
  | Some (whole, g) =>
      let owner := g 1%nat in
      let stamp := g 2%nat in
      match owner with
      | [] => Err EArgs           (* ErrUserCommentEmptyUserID *)
      | _ =>
          match Parse layout_comment stamp with
          | None => Err EBadTime
          | Some t =>
              match whole with
              | [] => Err EArgs   (* ErrUserCommentEmptyComment *)
              | _ => Ok (owner, t, comment_text (split_on ":" (before stamp whole)))
              end
          end
      end
  end.
(** user_comment_record.go:35-62 *)
Record UserComment := Comment_ {
  uc_order : N; uc_time : time; uc_owner : bytes; uc_ip : bytes; uc_board : bytes; uc_file : bytes; uc_text : bytes }.
Definition NewUserCommentRecord (order : N) (data board filename : bytes) : outcome UserComment :=
  match parseUserComment data with
  | Ok (owner, t, c) => Ok (Comment_ order t owner [] board filename c)
  | Err e => Err e | Panic => Panic | Diverge => Diverge
  end.
(** bbs.go:676-692: the loop of GetBoardArticleCommentRecords over the lines; the floor
    is a uint32 *)
Fixpoint comments (ls : list bytes) (floor : N) (board filename : bytes) : outcome (list UserComment) :=
  match ls with
  | [] => Ok []
  | l :: ls' =>
      match NewUserCommentRecord floor (FilterStringANSI l) board filename with
      | Ok c =>
          match comments ls' ((floor + 1) mod 2 ^ 32) board filename with
          | Ok cs => Ok (c :: cs) | Err e => Err e | Panic => Panic | Diverge => Diverge
          end
      | Err ENotUserComment => comments ls' floor board filename
      | Err e => Err e | Panic => Panic | Diverge => Diverge
      end
  end.
