(** * The text of the web service's replies: encoding/json (Go 1.14), the RFC 3339
    spelling of times, and what the handlers of serverlet hand to json.MarshalIndent.
    Simplified: the time zone of the server is a function from instants to offsets;
    the text of a signed JWT is a parameter. *)
From Verif Require Import M_Base M_Utf8 M_Time M_Board M_FileOps M_Web.
Open Scope N_scope.

(** ** Values given to json.MarshalIndent: strings, integers, slices (never nil here),
    maps (in any order) and structs (exported fields in declared order) *)
Inductive value :=
| VStr (s : bytes)
| VInt (z : Z)
| VSlice (l : list value)
| VMap (m : list (bytes * value))
| VStruct (m : list (bytes * value)).

(** encoding/json/encode.go [hex] *)
Definition hex (n : N) : byte := nth (N.to_nat n) (str "0123456789abcdef") x00.
(** encoding/json/tables.go htmlSafeSet *)
Definition html_safe (b : byte) : bool :=
  (32 <=? b2n b) && negb (existsb (Byte.eqb b) [""""%byte; "\"%byte; "<"%byte; ">"%byte; "&"%byte]).
(** encoding/json/encode.go encodeState.string, one step for each rune *)
Definition encode_ascii (b : byte) : bytes :=
  if html_safe b then [b]
  else if Byte.eqb b "\" || Byte.eqb b """" then ["\"%byte; b]
  else if b2n b =? 10 then str "\n"
  else if b2n b =? 13 then str "\r"
  else if b2n b =? 9 then str "\t"
  else str "\u00" ++ [hex (b2n b / 16); hex (b2n b mod 16)].
Fixpoint encode_runes (fuel : nat) (s : bytes) : bytes :=
  match fuel, s with
  | S fuel', b :: s' =>
      if b2n b <? 128 then encode_ascii b ++ encode_runes fuel' s'
      else
        match decode_rune s with
        | Some (c, w) =>
            (if (c =? RuneError) && (w =? 1)%nat then str "\ufffd"
             else if (c =? 0x2028) || (c =? 0x2029) then str "\u202" ++ [hex (c mod 16)]
             else firstn w s) ++ encode_runes fuel' (skipn w s)
        | None => []
        end
  | _, _ => []
  end.
Definition encode_string (s : bytes) : bytes := """"%byte :: encode_runes (length s) s ++ [""""%byte].

(** Go's comparison of strings, and the keys of a map in order
    (encoding/json/encode.go mapEncoder.encode) *)
Fixpoint less (a b : bytes) : bool :=
  match a, b with
  | _, [] => false
  | [], _ :: _ => true
  | x :: a', y :: b' => (b2n x <? b2n y) || ((b2n x =? b2n y) && less a' b')
  end.
Fixpoint insert_key {A} (k : bytes) (v : A) (m : list (bytes * A)) : list (bytes * A) :=
  match m with
  | [] => [(k, v)]
  | (k', v') :: m' => if less k' k then (k', v') :: insert_key k v m' else (k, v) :: m
  end.
Definition sort_keys {A} (m : list (bytes * A)) : list (bytes * A) :=
  fold_right (fun kv => insert_key (fst kv) (snd kv)) [] m.

(** elements with a comma between them *)
Fixpoint commas (l : list bytes) : bytes :=
  match l with
  | [] => []
  | [x] => x
  | x :: l' => x ++ ","%byte :: commas l'
  end.
(** json.Marshal *)
Fixpoint Marshal (v : value) : bytes :=
  match v with
  | VStr s => encode_string s
  | VInt z => fmt_d z
  | VSlice l => "["%byte :: commas (map Marshal l) ++ ["]"%byte]
  | VMap m => "{"%byte :: commas (map (fun kv => encode_string (fst kv) ++ ":"%byte :: snd kv) (sort_keys (map (fun kv => (fst kv, Marshal (snd kv))) m))) ++ ["}"%byte]
  | VStruct m => "{"%byte :: commas (map (fun kv => encode_string (fst kv) ++ ":"%byte :: Marshal (snd kv)) m) ++ ["}"%byte]
  end.

(** encoding/json/indent.go Indent with prefix "" and indent "  ".  Of the scanner
    only its place is kept: outside strings, inside one, after a backslash inside
    one; the input is what Marshal made, so there is no white space to skip and no
    error. *)
Inductive place := Outside | Inside | Escaped.
Definition newline (depth : nat) : bytes := x0a :: concat (repeat (str "  ") depth).
Fixpoint Indent (src : bytes) (p : place) (needIndent : bool) (depth : nat) : bytes :=
  match src with
  | [] => []
  | c :: src' =>
      match p with
      | Escaped => c :: Indent src' Inside needIndent depth
      | Inside => c :: Indent src' (if Byte.eqb c "\" then Escaped else if Byte.eqb c """" then Outside else Inside) needIndent depth
      | Outside =>
          let closing := Byte.eqb c "}" || Byte.eqb c "]" in
          let indenting := needIndent && negb closing in
          let depth := if indenting then S depth else depth in
          let needIndent := if indenting then false else needIndent in
          (if indenting then newline depth else []) ++
          (if Byte.eqb c "{" || Byte.eqb c "[" then c :: Indent src' Outside true depth
           else if Byte.eqb c "," then c :: newline depth ++ Indent src' Outside needIndent depth
           else if Byte.eqb c ":" then c :: " "%byte :: Indent src' Outside needIndent depth
           else if closing then
             if needIndent then c :: Indent src' Outside false depth
             else newline (pred depth) ++ c :: Indent src' Outside false (pred depth)
           else c :: Indent src' (if Byte.eqb c """" then Inside else Outside) needIndent depth)
      end
  end.
(** json.MarshalIndent(v, "", "  "), e.g. serverlet/route_boards.go:33 *)
Definition MarshalIndent (v : value) : bytes := Indent (Marshal v) Outside false 0.

(** ** Times *)
(** time/time.go absDate: the date of a day counted from 1 January of the year 1
    (Go counts from an earlier year, a whole number of 400-year cycles before) *)
Definition absDate (days : N) : N * N * N :=
  let n := days / 146097 in let y := 400 * n in let d := days - 146097 * n in
  let n := d / 36524 in let n := n - n / 4 in let y := y + 100 * n in let d := d - 36524 * n in
  let n := d / 1461 in let y := y + 4 * n in let d := d - 1461 * n in
  let n := d / 365 in let n := n - n / 4 in let y := y + n in let d := d - 365 * n in
  let year := y + 1 in
  if isLeap year && (d =? 59) then (year, 2, 29) else
  let day := if isLeap year && (59 <? d) then d - 1 else d in
  let month := day / 31 in
  let stop := nth (N.to_nat (month + 1)) daysBefore 0 in
  if stop <=? day then (year, month + 2, day - stop + 1)
  else (year, month + 1, day - nth (N.to_nat month) daysBefore 0 + 1).
(** time.Unix(sec, 0) on a clock [off] seconds ahead of UTC, for instants since year 1 *)
Definition civil (sec off : Z) : time :=
  let abs := (sec + off + 62135596800)%Z in
  let '(y, m, d) := absDate (Z.to_N (abs / 86400)) in
  let s := Z.to_N (abs mod 86400) in
  Time y m d (s / 3600) (s / 60 mod 60) (s mod 60) 0.
(** time/format.go stdISO8601ColonTZ, "Z07:00"; Go's division of integers truncates *)
Definition zone_text (off : Z) : bytes :=
  if (off =? 0)%Z then str "Z" else
  let zone := Z.quot off 60 in
  (if (zone <? 0)%Z then "-"%byte else "+"%byte) ::
  appendInt (Z.to_N (Z.abs zone) / 60) 2 ++ ":"%byte :: appendInt (Z.to_N (Z.abs zone) mod 60) 2.
Definition layout_rfc3339 : layout :=
  Layout [([], StdLongYear); (str "-", StdZeroMonth); (str "-", StdZeroDay); (str "T", StdHour); (str ":", StdZeroMinute); (str ":", StdZeroSecond)] [].
(** Format(time.RFC3339), serverlet/route_users.go:77; Time.MarshalJSON with
    RFC3339Nano gives the same text because the times have no fraction of a second *)
Definition rfc3339 (zone : Z -> Z) (sec : Z) : bytes :=
  Format layout_rfc3339 (civil sec (zone sec)) ++ zone_text (zone sec).

(** ** The replies *)
(** serverlet/route_users.go:69-87 *)
Definition information_value (zone : Z -> Z) (i : information) : value :=
  VMap [(str "data", VMap [
    (str "user_id", VStr (i_user_id i));
    (str "nickname", VStr (i_nickname i));
    (str "realname", VStr (i_realname i));
    (str "number_of_login_days", VStr (fmt_d (i_login_days i)));
    (str "number_of_posts", VStr (fmt_d (i_posts i)));
    (str "money", VStr (fmt_d (i_money i)));
    (str "last_login_time", VStr (rfc3339 zone (i_last_login i)));
    (str "last_login_ipv4", VStr (i_last_ipv4 i));
    (str "last_login_ip", VStr (i_last_ip i));
    (str "chess_status", VMap []);
    (str "plan", VMap [])])].
(** pttbbs/board.go:36-67: the fields with a capital letter *)
Definition board_value (zone : Z -> Z) (b : BoardHeader) : value :=
  let num n := VInt (Z.of_N n) in
  let tim z := VStr (rfc3339 zone z) in
  VStruct [
    (str "BrdName", VStr (bh_name b));
    (str "Brdattr", num (bh_brdattr b));
    (str "ChessCountry", VStr (bh_chesscountry b));
    (str "VoteLimitPosts", num (bh_votelimitposts b));
    (str "VoteLimitLogins", num (bh_votelimitlogins b));
    (str "BUpdate", tim (bh_bupdate b));
    (str "PostLimitPosts", num (bh_postlimitposts b));
    (str "PostLimitLogins", num (bh_postlimitlogins b));
    (str "BVote", num (bh_bvote b));
    (str "VTime", tim (bh_vtime b));
    (str "Level", num (bh_level b));
    (str "PermReload", tim (bh_permreload b));
    (str "Gid", VInt (bh_gid b));
    (str "Next", VSlice (map VInt (bh_next b)));
    (str "FirstChild", VSlice (map VInt (bh_firstchild b)));
    (str "Parent", VInt (bh_parent b));
    (str "ChildCount", VInt (bh_childcount b));
    (str "Nuser", VInt (bh_nuser b));
    (str "PostExpire", VInt (bh_postexpire b));
    (str "EndGamble", tim (bh_endgamble b));
    (str "PostType", VStr (bh_posttype b));
    (str "PostTypeF", VStr (bh_posttypef b));
    (str "FastRecommendPause", num (bh_fastrecommendpause b));
    (str "VoteLimitBadPost", num (bh_votelimitbadpost b));
    (str "PostLimitBadPost", num (bh_postlimitbadpost b));
    (str "SRexpire", tim (bh_srexpire b))].
(** serverlet/route_token.go:57-61, 32-35, 47-50; serverlet/route_users.go:58-61;
    serverlet/route_boards.go:24-34 *)
Definition body_value (zone : Z -> Z) (jwt : token -> bytes) (c : body) : option value :=
  match c with
  | NoBody | PlainBody _ => None
  | ErrorBody kind descr => Some (VMap [(str "error", VStr kind); (str "error_description", VStr descr)])
  | TokenBody t => Some (VMap [(str "access_token", VStr (jwt t)); (str "token_type", VStr (str "bearer"))])
  | InformationBody i => Some (information_value zone i)
  | BoardsBody l => Some (VMap [(str "data", VSlice (map (board_value zone) l))])
  end.
(** what the handler writes *)
Definition body_text (zone : Z -> Z) (jwt : token -> bytes) (c : body) : bytes :=
  match body_value zone jwt c with
  | Some v => MarshalIndent v
  | None => match c with PlainBody s => s | _ => [] end
  end.
