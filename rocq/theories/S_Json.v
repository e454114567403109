(** * Specification: UTF-8, JSON texts and RFC 3339 times, independent of the model *)
From Verif Require Import M_Base M_Board M_Time S_Text S_Digits S_Time.
Open Scope N_scope.

(** ** Unicode text *)
Definition code_point (c : N) : Prop := c < 0xD800 \/ 0xE000 <= c <= 0x10FFFF.
(** the bytes of a code point in UTF-8 *)
Definition utf8 (c : N) : bytes :=
  map n2b
    (if c <? 0x80 then [c]
     else if c <? 0x800 then [0xC0 + c / 64; 0x80 + c mod 64]
     else if c <? 0x10000 then [0xE0 + c / 4096; 0x80 + c / 64 mod 64; 0x80 + c mod 64]
     else [0xF0 + c / 262144; 0x80 + c / 4096 mod 64; 0x80 + c / 64 mod 64; 0x80 + c mod 64]).
(** [s] is the text [t] in UTF-8. *)
Definition in_utf8 (t : list N) (s : bytes) : Prop := Forall code_point t /\ s = concat (map utf8 t).
(** Any bytes read as text: a byte at which no code point starts counts as U+FFFD. *)
Inductive reads_as : bytes -> list N -> Prop :=
| RdNil : reads_as [] []
| RdPoint c s t : code_point c -> reads_as s t -> reads_as (utf8 c ++ s) (c :: t)
| RdBad b s t : (forall c u, code_point c -> b :: s <> utf8 c ++ u) -> reads_as s t -> reads_as (b :: s) (0xFFFD :: t).
(** ASCII text *)
Definition text (s : string) : list N := map b2n (str s).

(** ** JSON (RFC 8259), without fractions, exponents, true, false and null, and
    without escaped surrogates.  Objects are the lists of their members in order. *)
Inductive json :=
| JStr (t : list N)
| JNum (z : Z)
| JArr (l : list json)
| JObj (m : list (list N * json)).

(** A reader of JSON: it answers the value and the rest of the text. *)
Definition is_space (c : N) : bool := (c =? 32) || (c =? 9) || (c =? 10) || (c =? 13).
Fixpoint spaces (s : list N) : list N :=
  match s with c :: s' => if is_space c then spaces s' else s | [] => [] end.
(** one of the characters 0-9 a-f A-F *)
Definition hex_value (c : N) : option N :=
  if (48 <=? c) && (c <=? 57) then Some (c - 48)
  else if (97 <=? c) && (c <=? 102) then Some (c - 87)
  else if (65 <=? c) && (c <=? 70) then Some (c - 55)
  else None.
Definition hex4 (a b c d : N) : option N :=
  match hex_value a, hex_value b, hex_value c, hex_value d with
  | Some a, Some b, Some c, Some d => let n := 4096 * a + 256 * b + 16 * c + d in
      if (0xD800 <=? n) && (n <=? 0xDFFF) then None else Some n
  | _, _, _, _ => None
  end.
(** the character after a backslash *)
Definition short_escape (e : N) : option N :=
  if (e =? 34) || (e =? 92) || (e =? 47) then Some e
  else if e =? 98 then Some 8 else if e =? 102 then Some 12
  else if e =? 110 then Some 10 else if e =? 114 then Some 13 else if e =? 116 then Some 9
  else None.
Definition cons_char (c : N) (o : option (list N * list N)) : option (list N * list N) :=
  match o with Some (t, r) => Some (c :: t, r) | None => None end.
(** a string, after its opening quotation mark *)
Fixpoint chars (s : list N) : option (list N * list N) :=
  match s with
  | [] => None
  | c :: s1 =>
      if c =? 34 then Some ([], s1)
      else if c =? 92 then
        match s1 with
        | e :: s2 =>
            if e =? 117 then
              match s2 with
              | h1 :: h2 :: h3 :: h4 :: s3 =>
                  match hex4 h1 h2 h3 h4 with Some n => cons_char n (chars s3) | None => None end
              | _ => None
              end
            else match short_escape e with Some x => cons_char x (chars s2) | None => None end
        | [] => None
        end
      else if c <? 32 then None
      else cons_char c (chars s1)
  end.
(** digits; the number read so far is [n] *)
Fixpoint digits (s : list N) (n : N) : N * list N :=
  match s with
  | c :: s' => if (48 <=? c) && (c <=? 57) then digits s' (10 * n + (c - 48)) else (n, s)
  | [] => (n, [])
  end.
(** a natural number: 0, or digits that do not begin with 0 *)
Definition natural (s : list N) : option (N * list N) :=
  match s with
  | c :: s' => if c =? 48 then Some (0, s') else if (49 <=? c) && (c <=? 57) then Some (digits s' (c - 48)) else None
  | [] => None
  end.
Definition integer (s : list N) : option (Z * list N) :=
  match s with
  | c :: s' =>
      if c =? 45 then match natural s' with Some (n, r) => Some ((- Z.of_N n)%Z, r) | None => None end
      else match natural s with Some (n, r) => Some (Z.of_N n, r) | None => None end
  | [] => None
  end.
(** what follows a number: an end, a comma, a closing bracket or white space *)
Definition ends_number (s : list N) : bool :=
  match s with c :: _ => (c =? 44) || (c =? 93) || (c =? 125) || is_space c | [] => true end.
Fixpoint value (fuel : nat) (s : list N) : option (json * list N) :=
  match fuel with
  | O => None
  | S fuel =>
      match spaces s with
      | [] => None
      | c :: s1 =>
          if c =? 34 then match chars s1 with Some (t, r) => Some (JStr t, r) | None => None end
          else if c =? 91 then
            match spaces s1 with
            | d :: s2 => if d =? 93 then Some (JArr [], s2)
                         else match elements fuel s1 with Some (l, r) => Some (JArr l, r) | None => None end
            | [] => None
            end
          else if c =? 123 then
            match spaces s1 with
            | d :: s2 => if d =? 125 then Some (JObj [], s2)
                         else match members fuel s1 with Some (l, r) => Some (JObj l, r) | None => None end
            | [] => None
            end
          else match integer (c :: s1) with
               | Some (z, r) => if ends_number r then Some (JNum z, r) else None
               | None => None
               end
      end
  end
(** one element or more, and the bracket that closes them *)
with elements (fuel : nat) (s : list N) : option (list json * list N) :=
  match fuel with
  | O => None
  | S fuel =>
      match value fuel s with
      | None => None
      | Some (v, s1) =>
          match spaces s1 with
          | c :: s2 => if c =? 93 then Some ([v], s2)
                       else if c =? 44 then match elements fuel s2 with Some (l, r) => Some (v :: l, r) | None => None end
                       else None
          | [] => None
          end
      end
  end
(** one member or more, and the brace that closes them *)
with members (fuel : nat) (s : list N) : option (list (list N * json) * list N) :=
  match fuel with
  | O => None
  | S fuel =>
      match spaces s with
      | [] => None
      | q :: s0 =>
          if q =? 34 then
            match chars s0 with
            | None => None
            | Some (k, s1) =>
                match spaces s1 with
                | [] => None
                | c :: s2 =>
                    if c =? 58 then
                      match value fuel s2 with
                      | None => None
                      | Some (v, s3) =>
                          match spaces s3 with
                          | e :: s4 => if e =? 125 then Some ([(k, v)], s4)
                                       else if e =? 44 then match members fuel s4 with Some (l, r) => Some ((k, v) :: l, r) | None => None end
                                       else None
                          | [] => None
                          end
                      end
                    else None
                end
            end
          else None
      end
  end.
(** The value of a JSON text. *)
Definition json_of (t : list N) : option json :=
  match value (S (length t)) t with
  | Some (v, r) => match spaces r with [] => Some v | _ :: _ => None end
  | None => None
  end.
(** These bytes are a JSON text for this value. *)
Definition json_text (s : bytes) (v : json) : Prop := exists t, in_utf8 t s /\ json_of t = Some v.

(** ** Instants *)
(** the number of days from 1 January 1970 to a date *)
Inductive day_count : Z -> N * N * N -> Prop :=
| DayEpoch : day_count 0 (1970, 1, 1)
| DayAfter k d d' : day_count k d -> next_day d d' -> day_count (k + 1) d'
| DayBefore k d d' : day_count k d' -> next_day d d' -> 1 <= snd d -> day_count (k - 1) d.
(** the offset of a clock from UTC in seconds, as text *)
Inductive offset_text : bytes -> Z -> Prop :=
| OffUTC : offset_text (str "Z") 0
| OffEast hh mm h m : width 2 hh h -> width 2 mm m -> offset_text ("+"%byte :: hh ++ ":"%byte :: mm) (Z.of_N (3600 * h + 60 * m))
| OffWest hh mm h m : width 2 hh h -> width 2 mm m -> offset_text ("-"%byte :: hh ++ ":"%byte :: mm) (- Z.of_N (3600 * h + 60 * m)).
(** "yyyy-mm-ddThh:mm:ss" and an offset name the second [z] since 1970 in UTC. *)
Definition names_instant (v : bytes) (z : Z) : Prop :=
  exists yy mo dd hh mi ss zz t k off,
    v = yy ++ "-"%byte :: mo ++ "-"%byte :: dd ++ "T"%byte :: hh ++ ":"%byte :: mi ++ ":"%byte :: ss ++ zz /\
    width 4 yy (t_year t) /\ width 2 mo (t_month t) /\ width 2 dd (t_day t) /\
    width 2 hh (t_hour t) /\ width 2 mi (t_min t) /\ width 2 ss (t_sec t) /\ offset_text zz off /\
    calendar_time t /\ day_count k (date_of t) /\
    z = (86400 * k + Z.of_N (3600 * t_hour t + 60 * t_min t + t_sec t) - off)%Z.
(** A clock whose offset is always a whole number of minutes, less than a day. *)
Definition good_zone (zone : Z -> Z) : Prop := forall z, (exists m, zone z = 60 * m)%Z /\ (-86400 < zone z < 86400)%Z.
(** the times that a record can hold *)
Definition stored_time (z : Z) : Prop := (0 <= z < 4294967296)%Z.

(** ** What the members of a reply show *)
Definition is_text (s : bytes) (v : json) : Prop := exists t, reads_as s t /\ v = JStr t.
Definition is_number (z : Z) (v : json) : Prop := v = JNum z.
Definition is_numbers (l : list Z) (v : json) : Prop := v = JArr (map JNum l).
(** a number written as a string *)
Definition is_digits (z : Z) (v : json) : Prop := exists s, S_Digits.decimal z s /\ v = JStr (map b2n s).
Definition is_time (z : Z) (v : json) : Prop := exists s, names_instant s z /\ v = JStr (map b2n s).
(** an object with exactly these members, in this order *)
Definition is_object (l : list (string * (json -> Prop))) (v : json) : Prop :=
  exists m, v = JObj m /\ Forall2 (fun f kv => fst kv = text (fst f) /\ snd f (snd kv)) l m.
(** an array with one element for each of [xs] *)
Definition is_array {A} (f : A -> json -> Prop) (xs : list A) (v : json) : Prop := exists l, v = JArr l /\ Forall2 f xs l.

(** a board header without its title and its moderators *)
Definition is_board (b : BoardHeader) : json -> Prop :=
  is_object [
    ("BrdName", is_text (bh_name b));
    ("Brdattr", is_number (Z.of_N (bh_brdattr b)));
    ("ChessCountry", is_text (bh_chesscountry b));
    ("VoteLimitPosts", is_number (Z.of_N (bh_votelimitposts b)));
    ("VoteLimitLogins", is_number (Z.of_N (bh_votelimitlogins b)));
    ("BUpdate", is_time (bh_bupdate b));
    ("PostLimitPosts", is_number (Z.of_N (bh_postlimitposts b)));
    ("PostLimitLogins", is_number (Z.of_N (bh_postlimitlogins b)));
    ("BVote", is_number (Z.of_N (bh_bvote b)));
    ("VTime", is_time (bh_vtime b));
    ("Level", is_number (Z.of_N (bh_level b)));
    ("PermReload", is_time (bh_permreload b));
    ("Gid", is_number (bh_gid b));
    ("Next", is_numbers (bh_next b));
    ("FirstChild", is_numbers (bh_firstchild b));
    ("Parent", is_number (bh_parent b));
    ("ChildCount", is_number (bh_childcount b));
    ("Nuser", is_number (bh_nuser b));
    ("PostExpire", is_number (bh_postexpire b));
    ("EndGamble", is_time (bh_endgamble b));
    ("PostType", is_text (bh_posttype b));
    ("PostTypeF", is_text (bh_posttypef b));
    ("FastRecommendPause", is_number (Z.of_N (bh_fastrecommendpause b)));
    ("VoteLimitBadPost", is_number (Z.of_N (bh_votelimitbadpost b)));
    ("PostLimitBadPost", is_number (Z.of_N (bh_postlimitbadpost b)));
    ("SRexpire", is_time (bh_srexpire b))]%string.
(** The body of a reply is a JSON text whose value is as described. *)
Definition shows (s : bytes) (P : json -> Prop) : Prop := exists v, json_text s v /\ P v.
