(** * Go's package time, as far as /repo uses it: Parse and Format of three layouts.
    A time.Time in UTC is modelled by its calendar fields; years before 0 are left
    out.  Time zones are not modelled: Parse answers UTC, and Format is applied to
    times in UTC. *)
From Verif Require Import M_Base M_Text.
Open Scope N_scope.

Record time := Time { t_year : N; t_month : N; t_day : N; t_hour : N; t_min : N; t_sec : N; t_nsec : N }.

(** the layout elements that occur: "01" "02" "2006" "15" "04" "05" "Mon" *)
Inductive std := StdZeroMonth | StdZeroDay | StdLongYear | StdHour | StdZeroMinute | StdZeroSecond | StdWeekDay.
(** A layout as nextStdChunk (time/format.go) cuts it: literal text before each
    element, and the text after the last. *)
Record layout := Layout { l_chunks : list (bytes * std); l_tail : bytes }.
(** "01/02/2006 15:04:05", pttbbs/login_recent.go:66 *)
Definition layout_login : layout :=
  Layout [([], StdZeroMonth); (str "/", StdZeroDay); (str "/", StdLongYear); (str " ", StdHour); (str ":", StdZeroMinute); (str ":", StdZeroSecond)] [].
(** "[01/02/2006 15:04:05 Mon]", pttbbs/bad_logins.go:67 *)
Definition layout_bad : layout :=
  Layout [(str "[", StdZeroMonth); (str "/", StdZeroDay); (str "/", StdLongYear); (str " ", StdHour); (str ":", StdZeroMinute); (str ":", StdZeroSecond);
          (str " ", StdWeekDay)] (str "]").
(** "01/02 15:04", user_comment_record.go:68 *)
Definition layout_comment : layout :=
  Layout [([], StdZeroMonth); (str "/", StdZeroDay); (str " ", StdHour); (str ":", StdZeroMinute)] [].

(** time/format.go cutspace *)
Fixpoint cutspace (s : bytes) : bytes :=
  match s with b :: s' => if Byte.eqb b " " then cutspace s' else s | [] => [] end.
(** time/format.go skip: a space of the layout stands for any number of spaces, but
    at least one unless the value ends there.  (The layouts contain no two spaces in
    a row.) *)
Fixpoint skip (value prefix : bytes) : option bytes :=
  match prefix with
  | [] => Some value
  | p :: prefix' =>
      if Byte.eqb p " " then
        match value with
        | v :: _ => if Byte.eqb v " " then skip (cutspace value) prefix' else None
        | [] => skip [] prefix'
        end
      else
        match value with
        | v :: value' => if Byte.eqb v p then skip value' prefix' else None
        | [] => None
        end
  end.
(** time/format.go getnum *)
Definition getnum (s : bytes) (fixed : bool) : option (N * bytes) :=
  match s with
  | a :: s' =>
      if negb (is_digit a) then None else
      match s' with
      | b :: s'' => if is_digit b then Some (digit_val a * 10 + digit_val b, s'') else if fixed then None else Some (digit_val a, s')
      | [] => if fixed then None else Some (digit_val a, s')
      end
  | [] => None
  end.
(** the digits at the front *)
Fixpoint digits (s : bytes) : bytes :=
  match s with b :: s' => if is_digit b then b :: digits s' else [] | [] => [] end.
(** time/format.go:1000-1014 (Go 1.14) the fraction of a second that the layout does
    not mention, and parseNanoseconds *)
Definition fraction (s : bytes) : option (N * bytes) :=
  match s with
  | p :: a :: _ =>
      if Byte.eqb p "." && is_digit a then
        let d := digits (tl s) in
        let n := dec_val d in
        if 1000000000 <=? n then None
        else Some (n * 10 ^ (9 - lenN d), skipn (length d) (tl s))
      else Some (0, s)
  | _ => Some (0, s)
  end.
(** time/format.go match, lookup in shortDayNames *)
Definition lower (b : byte) : N := N.lor (b2n b) 32.
Definition match_letter (a b : byte) : bool :=
  Byte.eqb a b || ((lower a =? lower b) && (97 <=? lower a) && (lower a <=? 122)).
Definition shortDayNames : list bytes := map str ["Sun"; "Mon"; "Tue"; "Wed"; "Thu"; "Fri"; "Sat"]%string.
Definition match_word (v w : bytes) : bool :=
  (length w <=? length v)%nat && forallb (fun p => match_letter (fst p) (snd p)) (combine v w).
Definition lookup_day (v : bytes) : option bytes :=
  match find (match_word v) shortDayNames with Some w => Some (skipn (length w) v) | None => None end.

(** one element of the layout *)
Definition parse_std (e : std) (v : bytes) (t : time) : option (bytes * time) :=
  match e with
  | StdZeroMonth =>
      match getnum v true with
      | Some (m, v') => if (m =? 0) || (12 <? m) then None else Some (v', Time (t_year t) m (t_day t) (t_hour t) (t_min t) (t_sec t) (t_nsec t))
      | None => None
      end
  | StdZeroDay =>
      match getnum v true with
      | Some (d, v') => Some (v', Time (t_year t) (t_month t) d (t_hour t) (t_min t) (t_sec t) (t_nsec t))
      | None => None
      end
  | StdLongYear =>
      match v with
      | a :: b :: c :: d :: v' =>
          match parse_uint [a; b; c; d] with
          | Some y => Some (v', Time y (t_month t) (t_day t) (t_hour t) (t_min t) (t_sec t) (t_nsec t))
          | None => None
          end
      | _ => None
      end
  | StdHour =>
      match getnum v false with
      | Some (h, v') => if 24 <=? h then None else Some (v', Time (t_year t) (t_month t) (t_day t) h (t_min t) (t_sec t) (t_nsec t))
      | None => None
      end
  | StdZeroMinute =>
      match getnum v true with
      | Some (m, v') => if 60 <=? m then None else Some (v', Time (t_year t) (t_month t) (t_day t) (t_hour t) m (t_sec t) (t_nsec t))
      | None => None
      end
  | StdZeroSecond =>
      match getnum v true with
      | Some (s, v') =>
          if 60 <=? s then None else
          match fraction v' with
          | Some (ns, v'') => Some (v'', Time (t_year t) (t_month t) (t_day t) (t_hour t) (t_min t) s ns)
          | None => None
          end
      | None => None
      end
  | StdWeekDay =>
      match lookup_day v with Some v' => Some (v', t) | None => None end
  end.
Fixpoint parse_chunks (cs : list (bytes * std)) (tail v : bytes) (t : time) : option time :=
  match cs with
  | [] => match skip v tail with Some [] => Some t | _ => None end
  | (p, e) :: cs' =>
      match skip v p with
      | Some v' => match parse_std e v' t with Some (v'', t') => parse_chunks cs' tail v'' t' | None => None end
      | None => None
      end
  end.

(** time/time.go isLeap, daysIn *)
Definition isLeap (y : N) : bool := (y mod 4 =? 0) && (negb (y mod 100 =? 0) || (y mod 400 =? 0)).
Definition daysBefore : list N := [0; 31; 59; 90; 120; 151; 181; 212; 243; 273; 304; 334; 365].
Definition daysIn (m y : N) : N :=
  if (m =? 2) && isLeap y then 29
  else nth (N.to_nat m) daysBefore 0 - nth (N.to_nat (m - 1)) daysBefore 0.
(** time.Parse; the day is checked at the end, a field not in the layout has its
    least value (year 0) *)
Definition Parse (l : layout) (value : bytes) : option time :=
  match parse_chunks (l_chunks l) (l_tail l) value (Time 0 1 1 0 0 0 0) with
  | Some t => if (t_day t <? 1) || (daysIn (t_month t) (t_year t) <? t_day t) then None else Some t
  | None => None
  end.

(** ** Format *)
Definition digit (n : N) : byte := n2b (48 + n).
(** time/format.go appendInt of a natural number: digits from the right, then zeros up
    to the width; [fuel] bounds the number of digits *)
Fixpoint dec_digits (fuel : nat) (n : N) (acc : bytes) : bytes :=
  match fuel with
  | O => acc
  | S fuel' => if n <? 10 then digit n :: acc else dec_digits fuel' (n / 10) (digit (n mod 10) :: acc)
  end.
Definition decimal (n : N) : bytes := dec_digits (S (N.to_nat (N.size n))) n [].
Definition appendInt (n : N) (width : nat) : bytes :=
  repeat "0"%byte (width - length (decimal n)) ++ decimal n.
(** time/time.go absDate, Weekday: days since 1 January of year 0, a Saturday (the
    count of time.daysSinceEpoch in closed form) *)
Definition day_number (t : time) : N :=
  365 * t_year t + (t_year t + 3) / 4 - (t_year t + 99) / 100 + (t_year t + 399) / 400
  + nth (N.to_nat (t_month t - 1)) daysBefore 0 + (if (2 <? t_month t) && isLeap (t_year t) then 1 else 0) + (t_day t - 1).
Definition weekday (t : time) : N := (6 + day_number t) mod 7.
Definition format_std (t : time) (e : std) : bytes :=
  match e with
  | StdZeroMonth => appendInt (t_month t) 2
  | StdZeroDay => appendInt (t_day t) 2
  | StdLongYear => appendInt (t_year t) 4
  | StdHour => appendInt (t_hour t) 2
  | StdZeroMinute => appendInt (t_min t) 2
  | StdZeroSecond => appendInt (t_sec t) 2
  | StdWeekDay => nth (N.to_nat (weekday t)) shortDayNames []
  end.
Definition Format (l : layout) (t : time) : bytes :=
  concat (map (fun c => fst c ++ format_std t (snd c)) (l_chunks l)) ++ l_tail l.
