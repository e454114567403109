(** * pttbbs/login_recent.go and pttbbs/bad_logins.go *)
From Verif Require Import M_Base M_Text M_Utf8 M_Time M_Sys M_FileOps.
Open Scope N_scope.

(** bufio.Scanner with ScanLines: the lines without their "\n" and without one "\r"
    before it; no line after a final "\n".  A line of 65536 bytes or more (bufio.MaxScanTokenSize)
    stops the scan with an error, reported in the second component. *)
Definition MaxScanTokenSize : N := 65536.
Fixpoint raw_lines (d cur : bytes) : list bytes :=      (* [cur]: the current line, reversed *)
  match d with
  | [] => match cur with [] => [] | _ => [rev cur] end
  | b :: d' => if Byte.eqb b x0a then rev cur :: raw_lines d' [] else raw_lines d' (b :: cur)
  end.
Definition drop_cr (l : bytes) : bytes :=
  match rev l with b :: r => if Byte.eqb b x0d then rev r else l | [] => l end.
Fixpoint scan (ls : list bytes) : list bytes * bool :=
  match ls with
  | [] => ([], false)
  | l :: ls' => if MaxScanTokenSize <=? lenN l then ([], true) else let '(r, e) := scan ls' in (drop_cr l :: r, e)
  end.
Definition scan_lines (d : bytes) : list bytes * bool := scan (raw_lines d []).

(** parse every line, stopping at the first error *)
Fixpoint each {A} (f : bytes -> outcome A) (ls : list bytes) : outcome (list A) :=
  match ls with
  | [] => Ok []
  | l :: ls' =>
      match f l with
      | Ok a => match each f ls' with Ok r => Ok (a :: r) | Err e => Err e | Panic => Panic | Diverge => Diverge end
      | Err e => Err e | Panic => Panic | Diverge => Diverge
      end
  end.

(** pttbbs/login_recent.go:27-30 *)
Record LoginRecentRecord := LoginRecent { lr_start : time; lr_host : bytes }.
(** pttbbs/login_recent.go:61-74 *)
Definition NewLoginRecentRecord (line : bytes) : outcome LoginRecentRecord :=
  match split_on " " line with
  | s0 :: s1 :: s2 :: _ =>
      match Parse layout_login (s0 ++ str " " ++ s1) with
      | Some t => Ok (LoginRecent t s2)
      | None => Err EBadTime
      end
  | _ => Err EBadFormat
  end.
(** The lines of a file opened read-only and never closed; the scanner's reads are
    taken as one. *)
Definition scan_file (path : bytes) : prog (outcome (list bytes * bool)) :=
  Call (Open path O_RDONLY) (fun r =>
  match r with
  | RErr e => Ret (Err (ESys e))
  | ROk fd =>
      Call (ReadAll fd) (fun r =>
      match r with
      | ROk d => Ret (Ok (scan_lines d))
      | RErr _ => Ret (Ok ([], true))
      end)
  end).
(** pttbbs/login_recent.go:32-59; a scanner error ends the program (log.Fatal) *)
Definition OpenLoginRecentFile (path : bytes) : prog (outcome (list LoginRecentRecord)) :=
  pbind (scan_file path) (fun '(ls, failed) =>
  Ret match each NewLoginRecentRecord ls with
      | Ok r => if failed then Panic else Ok r
      | o => o
      end).

(** pttbbs/bad_logins.go:76-81 *)
Record LoginAttempt := Attempt { la_success : bool; la_user : bytes; la_start : time; la_host : bytes }.
Definition UserIDLength : nat := 12.
Definition time_len : nat := 25.      (* len(loginStartTimeFormatString) *)
(** pttbbs/bad_logins.go:134-144 *)
Definition unmarshal_rest (success : bool) (user : bytes) (s : bytes) : outcome LoginAttempt :=
  if (length s <? time_len)%nat then Panic else
  match Parse layout_bad (firstn time_len s) with
  | None => Err EBadTime
  | Some t =>
      if (length s <? time_len + 1)%nat then Panic
      else Ok (Attempt success (TrimSpace user) t (TrimLeft (skipn (time_len + 1) s) (str "?@")))
  end.
(** pttbbs/bad_logins.go:109-145 UnmarshalText *)
Definition UnmarshalText (line : bytes) : outcome LoginAttempt :=
  match line with
  | [] => Panic
  | b :: s =>
      if Byte.eqb b " " then
        if (length s <? UserIDLength)%nat then Panic else unmarshal_rest true (firstn UserIDLength s) (skipn UserIDLength s)
      else if Byte.eqb b "-" then
        if (length s <? UserIDLength)%nat then Panic else unmarshal_rest false (firstn UserIDLength s) (skipn UserIDLength s)
      else if Byte.eqb b "[" then unmarshal_rest false [] line
      else Err EBadFormat
  end.
(** pttbbs/bad_logins.go:177-179 *)
Definition IsUnderBbsHome (l : LoginAttempt) : bool := (1 <? length (la_user l))%nat.
(** fmt's "%-*s": spaces up to the width, counted in runes *)
Definition pad_right (w : N) (s : bytes) : bytes := s ++ repeat " "%byte (N.to_nat (w - RuneCount s)).
(** pttbbs/bad_logins.go:148-172 MarshalText *)
Definition MarshalText (l : LoginAttempt) : bytes :=
  (if IsUnderBbsHome l then (if la_success l then str " " else str "-") ++ pad_right 12 (la_user l) else [])
  ++ Format layout_bad (la_start l) ++ str " "
  ++ (if IsUnderBbsHome l then str "?@" else []) ++ la_host l.
(** pttbbs/bad_logins.go:86-106; the scanner's error is not looked at *)
Definition OpenBadLoginFile (path : bytes) : prog (outcome (list LoginAttempt)) :=
  pbind (scan_file path) (fun '(ls, _) => Ret (each UnmarshalText ls)).
