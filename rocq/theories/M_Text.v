(** * Go's package strings and strconv, as far as /repo uses them *)
From Verif Require Import M_Base.
Open Scope N_scope.

(** strings.Split(s, sep) for a separator of one byte (cache/cache.go:18,
    pttbbs/board.go:113, serverlet/route_users.go:98, pttbbs/login_recent.go). *)
Fixpoint split_on (c : byte) (s : bytes) : list bytes :=
  match s with
  | [] => [[]]
  | b :: s' =>
      if Byte.eqb b c then [] :: split_on c s'
      else match split_on c s' with
           | [] => [[b]]
           | p :: ps => (b :: p) :: ps
           end
  end.

(** strings.HasPrefix *)
Fixpoint HasPrefix (s p : bytes) : bool :=
  match p, s with
  | [], _ => true
  | b :: p', a :: s' => Byte.eqb a b && HasPrefix s' p'
  | _ :: _, [] => false
  end.

(** strconv.Atoi: optional sign, then at least one decimal digit; the value must
    fit int64.  (Base 10, so no underscores.) *)
Definition is_digit (b : byte) : bool := (48 <=? b2n b) && (b2n b <=? 57).
Definition digit_val (b : byte) : N := b2n b - 48.
Definition dec_val (s : bytes) : N := fold_left (fun n b => 10 * n + digit_val b) s 0.
Definition parse_uint (s : bytes) : option N :=
  match s with
  | [] => None
  | _ => if forallb is_digit s then Some (dec_val s) else None
  end.
Definition Atoi (s : bytes) : option Z :=
  let '(neg, d) :=
    match s with
    | b :: s' => if Byte.eqb b "-" then (true, s') else if Byte.eqb b "+" then (false, s') else (false, s)
    | [] => (false, [])
    end%byte in
  match parse_uint d with
  | None => None
  | Some n =>
      if neg then (if n <=? 2 ^ 63 then Some (- Z.of_N n)%Z else None)
      else (if n <? 2 ^ 63 then Some (Z.of_N n) else None)
  end.
