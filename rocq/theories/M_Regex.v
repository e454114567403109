(** * Go's package regexp on valid and invalid UTF-8, as far as /repo uses it

    A match is found as by a backtracking engine that tries alternatives in order
    and repetitions greedily ("leftmost-first"), which is what package regexp
    promises.  A text is read as runes; an invalid byte is the rune U+FFFD. *)
From Verif Require Import M_Base M_Utf8.
Open Scope N_scope.

(** a rune and its bytes *)
Definition sym : Set := (N * bytes)%type.
Fixpoint symbols_fuel (fuel : nat) (s : bytes) : list sym :=
  match fuel with
  | O => []
  | S fuel' =>
      match decode_rune s with
      | None => []
      | Some (c, w) => (c, firstn w s) :: symbols_fuel fuel' (skipn w s)
      end
  end.
Definition symbols (s : bytes) : list sym := symbols_fuel (length s) s.
Definition flat (l : list sym) : bytes := concat (map snd l).

Inductive re : Set :=
| Eps
| Cls (ranges : list (N * N))
| Dot                            (* any rune but "\n" *)
| Seq (a b : re)
| Alt (a b : re)
| Star (a : re)
| Cap (i : nat) (a : re).
Definition Opt (a : re) : re := Alt a Eps.
Definition Plus (a : re) : re := Seq a (Star a).
Definition chr (b : byte) : re := Cls [(b2n b, b2n b)].
(** [a{0,n}] and [a{1,n}] *)
Fixpoint upto (a : re) (n : nat) : re :=
  match n with O => Eps | S n' => Opt (Seq a (upto a n')) end.
Definition from1to (a : re) (n : nat) : re := Seq a (upto a (pred n)).

Definition in_ranges (c : N) (rs : list (N * N)) : bool :=
  existsb (fun r => (fst r <=? c) && (c <=? snd r)) rs.
(** what is left of the text, and the groups captured so far (latest first) *)
Definition state : Set := (list sym * list (nat * list sym))%type.
Definition taken (s s' : list sym) : list sym := firstn (length s - length s') s.
Fixpoint iter (f : state -> list state) (fuel : nat) (s : state) : list state :=
  match fuel with
  | O => [s]
  | S fuel' =>
      flat_map (fun s' => if (length (fst s') <? length (fst s))%nat then iter f fuel' s' else []) (f s) ++ [s]
  end.
(** all ways to match, in the order of preference *)
Fixpoint paths (r : re) (s : state) : list state :=
  match r with
  | Eps => [s]
  | Cls rs => match fst s with x :: t => if in_ranges (fst x) rs then [(t, snd s)] else [] | [] => [] end
  | Dot => match fst s with x :: t => if fst x =? 10 then [] else [(t, snd s)] | [] => [] end
  | Seq a b => flat_map (paths b) (paths a s)
  | Alt a b => paths a s ++ paths b s
  | Star a => iter (paths a) (length (fst s)) s
  | Cap i a => map (fun s' => (fst s', (i, taken (fst s) (fst s')) :: snd s')) (paths a s)
  end.

(** Regexp.FindStringSubmatch: the leftmost match, preferred way; answers the match and
    its groups *)
Fixpoint find_match (r : re) (s : list sym) : option (list sym * list (nat * list sym)) :=
  match paths r (s, []) with
  | (s', c) :: _ => Some (taken s s', c)
  | [] => match s with [] => None | _ :: t => find_match r t end
  end.
Definition group (i : nat) (c : list (nat * list sym)) : bytes :=
  match find (fun p => Nat.eqb (fst p) i) c with Some p => flat (snd p) | None => [] end.
Definition FindStringSubmatch (r : re) (s : bytes) : option (bytes * (nat -> bytes)) :=
  match find_match r (symbols s) with
  | Some (w, c) => Some (flat w, fun i => group i c)
  | None => None
  end.

(** Regexp.ReplaceAllString(src, "") for an expression that does not match the empty
    text: every match is dropped, the bytes between are kept. *)
Fixpoint drop_all (r : re) (fuel : nat) (s : list sym) : list sym :=
  match fuel with
  | O => s
  | S fuel' =>
      match s with
      | [] => []
      | x :: t =>
          match paths r (s, []) with
          | (s', _) :: _ => drop_all r fuel' s'
          | [] => x :: drop_all r fuel' t
          end
      end
  end.
Definition ReplaceAllWithNothing (r : re) (s : bytes) : bytes :=
  let l := symbols s in flat (drop_all r (length l) l).
