(** * Specification of stripping control sequences *)
From Verif Require Import M_Base.
Open Scope N_scope.

Definition letter (b : byte) : Prop := 65 <= b2n b <= 90 \/ 97 <= b2n b <= 122.
Definition decimal (b : byte) : Prop := 48 <= b2n b <= 57.
(** ESC, or the CSI character U+009B in UTF-8 *)
Definition introducer (i : bytes) : Prop := i = [x1b] \/ i = [xc2; x9b].
Definition punctuation (b : byte) : Prop := In b (str "[]()#;?").
(** the character that ends a sequence *)
Definition final (b : byte) : Prop :=
  decimal b \/ 65 <= b2n b <= 80 \/ 102 <= b2n b <= 110 \/ In b (str "RZctqry=><~").
(** parameters: a number of one to four digits, and more numbers of up to four digits,
    possibly empty, each after a semicolon; or nothing *)
Definition number (least : nat) (n : bytes) : Prop := (least <= length n <= 4)%nat /\ Forall decimal n.
Definition parameters (q : bytes) : Prop :=
  q = [] \/ exists n ns, q = n ++ concat (map (fun m => ";"%byte :: m) ns) /\ number 1 n /\ Forall (number 0) ns.
(** letters, digits and semicolons that may stand before a bell *)
Definition word_byte (b : byte) : Prop := letter b \/ decimal b \/ b = ";"%byte.
Definition control (c : bytes) : Prop :=
  exists i p q e, c = i ++ p ++ q ++ [e] /\ introducer i /\ Forall punctuation p /\
    (e = x07 /\ Forall word_byte q \/ final e /\ parameters q).

(** Reading from the left: where control sequences start, the longest is dropped; any
    other byte is kept. *)
Inductive filtered : bytes -> bytes -> Prop :=
| FNil : filtered [] []
| FDrop c s t :
    control c -> (forall c' s', c ++ s = c' ++ s' -> control c' -> (length c' <= length c)%nat) ->
    filtered s t -> filtered (c ++ s) t
| FKeep b s t :
    (forall c s', b :: s = c ++ s' -> ~ control c) -> filtered s t -> filtered (b :: s) (b :: t).

(** [t] is [s] with bytes left out *)
Inductive subsequence : bytes -> bytes -> Prop :=
| SubNil : subsequence [] []
| SubKeep b t s : subsequence t s -> subsequence (b :: t) (b :: s)
| SubSkip b t s : subsequence t s -> subsequence t (b :: s).

(** ESC [ and numbers of up to four digits separated by semicolons, then m *)
Definition colour (c : bytes) : Prop :=
  exists n ns, c = x1b :: "["%byte :: (n ++ concat (map (fun m => ";"%byte :: m) ns)) ++ str "m" /\
    number 0 n /\ Forall (number 0) ns.
(** no ESC, no CSI character, and no bell *)
Definition plain (s : bytes) : Prop :=
  ~ In x1b s /\ ~ In x07 s /\ forall a b, s <> a ++ xc2 :: x9b :: b.
(** no ESC and no CSI character *)
Definition no_intro (s : bytes) : Prop := ~ In x1b s /\ forall a b, s <> a ++ xc2 :: x9b :: b.
(** pieces of text, each followed by a colour sequence, and a last piece *)
Definition coloured (l : list (bytes * bytes)) (last : bytes) : bytes := concat (map (fun p => fst p ++ snd p) l) ++ last.
