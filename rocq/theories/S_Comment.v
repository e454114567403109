(** * Specification of comment lines *)
From Verif Require Import M_Base S_Text S_Utf8 S_Ansi.
Open Scope N_scope.

(** an author id: a letter, then at least one letter or digit *)
Definition author (a : bytes) : Prop :=
  exists l r, a = l :: r /\ letter l /\ r <> [] /\ Forall (fun b => letter b \/ decimal b) r.
(** month/day hour:minute, each of two digits, with one blank between *)
Definition blank (b : byte) : Prop := In b [x09; x0a; x0c; x0d; x20].
Definition stamp (v : bytes) : Prop :=
  exists a b c d sp e f g h, v = [a; b; "/"%byte; c; d; sp; e; f; ":"%byte; g; h] /\
    Forall decimal [a; b; c; d; e; f; g; h] /\ blank sp.
(** one way to read the line [d] as a comment *)
Definition reads (d pre owner mid st post : bytes) : Prop :=
  d = pre ++ owner ++ ":"%byte :: mid ++ st ++ post /\ author owner /\ ~ In x0a mid /\ stamp st.
(** the way that counts: the earliest author, and the latest stamp after that *)
Definition found (d owner mid st : bytes) : Prop :=
  exists pre post, reads d pre owner mid st post /\
    (forall pre' owner' mid' st' post', reads d pre' owner' mid' st' post' -> (length pre <= length pre')%nat) /\
    (forall mid' st' post', reads d pre owner mid' st' post' -> (length mid' <= length mid)%nat).
Definition no_comment (d : bytes) : Prop :=
  forall pre owner mid st post, ~ reads d pre owner mid st post.
(** [body] is what precedes the first [st] in [s] *)
Definition first_part (st s body : bytes) : Prop :=
  (exists r, s = body ++ st ++ r) /\ forall b r, s = b ++ st ++ r -> (length body <= length b)%nat.
(** The text reported: the trimmed part before the first colon; each trimmed part after a
    colon follows it directly and has a colon put behind it. *)
Definition reported (mid st txt : bytes) : Prop :=
  exists body p ps tp tps, first_part st (mid ++ st) body /\ cuts ":" body (p :: ps) /\
    trimmed p tp /\ Forall2 trimmed ps tps /\ txt = tp ++ concat (map (fun t => t ++ str ":") tps).
(** what stands before the author on a comment line: no colon, and no letter or digit at
    the end *)
Definition mark (m : bytes) : Prop :=
  ~ In ":"%byte m /\ forall a b, m = a ++ [b] -> ~ (letter b \/ decimal b).
