(** * Specification of form fields and addresses (RFC 3986, 2.1; HTML 4.01, 17.13.4) *)
From Verif Require Import M_Base M_Web M_Form S_Text.
Open Scope N_scope.

(** A hexadecimal digit of either case. *)
Definition hexadecimal (c : byte) (n : N) : Prop :=
  exists i, n = N.of_nat i /\ (nth_error (str "0123456789ABCDEF") i = Some c \/ nth_error (str "0123456789abcdef") i = Some c).

(** [t] spells [v]: a percent sign and two digits stand for a byte, in forms ([plus]) a plus
    sign stands for a blank, every other byte stands for itself. *)
Inductive spells (plus : bool) : bytes -> bytes -> Prop :=
| SpellsEnd : spells plus [] []
| SpellsByte h l a b c t v : hexadecimal h a -> hexadecimal l b -> b2n c = 16 * a + b ->
    spells plus t v -> spells plus ("%"%byte :: h :: l :: t) (c :: v)
| SpellsBlank t v : plus = true -> spells plus t v -> spells plus ("+"%byte :: t) (" "%byte :: v)
| SpellsItself c t v : c <> "%"%byte -> (plus = true -> c <> "+"%byte) -> spells plus t v -> spells plus (c :: t) (c :: v).

(** Cutting a text at every separator. *)
Inductive pieces (sep : byte -> Prop) : bytes -> list bytes -> Prop :=
| PiecesLast p : (forall c, In c p -> ~ sep c) -> pieces sep p [p]
| PiecesMore p c t ps : (forall c, In c p -> ~ sep c) -> sep c -> pieces sep t ps -> pieces sep (p ++ c :: t) (p :: ps).
Definition separator (old : bool) (c : byte) : Prop := c = "&"%byte \/ old = true /\ c = ";"%byte.

(** Name and value of a piece: what stands before and after its first equals sign. *)
Definition named (p k v : bytes) : Prop :=
  ~ In "="%byte k /\ (p = k ++ "="%byte :: v \/ p = k /\ v = []).
(** The field a piece stands for, if any. *)
Definition field_of (old : bool) (p : bytes) (o : option (bytes * bytes)) : Prop :=
  let void := p = [] \/ old = false /\ In ";"%byte p in
  match o with
  | Some (k, v) => ~ void /\ exists kt vt, named p kt vt /\ spells true kt k /\ spells true vt v
  | None => void \/ exists kt vt, named p kt vt /\ ((forall k, ~ spells true kt k) \/ (forall v, ~ spells true vt v))
  end.
Definition given {A} (o : option A) : list A := match o with Some a => [a] | None => [] end.
(** The fields of a text. *)
Definition fields_of (old : bool) (text : bytes) (fs : list (bytes * bytes)) : Prop :=
  exists ps os, pieces (separator old) text ps /\ Forall2 (field_of old) ps os /\ fs = concat (map given os).

(** The text a client sends for some fields: names and values spelled with ampersands,
    semicolons and (in names) equals signs escaped. *)
Definition sends_field (p : bytes) (f : bytes * bytes) : Prop :=
  exists kt vt, p = kt ++ "="%byte :: vt /\ spells true kt (fst f) /\ spells true vt (snd f) /\
    ~ In "="%byte kt /\ forall c, In c (kt ++ vt) -> c <> "&"%byte /\ c <> ";"%byte.
Definition sends (text : bytes) (fs : list (bytes * bytes)) : Prop :=
  exists ps, Forall2 sends_field ps fs /\ text = join "&" ps.

(** A target: the path is spelled before the first question mark, the query follows it. *)
Definition printable (c : byte) : Prop := 32 <= b2n c /\ b2n c <> 127.
Definition addresses (t path query : bytes) : Prop :=
  Forall printable t /\ exists p, spells false p path /\ ~ In "?"%byte p /\
    (t = p /\ query = [] \/ t = p ++ "?"%byte :: query).

(** The fields the handlers see: those of the body, if it is sent as a form, before those of
    the address. *)
Definition form_media : bytes := str "application/x-www-form-urlencoded".
Definition as_form (r : raw) : Prop :=
  In (w_method r) [str "POST"; str "PUT"; str "PATCH"] /\ w_media r = form_media /\ lenN (w_body r) <= 10485760.
Definition body_fields (old : bool) (r : raw) (fs : list (bytes * bytes)) : Prop :=
  (as_form r -> fields_of old (w_body r) fs) /\ (~ as_form r -> fs = []).
