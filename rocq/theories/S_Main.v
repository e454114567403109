(** * Specification: the command line of bbstool *)
From Verif Require Import M_Base.
Open Scope N_scope.

(** The two settings and the ways to write them. *)
Inductive setting := Driver | Home.
Definition spelled (x : setting) : bytes := match x with Driver => str "driver" | Home => str "bbshome" end.
Inductive spelling (x : setting) (value : bytes) : list bytes -> Prop :=
| Joined dash : dash = str "-" \/ dash = str "--" -> spelling x value [dash ++ spelled x ++ str "=" ++ value]
| Apart dash : dash = str "-" \/ dash = str "--" -> spelling x value [dash ++ spelled x; value].

(** [ws] is the settings [l] in this order. *)
Inductive settings : list (setting * bytes) -> list bytes -> Prop :=
| SNone : settings [] []
| SMore x value l first rest : spelling x value first -> settings l rest -> settings ((x, value) :: l) (first ++ rest).
Fixpoint last_setting (x : setting) (default : bytes) (l : list (setting * bytes)) : bytes :=
  match l with
  | [] => default
  | (Driver, v) :: l' => last_setting x (match x with Driver => v | Home => default end) l'
  | (Home, v) :: l' => last_setting x (match x with Home => v | Driver => default end) l'
  end.

(** A word that begins with a dash and goes on. *)
Definition dashed (w : bytes) : Prop := exists c r, w = "-"%byte :: c :: r.
(** The rest of the line begins at the first word that is not dashed, or after "--". *)
Inductive remainder : list bytes -> list bytes -> Prop :=
| RNone : remainder [] []
| RWord w ws : ~ dashed w -> remainder (w :: ws) (w :: ws)
| RDashes ws : remainder ws (str "--" :: ws).

(** Words that make the program refuse the line: no name, an unknown name, no value. *)
Inductive refused : list bytes -> Prop :=
| XUnknown dash name value rest : dash = str "-" \/ dash = str "--" -> ~ In "="%byte name -> (forall r, name <> "-"%byte :: r) -> name <> [] ->
    name <> spelled Driver -> name <> spelled Home -> value = [] \/ (exists v, value = "="%byte :: v) -> refused ((dash ++ name ++ value) :: rest)
| XSyntax dash name rest : dash = str "-" \/ dash = str "--" -> (exists r, name = "="%byte :: r \/ (dash = str "--" /\ name = "-"%byte :: r)) -> refused ((dash ++ name) :: rest)
| XNoValue dash x : dash = str "-" \/ dash = str "--" -> refused [dash ++ spelled x].
