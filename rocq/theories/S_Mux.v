(** * Specification of paths of addresses (RFC 3986, 5.2.4) *)
From Verif Require Import M_Base M_Web S_Text.
Open Scope N_scope.

(** An element that names something. *)
Definition element (p : bytes) : Prop := p <> [] /\ p <> str "." /\ p <> str ".." /\ ~ In "/"%byte p.

(** Walking a path: "" and "." stay, ".." goes back, and not beyond the root. *)
Inductive step : list bytes -> bytes -> list bytes -> Prop :=
| StepEmpty es : step es [] es
| StepDot es : step es (str ".") es
| StepBack es e : step (es ++ [e]) (str "..") es
| StepRoot : step [] (str "..") []
| StepInto es e : element e -> step es e (es ++ [e]).
Inductive walk : list bytes -> list bytes -> list bytes -> Prop :=
| WalkEnd es : walk es [] es
| WalkStep es p es1 ps es2 : step es p es1 -> walk es1 ps es2 -> walk es (p :: ps) es2.
(** The path [p] leads to [es]. *)
Definition leads_to (p : bytes) (es : list bytes) : Prop := exists ps, cuts "/" p ps /\ walk [] ps es.
Definition ends_in_slash (p : bytes) : Prop := exists q, p = q ++ str "/".

(** The plain spelling of where a path leads. *)
Definition plain (es : list bytes) : bytes := "/"%byte :: join "/" es.
Definition directory (es : list bytes) : bytes := plain (es ++ [[]]).

(** [q] is the plain spelling of [p]: it leads to the same place, and it ends in a slash
    when [p] does and for the two directories of the service. *)
Definition spelling (p q : bytes) : Prop :=
  exists es, leads_to p es /\ Forall element es /\
  (q = directory es /\ es <> [] /\ (ends_in_slash p \/ es = [str "v1"; str "users"] \/ es = [str "v1"; str "classes"]) \/
   q = plain es /\ (es = [] \/ ~ ends_in_slash p /\ es <> [str "v1"; str "users"] /\ es <> [str "v1"; str "classes"])).

(** The same request for another path. *)
Definition with_path (r : request) (p : bytes) : request := Request (r_method r) p (r_authorization r) (r_form r).
