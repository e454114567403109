(** * Specification of the login history and of the bad-login file *)
From Verif Require Import M_Base S_Text M_Time S_Time S_Utf8 M_Login.
Open Scope N_scope.

(** ** Text files *)
Definition unlines (ls : list bytes) : bytes := concat (map (fun l => l ++ [x0a]) ls).
(** [d] is a text file with the lines [ls]; the last may lack its newline. *)
Definition text (d : bytes) (ls : list bytes) : Prop :=
  exists init last, d = unlines init ++ last /\ Forall (fun l => ~ In x0a l) (init ++ [last]) /\
    ls = init ++ match last with [] => [] | _ => [last] end.
(** [l'] is the line [l] without the carriage return at its end, if it has one *)
Definition without_cr (l l' : bytes) : Prop := l = l' ++ [x0d] \/ (l = l' /\ forall p, l <> p ++ [x0d]).
Definition short_line (l : bytes) : Prop := lenN l < 65536.

(** ** One line of logins.recent: date, time and host, and what may follow *)
Definition login_line (line : bytes) (r : LoginRecentRecord) : Prop :=
  exists date clock rest,
    line = date ++ str " " ++ clock ++ str " " ++ lr_host r ++ rest /\
    ~ In " "%byte date /\ ~ In " "%byte clock /\ ~ In " "%byte (lr_host r) /\
    (rest = [] \/ exists rest', rest = " "%byte :: rest') /\
    spells (date ++ str " " ++ clock) (lr_start r).
Definition spaces_in (line : bytes) : nat := count_occ byte_eq_dec line " "%byte.

(** ** One line of logins.bad *)
(** the host without the characters '?' and '@' in front *)
Definition host_of (s host : bytes) : Prop :=
  exists p, s = p ++ host /\ Forall (fun b => b = "?"%byte \/ b = "@"%byte) p /\
    forall b h, host = b :: h -> b <> "?"%byte /\ b <> "@"%byte.
Definition attempt_line (line : bytes) (e : LoginAttempt) : Prop :=
  (exists c user tm x host,
    line = c :: user ++ tm ++ x :: host /\
    (c = " "%byte /\ la_success e = true \/ c = "-"%byte /\ la_success e = false) /\
    length user = 12%nat /\ length tm = 25%nat /\
    trimmed user (la_user e) /\ spells_bracketed tm (la_start e) /\ host_of host (la_host e)) \/
  (exists tm x host,
    line = tm ++ x :: host /\ la_success e = false /\ la_user e = [] /\ length tm = 25%nat /\
    spells_bracketed tm (la_start e) /\ host_of host (la_host e)).
(** Too short: nothing at all, or no character after a (readable) time. *)
Definition too_short (s : bytes) : Prop :=
  (length s < 25)%nat \/ length s = 25%nat /\ exists t, spells_bracketed s t.
Definition unreadable (line : bytes) : Prop :=
  line = [] \/ (exists s, line = "["%byte :: s /\ too_short line) \/
  (exists c s, line = c :: s /\ (c = " "%byte \/ c = "-"%byte) /\ ((length s < 12)%nat \/ too_short (skipn 12 s))).

(** The entries for which writing and reading agree. *)
Definition user_id (u : bytes) : Prop :=
  (2 <= length u <= 12)%nat /\ Forall (fun b => 33 <= b2n b <= 126) u.
Definition recordable (e : LoginAttempt) : Prop :=
  (user_id (la_user e) \/ la_user e = [] /\ la_success e = false) /\
  (calendar_time (la_start e) /\ t_year (la_start e) < 10000 /\ t_nsec (la_start e) = 0) /\
  (forall b h, la_host e = b :: h -> b <> "?"%byte /\ b <> "@"%byte).
