(** * Specification of the web service *)
From Verif Require Import M_Base M_Userec M_Web.
Open Scope N_scope.

(** [u] is the first record of the table with that user id. *)
Definition first_user (us : list Userec) (uid : bytes) (u : Userec) : Prop :=
  exists before after, us = before ++ u :: after /\ u_userid u = uid /\ Forall (fun v => u_userid v <> uid) before.
Definition no_user (us : list Userec) (uid : bytes) : Prop := Forall (fun v => u_userid v <> uid) us.

(** [v] is the first value of the form field [k]; a missing field is empty. *)
Definition form_value (f : list (bytes * bytes)) (k v : bytes) : Prop :=
  (exists before after, f = before ++ (k, v) :: after /\ Forall (fun p => fst p <> k) before) \/
  (v = [] /\ Forall (fun p => fst p <> k) f).

(** the number of occurrences of a byte *)
Definition count (c : byte) (s : bytes) : nat := length (filter (Byte.eqb c) s).

(** A token is valid for a user at a time. *)
Definition valid (t : token) (uid : bytes) (now : Z) : Prop := t_subject t = uid /\ (now <= t_expires t)%Z.

(** The same request with another Authorization header. *)
Definition with_authorization (r : request) (a : bytes) : request :=
  Request (r_method r) (r_path r) a (r_form r).
