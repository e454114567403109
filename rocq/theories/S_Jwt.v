(** * Specification: base64url (RFC 4648) and compact tokens (RFC 7515, 7519) *)
From Verif Require Import M_Base S_Text S_Json.
Open Scope N_scope.

(** the [k] lowest bits of a number, highest first *)
Fixpoint bits (k : nat) (n : N) : list bool :=
  match k with O => [] | S k' => N.testbit n (N.of_nat k') :: bits k' n end.
Definition alphabet : bytes := str "ABCDEFGHIJKLMNOPQRSTUVWXYZabcdefghijklmnopqrstuvwxyz0123456789-_".
(** [s] is the data [d] in base64url without padding: six bits for each character, the
    last ones filled up with zeros. *)
Definition base64url (d s : bytes) : Prop :=
  exists vs fill, Forall2 (fun v c => nth_error alphabet (N.to_nat v) = Some c) vs s /\
    concat (map (bits 6) vs) = concat (map (fun b => bits 8 (b2n b)) d) ++ fill /\ Forall (eq false) fill /\ (length fill < 6)%nat.

(** A token with these header, payload and signature bytes. *)
Definition compact (s header payload signature : bytes) : Prop :=
  exists a b c, cuts "." s [a; b; c] /\ base64url header a /\ base64url payload b /\ base64url signature c.

(** The claims of a token whose payload is a JSON object (RFC 7519, section 4). *)
Definition claim (payload : bytes) (name : string) (v : json) : Prop :=
  exists m, json_text payload (JObj m) /\ In (text name, v) m.
(** Section 4.1.4: the current time must be before the expiration time.  A verifier that
    looks at the claim accepts at most such tokens. *)
Definition not_expired (payload : bytes) (now : Z) : Prop :=
  forall exp, claim payload "exp" (JNum exp) -> (now < exp)%Z.
