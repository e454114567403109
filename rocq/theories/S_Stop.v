(** * Specification: processes that are stopped while the disk fails *)
From Verif Require Import M_Base M_Sys M_File M_BbsTool M_FileOps M_DB M_Fault M_Stop.
From Verif Require Import S_World S_Path S_File S_Store S_Crash S_Fault S_Create S_BbsTool S_Post S_PostFault.
Open Scope N_scope.

(** ** Calls of the library *)
(** One process after the other performs calls on a disk that fails; a call has got its
    answer, or the process was stopped during it. *)
Definition attempted := (call * option (outcome answer))%type.
Inductive lives (cd : codec) (wd : bytes) : list attempted -> world -> world -> Prop :=
| lives_nil w : lives cd wd [] w w
| lives_answered c r l w w1 w2 fuel :
    frun (call_prog cd wd c fuel) w w1 r -> r <> Diverge -> lives cd wd l w1 w2 -> lives cd wd ((c, Some r) :: l) w w2
| lives_stopped c l w w1 w2 fuel :
    fstop (call_prog cd wd c fuel) w w1 -> lives cd wd l w1 w2 -> lives cd wd ((c, None) :: l) w w2.

(** An answered call has done what it says or has met an error, as in C68; one that was
    stopped has left what an interruption leaves, as in C58. *)
Inductive lives_meet (cd : codec) (wd : bytes) : list attempted -> store -> store -> Prop :=
| lm_nil s : lives_meet cd wd [] s s
| lm_cons c x l s s1 s2 :
    match x with
    | Some r => call_meets cd c (s (call_object c)) (s1 (call_object c)) r \/ call_fails cd wd c (s (call_object c)) (s1 (call_object c)) r
    | None => torn cd c (s (call_object c)) (s1 (call_object c))
    end ->
    (forall o, o <> call_object c -> s1 o = s o) ->
    lives_meet cd wd l s1 s2 -> lives_meet cd wd ((c, x) :: l) s s2.

(** ** Posts *)
(** A post: what bbstool has said, or nothing because it was stopped. *)
Definition attempt := (message * option (outcome (list out)))%type.
Inductive attempts (cd : codec) (wd : bytes) : list attempt -> world -> world -> Prop :=
| att_nil w : attempts cd wd [] w w
| att_told m r l w w1 w2 fuel :
    frun (post_message cd fuel wd m) w w1 r -> attempts cd wd l w1 w2 -> attempts cd wd ((m, Some r) :: l) w w2
| att_stopped m l w w1 w2 fuel :
    fstop (post_message cd fuel wd m) w w1 -> attempts cd wd l w1 w2 -> attempts cd wd ((m, None) :: l) w w2.

(** What an attempt has done is one of the four results of C71; when something was said,
    it is the one that goes with it. *)
Definition deed_of (cd : codec) (a : attempt) (d : deed) : Prop :=
  d_msg d = fst a /\ deed_ok cd d /\ forall r, snd a = Some r -> d_said d = r.
