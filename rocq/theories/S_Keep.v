(** * Specification: clients that add boards while one of them removes a board *)
From Verif Require Import M_Base M_Sys M_Board M_FileOps M_DB S_World S_Board.
Open Scope N_scope.

(** What a client does: remove the board with a number, or add boards one after the other. *)
Inductive keeper := Removes (i : nat) | Adds (hs : list BoardHeader).
Fixpoint adds_from (cd : codec) (wd : bytes) (hs : list BoardHeader) (got : list (outcome unit)) : prog (list (outcome unit)) :=
  match hs with
  | [] => Ret (rev got)
  | h :: hs' => bind (AddBoardRecord cd wd h) (fun r => adds_from cd wd hs' (r :: got))
  end.
Definition keep (cd : codec) (chunk : nat -> N) (fuel : nat) (wd p : bytes) (k : keeper) : prog (list (outcome unit)) :=
  match k with
  | Removes i => bind (RemoveBoardHeaderFileRecord chunk fuel p (Z.of_nat i)) (fun r => Ret [r])
  | Adds hs => adds_from cd wd hs []
  end.

(** The additions in the order in which they happened: client and board. *)
Definition adds_log := list (nat * BoardHeader).
Definition adds_of (j : nat) (log : adds_log) : list BoardHeader := map snd (filter (fun e => Nat.eqb (fst e) j) log).
(** [es] are the records of these boards. *)
Definition records_of (cd : codec) (log : adds_log) (es : list bytes) : Prop := Forall2 (board_encoded cd) (map snd log) es.

(** One client removes the board [i]; all others add boards. *)
Definition one_remover (ks : list keeper) (r i : nat) : Prop :=
  nth_error ks r = Some (Removes i) /\
  forall j k, j <> r -> nth_error ks j = Some k -> exists hs, k = Adds hs.
(** What the clients that add boards have done and have been told. *)
Definition adders_right (ks : list keeper) (ps : list (prog (list (outcome unit)))) (log : adds_log) : Prop :=
  (forall j h, In (j, h) log -> exists hs, nth_error ks j = Some (Adds hs)) /\
  forall j hs, nth_error ks j = Some (Adds hs) ->
    (exists rest, hs = adds_of j log ++ rest) /\
    forall rs, nth_error ps j = Some (Ret rs) -> rs = repeat (Ok tt) (length hs) /\ adds_of j log = hs.
