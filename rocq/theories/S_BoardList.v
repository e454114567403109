(** * Specification: boards as lists of records *)
From Verif Require Import M_Base M_Sys M_Path M_File M_FileOps M_DB S_World S_Path S_Layout S_File.
Open Scope N_scope.

(** A program with a loop bound returns [a] and leaves [w'] if it does so for
    some bound (and then, as [returns_unique] shows, for no other result). *)
Definition returns {A} (p : nat -> prog (outcome A)) (w w' : world) (a : outcome A) : Prop :=
  a <> Diverge /\ exists fuel, run (p fuel) w = (w', a).

(** ** Operations on boards and their meaning on lists *)
Inductive bop :=
| Add (b : bytes) (f : FileHeader)
| Update (b : bytes) (i : N) (f : FileHeader)
| List_ (b : bytes).

Definition bop_board (o : bop) : bytes := match o with Add b _ | Update b _ _ | List_ b => b end.

(** What the caller gets: a success, an error, or a list of records. *)
Definition bout := outcome (list FileHeader).

(** The library calls. *)
Definition bop_prog (cd : codec) (wd : bytes) (o : bop) (fuel : nat) : prog bout :=
  match o with
  | Add b f => pbind (AddArticleRecordFileRecord cd wd b f) (fun _ => Ret (Ok []))
  | Update b i f => pbind (UpdateArticleRecord cd wd b i f) (fun _ => Ret (Ok []))
  | List_ b => ReadBoardArticleRecordsFile cd fuel wd b
  end.

(** The record that an all-zero slot reads as. *)
Definition blank (cd : codec) : FileHeader :=
  MkFileHeader [] 0%Z 0%Z [] [] (dec cd []) 0%Z 0%Z 0 0 0 0 0.

(** Replace the [i]-th element; beyond the end the gap is filled. *)
Fixpoint set_at {A} (gap : A) (i : nat) (x : A) (l : list A) : list A :=
  match i, l with
  | O, [] => [x]
  | O, _ :: l' => x :: l'
  | S i', [] => gap :: set_at gap i' x []
  | S i', y :: l' => y :: set_at gap i' x l'
  end.

(** The state is one list per board; an update of a board that has no index file
    yet is an error. *)
Record bstate := BState { bs_list : bytes -> list FileHeader; bs_exists : bytes -> bool }.
Definition bs_set (s : bstate) (b : bytes) (l : list FileHeader) : bstate :=
  BState (fun c => if beqb c b then l else bs_list s c) (fun c => if beqb c b then true else bs_exists s c).
Definition bop_spec (cd : codec) (o : bop) (s : bstate) : bstate * bout :=
  match o with
  | Add b f => (bs_set s b (bs_list s b ++ [file_image f]), Ok [])
  | Update b i f =>
      if bs_exists s b
      then (bs_set s b (set_at (blank cd) (N.to_nat i) (file_image f) (bs_list s b)), Ok [])
      else (s, Err (ESys ENOENT))
  | List_ b => (s, Ok (bs_list s b))
  end.
Fixpoint bops_spec (cd : codec) (os : list bop) (s : bstate) : bstate * list bout :=
  match os with
  | [] => (s, [])
  | o :: os' => let '(s1, r) := bop_spec cd o s in let '(s2, rs) := bops_spec cd os' s1 in (s2, r :: rs)
  end.

(** Operations whose arguments are representable. *)
Definition bop_ok (cd : codec) (o : bop) : Prop :=
  ident (bop_board o) /\
  match o with
  | Add _ f => file_fits cd f
  | Update _ i f => file_fits cd f /\ i < 2 ^ 56
  | List_ _ => True
  end.

(** Executing a history. *)
Inductive bexec (cd : codec) (wd : bytes) : list bop -> world -> world -> list bout -> Prop :=
| bexec_nil w : bexec cd wd [] w w []
| bexec_cons o os w w1 w2 r rs :
    returns (bop_prog cd wd o) w w1 r -> bexec cd wd os w1 w2 rs ->
    bexec cd wd (o :: os) w w2 (r :: rs).

(** The world [w] holds the state [s] for the boards in [B]. *)
Definition holds (cd : codec) (w : world) (wd : bytes) (B : bytes -> Prop) (s : bstate) : Prop :=
  forall b, B b -> ident b ->
  exists p rp, object_path wd (Index b) = Ok p /\ names w p rp /\ has_dir w rp /\
  if bs_exists s b then
    exists recs, look w rp = Some (EFile (concat recs)) /\
      Forall2 (fun r f => length r = 128%nat /\ NewFileHeaderWithByte cd r = Ok f) recs (bs_list s b)
  else look w rp = None /\ bs_list s b = [].
