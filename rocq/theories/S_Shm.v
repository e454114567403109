(** * Specification of shared memory

    Shared memory is a table from names (keys and paths) to areas of bytes, and a
    list of open handles on such areas.  No addresses, no pages, no descriptors. *)
From Verif Require Import M_Base M_Sys M_Shm S_World.
Open Scope N_scope.

Inductive name := Key (k : N) | Path (rp : rpath).
Record shared := Shared {
  s_name : name -> option region;                  (* what is found under a name *)
  s_data : region -> option bytes;                 (* the areas in existence *)
  s_open : list (option (region * N)) }.           (* the handles: area and length; None: closed *)

Definition name_eq_dec (a b : name) : {a = b} + {a <> b}.
Proof. decide equality; [apply N.eq_dec|apply rp_eq_dec]. Defined.
Definition region_eq_dec (a b : region) : {a = b} + {a <> b}.
Proof. decide equality; apply N.eq_dec. Defined.

Definition with_name (s : shared) (n : name) (v : option region) : shared :=
  Shared (fun x => if name_eq_dec x n then v else s_name s x) (s_data s) (s_open s).
Definition with_data (s : shared) (r : region) (d : bytes) : shared :=
  Shared (s_name s) (fun x => if region_eq_dec x r then Some d else s_data s x) (s_open s).
Definition with_handle (s : shared) (r : region) (len : N) : shared :=
  Shared (s_name s) (s_data s) (s_open s ++ [Some (r, len)]).
Definition without_handle (s : shared) (h : nat) : shared :=
  Shared (s_name s) (s_data s) (upd_nth h None (s_open s)).

(** A handle of [len] bytes on [r] is opened, unless there is no room in memory. *)
Definition taken (s : shared) (r : region) (len : N) (s' : shared) (rep : reply) : Prop :=
  (rep = Opened len /\ s' = with_handle s r len) \/ (rep = NoMem /\ s' = s).

Section Steps.
(** the working directory, the directories, the largest segment *)
Variables (cwd : rpath) (isdir : rpath -> bool) (max : N).

Definition the_key (key : Z) : N := Z.to_N (key mod 2 ^ 32).

(** a file created anew or emptied, then filled with zeros up to [size] *)
Definition file_created (s : shared) (r : region) (size : Z) (s' : shared) (rep : reply) : Prop :=
  if (size <=? 0)%Z then s' = with_data s r [] /\ rep = Failed EINVAL
  else taken (with_data s r (zeros (Z.to_N size))) r (Z.to_N size) s' rep.
(** a new segment of zeros *)
Definition seg_created (s : shared) (k : option N) (size : Z) (s' : shared) (rep : reply) : Prop :=
  if (1 <=? size)%Z && (size <=? Z.of_N max)%Z then
    exists r, s_data s r = None /\
      taken (with_data (match k with Some k => with_name s (Key k) (Some r) | None => s end) r (zeros (Z.to_N size)))
        r (Z.to_N size) s' rep
  else s' = s /\ rep = Failed EINVAL.

(** reading or writing byte [i] through a handle of [len] bytes on an area holding [d] *)
Definition byte_of (len i : N) (d : bytes) (ok : reply) : reply :=
  if len <=? i then PanicIndex
  else if i <? lenN d then ok
  else if i <? 4096 * ((lenN d + 4095) / 4096) then StrayByte else Fault.

Definition uses_closed (s : shared) (o : op) : Prop :=
  match o with
  | OClose h | OGet h _ | OPut h _ _ => nth_error (s_open s) h = Some None
  | _ => False
  end.

Definition meets (o : op) (s s' : shared) (rep : reply) : Prop :=
  match o with
  | OCreateFile _ _ path size =>
      let rp := resolve cwd path in
      if isdir rp then s' = s /\ rep = Failed EISDIR
      else match s_name s (Path rp) with
           | Some r => file_created s r size s' rep
           | None =>
               if isdir (removelast rp) then
                 exists r, s_data s r = None /\ file_created (with_name s (Path rp) (Some r)) r size s' rep
               else s' = s /\ (rep = Failed ENOENT \/ rep = Failed ENOTDIR)
           end
  | OOpenFile _ _ path =>
      let rp := resolve cwd path in
      if isdir rp then s' = s /\ rep = Failed EISDIR
      else match s_name s (Path rp) with
           | Some r => match s_data s r with
                       | Some ((_ :: _) as d) => taken s r (lenN d) s' rep
                       | _ => s' = s /\ rep = Failed EINVAL
                       end
           | None => s' = s /\ (rep = Failed ENOENT \/ rep = Failed ENOTDIR)
           end
  | ORemoveFile path =>
      let rp := resolve cwd path in
      if isdir rp then s' = s /\ rep = Failed EISDIR
      else match s_name s (Path rp) with
           | Some _ => s' = with_name s (Path rp) None /\ rep = Done
           | None => s' = s /\ (rep = Failed ENOENT \/ rep = Failed ENOTDIR)
           end
  | OCreateKey _ _ key size =>
      let k := the_key key in
      if k =? 0 then seg_created s None size s' rep
      else match s_name s (Key k) with
           | None => if (size =? 0)%Z then s' = s /\ rep = Failed ENOENT else seg_created s (Some k) size s' rep
           | Some r => exists d, s_data s r = Some d /\
               if (size <? 0)%Z || (Z.of_N (lenN d) <? size)%Z then s' = s /\ rep = Failed EINVAL
               else taken s r (if (size =? 0)%Z then lenN d else Z.to_N size) s' rep
           end
  | OOpenKey _ _ key =>
      let k := the_key key in
      if k =? 0 then s' = s /\ rep = Failed EINVAL
      else match s_name s (Key k) with
           | None => s' = s /\ rep = Failed ENOENT
           | Some r => exists d, s_data s r = Some d /\ taken s r (lenN d) s' rep
           end
  | ORemoveKey key =>
      let k := the_key key in
      if k =? 0 then s' = s /\ rep = Failed EINVAL
      else match s_name s (Key k) with
           | None => s' = s /\ rep = Failed ENOENT
           | Some _ => s' = with_name s (Key k) None /\ rep = Done
           end
  | OClose h => match nth_error (s_open s) h with
                | None => s' = s /\ rep = NoHandle
                | Some _ => s' = without_handle s h /\ rep = Done
                end
  | OGet h i => match nth_error (s_open s) h with
                | Some (Some (r, len)) => exists d, s_data s r = Some d /\
                    s' = s /\ rep = byte_of len i d (ByteIs (nth (N.to_nat i) d x00))
                | _ => s' = s /\ rep = NoHandle
                end
  | OPut h i b => match nth_error (s_open s) h with
                  | Some (Some (r, len)) => exists d, s_data s r = Some d /\
                      rep = byte_of len i d Done /\
                      s' = match rep with Done => with_data s r (firstn (N.to_nat i) d ++ b :: skipn (S (N.to_nat i)) d) | _ => s end
                  | _ => s' = s /\ rep = NoHandle
                  end
  end.

Inductive meets_all : list op -> shared -> shared -> list reply -> Prop :=
| mall_nil s : meets_all [] s s []
| mall_cons o os s s1 s2 r rs : ~ uses_closed s o -> meets o s s1 r -> meets_all os s1 s2 rs -> meets_all (o :: os) s s2 (r :: rs).
End Steps.

(** At the start: the files of the file system, no segments, no handles. *)
Definition at_boot (w : world) : shared :=
  Shared (fun n => match n with
                   | Path (c :: rp) => match w_tree w (c :: rp) with Some (NFile i) => Some (RFile i) | _ => None end
                   | _ => None end)
         (fun r => match r with RFile i => if i <? w_nexti w then Some (w_data w i) else None | RSeg _ => None end)
         [].
(** The files are those of the table. *)
Definition files_are (w : world) (s : shared) : Prop :=
  forall rp, match s_name s (Path rp) with
             | Some r => exists d, s_data s r = Some d /\ look w rp = Some (EFile d)
             | None => look w rp = None \/ look w rp = Some EDir
             end.
Definition path_proper (o : op) : Prop :=
  match o with
  | OCreateFile _ _ path _ | OOpenFile _ _ path | ORemoveFile path => proper path
  | _ => True
  end.

(** No handle is used once it was closed. *)
Definition target (o : op) : option nat :=
  match o with OClose h | OGet h _ | OPut h _ _ => Some h | _ => None end.
Definition careful (os : list op) : Prop :=
  forall before h between o after, os = before ++ OClose h :: between ++ o :: after -> target o <> Some h.
