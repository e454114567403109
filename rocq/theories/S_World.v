(** * Observing the file system (specification vocabulary) *)
From Verif Require Import M_Base M_Sys.
Open Scope N_scope.

(** What a path (as a list of components) designates. *)
Inductive entry := EDir | EFile (d : bytes).
Definition look (w : world) (p : rpath) : option entry :=
  match p with
  | [] => Some EDir
  | _ => match w_tree w p with
         | Some NDir => Some EDir
         | Some (NFile i) => Some (EFile (w_data w i))
         | None => None
         end
  end.

(** What a path string designates; path strings with a NUL byte and the empty
    string designate nothing. *)
Definition proper (p : bytes) : Prop := p <> [] /\ ~ In x00 p.
Definition names (w : world) (p : bytes) (rp : rpath) : Prop :=
  proper p /\ resolve (w_cwd w) p = rp.

(** A sane file system: inode and descriptor counters are fresh, no file has two
    names (no hard links), and everything lies in a directory. *)
Record sane (w : world) : Prop := {
  sane_ino : forall p i, w_tree w p = Some (NFile i) -> i < w_nexti w;
  sane_inj : forall p q i, w_tree w p = Some (NFile i) -> w_tree w q = Some (NFile i) -> p = q;
  sane_tree : forall p c, w_tree w (p ++ [c]) <> None -> p = [] \/ w_tree w p = Some NDir;
  sane_fd : forall fd, w_nextfd w <= fd -> w_fds w fd = None;
  sane_fdi : forall fd o i, w_fds w fd = Some o -> of_ino o = Some i -> i < w_nexti w }.

(** [w'] differs from [w] at most in what [rp] designates; in particular the
    table of open descriptors is the same. *)
Definition same_fds (w w' : world) : Prop := forall fd, w_fds w' fd = w_fds w fd.
Definition same_but (rp : rpath) (w w' : world) : Prop :=
  w_cwd w' = w_cwd w /\ (forall q, q <> rp -> look w' q = look w q) /\ same_fds w w'.
(** the same for all paths *)
Definition same_files (w w' : world) : Prop :=
  w_cwd w' = w_cwd w /\ (forall q, look w' q = look w q).

(** The directory in which [rp] lies exists. *)
Definition has_dir (w : world) (rp : rpath) : Prop := look w (removelast rp) = Some EDir.

(** ** Files of fixed-size records *)

(** [l] is the list of the [size]-byte slots of the file content [d]; a partial
    slot at the end is filled up with zero bytes. *)
Definition slots (size : nat) (d : bytes) (l : list bytes) : Prop :=
  Forall (fun s => length s = size) l /\
  exists k, concat l = d ++ repeat x00 k /\ (k < size)%nat.
