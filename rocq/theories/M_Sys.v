(** * Operating-system model: files, descriptors, system calls, schedules.

    This is the environment in which the functions of /repo run.  It is not
    code of /repo; it states what the model assumes about POSIX files (see the
    trusted base in DESIGN.md). *)
From Verif Require Import M_Base.

(** ** Paths *)

(** Path components after normalisation: a file is addressed by the list of
    its components from the root.  "", "." are dropped, ".." removes the last
    component; symbolic links are not modelled. *)
Definition rpath := list bytes.

(** Components of a path string, separated by '/'. *)
Fixpoint path_split (p cur : bytes) : list bytes :=
  match p with
  | [] => [rev cur]
  | b :: p' => if Byte.eqb b x2f then rev cur :: path_split p' [] else path_split p' (b :: cur)
  end.

Definition dot : bytes := [x2e].
Definition dotdot : bytes := [x2e; x2e].

(** One normalisation step; the accumulator is the reversed component list. *)
Definition path_step (acc : list bytes) (c : bytes) : list bytes :=
  if beqb c [] then acc
  else if beqb c dot then acc
  else if beqb c dotdot then tl acc
  else c :: acc.

Definition is_abs (p : bytes) : bool :=
  match p with b :: _ => Byte.eqb b x2f | [] => false end.

Definition resolve (cwd : rpath) (p : bytes) : rpath :=
  rev (fold_left path_step (path_split p []) (if is_abs p then [] else rev cwd)).

(** ** World *)

Inductive node := NDir | NFile (ino : N).

(** An open file description. *)
Record ofile := OFile {
  of_ino : option N;      (* None: a directory *)
  of_pos : N;
  of_append : bool;
  of_rd : bool;
  of_wr : bool }.

Record world := World {
  w_cwd : rpath;
  w_tree : rpath -> option node;
  w_data : N -> bytes;
  w_nexti : N;
  w_fds : N -> option ofile;
  w_nextfd : N;
  w_clock : nat -> Z;       (* successive values of time.Now().Unix() *)
  w_rand : nat -> N;        (* successive values of rand.Intn *)
  w_tick : nat;
  w_rtick : nat }.

Definition rp_eq_dec (a b : rpath) : {a = b} + {a <> b} :=
  list_eq_dec (list_eq_dec Byte.byte_eq_dec) a b.

Definition set_tree (w : world) (p : rpath) (n : option node) : world :=
  World (w_cwd w) (fun q => if rp_eq_dec q p then n else w_tree w q) (w_data w) (w_nexti w)
        (w_fds w) (w_nextfd w) (w_clock w) (w_rand w) (w_tick w) (w_rtick w).
Definition set_data (w : world) (i : N) (d : bytes) : world :=
  World (w_cwd w) (w_tree w) (fun j => if N.eq_dec j i then d else w_data w j) (w_nexti w)
        (w_fds w) (w_nextfd w) (w_clock w) (w_rand w) (w_tick w) (w_rtick w).
Definition set_fd (w : world) (fd : N) (o : option ofile) : world :=
  World (w_cwd w) (w_tree w) (w_data w) (w_nexti w)
        (fun j => if N.eq_dec j fd then o else w_fds w j) (w_nextfd w)
        (w_clock w) (w_rand w) (w_tick w) (w_rtick w).
Definition bump_ino (w : world) : world :=
  World (w_cwd w) (w_tree w) (w_data w) (N.succ (w_nexti w))
        (w_fds w) (w_nextfd w) (w_clock w) (w_rand w) (w_tick w) (w_rtick w).
Definition bump_fd (w : world) : world :=
  World (w_cwd w) (w_tree w) (w_data w) (w_nexti w)
        (w_fds w) (N.succ (w_nextfd w)) (w_clock w) (w_rand w) (w_tick w) (w_rtick w).
Definition bump_tick (w : world) : world :=
  World (w_cwd w) (w_tree w) (w_data w) (w_nexti w)
        (w_fds w) (w_nextfd w) (w_clock w) (w_rand w) (S (w_tick w)) (w_rtick w).
Definition bump_rtick (w : world) : world :=
  World (w_cwd w) (w_tree w) (w_data w) (w_nexti w)
        (w_fds w) (w_nextfd w) (w_clock w) (w_rand w) (w_tick w) (S (w_rtick w)).

(** ** System calls *)

Record oflags := OFlags {
  o_rd : bool; o_wr : bool; o_append : bool; o_creat : bool; o_excl : bool; o_trunc : bool }.

Inductive res (A : Type) := ROk (a : A) | RErr (e : errno).
Arguments ROk {A} a.
Arguments RErr {A} e.

Inductive sys : Type -> Type :=
| Open (p : bytes) (fl : oflags) : sys (res N)
| Read (fd n : N) : sys (res bytes)            (* empty data: end of file *)
| ReadAll (fd : N) : sys (res bytes)            (* read until end of file *)
| Write (fd : N) (d : bytes) : sys (res N)
| SeekSet (fd : N) (off : Z) : sys (res N)
| SeekCur0 (fd : N) : sys (res N)              (* Seek(0, SEEK_CUR) *)
| Ftruncate (fd : N) (n : N) : sys (res unit)
| Close (fd : N) : sys unit
| Stat (p : bytes) : sys (res bool)            (* true: directory *)
| Unlink (p : bytes) : sys (res unit)
| Now : sys Z
| Rand (n : N) : sys N.

(** All proper non-empty ancestors of a resolved path. *)
Definition ancestors (p : rpath) : list rpath :=
  map (fun k => firstn k p) (seq 1 (pred (List.length p))).
Definition is_file (n : option node) : bool :=
  match n with Some (NFile _) => true | _ => false end.
(** Why a name that is not in the tree cannot be found. *)
Definition missing (w : world) (p : rpath) : errno :=
  if existsb (fun a => is_file (w_tree w a)) (ancestors p) then ENOTDIR else ENOENT.

Definition parent (p : rpath) : rpath := removelast p.
Definition is_dir (w : world) (p : rpath) : bool :=
  match p with
  | [] => true
  | _ => match w_tree w p with Some NDir => true | _ => false end
  end.
Definition has_nul (p : bytes) : bool := existsb (fun b => Byte.eqb b x00) p.

Definition sys_open (p : bytes) (fl : oflags) (w : world) : world * res N :=
  if has_nul p then (w, RErr EINVAL) else
  if beqb p [] then (w, RErr ENOENT) else
  let rp := resolve (w_cwd w) p in
  let fd := w_nextfd w in
  match (if is_dir w rp then Some NDir else w_tree w rp) with
  | Some NDir =>
      if o_creat fl && o_excl fl then (w, RErr EEXIST)
      else if o_wr fl || o_creat fl then (w, RErr EISDIR)
      else (bump_fd (set_fd w fd (Some (OFile None 0 false true false))), ROk fd)
  | Some (NFile i) =>
      if o_creat fl && o_excl fl then (w, RErr EEXIST)
      else
        let w1 := if o_trunc fl then set_data w i [] else w in
        (bump_fd (set_fd w1 fd (Some (OFile (Some i) 0 (o_append fl) (o_rd fl) (o_wr fl)))), ROk fd)
  | None =>
      if o_creat fl then
        if is_dir w (parent rp) then
          let i := w_nexti w in
          let w1 := bump_ino (set_data (set_tree w rp (Some (NFile i))) i []) in
          (bump_fd (set_fd w1 fd (Some (OFile (Some i) 0 (o_append fl) (o_rd fl) (o_wr fl)))), ROk fd)
        else (w, RErr (missing w rp))
      else (w, RErr (missing w rp))
  end.

(** Write [d] at byte position [pos], zero-filling a hole. *)
Definition write_at (pos : N) (d old : bytes) : bytes :=
  match d with
  | [] => old
  | _ => firstn (N.to_nat pos) (old ++ zeros (pos - lenN old)) ++ d
         ++ skipn (N.to_nat pos + List.length d) old
  end.

Definition sys_read (fd n : N) (w : world) : world * res bytes :=
  match w_fds w fd with
  | Some o =>
      match of_ino o with
      | None => (w, RErr EISDIR)
      | Some i =>
          if of_rd o then
            let d := sub (of_pos o) n (w_data w i) in
            (set_fd w fd (Some (OFile (Some i) (of_pos o + lenN d) (of_append o) (of_rd o) (of_wr o))), ROk d)
          else (w, RErr EBADF)
      end
  | None => (w, RErr EBADF)
  end.

(** The library loop "read until EOF" (ioutil.ReadAll) as one step: everything
    from the current position on. *)
Definition sys_read_all (fd : N) (w : world) : world * res bytes :=
  match w_fds w fd with
  | Some o =>
      match of_ino o with
      | None => (w, RErr EISDIR)
      | Some i =>
          if of_rd o then
            let d := skipn (N.to_nat (of_pos o)) (w_data w i) in
            (set_fd w fd (Some (OFile (Some i) (of_pos o + lenN d) (of_append o) (of_rd o) (of_wr o))), ROk d)
          else (w, RErr EBADF)
      end
  | None => (w, RErr EBADF)
  end.

Definition sys_write (fd : N) (d : bytes) (w : world) : world * res N :=
  match w_fds w fd with
  | Some o =>
      match of_ino o with
      | None => (w, RErr EBADF)
      | Some i =>
          if of_wr o then
            let pos := if of_append o then lenN (w_data w i) else of_pos o in
            let w1 := set_data w i (write_at pos d (w_data w i)) in
            (set_fd w1 fd (Some (OFile (Some i) (pos + lenN d) (of_append o) (of_rd o) (of_wr o))), ROk (lenN d))
          else (w, RErr EBADF)
      end
  | None => (w, RErr EBADF)
  end.

Definition sys_seek_set (fd : N) (off : Z) (w : world) : world * res N :=
  match w_fds w fd with
  | Some o =>
      if (off <? 0)%Z then (w, RErr EINVAL)
      else (set_fd w fd (Some (OFile (of_ino o) (Z.to_N off) (of_append o) (of_rd o) (of_wr o))), ROk (Z.to_N off))
  | None => (w, RErr EBADF)
  end.

Definition sys_seek_cur0 (fd : N) (w : world) : world * res N :=
  match w_fds w fd with
  | Some o => (w, ROk (of_pos o))
  | None => (w, RErr EBADF)
  end.

Definition truncate_to (n : N) (d : bytes) : bytes :=
  firstn (N.to_nat n) d ++ zeros (n - lenN d).

Definition sys_ftruncate (fd n : N) (w : world) : world * res unit :=
  match w_fds w fd with
  | Some o =>
      match of_ino o with
      | None => (w, RErr EINVAL)
      | Some i =>
          if of_wr o then (set_data w i (truncate_to n (w_data w i)), ROk tt)
          else (w, RErr EINVAL)
      end
  | None => (w, RErr EBADF)
  end.

Definition sys_stat (p : bytes) (w : world) : world * res bool :=
  if has_nul p then (w, RErr EINVAL) else
  if beqb p [] then (w, RErr ENOENT) else
  let rp := resolve (w_cwd w) p in
  if is_dir w rp then (w, ROk true)
  else match w_tree w rp with
  | Some NDir => (w, ROk true)
  | Some (NFile _) => (w, ROk false)
  | None => (w, RErr (missing w rp))
  end.

(** unlink(2); os.Remove falls back to rmdir(2), whose effect on directories
    is not modelled (removing a directory is reported as an error here). *)
Definition sys_unlink (p : bytes) (w : world) : world * res unit :=
  if has_nul p then (w, RErr EINVAL) else
  if beqb p [] then (w, RErr ENOENT) else
  let rp := resolve (w_cwd w) p in
  if is_dir w rp then (w, RErr EISDIR)
  else match w_tree w rp with
  | Some NDir => (w, RErr EISDIR)
  | Some (NFile _) => (set_tree w rp None, ROk tt)
  | None => (w, RErr (missing w rp))
  end.

Definition exec {R} (c : sys R) (w : world) : world * R :=
  match c with
  | Open p fl => sys_open p fl w
  | Read fd n => sys_read fd n w
  | ReadAll fd => sys_read_all fd w
  | Write fd d => sys_write fd d w
  | SeekSet fd off => sys_seek_set fd off w
  | SeekCur0 fd => sys_seek_cur0 fd w
  | Ftruncate fd n => sys_ftruncate fd n w
  | Close fd => (set_fd w fd None, tt)
  | Stat p => sys_stat p w
  | Unlink p => sys_unlink p w
  | Now => (bump_tick w, w_clock w (w_tick w))
  | Rand n => (bump_rtick w, N.modulo (w_rand w (w_rtick w)) n)
  end.

(** ** Programs *)

Inductive prog (A : Type) : Type :=
| Ret (a : A)
| Call {R : Type} (c : sys R) (k : R -> prog A).
Arguments Ret {A} a.
Arguments Call {A R} c k.

Fixpoint bind {A B} (p : prog A) (f : A -> prog B) : prog B :=
  match p with
  | Ret a => f a
  | Call c k => Call c (fun r => bind (k r) f)
  end.

(** [x, err := f(); if err != nil { return err }] for programs. *)
Definition pbind {A B} (p : prog (outcome A)) (f : A -> prog (outcome B)) : prog (outcome B) :=
  bind p (fun o => match o with
                   | Ok a => f a | Err e => Ret (Err e)
                   | Panic => Ret Panic | Diverge => Ret Diverge end).

(** A pure outcome as a program. *)
Definition lift {A} (o : outcome A) : prog (outcome A) := Ret o.

(** Sequential execution. *)
Fixpoint run {A} (p : prog A) (w : world) : world * A :=
  match p with
  | Ret a => (w, a)
  | Call c k => let '(w', r) := exec c w in run (k r) w'
  end.

(** ** Crashes: the process stops after any number of system calls; a write
    in progress may have transferred any prefix of its data. *)
Definition partial_effect {R} (c : sys R) (w w' : world) : Prop :=
  match c with
  | Write fd d => exists n, w' = fst (sys_write fd (firstn n d) w)
  | _ => False
  end.

Fixpoint crash {A} (p : prog A) (w w' : world) : Prop :=
  w' = w \/
  match p with
  | Ret _ => False
  | Call c k => partial_effect c w w' \/
                (let '(w1, r) := exec c w in crash (k r) w1 w')
  end.

(** ** Schedules: a pool of programs, one system call at a time. *)
Definition step1 {A} (p : prog A) (w : world) : world * prog A :=
  match p with
  | Ret a => (w, Ret a)
  | Call c k => let '(w', r) := exec c w in (w', k r)
  end.

Fixpoint upd_nth {A} (n : nat) (x : A) (l : list A) : list A :=
  match l, n with
  | [], _ => []
  | _ :: l', O => x :: l'
  | y :: l', S n' => y :: upd_nth n' x l'
  end.

(** The schedule is the list of process numbers that take the next step. *)
Fixpoint run_pool {A} (sched : list nat) (w : world) (ps : list (prog A)) : world * list (prog A) :=
  match sched with
  | [] => (w, ps)
  | i :: sched' =>
      match nth_error ps i with
      | Some p => let '(w', p') := step1 p w in run_pool sched' w' (upd_nth i p' ps)
      | None => run_pool sched' w ps
      end
  end.

(** Completed processes and their results. *)
Definition finished {A} (p : prog A) : option A :=
  match p with Ret a => Some a | Call _ _ => None end.

(** ** Observation *)

(** Content of the regular file named [p], if there is one. *)
Definition content (w : world) (p : bytes) : option bytes :=
  match w_tree w (resolve (w_cwd w) p) with
  | Some (NFile i) => Some (w_data w i)
  | _ => None
  end.

(** Common open flags of package os. *)
Definition O_RDONLY := OFlags true false false false false false.   (* os.Open *)
Definition O_APPEND_CREATE_WRONLY := OFlags false true true true false false.
Definition O_APPEND_WRONLY := OFlags false true true false false false.
Definition O_WRONLY := OFlags false true false false false false.
Definition O_WRONLY_CREATE := OFlags false true false true false false.
Definition O_WRONLY_CREATE_EXCL := OFlags false true false true true false.
Definition O_WRONLY_CREATE_TRUNC := OFlags false true false true false true.

(** ioutil.ReadFile: open, read to the end, close. *)
Definition read_file (p : bytes) : prog (outcome bytes) :=
  Call (Open p O_RDONLY) (fun r =>
  match r with
  | RErr e => Ret (Err (ESys e))
  | ROk fd =>
      Call (ReadAll fd) (fun r =>
      Call (Close fd) (fun _ =>
      match r with
      | RErr e => Ret (Err (ESys e))
      | ROk d => Ret (Ok d)
      end))
  end).

(** ioutil.WriteFile: open with O_TRUNC, one write, close. *)
Definition write_file (p d : bytes) : prog (outcome unit) :=
  Call (Open p O_WRONLY_CREATE_TRUNC) (fun r =>
  match r with
  | RErr e => Ret (Err (ESys e))
  | ROk fd =>
      Call (Write fd d) (fun r =>
      Call (Close fd) (fun _ =>
      match r with
      | RErr e => Ret (Err (ESys e))
      | ROk _ => Ret (Ok tt)
      end))
  end).
