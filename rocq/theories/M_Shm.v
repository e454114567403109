(** * cache/mmap.go, mmap_unix.go, systemvshm.go, systemvshm_unix.go: shared memory

    The two ways of getting at the shared memory of the BBS: a file mapped into
    memory, and a System V segment found by its key (the Linux build; on Windows
    the functions only return errors, cache/mmap_windows.go, systemvshm_windows.go).

    The first part states what the model assumes about the kernel: mmap, munmap,
    shmget, shmat, shmdt, shmctl.  Processes are numbered; each has its own address
    space, given page by page.  Permissions and limits on the number of segments,
    files or descriptors are not modelled. *)
From Verif Require Import M_Base M_Sys.
Open Scope N_scope.

Definition page_size : N := 4096.
(** the number of pages that hold [n] bytes *)
Definition pages (n : N) : N := (n + (page_size - 1)) / page_size.

(** What a page of memory shows: a page of a file or of a segment. *)
Inductive region := RFile (ino : N) | RSeg (id : N).

Record mem := Mem {
  m_world : world;                              (* the files *)
  m_seg : N -> option bytes;                    (* content of the segments *)
  m_key : N -> option N;                        (* keys of the segments, 1 .. 2^32-1 *)
  m_nseg : N;                                   (* next segment id *)
  m_max : N;                                    (* largest segment: /proc/sys/kernel/shmmax *)
  m_page : N -> N -> option (region * N);       (* process, page number *)
  m_active : list (N * N * N) }.                (* process, first page, length: see [munmap] *)

Definition set_world (m : mem) (w : world) : mem :=
  Mem w (m_seg m) (m_key m) (m_nseg m) (m_max m) (m_page m) (m_active m).
Definition set_seg (m : mem) (id : N) (d : bytes) : mem :=
  Mem (m_world m) (fun j => if j =? id then Some d else m_seg m j) (m_key m) (m_nseg m) (m_max m) (m_page m) (m_active m).
Definition set_key (m : mem) (k : N) (v : option N) : mem :=
  Mem (m_world m) (m_seg m) (fun j => if j =? k then v else m_key m j) (m_nseg m) (m_max m) (m_page m) (m_active m).
Definition set_nseg (m : mem) (n : N) : mem :=
  Mem (m_world m) (m_seg m) (m_key m) n (m_max m) (m_page m) (m_active m).
Definition set_page (m : mem) (f : N -> N -> option (region * N)) : mem :=
  Mem (m_world m) (m_seg m) (m_key m) (m_nseg m) (m_max m) f (m_active m).
Definition set_active (m : mem) (l : list (N * N * N)) : mem :=
  Mem (m_world m) (m_seg m) (m_key m) (m_nseg m) (m_max m) (m_page m) l.

(** Errors: of the system calls, or no room in memory. *)
Inductive merr := MSys (e : errno) | MNoMem.
Inductive mres (A : Type) := MOk (a : A) | MErr (e : merr).
Arguments MOk {A} a.
Arguments MErr {A} e.

(** ** The address space *)

Definition in_range (a n p : N) : bool := (a <=? p) && (p <? a + n).
(** pages [a], ..., [a+n-1] of process [p] are free; page 0 is never used *)
Definition is_none {A} (o : option A) : bool := match o with None => true | Some _ => false end.
Definition range_free (m : mem) (p a n : N) : bool :=
  negb (a =? 0) && forallb (fun k => is_none (m_page m p (a + N.of_nat k))) (seq 0 (N.to_nat n)).
Definition map_range (m : mem) (p a n : N) (r : region) : mem :=
  set_page m (fun q x => if (q =? p) && in_range a n x then Some (r, x - a) else m_page m q x).
Definition unmap_range (m : mem) (p a n : N) : mem :=
  set_page m (fun q x => if (q =? p) && in_range a n x then None else m_page m q x).

(** mmap(NULL, len, PROT_READ|PROT_WRITE, MAP_SHARED, fd, 0) by process [p]; the
    kernel chooses the address: [a] is its choice, any free range will do. *)
Definition sys_mmap (p a fd len : N) (m : mem) : mem * mres N :=
  match w_fds (m_world m) fd with
  | Some (OFile (Some i) _ _ true true) =>
      if range_free m p a (pages len) then (map_range m p a (pages len) (RFile i), MOk a) else (m, MErr MNoMem)
  | _ => (m, MErr (MSys EBADF))
  end.

(** golang.org/x/sys/unix mmapper.Mmap: refuses a length of 0, remembers the slice. *)
Definition Mmap_slice (p a fd len : N) (m : mem) : mem * mres N :=
  if len =? 0 then (m, MErr (MSys EINVAL))
  else match sys_mmap p a fd len m with
       | (m1, MOk a) => (set_active m1 ((p, a, len) :: m_active m1), MOk a)
       | (m1, MErr e) => (m1, MErr e)
       end.
(** golang.org/x/sys/unix mmapper.Munmap: only a slice that Mmap returned and that
    has not been unmapped, recognised by its first and last address. *)
Definition same_slice (x y : N * N * N) : bool :=
  let '(p, a, n) := x in let '(p', a', n') := y in (p =? p') && (a =? a') && (n =? n').
Definition Munmap_slice (p a len : N) (m : mem) : mem * mres unit :=
  if (len =? 0) || negb (existsb (same_slice (p, a, len)) (m_active m)) then (m, MErr (MSys EINVAL))
  else (unmap_range (set_active m (filter (fun x => negb (same_slice (p, a, len) x)) (m_active m))) p a (pages len), MOk tt).

(** shmget(2).  The key is a 32-bit number; key 0 is IPC_PRIVATE: always a new
    segment.  The size is unsigned: a negative one is enormous. *)
Definition key32 (key : Z) : N := Z.to_N (key mod 2 ^ 32).
Definition new_seg (k : option N) (size : Z) (m : mem) : mem * mres N :=
  if (size <? 1)%Z || (Z.of_N (m_max m) <? size)%Z then (m, MErr (MSys EINVAL))
  else let id := m_nseg m in
       let m1 := set_nseg (set_seg m id (zeros (Z.to_N size))) (id + 1) in
       (match k with None => m1 | Some k => set_key m1 k (Some id) end, MOk id).
Definition shmget (key size : Z) (create : bool) (m : mem) : mem * mres N :=
  let k := key32 key in
  if k =? 0 then new_seg None size m
  else match m_key m k with
       | None => if create then new_seg (Some k) size m else (m, MErr (MSys ENOENT))
       | Some id =>
           match m_seg m id with
           | Some d => if (size <? 0)%Z || (Z.of_N (lenN d) <? size)%Z then (m, MErr (MSys EINVAL)) else (m, MOk id)
           | None => (m, MErr (MSys ENOENT))
           end
       end.
(** shmat(2): the whole segment, at a place the kernel chooses *)
Definition shmat (p a id : N) (m : mem) : mem * mres N :=
  match m_seg m id with
  | None => (m, MErr (MSys EINVAL))
  | Some d => if range_free m p a (pages (lenN d)) then (map_range m p a (pages (lenN d)) (RSeg id), MOk a) else (m, MErr MNoMem)
  end.
(** shmdt(2): [a] must be where a segment starts *)
Definition shmdt (p a : N) (m : mem) : mem * mres unit :=
  match m_page m p a with
  | Some (RSeg id, 0) =>
      (set_page m (fun q x =>
         if (q =? p) && in_range a (match m_seg m id with Some d => pages (lenN d) | None => 0 end) x then
           match m_page m q x with
           | Some (RSeg j, k) => if (j =? id) && (k =? x - a) then None else m_page m q x
           | y => y
           end
         else m_page m q x), MOk tt)
  | _ => (m, MErr (MSys EINVAL))
  end.

(** ** The library *)

(** An open Mmap (cache/mmap.go:10-13) or SHM (cache/systemvshm.go:39-41): the
    process it lives in, the address and length of its buffer, and for a file the
    descriptor. *)
Record handle := Handle { h_proc : N; h_fd : option N; h_addr : N; h_len : N }.

(** cache/mmap.go:40-68 openFile; f.Stat().Size() is the length of the file *)
Definition openFile (p a fd : N) (m : mem) : mem * mres handle :=
  match w_fds (m_world m) fd with
  | Some (OFile (Some i) _ _ _ _) =>
      let size := lenN (w_data (m_world m) i) in
      match Mmap_slice p a fd size m with
      | (m1, MOk a) => (m1, MOk (Handle p (Some fd) a size))
      | (m1, MErr e) => (m1, MErr e)
      end
  | _ => (m, MErr (MSys EBADF))
  end.
(** os.Create: O_RDWR|O_CREATE|O_TRUNC *)
Definition O_RDWR_CREATE_TRUNC := OFlags true true false true false true.
Definition O_RDWR := OFlags true true false false false false.
(** cache/mmap.go:15-28 CreateMmap.  (After an error the descriptor stays open
    until the garbage collector finds it.) *)
Definition CreateMmap (p a : N) (path : bytes) (size : Z) (m : mem) : mem * mres handle :=
  match exec (Open path O_RDWR_CREATE_TRUNC) (m_world m) with
  | (w1, RErr e) => (set_world m w1, MErr (MSys e))
  | (w1, ROk fd) =>
      if (size <? 0)%Z then (set_world m w1, MErr (MSys EINVAL))
      else match exec (Ftruncate fd (Z.to_N size)) w1 with
           | (w2, RErr e) => (set_world m w2, MErr (MSys e))
           | (w2, ROk _) => openFile p a fd (set_world m w2)
           end
  end.
(** cache/mmap.go:30-38 OpenMmap *)
Definition OpenMmap (p a : N) (path : bytes) (m : mem) : mem * mres handle :=
  match exec (Open path O_RDWR) (m_world m) with
  | (w1, RErr e) => (set_world m w1, MErr (MSys e))
  | (w1, ROk fd) => openFile p a fd (set_world m w1)
  end.
(** cache/mmap.go:85-87 RemoveMmap *)
Definition RemoveMmap (path : bytes) (m : mem) : mem * mres unit :=
  match exec (Unlink path) (m_world m) with
  | (w1, RErr e) => (set_world m w1, MErr (MSys e))
  | (w1, ROk _) => (set_world m w1, MOk tt)
  end.
(** cache/systemvshm.go:43-88 CreateKey *)
Definition CreateKey (p a : N) (key size : Z) (m : mem) : mem * mres handle :=
  match shmget key size (negb (size =? 0)%Z) m with
  | (m1, MErr e) => (m1, MErr e)
  | (m1, MOk id) =>
      (* :56-65 size 0: the size of the segment, by shmctl(IPC_STAT) *)
      match m_seg m1 id with
      | None => (m1, MErr (MSys EINVAL))
      | Some d =>
          let len := if (size =? 0)%Z then lenN d else Z.to_N size in
          match shmat p a id m1 with
          | (m2, MErr e) => (m2, MErr e)
          | (m2, MOk a) => (m2, MOk (Handle p None a len))
          end
      end
  end.
(** cache/systemvshm.go:91-93 OpenKey *)
Definition OpenKey (p a : N) (key : Z) (m : mem) : mem * mres handle := CreateKey p a key 0 m.
(** cache/systemvshm.go:94-106 RemoveKey: the key is free at once, the content
    stays for those who have it attached. *)
Definition RemoveKey (key : Z) (m : mem) : mem * mres unit :=
  match shmget key 0 false m with
  | (m1, MErr e) => (m1, MErr e)
  | (m1, MOk id) => (if key32 key =? 0 then m1 else set_key m1 (key32 key) None, MOk tt)
  end.
(** cache/mmap.go:74-83, systemvshm.go:112-123 Close.  A second m.file.Close() does
    nothing. *)
Definition CloseMem (h : handle) (m : mem) : mem * mres unit :=
  match h_fd h with
  | Some fd =>
      let '(m1, r) := Munmap_slice (h_proc h) (h_addr h) (h_len h) m in
      (set_world m1 (fst (exec (Close fd) (m_world m1))), r)
  | None => shmdt (h_proc h) (h_addr h) m
  end.

(** ** Using the bytes: [Bytes()[i]] and [Bytes()[i] = b]. *)
Inductive access (A : Type) :=
| Got (a : A)
| Panics             (* index out of range *)
| Faults             (* SIGSEGV or SIGBUS: the process is killed *)
| Stray.             (* in the last page but past the end: kept nowhere *)
Arguments Got {A} a. Arguments Panics {A}. Arguments Faults {A}. Arguments Stray {A}.

Definition content (m : mem) (r : region) : bytes :=
  match r with
  | RFile i => w_data (m_world m) i
  | RSeg id => match m_seg m id with Some d => d | None => [] end
  end.
Definition set_content (m : mem) (r : region) (d : bytes) : mem :=
  match r with
  | RFile i => set_world m (set_data (m_world m) i d)
  | RSeg id => set_seg m id d
  end.
(** the byte of a region that address [i] of the buffer shows *)
Definition locate (h : handle) (i : N) (m : mem) : access (region * N) :=
  if h_len h <=? i then Panics
  else match m_page m (h_proc h) (h_addr h + i / page_size) with
       | None => Faults
       | Some (r, k) =>
           let off := k * page_size + i mod page_size in
           let size := lenN (content m r) in
           if off <? size then Got (r, off)
           else if off <? pages size * page_size then Stray else Faults
       end.
Definition get (h : handle) (i : N) (m : mem) : access byte :=
  match locate h i m with
  | Got (r, off) => Got (nth (N.to_nat off) (content m r) x00)
  | Panics => Panics | Faults => Faults | Stray => Stray
  end.
Definition replace_nth (i : nat) (b : byte) (d : bytes) : bytes := firstn i d ++ b :: skipn (S i) d.
Definition put (h : handle) (i : N) (b : byte) (m : mem) : mem * access unit :=
  match locate h i m with
  | Got (r, off) => (set_content m r (replace_nth (N.to_nat off) b (content m r)), Got tt)
  | Panics => (m, Panics) | Faults => (m, Faults) | Stray => (m, Stray)
  end.

(** ** Histories: any operations by any processes.  Handles are numbered in the
    order in which they were opened; [a] is the choice of the kernel. *)
Inductive op :=
| OCreateFile (p a : N) (path : bytes) (size : Z)
| OOpenFile (p a : N) (path : bytes)
| ORemoveFile (path : bytes)
| OCreateKey (p a : N) (key size : Z)
| OOpenKey (p a : N) (key : Z)
| ORemoveKey (key : Z)
| OClose (h : nat)
| OGet (h : nat) (i : N)
| OPut (h : nat) (i : N) (b : byte).
Inductive reply := Opened (len : N) | Done | ByteIs (b : byte) | Failed (e : errno) | NoMem
| PanicIndex | Fault | StrayByte | NoHandle.

Definition opened (hs : list handle) (x : mem * mres handle) : mem * list handle * reply :=
  match x with
  | (m, MOk h) => (m, hs ++ [h], Opened (h_len h))
  | (m, MErr (MSys e)) => (m, hs, Failed e)
  | (m, MErr MNoMem) => (m, hs, NoMem)
  end.
Definition done (hs : list handle) (x : mem * mres unit) : mem * list handle * reply :=
  match x with
  | (m, MOk _) => (m, hs, Done)
  | (m, MErr (MSys e)) => (m, hs, Failed e)
  | (m, MErr MNoMem) => (m, hs, NoMem)
  end.
Definition perform (o : op) (m : mem) (hs : list handle) : mem * list handle * reply :=
  match o with
  | OCreateFile p a path size => opened hs (CreateMmap p a path size m)
  | OOpenFile p a path => opened hs (OpenMmap p a path m)
  | ORemoveFile path => done hs (RemoveMmap path m)
  | OCreateKey p a key size => opened hs (CreateKey p a key size m)
  | OOpenKey p a key => opened hs (OpenKey p a key m)
  | ORemoveKey key => done hs (RemoveKey key m)
  | OClose h => match nth_error hs h with Some h => done hs (CloseMem h m) | None => (m, hs, NoHandle) end
  | OGet h i =>
      match nth_error hs h with
      | Some h => (m, hs, match get h i m with Got b => ByteIs b | Panics => PanicIndex | Faults => Fault | Stray => StrayByte end)
      | None => (m, hs, NoHandle)
      end
  | OPut h i b =>
      match nth_error hs h with
      | Some h => let '(m1, r) := put h i b m in
          (m1, hs, match r with Got _ => Done | Panics => PanicIndex | Faults => Fault | Stray => StrayByte end)
      | None => (m, hs, NoHandle)
      end
  end.
Fixpoint perform_all (os : list op) (m : mem) (hs : list handle) : mem * list handle * list reply :=
  match os with
  | [] => (m, hs, [])
  | o :: os' =>
      let '(m1, hs1, r) := perform o m hs in
      let '(m2, hs2, rs) := perform_all os' m1 hs1 in (m2, hs2, r :: rs)
  end.

(** The state before any memory is shared. *)
Definition boot (w : world) (max : N) : mem := Mem w (fun _ => None) (fun _ => None) 0 max (fun _ _ => None) [].

(** ** The structure that IPC_STAT fills in (CreateKey with size 0, systemvshm.go:58-64).
    Fields are given by their sizes; each starts at the next multiple of its size
    (of 8 for a structure), and a structure is padded to a multiple of 8. *)
Definition align (off a : N) : N := (off + (a - 1)) / a * a.
Fixpoint offsets (off : N) (fields : list N) : list N :=
  match fields with
  | [] => [align off 8]
  | f :: fs => let o := align off (N.min f 8) in o :: offsets (o + f) fs
  end.
Definition size_of (fields : list N) : N := last (offsets 0 fields) 0.
(** cache/systemvshm_linux.go:12-24: x *)
Definition go_ipc_perm : list N := [4; 4; 4; 4; 4; 2; 2; 2; 2; 8; 8].
(** cache/systemvshm_linux.go:11-32 ShmidDs: x, ShmSegsz, shmAtime, shmDtime, shmCtime,
    ShmCpid, ShmLpid, ShmNattach, shmInternal *)
Definition go_ShmidDs : list N := [size_of go_ipc_perm; 8; 8; 8; 8; 4; 4; 8; 8].
(** Linux on x86-64, include/uapi/asm-generic/ipcbuf.h, struct ipc64_perm: key, uid,
    gid, cuid, cgid, mode, seq, __pad2, __unused1, __unused2 *)
Definition kernel_ipc64_perm : list N := [4; 4; 4; 4; 4; 4; 2; 2; 8; 8].
(** include/uapi/asm-generic/shmbuf.h, struct shmid64_ds: shm_perm, shm_segsz, shm_atime,
    shm_dtime, shm_ctime, shm_cpid, shm_lpid, shm_nattch, __unused4, __unused5 *)
Definition kernel_shmid64_ds : list N := [size_of kernel_ipc64_perm; 8; 8; 8; 8; 4; 4; 8; 8; 8].
