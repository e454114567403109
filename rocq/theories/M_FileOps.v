(** * The functions of package pttbbs (and formosabbs) that touch files, as
    programs over the system calls of M_Sys.

    filelock.Lock and filelock.Unlock (filelock/filelock.go:5-20) do nothing and
    return nil; they are omitted.  Logging is omitted.  Wrapping an error with
    fmt.Errorf keeps the cause [ESys e]. *)
From Coq Require Import Decimal DecimalString.
From Verif Require Import M_Base M_Sys M_Path M_File M_Board M_Userec M_UserInfo M_Formosa.
Open Scope N_scope.

(** ** Reading fixed-size records

    The loop shared by OpenFileHeaderFile, OpenBoardHeaderFile, OpenUserecFile,
    OpenUserInfoCache and OpenFormosaBBSFileHeaderFile:

      for { buf := make([]byte, size); _, err := file.Read(buf)
            if err == io.EOF { break } ... }

    [file.Read] reports io.EOF when no byte is left, and otherwise fills a prefix
    of the zeroed buffer.  [strict] is true for the one function that returns
    other read errors (userinfo.go:158-161); the others ignore them and decode
    the buffer of zeros.  [closes] says whether the function has a deferred
    Close. *)
Definition fill (size : N) (d : bytes) : bytes := put 0 size d (zeros size).

Definition close_if (closes : bool) (fd : N) {A} (k : prog A) : prog A :=
  if closes then Call (Close fd) (fun _ => k) else k.

Fixpoint read_loop {A} (size : N) (decode : bytes -> outcome A) (strict closes : bool)
    (fuel : nat) (fd : N) (acc : list A) : prog (outcome (list A)) :=
  match fuel with
  | O => Ret Diverge
  | S fuel' =>
      Call (Read fd size) (fun r =>
      match r with
      | ROk [] => close_if closes fd (Ret (Ok (rev acc)))
      | _ =>
          match r, strict with
          | RErr e, true => close_if closes fd (Ret (Err (ESys e)))
          | _, _ =>
              let buf := fill size (match r with ROk d => d | RErr _ => [] end) in
              match decode buf with
              | Ok a => read_loop size decode strict closes fuel' fd (a :: acc)
              | Err e => close_if closes fd (Ret (Err e))
              | Panic => close_if closes fd (Ret Panic)
              | Diverge => Ret Diverge
              end
          end
      end)
  end.

Definition open_records {A} (size : N) (decode : bytes -> outcome A) (strict closes : bool)
    (fuel : nat) (path : bytes) : prog (outcome (list A)) :=
  Call (Open path O_RDONLY) (fun r =>
  match r with
  | RErr e => Ret (Err (ESys e))
  | ROk fd => read_loop size decode strict closes fuel fd []
  end).

(** pttbbs/file.go:104-133 OpenFileHeaderFile *)
Definition OpenFileHeaderFile (cd : codec) (fuel : nat) (path : bytes) : prog (outcome (list FileHeader)) :=
  open_records 128 (NewFileHeaderWithByte cd) false true fuel path.
(** pttbbs/board.go:171-198 OpenBoardHeaderFile (no Close) *)
Definition OpenBoardHeaderFile (cd : codec) (fuel : nat) (path : bytes) : prog (outcome (list BoardHeader)) :=
  open_records BoardHeaderRecordLength (UnmarshalBoardHeader cd) false false fuel path.
(** pttbbs/passwd.go:203-231 OpenUserecFile (no Close) *)
Definition OpenUserecFile (cd : codec) (fuel : nat) (path : bytes) : prog (outcome (list Userec)) :=
  open_records 512 (UnmarshalUserec cd) false false fuel path.
(** pttbbs/userinfo.go:140-166 OpenUserInfoCache (no Close) *)
Definition OpenUserInfoCache (cd : codec) (fuel : nat) (path : bytes) : prog (outcome (list UserInfoCache)) :=
  open_records 3484 (UnmarshalUserInfo cd) true false fuel path.
(** formosabbs/file.go:43-71 OpenFormosaBBSFileHeaderFile (no Close) *)
Definition OpenFormosaBBSFileHeaderFile (cd : codec) (fuel : nat) (path : bytes) : prog (outcome (list FormosaHeader)) :=
  open_records 248 (NewFormosaHeaderWithByte cd) false false fuel path.

(** ** Appending and updating records *)

(** pttbbs/file.go:135-163 AppendFileHeaderFileRecord.  MarshalToByte never
    fails. *)
Definition AppendFileHeaderFileRecord (cd : codec) (path : bytes) (f : FileHeader) : prog (outcome unit) :=
  Call (Open path O_APPEND_CREATE_WRONLY) (fun r =>
  match r with
  | RErr e => Ret (Err (ESys e))
  | ROk fd =>
      Call (Write fd (MarshalToByte cd f)) (fun r =>
      Call (Close fd) (fun _ =>
      match r with
      | RErr e => Ret (Err (ESys e))
      | ROk _ => Ret (Ok tt)
      end))
  end).

(** pttbbs/file.go:165-197 UpdateFileHeaderFileRecord.  [index] is a uint;
    int64(index)*128 wraps. *)
Definition UpdateFileHeaderFileRecord (cd : codec) (path : bytes) (index : N) (f : FileHeader) : prog (outcome unit) :=
  Call (Open path O_WRONLY) (fun r =>
  match r with
  | RErr e => Ret (Err (ESys e))
  | ROk fd =>
      Call (SeekSet fd (i64 (i64 (Z.of_N index) * 128))) (fun r =>
      match r with
      | RErr e => Call (Close fd) (fun _ => Ret (Err (ESys e)))
      | ROk _ =>
          Call (Write fd (MarshalToByte cd f)) (fun r =>
          Call (Close fd) (fun _ =>
          match r with
          | RErr e => Ret (Err (ESys e))
          | ROk _ => Ret (Ok tt)
          end))
      end)
  end).

(** pttbbs/board.go:200-226 AppendBoardHeaderFileRecord *)
Definition AppendBoardHeaderFileRecord (cd : codec) (path : bytes) (b : BoardHeader) : prog (outcome unit) :=
  Call (Open path O_APPEND_CREATE_WRONLY) (fun r =>
  match r with
  | RErr e => Ret (Err (ESys e))
  | ROk fd =>
      Call (Write fd (BoardHeader_MarshalBinary cd b)) (fun r =>
      Call (Close fd) (fun _ =>
      match r with
      | RErr e => Ret (Err (ESys e))
      | ROk _ => Ret (Ok tt)
      end))
  end).

(** io.CopyBuffer (pttbbs/board.go:256): read a chunk, write it, until end of
    file.  The chunk sizes depend on the Go version and the kernel (the 256-byte
    buffer is not used when the destination implements io.ReaderFrom); [chunk k]
    + 1 is the size of the k-th read, and theorems quantify over [chunk]. *)
Fixpoint copy_loop (chunk : nat -> N) (fuel : nat) (k : nat) (fi fo : N) : prog (outcome unit) :=
  match fuel with
  | O => Ret Diverge
  | S fuel' =>
      Call (Read fi (N.succ (chunk k))) (fun r =>
      match r with
      | RErr e => Ret (Err (ESys e))
      | ROk [] => Ret (Ok tt)
      | ROk d =>
          Call (Write fo d) (fun r =>
          match r with
          | RErr e => Ret (Err (ESys e))
          | ROk _ => copy_loop chunk fuel' (S k) fi fo
          end)
      end)
  end.

(** pttbbs/board.go:228-271 RemoveBoardHeaderFileRecord.  [index] is an int;
    the products wrap at 64 bits.  The deferred Closes run in reverse order. *)
Definition RemoveBoardHeaderFileRecord (chunk : nat -> N) (fuel : nat) (path : bytes) (index : Z)
    : prog (outcome unit) :=
  Call (Open path O_RDONLY) (fun r =>
  match r with
  | RErr e => Ret (Err (ESys e))
  | ROk fi =>
  Call (Open path O_WRONLY) (fun r =>
  match r with
  | RErr e => Call (Close fi) (fun _ => Ret (Err (ESys e)))
  | ROk fo =>
  let close_both (o : outcome unit) := Call (Close fo) (fun _ => Call (Close fi) (fun _ => Ret o)) in
  Call (SeekSet fi (i64 (i64 (index + 1) * 256))) (fun r =>
  match r with
  | RErr e => close_both (Err (ESys e))
  | ROk _ =>
  Call (SeekSet fo (i64 (index * 256))) (fun r =>
  match r with
  | RErr e => close_both (Err (ESys e))
  | ROk _ =>
  bind (copy_loop chunk fuel 0 fi fo) (fun o =>
  match o with
  | Err e => close_both (Err e)
  | Panic => Ret Panic
  | Diverge => Ret Diverge
  | Ok _ =>
  Call (SeekCur0 fo) (fun r =>
  match r with
  | RErr e => close_both (Err (ESys e))
  | ROk size =>
  Call (Ftruncate fo size) (fun _ =>      (* error ignored, line 267 *)
  close_both (Ok tt))
  end)
  end)
  end)
  end)
  end)
  end).

(** ** Articles *)

(** fmt's [%d] of an int64 *)
Definition fmt_d (z : Z) : bytes :=
  match z with
  | Z0 => str (NilEmpty.string_of_uint (N.to_uint 0))
  | Zpos p => str (NilEmpty.string_of_uint (N.to_uint (Npos p)))
  | Zneg p => x2d :: str (NilEmpty.string_of_uint (N.to_uint (Npos p)))
  end.
(** upper-case hexadecimal digit *)
Definition hex_digit (n : N) : byte := n2b (if n <? 10 then 48 + n else 55 + n).
(** fmt's [%3.3X] of a number below 0x1000 *)
Definition fmt_3X (n : N) : bytes :=
  [hex_digit (n / 256 mod 16); hex_digit (n / 16 mod 16); hex_digit (n mod 16)].
(** [fmt.Sprintf("M.%d.A.%3.3X", dtime, r)],
    pttbbs/pttbbs_write_article_connector.go:21 and 106 *)
Definition article_name (dtime : Z) (r : N) : bytes :=
  str "M." ++ fmt_d dtime ++ str ".A." ++ fmt_3X r.

(** pttbbs/pttbbs_write_article_connector.go:16-38 CreateBoardArticleFilename;
    [wd] is the home directory of the connector.  Any error of the exclusive
    open leads to another attempt. *)
Fixpoint CreateBoardArticleFilename (fuel : nat) (wd bid : bytes) : prog (outcome bytes) :=
  match fuel with
  | O => Ret Diverge
  | S fuel' =>
      Call Now (fun t =>
      Call (Rand 4096) (fun r =>
      let filename := article_name t r in
      match GetBoardArticleFilePath wd bid filename with
      | Ok path =>
          Call (Open path O_WRONLY_CREATE_EXCL) (fun r =>
          match r with
          | ROk fd => Call (Close fd) (fun _ => Ret (Ok filename))
          | RErr _ => CreateBoardArticleFilename fuel' wd bid
          end)
      | Err e => Ret (Err e)
      | Panic => Ret Panic
      | Diverge => Ret Diverge
      end))
  end.

(** pttbbs/pttbbs_write_article_connector.go:41-49 NewArticleRecord *)
Definition NewArticleRecord (filename owner date title : bytes) : FileHeader :=
  MkFileHeader filename zero_time_unix 0%Z owner date title 0%Z 0%Z 0 0 0 0 0.

(** pttbbs/pttbbs_write_article_connector.go:51-71 WriteBoardArticleFile *)
Definition WriteBoardArticleFile (path content : bytes) : prog (outcome unit) :=
  Call (Open path O_WRONLY_CREATE) (fun r =>
  match r with
  | RErr e => Ret (Err (ESys e))
  | ROk fd =>
      Call (Write fd content) (fun r =>
      Call (Close fd) (fun _ =>
      match r with
      | RErr e => Ret (Err (ESys e))
      | ROk _ => Ret (Ok tt)
      end))
  end).

(** pttbbs/pttbbs_write_article_connector.go:104-118: the second naming loop,
    with the time fixed before the loop.  rand.Seed is not modelled: the random
    numbers are arbitrary in every theorem. *)
Fixpoint create_fixed_time (fuel : nat) (wd bid : bytes) (dtime : Z) : prog (outcome (bytes * N)) :=
  match fuel with
  | O => Ret Diverge
  | S fuel' =>
      Call (Rand 4096) (fun r =>
      let filename := article_name dtime r in
      match GetBoardArticleFilePath wd bid filename with
      | Ok path =>
          Call (Open path O_WRONLY_CREATE_EXCL) (fun r =>
          match r with
          | ROk fd => Ret (Ok (filename, fd))
          | RErr _ => create_fixed_time fuel' wd bid dtime
          end)
      | Err e => Ret (Err e)
      | Panic => Ret Panic
      | Diverge => Ret Diverge
      end)
  end.

(** The initial text of an article, line 127-128, UTF-8 bytes of the format
    "作者: %s 看板: %s\n標題: %s \n時間: %s\n". *)
Definition article_head (owner bid title date : bytes) : bytes :=
  [xe4;xbd;x9c;xe8;x80;x85] ++ str ": " ++ owner ++ str " " ++ [xe7;x9c;x8b;xe6;x9d;xbf] ++ str ": " ++ bid ++ [x0a]
  ++ [xe6;xa8;x99;xe9;xa1;x8c] ++ str ": " ++ title ++ str " " ++ [x0a]
  ++ [xe6;x99;x82;xe9;x96;x93] ++ str ": " ++ date ++ [x0a].

(** pttbbs/pttbbs_write_article_connector.go:73-136 NewArticleRecordWithMap; an
    argument is [None] when the map has no string under that key. *)
Definition NewArticleRecordWithMap (fuel : nat) (wd : bytes)
    (owner date title bid : option bytes) : prog (outcome FileHeader) :=
  match owner, date, title, bid with
  | Some owner, Some date, Some title, Some bid =>
      Call Now (fun dtime =>
      pbind (create_fixed_time fuel wd bid dtime) (fun '(filename, fd) =>
      Call (Write fd (article_head owner bid title date)) (fun r =>
      Call (Close fd) (fun _ =>
      match r with
      | RErr e => Ret (Err (ESys e))
      | ROk _ => Ret (Ok (fh_set_filename (fh_set_title (fh_set_date (fh_set_owner NewFileHeader owner) date) title) filename))
      end))))
  | _, _, _, _ => Ret (Err EArgs)
  end.

(** pttbbs/pttbss_append_new_line.go:10-24 AppendBoardArticleFile *)
Definition AppendBoardArticleFile (path content : bytes) : prog (outcome unit) :=
  Call (Open path O_APPEND_WRONLY) (fun r =>
  match r with
  | RErr e => Ret (Err (ESys e))
  | ROk fd =>
      Call (Write fd content) (fun r =>
      Call (Close fd) (fun _ =>
      match r with
      | RErr e => Ret (Err (ESys e))
      | ROk _ => Ret (Ok tt)
      end))
  end).

(** pttbbs/pttbbs.go:144-155 ReadBoardArticleFile *)
Definition ReadBoardArticleFile (path : bytes) : prog (outcome bytes) :=
  Call (Open path O_RDONLY) (fun r =>
  match r with
  | RErr e => Ret (Err (ESys e))
  | ROk fd =>
      Call (ReadAll fd) (fun r =>
      Call (Close fd) (fun _ =>
      match r with
      | RErr e => Ret (Err (ESys e))
      | ROk d => Ret (Ok d)
      end))
  end).

(** ** Drafts *)

(** pttbbs/draft.go:8-13 ReadUserDraft: any stat error means an empty draft *)
Definition ReadUserDraft (path : bytes) : prog (outcome bytes) :=
  Call (Stat path) (fun r =>
  match r with
  | RErr _ => Ret (Ok [])
  | ROk _ => read_file path
  end).
(** pttbbs/draft.go:15-17 DeleteUserDraft *)
Definition DeleteUserDraft (path : bytes) : prog (outcome unit) :=
  Call (Unlink path) (fun r =>
  match r with
  | RErr e => Ret (Err (ESys e))
  | ROk _ => Ret (Ok tt)
  end).
(** pttbbs/draft.go:19-21 WriteUserDraft *)
Definition WriteUserDraft (path draft : bytes) : prog (outcome unit) := write_file path draft.
