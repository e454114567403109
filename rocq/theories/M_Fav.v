(** * pttbbs/fav.go: favourites *)
From Verif Require Import M_Base M_Cstr M_Const M_Path M_Sys M_Board M_FileOps.
Open Scope N_scope.

(** pttbbs/fav.go:51-57 *)
Definition favPreAlloc : N := 8.
Definition sizeOfPttFavBoardBytes : N := 12.
Definition sizeOfPttFavFolderBytes : N := 50.
Definition sizeOfPttFavLineBytes : N := 1.
(** pttbbs/fav.go:66-70 *)
Definition FavItemTypeBoard : N := 1.
Definition FavItemTypeFolder : N := 2.
Definition FavItemTypeLine : N := 3.

(** pttbbs/fav.go:83-87 FavItem, 156-192 FavFile, FavFolder, FavBoardItem,
    FavFolderItem, FavLineItem.  [Item] is an interface: [POther] stands for nil
    and for every type without MarshalBinary.  A folder pointer may be nil.
    Times are Unix seconds. *)
Inductive FavFolder := MkFavFolder
  (nalloc datatail nboards nlines nfolders lineid folderid : N) (items : list FavItem)
with FavItem := MkFavItem (ty attr : N) (item : FavPayload)
with FavPayload :=
| PBoard (bid : N) (visit : Z) (battr : N) (name : bytes)
| PFolder (fid : N) (title : bytes) (this : option FavFolder)
| PLine (lid : N)
| POther.
Record FavFile := MkFavFile { ff_version : N; ff_folder : option FavFolder }.

Definition fav_items (f : FavFolder) : list FavItem := let 'MkFavFolder _ _ _ _ _ _ _ l := f in l.
Definition fi_type (i : FavItem) : N := let 'MkFavItem t _ _ := i in t.
Definition fi_attr (i : FavItem) : N := let 'MkFavItem _ a _ := i in a.
Definition fi_item (i : FavItem) : FavPayload := let 'MkFavItem _ _ p := i in p.

(** ** Decoding *)

(** [data[a:a+n]]; panics beyond the end.  (Go panics only beyond the capacity;
    no theorem depends on the difference.) *)
Definition slice (data : bytes) (a n : N) : outcome bytes :=
  if a + n <=? lenN data then Ok (sub a n data) else Panic.
Definition slice_num (data : bytes) (a n : N) : outcome N := omap le_dec (slice data a n).

(** pttbbs/fav.go:324-347 UnmarshalFavBoardItem *)
Definition UnmarshalFavBoardItem (data : bytes) (start : N) : outcome (FavPayload * N) :=
  if lenN data <? start + sizeOfPttFavBoardBytes then Err EIndexOutOfBound else
  obind (slice_num data start 4) (fun bid =>
  obind (slice_num data (start + 4) 4) (fun visit =>
  obind (slice_num data (start + 8) 4) (fun attr =>
  Ok (PBoard bid (Z.of_N visit) attr [], start + 12)))).

(** pttbbs/fav.go:350-366 UnmarshalFavFolderItem *)
Definition UnmarshalFavFolderItem (cd : codec) (data : bytes) (start : N) : outcome (FavPayload * N) :=
  if lenN data <? start + sizeOfPttFavFolderBytes then Err EIndexOutOfBound else
  obind (slice_num data start 1) (fun id =>
  obind (slice data (start + 1) (BoardTitleLength + 1)) (fun t =>
  Ok (PFolder id (big5uaoToUTF8String cd (split_nul_head t)) None, start + 1 + (BoardTitleLength + 1)))).

(** pttbbs/fav.go:369-379 UnmarshalFavLineItem *)
Definition UnmarshalFavLineItem (data : bytes) (start : N) : outcome (FavPayload * N) :=
  if lenN data <? start + sizeOfPttFavLineBytes then Err EIndexOutOfBound else
  obind (slice_num data start 1) (fun id => Ok (PLine id, start + 1)).

(** pttbbs/fav.go:286-321 UnmarshalFavItem *)
Definition UnmarshalFavItem (cd : codec) (data : bytes) (start : N) : outcome (FavItem * N) :=
  if lenN data <? start + 2 then Err EIndexOutOfBound else
  obind (slice_num data start 1) (fun ty =>
  obind (slice_num data (start + 1) 1) (fun attr =>
  obind (if ty =? FavItemTypeBoard then UnmarshalFavBoardItem data (start + 2)
         else if ty =? FavItemTypeLine then UnmarshalFavLineItem data (start + 2)
         else if ty =? FavItemTypeFolder then UnmarshalFavFolderItem cd data (start + 2)
         else Err EInvalidFavType) (fun '(p, c) =>
  Ok (MkFavItem ty attr p, c)))).

(** pttbbs/fav.go:251-262: [count] items, one after the other. *)
Fixpoint unmarshal_items (cd : codec) (data : bytes) (count : nat) (c : N) : outcome (list FavItem * N) :=
  match count with
  | O => Ok ([], c)
  | S count' =>
      obind (UnmarshalFavItem cd data c) (fun '(i, c) =>
      obind (unmarshal_items cd data count' c) (fun '(l, c) => Ok (i :: l, c)))
  end.

(** pttbbs/fav.go:264-280: the folders that belong to the items, in order, read
    by [sub]; folders and lines are renumbered from 1 (uint8). *)
Fixpoint unmarshal_subs (sub : N -> outcome (FavFolder * N)) (l : list FavItem) (c lid fid : N)
    : outcome (list FavItem * N * N * N) :=
  match l with
  | [] => Ok ([], c, lid, fid)
  | MkFavItem ty attr p :: l' =>
      match p with
      | PFolder _ title _ =>
          obind (sub c) (fun '(f, c) =>
          let fid := u8 (Z.of_N fid + 1) in
          obind (unmarshal_subs sub l' c lid fid) (fun '(r, c, lid', fid') =>
          Ok (MkFavItem ty attr (PFolder fid title (Some f)) :: r, c, lid', fid')))
      | PLine _ =>
          let lid := u8 (Z.of_N lid + 1) in
          obind (unmarshal_subs sub l' c lid fid) (fun '(r, c, lid', fid') =>
          Ok (MkFavItem ty attr (PLine lid) :: r, c, lid', fid'))
      | _ =>
          obind (unmarshal_subs sub l' c lid fid) (fun '(r, c, lid', fid') =>
          Ok (MkFavItem ty attr p :: r, c, lid', fid'))
      end
  end.

(** pttbbs/fav.go:217-283 getDataNumber and UnmarshalFavFolder; [fuel] bounds the
    nesting. *)
Fixpoint UnmarshalFavFolder (cd : codec) (fuel : nat) (data : bytes) (start : N) : outcome (FavFolder * N) :=
  match fuel with
  | O => Diverge
  | S fuel' =>
      if lenN data <? start + 4 then Err EIndexOutOfBound else
      obind (slice_num data start 2) (fun nboards =>
      obind (slice_num data (start + 2) 1) (fun nlines =>
      obind (slice_num data (start + 3) 1) (fun nfolders =>
      let datatail := u16 (Z.of_N (nboards + nfolders + nlines)) in
      let nalloc := u16 (Z.of_N (datatail + favPreAlloc)) in
      obind (unmarshal_items cd data (N.to_nat datatail) (start + 4)) (fun '(items, c) =>
      obind (unmarshal_subs (UnmarshalFavFolder cd fuel' data) items c 0 0) (fun '(items, c, lid, fid) =>
      Ok (MkFavFolder nalloc datatail nboards nlines nfolders lid fid items, c))))))
  end.

(** pttbbs/fav.go:204-215 UnmarshalFavFile; [spare] is the number of bytes of
    capacity behind the data ([data[0:2]] panics only beyond the capacity).
    With fewer than two bytes of data the version is read from the spare bytes,
    but no file is returned then. *)
Definition UnmarshalFavFile (cd : codec) (fuel : nat) (spare : N) (data : bytes) : outcome FavFile :=
  if lenN data + spare <? 2 then Panic else
  let version := le_dec (sub 0 2 data) in
  obind (UnmarshalFavFolder cd fuel data 2) (fun '(f, _) => Ok (MkFavFile version (Some f))).

(** ** Encoding *)

(** pttbbs/fav.go:446-476 MarshalBinary of the three kinds of item *)
Definition marshal_payload (cd : codec) (p : FavPayload) : outcome bytes :=
  match p with
  | PBoard bid visit battr _ => Ok (put_all sizeOfPttFavBoardBytes [w32 0 bid; w32 4 (u32 visit); w32 8 battr])
  | PFolder fid title _ => Ok (put_all sizeOfPttFavFolderBytes [w8 0 fid; wstr 1 (BoardTitleLength + 1) (utf8ToBig5UAOString cd title)])
  | PLine lid => Ok (put_all sizeOfPttFavLineBytes [w8 0 lid])
  | POther => Err EArgs
  end.
(** pttbbs/fav.go:428-444 (FavItem).MarshalBinary *)
Definition marshal_item (cd : codec) (i : FavItem) : outcome bytes :=
  obind (marshal_payload cd (fi_item i)) (fun e => Ok (put_all 2 [w8 0 (fi_type i); w8 1 (fi_attr i)] ++ e)).
(** concatenated results, stopping at the first failure *)
Definition marshal_all {A} (f : A -> outcome bytes) : list A -> outcome bytes :=
  fix go l := match l with
  | [] => Ok []
  | x :: l' => obind (f x) (fun a => obind (go l') (fun b => Ok (a ++ b)))
  end.
(** pttbbs/fav.go:394-426 (FavFolder).MarshalBinary; a nil folder pointer panics *)
Fixpoint marshal_folder (cd : codec) (f : FavFolder) : outcome bytes :=
  let 'MkFavFolder _ _ nboards nlines nfolders _ _ items := f in
  obind (marshal_all (marshal_item cd) items) (fun a =>
  obind (marshal_all (fun i =>
    match i with
    | MkFavItem _ _ (PFolder _ _ (Some g)) => marshal_folder cd g
    | MkFavItem _ _ (PFolder _ _ None) => Panic
    | _ => Ok []
    end) items) (fun b =>
  Ok (put_all 4 [w16 0 nboards; w8 2 nlines; w8 3 nfolders] ++ a ++ b))).
(** pttbbs/fav.go:381-392 (FavFile).MarshalBinary *)
Definition marshal_favfile (cd : codec) (f : FavFile) : outcome bytes :=
  match ff_folder f with
  | None => Panic
  | Some g => obind (marshal_folder cd g) (fun b => Ok (put_all 2 [w16 0 (ff_version f)] ++ b))
  end.

(** ** Reading a user's favourites *)

(** pttbbs/pttbbs.go:82-98 appendBoardID: [brd[bid-1]] with uint32 subtraction;
    an index beyond the list panics, so does a nil folder. *)
Fixpoint appendBoardID (brd : list BoardHeader) (f : FavFolder) : outcome FavFolder :=
  let 'MkFavFolder a b c d e g h items := f in
  let fix go (l : list FavItem) : outcome (list FavItem) :=
    match l with
    | [] => Ok []
    | MkFavItem ty attr p :: l' =>
        obind (match p with
               | PBoard bid visit battr _ =>
                   match nth_error brd (N.to_nat (u32 (Z.of_N bid - 1))) with
                   | Some h => Ok (PBoard bid visit battr (bh_name h))
                   | None => Panic
                   end
               | PFolder id title (Some g) => obind (appendBoardID brd g) (fun g' => Ok (PFolder id title (Some g')))
               | PFolder _ _ None => Panic
               | p => Ok p
               end) (fun p' =>
        obind (go l') (fun r => Ok (MkFavItem ty attr p' :: r)))
    end in
  obind (go items) (fun items' => Ok (MkFavFolder a b c d e g h items')).

(** pttbbs/fav.go:89-129: what the interface shows of an item; the type
    assertions panic when type and item disagree. *)
Definition fi_BoardID (i : FavItem) : outcome bytes :=
  if negb (fi_type i =? FavItemTypeBoard) then Ok [] else
  match fi_item i with PBoard _ _ _ n => Ok n | _ => Panic end.
Definition fi_Title (i : FavItem) : outcome bytes :=
  if fi_type i =? FavItemTypeLine then Ok (str "------------------------------------------")
  else if fi_type i =? FavItemTypeFolder then match fi_item i with PFolder _ t _ => Ok t | _ => Panic end
  else Ok [].
(** 0 board, 1 folder, 2 line: bbs.go:68-70 *)
Definition fi_Type (i : FavItem) : N :=
  if fi_type i =? FavItemTypeFolder then 1 else if fi_type i =? FavItemTypeLine then 2 else 0.
Definition fi_Records (i : FavItem) : outcome (list FavItem) :=
  if negb (fi_type i =? FavItemTypeFolder) then Ok [] else
  match fi_item i with PFolder _ _ (Some g) => Ok (fav_items g) | _ => Panic end.

(** ioutil.ReadFile leaves at least 512 bytes of capacity. *)
Definition read_spare : N := 512.
(** pttbbs/fav.go:194-201 OpenFavFile *)
Definition OpenFavFile (cd : codec) (fuel : nat) (path : bytes) : prog (outcome FavFile) :=
  pbind (read_file path) (fun data => lift (UnmarshalFavFile cd fuel read_spare data)).
(** pttbbs/pttbbs.go:56-80 ReadUserFavoriteRecordsFile; a file that cannot be
    stat'ed gives no records. *)
Definition ReadUserFavoriteRecordsFile (cd : codec) (fuel : nat) (wd path : bytes) : prog (outcome (list FavItem)) :=
  Call (Stat path) (fun r =>
  match r with
  | RErr _ => Ret (Ok [])
  | ROk _ =>
      pbind (OpenFavFile cd fuel path) (fun rec =>
      pbind (lift (GetBoardPath wd)) (fun bpath =>
      pbind (OpenBoardHeaderFile cd fuel bpath) (fun br =>
      match ff_folder rec with
      | None => Ret Panic
      | Some g => lift (omap fav_items (appendBoardID br g))
      end)))
  end).
(** bbs.go:313-330 ReadUserFavoriteRecords *)
Definition ReadUserFavoriteRecords (cd : codec) (fuel : nat) (wd uid : bytes) : prog (outcome (list FavItem)) :=
  pbind (lift (GetUserFavoritePath wd uid)) (fun path => ReadUserFavoriteRecordsFile cd fuel wd path).
