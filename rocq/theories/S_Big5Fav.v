(** * Specification of favourites with names in Big5 *)
From Verif Require Import M_Base M_Big5 M_Fav S_Layout S_Json S_Big5 S_Big5Field S_Fav.
Open Scope N_scope.

(** A favourites tree as a person sees it: the names of folders are characters. *)
Inductive mark :=
| Board (attr bid : N) (visit : Z) (battr : N)
| Folder (attr : N) (name : list N) (l : list mark)
| Line (attr : N).

(** The record of one mark in the file (fav.h), with the name in Big5. *)
Definition mark_record (tb : tables) (m : mark) (d : bytes) : Prop :=
  match m with
  | Board attr bid visit battr => lenN d = 14 /\ f_num d 0 1 1 /\ f_num d 1 1 attr /\ f_num d 2 4 bid /\ f_time d 6 visit /\ f_num d 10 4 battr
  | Folder attr name _ => lenN d = 52 /\ f_num d 0 1 2 /\ f_num d 1 1 attr /\ exists s, f_cstr d 3 49 s /\ big5_reads tb s name
  | Line attr => lenN d = 3 /\ f_num d 0 1 3 /\ f_num d 1 1 attr
  end.
Definition boards_in (l : list mark) : N := lenN (filter (fun m => match m with Board _ _ _ _ => true | _ => false end) l).
Definition lines_in (l : list mark) : N := lenN (filter (fun m => match m with Line _ => true | _ => false end) l).
Definition folders_in (l : list mark) : N := lenN (filter (fun m => match m with Folder _ _ _ => true | _ => false end) l).
Definition insides (l : list mark) : list (list mark) := flat_map (fun m => match m with Folder _ _ k => [k] | _ => [] end) l.
(** A folder in the file: how many boards, lines and folders there are in it, their records,
    and then what is in the folders. *)
Inductive folder_at (tb : tables) : list mark -> bytes -> Prop :=
| FolderAt l hdr recs subs :
    lenN hdr = 4 -> f_num hdr 0 2 (boards_in l) -> f_num hdr 2 1 (lines_in l) -> f_num hdr 3 1 (folders_in l) ->
    Forall2 (mark_record tb) l recs -> Forall2 (folder_at tb) (insides l) subs ->
    folder_at tb l (hdr ++ concat recs ++ concat subs).
Definition favourites_at (tb : tables) (v : N) (l : list mark) (d : bytes) : Prop :=
  exists ver p, d = ver ++ p /\ lenN ver = 2 /\ f_num ver 0 2 v /\ folder_at tb l p.

(** No folder has more than the counts can say. *)
Inductive countable : list mark -> Prop :=
| Countable l : lenN l < 65536 -> Forall countable (insides l) -> countable l.
(** The names that Big5 can hold in the 49 bytes of a name. *)
Definition name_fits (tb : tables) (t : list N) : Prop :=
  Forall code_point t /\ Forall (has_code tb) t /\ ~ In 0 t /\ big5_size t <= 49.
Inductive names_fit (tb : tables) : mark -> Prop :=
| BoardNames attr bid visit battr : names_fit tb (Board attr bid visit battr)
| FolderNames attr name l : name_fits tb name -> Forall (names_fit tb) l -> names_fit tb (Folder attr name l)
| LineNames attr : names_fit tb (Line attr).
(** The numbers that the records can hold. *)
Inductive numbers_fit : list mark -> Prop :=
| NumbersFit l : lenN l < 65536 -> lines_in l < 256 -> folders_in l < 256 ->
    Forall (fun m => match m with
      | Board attr bid visit battr => num_fits 1 attr /\ num_fits 4 bid /\ time_fits visit /\ num_fits 4 battr
      | Folder attr _ _ | Line attr => num_fits 1 attr end) l ->
    Forall numbers_fit (insides l) -> numbers_fit l.

(** The same tree as the library gives it: names in UTF-8. *)
Inductive same : mark -> entry -> Prop :=
| SameBoard attr bid visit battr : same (Board attr bid visit battr) (EBoard attr bid visit battr)
| SameFolder attr name title l k : in_utf8 name title -> Forall2 same l k -> same (Folder attr name l) (EFolder attr title k)
| SameLine attr : same (Line attr) (ELine attr).

(** ** Names that do not fit *)

(** No name has a NUL in it. *)
Inductive no_nul : mark -> Prop :=
| NoNulBoard attr bid visit battr : no_nul (Board attr bid visit battr)
| NoNulFolder attr name l : ~ In 0 name -> Forall no_nul l -> no_nul (Folder attr name l)
| NoNulLine attr : no_nul (Line attr).
(** What is left of a tree after it was saved: each name up to its first character that Big5
    does not have, and of that what 49 bytes hold. *)
Inductive left_of (tb : tables) : mark -> entry -> Prop :=
| LeftBoard attr bid visit battr : left_of tb (Board attr bid visit battr) (EBoard attr bid visit battr)
| LeftFolder attr name a title l k : writable_part tb name a -> kept_in 49 a title -> Forall2 (left_of tb) l k ->
    left_of tb (Folder attr name l) (EFolder attr title k)
| LeftLine attr : left_of tb (Line attr) (ELine attr).
