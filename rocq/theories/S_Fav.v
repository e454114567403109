(** * Specification of favourites files *)
From Verif Require Import M_Base M_Fav S_Layout.
Open Scope N_scope.

(** What a favourites tree says. *)
Inductive entry :=
| EBoard (attr bid : N) (visit : Z) (battr : N)
| EFolder (attr : N) (title : bytes) (l : list entry)
| ELine (attr : N).

(** The tree held by a Go structure, if no pointer in it is nil and every item
    has the type it claims. *)
Fixpoint tree_of (f : FavFolder) : option (list entry) :=
  let 'MkFavFolder _ _ _ _ _ _ _ items := f in
  let fix go (l : list FavItem) : option (list entry) :=
    match l with
    | [] => Some []
    | MkFavItem ty attr p :: l' =>
        match
          match p with
          | PBoard bid visit battr _ => if ty =? 1 then Some (EBoard attr bid visit battr) else None
          | PFolder _ title (Some g) => if ty =? 2 then option_map (EFolder attr title) (tree_of g) else None
          | PLine _ => if ty =? 3 then Some (ELine attr) else None
          | _ => None
          end, go l'
        with Some e, Some r => Some (e :: r) | _, _ => None end
    end in
  go items.

(** The record of one item (fav.h): type, attributes, then
    - for a board 12 bytes: number, last visit, attributes;
    - for a folder 50 bytes: a number (free) and the title, a C string in Big5;
    - for a line one byte (free). *)
Definition item_record (cd : codec) (e : entry) (d : bytes) : Prop :=
  match e with
  | EBoard attr bid visit battr => lenN d = 14 /\ f_num d 0 1 1 /\ f_num d 1 1 attr /\
      f_num d 2 4 bid /\ f_time d 6 visit /\ f_num d 10 4 battr
  | EFolder attr title _ => lenN d = 52 /\ f_num d 0 1 2 /\ f_num d 1 1 attr /\ f_cstr_big5 cd d 3 49 title
  | ELine attr => lenN d = 3 /\ f_num d 0 1 3 /\ f_num d 1 1 attr
  end.
Definition is_board e := match e with EBoard _ _ _ _ => true | _ => false end.
Definition is_folder e := match e with EFolder _ _ _ => true | _ => false end.
Definition is_line e := match e with ELine _ => true | _ => false end.
Definition count (p : entry -> bool) (l : list entry) : N := lenN (filter p l).
(** the contents of the folders among the entries, in order *)
Definition folders (l : list entry) : list (list entry) :=
  flat_map (fun e => match e with EFolder _ _ m => [m] | _ => [] end) l.

(** The three counts of a folder: as they should be, and as far as a reader
    looks at them. *)
Definition counts_exact (nboards nlines nfolders : N) (l : list entry) : Prop :=
  nboards = count is_board l /\ nlines = count is_line l /\ nfolders = count is_folder l.
Definition counts_sum (nboards nlines nfolders : N) (l : list entry) : Prop :=
  (nboards + nlines + nfolders) mod 65536 = lenN l.

(** [layout counts t d]: [d] is a folder holding [t]: the counts, the records of
    the items, then the sub-folders in the order of their items. *)
Inductive layout (cd : codec) (counts : N -> N -> N -> list entry -> Prop) : list entry -> bytes -> Prop :=
| Layout : forall l hdr nb nl nf recs subs,
    lenN hdr = 4 -> f_num hdr 0 2 nb -> f_num hdr 2 1 nl -> f_num hdr 3 1 nf -> counts nb nl nf l ->
    Forall2 (item_record cd) l recs -> Forall2 (layout cd counts) (folders l) subs ->
    layout cd counts l (hdr ++ concat recs ++ concat subs).

(** A favourites file: two bytes of version, then the top folder. *)
Definition fav_file (cd : codec) (counts : N -> N -> N -> list entry -> Prop) (v : N) (t : list entry) (d : bytes) : Prop :=
  exists ver p, d = ver ++ p /\ lenN ver = 2 /\ f_num ver 0 2 v /\ layout cd counts t p.
(** What a loaded file says. *)
Definition says (f : FavFile) (v : N) (t : list entry) : Prop :=
  ff_version f = v /\ exists g, ff_folder f = Some g /\ tree_of g = Some t.

(** The counters of a Go structure say what it holds. *)
Fixpoint counters_ok (f : FavFolder) : Prop :=
  let 'MkFavFolder _ _ nb nl nf _ _ items := f in
  match tree_of f with Some l => counts_exact nb nl nf l | None => False end /\
  (fix go (l : list FavItem) : Prop :=
    match l with
    | [] => True
    | MkFavItem _ _ (PFolder _ _ (Some g)) :: l' => counters_ok g /\ go l'
    | _ :: l' => go l'
    end) items.

(** Everything in the tree can be represented. *)
Fixpoint entry_fits (cd : codec) (e : entry) : Prop :=
  match e with
  | EBoard attr bid visit battr => num_fits 1 attr /\ num_fits 4 bid /\ time_fits visit /\ num_fits 4 battr
  | EFolder attr title l => num_fits 1 attr /\ big5_cstr_fits cd 49 title /\
      lenN l < 65536 /\ count is_line l < 256 /\ count is_folder l < 256 /\
      (fix go l := match l with [] => True | e :: l' => entry_fits cd e /\ go l' end) l
  | ELine attr => num_fits 1 attr
  end.
Definition tree_fits (cd : codec) (l : list entry) : Prop :=
  lenN l < 65536 /\ count is_line l < 256 /\ count is_folder l < 256 /\ Forall (entry_fits cd) l.

(** ** What the interface shows after board numbers have been resolved *)

(** board numbers anywhere in the tree *)
Fixpoint entry_boards (e : entry) : list N :=
  match e with
  | EBoard _ bid _ _ => [bid]
  | EFolder _ _ l => flat_map entry_boards l
  | ELine _ => []
  end.
Definition tree_boards (l : list entry) : list N := flat_map entry_boards l.

(** [seen names i e]: through Type, Title, BoardID and Records, [i] is [e], and
    every board entry below it has the name at its one-based number in [names]. *)
Inductive seen (names : list bytes) : FavItem -> entry -> Prop :=
| SeenBoard i attr bid visit battr n :
    fi_Type i = 0 -> fi_BoardID i = Ok n -> fi_Records i = Ok [] -> fi_attr i = attr ->
    0 < bid -> nth_error names (N.to_nat (bid - 1)) = Some n ->
    seen names i (EBoard attr bid visit battr)
| SeenFolder i attr title l rs :
    fi_Type i = 1 -> fi_Title i = Ok title -> fi_Records i = Ok rs -> fi_attr i = attr -> Forall2 (seen names) rs l ->
    seen names i (EFolder attr title l)
| SeenLine i attr :
    fi_Type i = 2 -> fi_Records i = Ok [] -> fi_attr i = attr ->
    seen names i (ELine attr).
