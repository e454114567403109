(** * Specification of where BBS objects are stored *)
From Verif Require Import M_Base M_Sys M_Path.
Open Scope N_scope.

(** A name that is one component of a path. *)
Definition component (c : bytes) : Prop :=
  c <> [] /\ c <> str "." /\ c <> str ".." /\ ~ In x2f c /\ ~ In x00 c.
(** A board or user name: a component that does not start with a dot. *)
Definition ident (c : bytes) : Prop := component c /\ forall c', c <> x2e :: c'.

(** The objects of a BBS that have a file of their own. *)
Inductive object :=
| Passwds | Boards
| Favourites (u : bytes) | Draft (u d : bytes) | Mail (u f : bytes) | Logins (u : bytes)
| Index (b : bytes) | BoardName (b : bytes) | Article (b f : bytes)
| TreasureIndex (b : bytes) (path : list bytes)
| Treasure (b : bytes) (path : list bytes) (f : bytes).

(** The path the library computes for an object. *)
Definition object_path (wd : bytes) (o : object) : outcome bytes :=
  match o with
  | Passwds => GetPasswdsPath wd
  | Boards => GetBoardPath wd
  | Favourites u => GetUserFavoritePath wd u
  | Draft u d => GetUserDraftPath wd u d
  | Mail u f => GetUserMailPath wd u f
  | Logins u => GetLoginRecentPath wd u
  | Index b => GetBoardArticlesDirectoryPath wd b
  | BoardName b => GetBoardNameFilePath wd b
  | Article b f => GetBoardArticleFilePath wd b f
  | TreasureIndex b p => GetBoardTreasuresDirectoryPath wd b p
  | Treasure b p f => GetBoardTreasureFilePath wd b p f
  end.

(** Names are plain, and file names are not those reserved for other objects. *)
Definition plain_object (o : object) : Prop :=
  match o with
  | Passwds | Boards => True
  | Favourites u | Logins u => ident u
  | Draft u d => ident u /\ ~ In x2f d /\ ~ In x00 d
  | Mail u f => ident u /\ component f /\ f <> str ".fav" /\ f <> str "logins.recent" /\
                (forall d, f <> str "buf." ++ d)
  | Index b | BoardName b => ident b
  | Article b f => ident b /\ component f /\ f <> str ".DIR" /\ f <> str ".Name"
  | TreasureIndex b p => ident b /\ Forall component p
  | Treasure b p f => ident b /\ Forall component p /\ component f /\ f <> str ".DIR"
  end.

(** The directory designated by the BBS home. *)
Definition home_dir (cwd : rpath) (wd : bytes) : rpath := resolve cwd (wd ++ str "/").
