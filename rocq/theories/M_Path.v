(** * pttbbs/path.go: file names of BBS objects; pttbbs/pttbbs.go Open *)
From Verif Require Import M_Base.
Open Scope N_scope.

Definition slash : bytes := [x2f].

(** fmt's [%c] of a byte (uint8): the rune with that number, in UTF-8. *)
Definition fmt_c (b : byte) : bytes :=
  if b2n b <? 128 then [b]
  else [n2b (192 + b2n b / 64); n2b (128 + b2n b mod 64)].

(** [id[0]]: panics when the id is empty. *)
Definition first_byte (s : bytes) : outcome byte :=
  match s with b :: _ => Ok b | [] => Panic end.

(** pttbbs/path.go:28 GetPasswdsPath *)
Definition GetPasswdsPath (wd : bytes) : outcome bytes := Ok (wd ++ str "/.PASSWDS").
(** pttbbs/path.go:33 GetBoardPath *)
Definition GetBoardPath (wd : bytes) : outcome bytes := Ok (wd ++ str "/.BRD").

(** "%s/home/%c/%s" with userID[0], shared by path.go:38-57 *)
Definition user_dir (wd uid : bytes) (b : byte) : bytes :=
  wd ++ str "/home/" ++ fmt_c b ++ slash ++ uid.
(** "%s/boards/%c/%s" with boardID[0], shared by path.go:61-70 and 90 *)
Definition board_dir (wd bid : bytes) (b : byte) : bytes :=
  wd ++ str "/boards/" ++ fmt_c b ++ slash ++ bid.
(** "%s/man/boards/%c/%s/" with boardID[0], shared by path.go:77-87 *)
Definition man_dir (wd bid : bytes) (b : byte) : bytes :=
  wd ++ str "/man/boards/" ++ fmt_c b ++ slash ++ bid ++ slash.

(** pttbbs/path.go:38 GetUserFavoritePath *)
Definition GetUserFavoritePath (wd uid : bytes) : outcome bytes :=
  obind (first_byte uid) (fun b => Ok (user_dir wd uid b ++ str "/.fav")).
(** pttbbs/path.go:43 GetUserDraftPath *)
Definition GetUserDraftPath (wd uid draft : bytes) : outcome bytes :=
  obind (first_byte uid) (fun b => Ok (user_dir wd uid b ++ str "/buf." ++ draft)).
(** pttbbs/path.go:51 GetUserMailPath *)
Definition GetUserMailPath (wd uid filename : bytes) : outcome bytes :=
  obind (first_byte uid) (fun b => Ok (user_dir wd uid b ++ slash ++ filename)).
(** pttbbs/path.go:56 GetLoginRecentPath *)
Definition GetLoginRecentPath (wd uid : bytes) : outcome bytes :=
  obind (first_byte uid) (fun b => Ok (user_dir wd uid b ++ str "/logins.recent")).
(** pttbbs/path.go:61 GetBoardArticlesDirectoryPath *)
Definition GetBoardArticlesDirectoryPath (wd bid : bytes) : outcome bytes :=
  obind (first_byte bid) (fun b => Ok (board_dir wd bid b ++ str "/.DIR")).
(** pttbbs/path.go:69 GetBoardArticleFilePath *)
Definition GetBoardArticleFilePath (wd bid filename : bytes) : outcome bytes :=
  obind (first_byte bid) (fun b => Ok (board_dir wd bid b ++ slash ++ filename)).

(** [strings.Join(append(path, ""), "/")] *)
Definition sub_path (path : list bytes) : bytes := flat_map (fun c => c ++ slash) path.
(** pttbbs/path.go:77-81 GetBoardTreasuresDirectoryPath *)
Definition GetBoardTreasuresDirectoryPath (wd bid : bytes) (path : list bytes) : outcome bytes :=
  obind (first_byte bid) (fun b => Ok (man_dir wd bid b ++ sub_path path ++ str ".DIR")).
(** pttbbs/path.go:83-87 GetBoardTreasureFilePath *)
Definition GetBoardTreasureFilePath (wd bid : bytes) (path : list bytes) (filename : bytes) : outcome bytes :=
  obind (first_byte bid) (fun b => Ok (man_dir wd bid b ++ sub_path path ++ filename)).
(** pttbbs/path.go:90 GetBoardNameFilePath *)
Definition GetBoardNameFilePath (wd bid : bytes) : outcome bytes :=
  obind (first_byte bid) (fun b => Ok (board_dir wd bid b ++ str "/.Name")).

(** strings.HasPrefix *)
Fixpoint has_prefix (p s : bytes) : bool :=
  match p, s with
  | [], _ => true
  | a :: p', b :: s' => Byte.eqb a b && has_prefix p' s'
  | _ :: _, [] => false
  end.
(** [strings.Split(s, sep)[0]] for a one-byte separator *)
Fixpoint before (sep : byte) (s : bytes) : bytes :=
  match s with
  | [] => []
  | b :: s' => if Byte.eqb b sep then [] else b :: before sep s'
  end.
(** pttbbs/pttbbs.go:23-33 Connector.Open: the home directory it stores. *)
Definition Connector_Open (dsn : bytes) : bytes :=
  if has_prefix (str "file://") dsn then before x3f (skipn 7 dsn) else dsn.
