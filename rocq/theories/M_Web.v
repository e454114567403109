(** * serverlet: the web service.
    Modelled: the handlers and what they answer.  Simplified: a request is its
    method, its decoded path, the value of its Authorization header and its decoded
    form fields; a reply is its status code and the members of the JSON object (its
    text is in M_Json); a JWT is the pair of its claims (jwt.NewWithClaims and
    SignedString with the key of route_token.go:102-106, which parses). *)
From Verif Require Import M_Base M_Text M_Sys M_Path M_Board M_Userec M_Flags M_Verify M_FileOps M_DB.
Open Scope N_scope.

Record request := Request {
  r_method : bytes;
  r_path : bytes;                       (* r.URL.Path *)
  r_authorization : bytes;              (* r.Header.Get("Authorization"), "" when absent *)
  r_form : list (bytes * bytes) }.      (* r.Form after ParseForm, in order *)

(** serverlet/route_token.go:94-98 the claims of a token *)
Record token := Token { t_expires : Z; t_subject : bytes }.

(** serverlet/route_users.go:69-83; numbers are printed with "%d", the time with
    RFC 3339 *)
Record information := Information {
  i_user_id : bytes; i_nickname : bytes; i_realname : bytes;
  i_login_days : Z; i_posts : Z; i_money : Z;
  i_last_login : Z; i_last_ipv4 : bytes; i_last_ip : bytes }.

Inductive body :=
| NoBody
| ErrorBody (kind description : bytes)
| TokenBody (t : token)
| InformationBody (i : information)
| BoardsBody (l : list BoardHeader)
| PlainBody (s : bytes).                 (* text that is not JSON *)
Record reply := Reply { status : N; content : body }.

(** serverlet/main.go:14-15 the tables loaded at start *)
Record server := Server { s_users : list Userec; s_boards : list BoardHeader }.

(** http.Request.FormValue *)
Fixpoint FormValue (f : list (bytes * bytes)) (k : bytes) : bytes :=
  match f with
  | [] => []
  | (k', v) :: f' => if beqb k k' then v else FormValue f' k
  end.

(** serverlet/route_token.go:93-127 *)
Definition newAccessTokenWithUsername (username : bytes) : token :=
  Token (30 * 60) username.

(** err.Error() of the errors of findUserecByID (serverlet/route_token.go:75) and of
    VerifyPassword (pttbbs/passwd.go:165); no other error occurs here *)
Definition error_text (e : err) : bytes :=
  match e with
  | ENotFound => str "user record not found"
  | EPassword => str "password incorrect"
  | _ => []
  end.

(** serverlet/route_token.go:22-67, 78-81 *)
Definition postToken (s : server) (r : request) : outcome reply :=
  let username := FormValue (r_form r) (str "username") in
  let password := FormValue (r_form r) (str "password") in
  match findUserecByID (s_users s) username with
  | Err e => Ok (Reply 200 (ErrorBody (str "grant_error") (error_text e)))
  | Ok u =>
      match VerifyPassword u password with
      | Ok _ => Ok (Reply 200 (TokenBody (newAccessTokenWithUsername username)))
      | Err e => Ok (Reply 200 (ErrorBody (str "grant_error") (error_text e)))
      | Panic => Panic
      | Diverge => Diverge
      end
  | Panic => Panic
  | Diverge => Diverge
  end.
(** serverlet/route_token.go:14-20 *)
Definition routeToken (s : server) (r : request) : outcome reply :=
  if beqb (r_method r) (str "POST") then postToken s r else Ok (Reply 200 NoBody).

(** serverlet/route_token.go:83-91 *)
Definition getTokenFromRequest (r : request) : bytes :=
  match split_on " " (r_authorization r) with
  | _ :: t :: _ => t
  | _ => []
  end.

Inductive permission := PermissionReadUserInformation | PermissionReadFavorite.
(** serverlet/permissions.go:10-12 *)
Definition checkTokenPermission (tok : bytes) (p : list permission) (user_id : bytes) : outcome unit := Ok tt.

(** serverlet/route_users.go:97-107 *)
Definition parseUserPath (path : bytes) : outcome (bytes * bytes) :=
  match split_on "/" path with
  | [_; _; _; u] => Ok (u, [])
  | _ :: _ :: _ :: u :: i :: _ => Ok (u, i)
  | _ => Panic
  end.

(** serverlet/route_users.go:69-83 with pttbbs/passwd.go:170-196 *)
Definition information_of (u : Userec) : information :=
  Information (u_userid u) (u_nickname u) (u_realname u)
    (Z.of_N (u_numlogindays u)) (Z.of_N (u_numposts u)) (u_money u)
    (u_lastlogin u) (u_lasthost u) (u_lasthost u).

(** serverlet/route_users.go:39-92 *)
Definition getUserInformation (s : server) (r : request) (user_id : bytes) : outcome reply :=
  match checkTokenPermission (getTokenFromRequest r) [PermissionReadUserInformation] user_id with
  | Err _ => Ok (Reply 401 NoBody)
  | Ok _ =>
      match findUserecByID (s_users s) user_id with
      | Err _ => Ok (Reply 500 (ErrorBody (str "find_userrec_error") (str "get userrec for " ++ user_id ++ str " failed")))
      | Ok u => Ok (Reply 200 (InformationBody (information_of u)))
      | Panic => Panic
      | Diverge => Diverge
      end
  | Panic => Panic
  | Diverge => Diverge
  end.
(** serverlet/route_users.go:93-95 *)
Definition getUserFavorites (s : server) (r : request) (user_id : bytes) : outcome reply :=
  Ok (Reply 501 NoBody).
(** serverlet/route_users.go:22-37 *)
Definition getUsers (s : server) (r : request) : outcome reply :=
  match parseUserPath (r_path r) with
  | Ok (u, i) =>
      if beqb i (str "information") then getUserInformation s r u
      else if beqb i (str "favorites") then getUserFavorites s r u
      else Ok (Reply 404 NoBody)
  | Err e => Err e
  | Panic => Panic
  | Diverge => Diverge
  end.
(** serverlet/route_users.go:14-20 *)
Definition routeUsers (s : server) (r : request) : outcome reply :=
  if beqb (r_method r) (str "GET") then getUsers s r else Ok (Reply 200 NoBody).

(** serverlet/route_boards.go:8-36 *)
Definition getBoards (s : server) : outcome reply := Ok (Reply 200 (BoardsBody (s_boards s))).
Definition routeBoards (s : server) (r : request) : outcome reply :=
  if beqb (r_method r) (str "GET") then getBoards s else Ok (Reply 200 NoBody).
(** serverlet/route_classes.go:11-23 *)
Definition routeClasses (s : server) (r : request) : outcome reply :=
  if beqb (r_method r) (str "GET") then Ok (Reply 501 NoBody) else Ok (Reply 200 NoBody).

(** serverlet/main.go:31-35 with http.ServeMux.handler and match: a pattern ending in a
    slash matches every path below it; http.NotFoundHandler answers the other paths.
    The redirections of ServeMux are in M_Mux. *)
Definition serve (s : server) (r : request) : outcome reply :=
  if beqb (r_path r) (str "/v1/token") then routeToken s r
  else if beqb (r_path r) (str "/v1/boards") then routeBoards s r
  else if HasPrefix (r_path r) (str "/v1/classes/") then routeClasses s r
  else if HasPrefix (r_path r) (str "/v1/users/") then routeUsers s r
  else Ok (Reply 404 (PlainBody (str "404 page not found" ++ [x0a]))).

(** serverlet/main.go:40-58 loadPasswdsFile, loadBoardFile: an error leaves the table
    empty; a panic ends the program. *)
Definition table_of {A} (o : outcome (list A)) : outcome (list A) :=
  match o with Err _ => Ok [] | _ => o end.
(** serverlet/main.go:19-37 up to listening, for the connector's home [wd] *)
Definition start (cd : codec) (fuel : nat) (wd : bytes) : prog (outcome server) :=
  bind (ReadUserRecords cd fuel wd) (fun us =>
  match table_of us with
  | Ok us =>
      bind (ReadBoardRecords cd fuel wd) (fun bs =>
      match table_of bs with
      | Ok bs => Ret (Ok (Server us bs))
      | Err e => Ret (Err e)
      | Panic => Ret Panic
      | Diverge => Ret Diverge
      end)
  | Err e => Ret (Err e)
  | Panic => Ret Panic
  | Diverge => Ret Diverge
  end).
