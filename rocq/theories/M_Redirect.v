(** * The text of a redirection
    url.URL.String and http.Redirect of the standard library, as ServeMux.Handler uses them
    for a request that M_Mux answers with [Moved]: the Location header and the page.
    Simplified: [kept] says whether a question mark with nothing behind it is kept (it is in
    one of the two places of ServeMux.Handler, and versions differ), [parsed] whether the new
    address can be parsed again, which http.Redirect tries (it fails for some addresses with a
    number sign in the query); every path of [Moved] starts with a slash, so the cases of
    relative addresses are left out. *)
From Verif Require Import M_Base M_Text M_Web M_Mux M_Form.
Open Scope N_scope.

Definition between (a b : N) (c : byte) : bool := (a <=? b2n c) && (b2n c <=? b).
(** net/url/url.go shouldEscape with encodePath *)
Definition shouldEscape (c : byte) : bool :=
  negb (between 97 122 c || between 65 90 c || between 48 57 c || existsb (Byte.eqb c) (str "-_.~$&+,/:;=@")).
Definition hex_digit (lower : bool) (n : N) : byte :=
  nth (N.to_nat n) (if lower then str "0123456789abcdef" else str "0123456789ABCDEF") x00.
Definition escaped (lower : bool) (c : byte) : bytes := ["%"%byte; hex_digit lower (b2n c / 16); hex_digit lower (b2n c mod 16)].
(** net/url/url.go escape with encodePath *)
Definition escape (s : bytes) : bytes := concat (map (fun c => if shouldEscape c then escaped false c else [c]) s).

(** net/url/url.go URL.String of the address with the new path and the old query.  The old
    spelling of the path (RawPath) stands for another path and is not used. *)
Definition URL_String (kept : bool) (target path : bytes) : bytes :=
  escape path ++
  match snd (cut_at (Byte.eqb "?") target) with
  | None => []
  | Some [] => if kept then str "?" else []
  | Some query => "?"%byte :: query
  end.

(** net/http/server.go Redirect: clean up but preserve trailing slash *)
Definition tidy (url : bytes) : bytes :=
  let (u, q) := cut_at (Byte.eqb "?") url in
  let c := Clean u in
  (if Byte.eqb (last u x00) "/" && negb (Byte.eqb (last c x00) "/") then c ++ str "/" else c) ++
  match q with Some q => "?"%byte :: q | None => [] end.
Definition redirect_url (parsed kept : bool) (target path : bytes) : bytes :=
  let url := URL_String kept target path in if parsed then tidy url else url.
(** net/http/http.go hexEscapeNonASCII *)
Definition hexEscapeNonASCII (s : bytes) : bytes := concat (map (fun c => if b2n c <? 128 then [c] else escaped true c) s).
(** net/http/server.go htmlReplacer *)
Definition html_escape (c : byte) : bytes :=
  if Byte.eqb c "&" then str "&amp;"
  else if Byte.eqb c "<" then str "&lt;"
  else if Byte.eqb c ">" then str "&gt;"
  else if Byte.eqb c """" then str "&#34;"
  else if Byte.eqb c "'" then str "&#39;"
  else [c].
Definition htmlEscape (s : bytes) : bytes := concat (map html_escape s).

(** the header *)
Definition location (parsed kept : bool) (target path : bytes) : bytes := hexEscapeNonASCII (redirect_url parsed kept target path).
(** the body, sent for GET: fmt.Fprintln of a text that ends in a line feed *)
Definition redirect_page (parsed kept : bool) (target path : bytes) : bytes :=
  str "<a href=""" ++ htmlEscape (redirect_url parsed kept target path) ++ str """>Moved Permanently</a>." ++ [x0a; x0a].
