(** * From the text of a request to what the handlers see
    net/url and net/http of the standard library as the handlers use them:
    url.ParseRequestURI for a target that starts with a slash, url.ParseQuery, and
    Request.ParseForm (serverlet/route_token.go:24).  Before Go 1.17 a semicolon separates
    fields as an ampersand does, since then a field that holds one is dropped; go.mod asks for
    1.14 and any later version may be used, so [old] is a parameter.
    Simplified: the media type arrives parsed, as mime.ParseMediaType gives it; a request with
    no body has an empty one; targets that do not start with a slash are left out. *)
From Verif Require Import M_Base M_Text M_Web.
Open Scope N_scope.

(** net/url/url.go ishex and unhex *)
Definition unhex (c : byte) : option N :=
  let n := b2n c in
  if (48 <=? n) && (n <=? 57) then Some (n - 48)
  else if (97 <=? n) && (n <=? 102) then Some (n - 97 + 10)
  else if (65 <=? n) && (n <=? 70) then Some (n - 65 + 10)
  else None.
(** net/url/url.go unescape with encodeQueryComponent ([plus]) or encodePath *)
Fixpoint unescape (plus : bool) (s : bytes) : option bytes :=
  match s with
  | [] => Some []
  | c :: s1 =>
      if Byte.eqb c "%" then
        match s1 with
        | h :: l :: s2 =>
            match unhex h, unhex l with
            | Some a, Some b => option_map (cons (n2b (a * 16 + b))) (unescape plus s2)
            | _, _ => None
            end
        | _ => None
        end
      else option_map (cons (if plus && Byte.eqb c "+" then " "%byte else c)) (unescape plus s1)
  end.

(** strings.IndexAny and slicing: the part before the first such byte, and the part after it *)
Fixpoint cut_at (P : byte -> bool) (s : bytes) : bytes * option bytes :=
  match s with
  | [] => ([], None)
  | c :: s' => if P c then ([], Some s') else let (a, b) := cut_at P s' in (c :: a, b)
  end.
Definition separates (old : bool) (c : byte) : bool := Byte.eqb c "&" || old && Byte.eqb c ";".
(** net/url/url.go parseQuery; what fails is left out, the error is not looked at *)
Fixpoint parse_query (fuel : nat) (old : bool) (query : bytes) : list (bytes * bytes) :=
  match fuel with
  | O => []
  | S fuel' =>
      match query with
      | [] => []
      | _ =>
          let (key, rest) := cut_at (separates old) query in
          let more := parse_query fuel' old (match rest with Some q => q | None => [] end) in
          if negb old && existsb (Byte.eqb ";") key then more
          else
            match key with
            | [] => more
            | _ =>
                let (k, v) := match cut_at (Byte.eqb "=") key with (k, Some v) => (k, v) | (k, None) => (k, []) end in
                match unescape true k, unescape true v with
                | Some k', Some v' => (k', v') :: more
                | _, _ => more
                end
            end
      end
  end.
Definition ParseQuery (old : bool) (query : bytes) : list (bytes * bytes) := parse_query (length query) old query.

(** A request as it comes: the target is the second word of its first line. *)
Record raw := Raw { w_method : bytes; w_target : bytes; w_authorization : bytes; w_media : bytes; w_body : bytes }.

(** net/http/request.go parsePostForm: only this media type, at most 10 MB *)
Definition maxFormSize : N := 10 * 1024 * 1024.
Definition parsePostForm (old : bool) (r : raw) : list (bytes * bytes) :=
  if beqb (w_media r) (str "application/x-www-form-urlencoded") then
    if maxFormSize <? lenN (w_body r) then [] else ParseQuery old (w_body r)
  else [].
(** net/http/request.go ParseForm: the fields of the body before those of the address.
    FormValue does not parse again, because r.Form is set. *)
Definition takes_body (m : bytes) : bool := beqb m (str "POST") || beqb m (str "PUT") || beqb m (str "PATCH").
Definition ParseForm (old : bool) (r : raw) (query : bytes) : list (bytes * bytes) :=
  (if takes_body (w_method r) then parsePostForm old r else []) ++ ParseQuery old query.

(** net/url/url.go stringContainsCTLByte *)
Definition is_ctl (c : byte) : bool := (b2n c <? 32) || (b2n c =? 127).
(** net/url/url.go parse (via a request) and setPath; None: the server answers 400 *)
Definition arrive (old : bool) (r : raw) : option request :=
  if existsb is_ctl (w_target r) then None
  else
    let (p, q) := cut_at (Byte.eqb "?") (w_target r) in
    match unescape false p with
    | None => None
    | Some path => Some (Request (w_method r) path (w_authorization r) (ParseForm old r (match q with Some q => q | None => [] end)))
    end.
