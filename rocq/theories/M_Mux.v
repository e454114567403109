(** * http.ServeMux: from the path of a request to the handler or a redirection.
    The web service registers four patterns without a host (serverlet/main.go:30-36)
    and uses the standard library's ServeMux.  Modelled: ServeMux.Handler of Go 1.14
    (net/http/server.go), cleanPath, path.Clean, redirectToPathSlash.  The
    text of a redirection is in M_Redirect.  Simplified: the request "OPTIONS *" is left out. *)
From Verif Require Import M_Base M_Text M_Web.
Open Scope N_scope.

(** path.Clean's inner switch: drop the last element; the root is kept.
    The text written so far is held backwards. *)
Fixpoint backtrack (out : bytes) : bytes :=
  match out with
  | x :: out' =>
      match out' with
      | [] => out
      | _ => if Byte.eqb x "/" then out' else backtrack out'
      end
  | [] => []
  end.
(** path.Clean's inner loop: copy up to the next slash *)
Fixpoint copy_element (p out : bytes) : bytes * bytes :=
  match p with
  | [] => (p, out)
  | c :: p' => if Byte.eqb c "/" then (p, out) else copy_element p' (c :: out)
  end.
(** path.Clean's loop for a path with a leading slash: [path] is what is left to read *)
Fixpoint clean_loop (fuel : nat) (path out : bytes) : bytes :=
  match fuel with
  | O => rev out
  | S fuel =>
      match path with
      | [] => rev out
      | c :: rest =>
          if Byte.eqb c "/" then clean_loop fuel rest out
          else
            let default :=
              let (p, o) := copy_element path (match out with [_] => out | _ => "/"%byte :: out end) in
              clean_loop fuel p o in
            if Byte.eqb c "." then
              match rest with
              | [] => clean_loop fuel rest out
              | c1 :: rest1 =>
                  if Byte.eqb c1 "/" then clean_loop fuel rest out
                  else if Byte.eqb c1 "." then
                    match rest1 with
                    | [] => clean_loop fuel rest1 (backtrack out)
                    | c2 :: _ => if Byte.eqb c2 "/" then clean_loop fuel rest1 (backtrack out) else default
                    end
                  else default
              end
            else default
      end
  end.
(** path.Clean of a path with a leading slash *)
Definition Clean (p : bytes) : bytes := clean_loop (length p) (tl p) ["/"%byte].

(** net/http cleanPath *)
Definition cleanPath (p : bytes) : bytes :=
  match p with
  | [] => str "/"
  | c :: _ =>
      let p := if Byte.eqb c "/" then p else "/"%byte :: p in
      let np := Clean p in
      if Byte.eqb (last p x00) "/" && negb (beqb np (str "/")) then
        if (length p =? length np + 1)%nat && HasPrefix p np then p else np ++ str "/"
      else np
  end.

(** serverlet/main.go:31-34 the patterns *)
Definition patterns : list bytes := [str "/v1/token"; str "/v1/boards"; str "/v1/classes/"; str "/v1/users/"].
(** ServeMux.redirectToPathSlash: no pattern has a host *)
Definition redirectToPathSlash (p : bytes) : bool :=
  negb (existsb (beqb p) patterns) && existsb (beqb (p ++ str "/")) patterns && negb (Byte.eqb (last p x00) "/").

Inductive answer :=
| Answer (rep : reply)
| Moved (path : bytes).                  (* 301 with the path of the Location header *)
(** ServeMux.Handler and the handler it gives *)
Definition handle (s : server) (r : request) : outcome answer :=
  if beqb (r_method r) (str "CONNECT") then
    if redirectToPathSlash (r_path r) then Ok (Moved (r_path r ++ str "/"))
    else omap Answer (serve s r)
  else
    let p := cleanPath (r_path r) in
    if redirectToPathSlash p then Ok (Moved (p ++ str "/"))
    else if negb (beqb p (r_path r)) then Ok (Moved p)
    else omap Answer (serve s r).
