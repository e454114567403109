(** * Specification: what the web service answers at each place *)
From Verif Require Import M_Base M_Board M_Userec M_Web S_Web S_Mux.
Open Scope N_scope.

(** The path to the place [es], with a slash at the end or without. *)
Definition path_to (es : list bytes) (slash : bool) : bytes := if slash then directory es else plain es.
(** A plain spelling (see S_Mux): the two directories of the service have a slash at the end, the root needs none. *)
Definition plainly (es : list bytes) (slash : bool) : Prop :=
  Forall element es /\
  if slash then es <> [] else es <> [str "v1"; str "users"] /\ es <> [str "v1"; str "classes"].

(** The four places and the methods they know. *)
Inductive known : list bytes -> bool -> bytes -> Prop :=
| KToken : known [str "v1"; str "token"] false (str "POST")
| KBoards : known [str "v1"; str "boards"] false (str "GET")
| KClasses rest slash : known (str "v1" :: str "classes" :: rest) slash (str "GET")
| KUsers rest slash : known (str "v1" :: str "users" :: rest) slash (str "GET").

(** All answers but those to requests for tokens. *)
Inductive place_answer (s : server) (method : bytes) : list bytes -> bool -> reply -> Prop :=
| ANowhere es slash : (forall m, ~ known es slash m) ->
    place_answer s method es slash (Reply 404 (PlainBody (str "404 page not found" ++ [x0a])))
| AOtherMethod es slash m : known es slash m -> method <> m -> place_answer s method es slash (Reply 200 NoBody)
| ABoards : method = str "GET" -> place_answer s method [str "v1"; str "boards"] false (Reply 200 (BoardsBody (s_boards s)))
| AClasses rest slash : method = str "GET" -> place_answer s method (str "v1" :: str "classes" :: rest) slash (Reply 501 NoBody)
| AInformation uid more slash u : method = str "GET" -> first_user (s_users s) uid u ->
    place_answer s method (str "v1" :: str "users" :: uid :: str "information" :: more) slash
      (Reply 200 (InformationBody (Information uid (u_nickname u) (u_realname u) (Z.of_N (u_numlogindays u)) (Z.of_N (u_numposts u))
        (u_money u) (u_lastlogin u) (u_lasthost u) (u_lasthost u))))
| AUnknownUser uid more slash : method = str "GET" -> no_user (s_users s) uid ->
    place_answer s method (str "v1" :: str "users" :: uid :: str "information" :: more) slash
      (Reply 500 (ErrorBody (str "find_userrec_error") (str "get userrec for " ++ uid ++ str " failed")))
| AFavorites uid more slash : method = str "GET" ->
    place_answer s method (str "v1" :: str "users" :: uid :: str "favorites" :: more) slash (Reply 501 NoBody)
| ANoItem rest slash : method = str "GET" ->
    (forall uid more, rest <> uid :: str "information" :: more /\ rest <> uid :: str "favorites" :: more) ->
    place_answer s method (str "v1" :: str "users" :: rest) slash (Reply 404 NoBody).
