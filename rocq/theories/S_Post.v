(** * Specification: posting articles

    To post is what add_board_article of bbstool does: create the article, add it to
    the index of the board, write the text. *)
From Verif Require Import M_Base M_Sys M_File M_BbsTool S_World S_Path S_File S_Store S_Create S_Tool S_BbsTool.
Open Scope N_scope.

Record message := Message { m_board : bytes; m_owner : bytes; m_date : bytes; m_title : bytes; m_text : bytes }.
Definition post_message (cd : codec) (fuel : nat) (wd : bytes) (m : message) : command :=
  post cd fuel (Some wd) (m_board m) (m_owner m) (m_date m) (m_title m) (m_text m).

(** A client that posts its messages one after the other. *)
Definition report := list (message * outcome (list out)).
Fixpoint poster_from (cd : codec) (fuel : nat) (wd : bytes) (ms : list message) (got : report) : prog report :=
  match ms with
  | [] => Ret (rev got)
  | m :: ms' => bind (post_message cd fuel wd m) (fun r => poster_from cd fuel wd ms' ((m, r) :: got))
  end.
Definition poster (cd : codec) (fuel : nat) (wd : bytes) (ms : list message) : prog report := poster_from cd fuel wd ms [].

(** The index entry of a message posted under the name [n]. *)
Definition listed (m : message) (n : bytes) : FileHeader :=
  MkFileHeader n strange_time 0%Z (m_owner m) (m_date m) (m_title m) 0%Z 0%Z 0 0 0 0 0.
(** Posts in the order of the index: who posted what under which name. *)
Definition posts_log := list (nat * (message * bytes)).
Definition by_client (i : nat) (log : posts_log) : list (message * bytes) :=
  map snd (filter (fun e => Nat.eqb (fst e) i) log).
Definition on_board (b : bytes) (log : posts_log) : list (message * bytes) :=
  map snd (filter (fun e => beqb (m_board (fst (snd e))) b) log).

(** What the client was told: every message was posted under the name printed, or no
    free name was found as long as it was looked for. *)
Inductive reported : report -> list (message * bytes) -> Prop :=
| rep_nil : reported [] []
| rep_posted m n rs l : reported rs l -> reported ((m, Ok [Out (str "new filename: " ++ n)]) :: rs) ((m, n) :: l)
| rep_searching m rs l : reported rs l -> reported ((m, Diverge) :: rs) l.

(** Where the index of a board is; nothing or a file is there. *)
Definition index_entry (w : world) (wd b : bytes) : rpath := board_entry w wd b (str ".DIR").
Definition index_fine (w : world) (wd b : bytes) : Prop := look w (index_entry w wd b) <> Some EDir.
Definition text_at (w : world) (p : rpath) : bytes := match look w p with Some (EFile d) => d | _ => [] end.

(** The message has been posted under the name [n], and nothing else changed. *)
Definition posted (cd : codec) (wd : bytes) (w w' : world) (m : message) (n : bytes) : Prop :=
  fresh_name n /\ look w (board_entry w wd (m_board m) n) = None /\
  look w' (board_entry w wd (m_board m) n) = Some (EFile (enc cd (m_text m))) /\
  (exists v, file_encoded cd (listed m n) v /\
     look w' (index_entry w wd (m_board m)) = Some (EFile (text_at w (index_entry w wd (m_board m)) ++ v))) /\
  (forall q, q <> board_entry w wd (m_board m) n -> q <> index_entry w wd (m_board m) -> look w' q = look w q).

(** The options of add_board_article; the text is given, or the file that holds it. *)
Definition message_typed (l : list arg) (m : message) (w : world) : Prop :=
  option_is l "board" (m_board m) /\ option_is l "owner" (m_owner m) /\ option_is l "date" (m_date m) /\ option_is l "title" (m_title m) /\
  (option_is l "content" (m_text m) \/
   option_missing l "content" /\ exists f rp, option_is l "content_file" f /\ names w f rp /\ look w rp = Some (EFile (m_text m))).
